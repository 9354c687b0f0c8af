(** * PropPercent: C78, the percentages in the text of an evaluator *)
From Coq Require Import Permutation ZifyBool ZifyNat Arith Qabs Lqa Lia.
From Verif Require Import PyBase PyFacts CardModel CardSpec EvalModel PokerSpec EvalSpec EngineModel ConfigsModel
  CardProofs DeckProofs EvalRank EvalCheck EvalHands EvalTable EvalCfg EvalCount EvalMain EvalRare EvalFinal EvalEnd EvalTextModel PropCards PropEval PropShares
  AsciiModel PropText FloatModel FloatSpec FloatFacts PercentModel.

(** ** Specification *)
(** [t] shows the number [p / 10000] with four decimals: the digits of the whole part, a point, and four digits *)
Definition shows (t : list Z) (p : Z) : Prop :=
  exists whole ds d1 d2 d3 d4, decimal whole ds /\ Forall (fun d => 0 <= d <= 9) [d1; d2; d3; d4] /\
    p = 10000 * whole + 1000 * d1 + 100 * d2 + 10 * d3 + d4 /\ t = chars ds ++ ustr "." ++ chars [d1; d2; d3; d4].

(** ** Proofs *)
Lemma fixed_4_shows x : 0 <= Qnum x -> shows (fixed_4 x) (half_even (10000 * Qnum x) (Zpos (Qden x))) /\ 0 <= half_even (10000 * Qnum x) (Zpos (Qden x)).
Proof.
  intros H. unfold fixed_4. set (n := half_even _ _). assert (Hn : 0 <= n) by (apply half_even_least; lia). clearbody n. split; [|exact Hn].
  destruct (C56_plain (n / 10000)) as (ds & D & E). assert (Q : 0 <= n / 10000) by (apply Z.div_pos; lia). rewrite Z.abs_eq in D by exact Q.
  unfold sign in E. replace (n / 10000 <? 0) with false in E by lia. cbn [app] in E.
  exists (n / 10000), ds, ((n / 1000) mod 10), ((n / 100) mod 10), ((n / 10) mod 10), ((n / 1) mod 10).
  split; [exact D|]. split; [repeat constructor; try (apply Z.mod_pos_bound; lia); match goal with |- ?a mod 10 <= 9 => pose proof (Z.mod_pos_bound a 10 ltac:(lia)); lia end|].
  split.
  - rewrite Z.div_1_r. replace (n / 100) with (n / 10 / 10) by (rewrite Z.div_div by lia; reflexivity).
    replace (n / 1000) with (n / 10 / 10 / 10) by (rewrite !Z.div_div by lia; reflexivity). replace (n / 10000) with (n / 10 / 10 / 10 / 10) by (rewrite !Z.div_div by lia; reflexivity).
    pose proof (Z.div_mod n 10 ltac:(lia)). pose proof (Z.div_mod (n / 10) 10 ltac:(lia)). pose proof (Z.div_mod (n / 10 / 10) 10 ltac:(lia)). pose proof (Z.div_mod (n / 10 / 10 / 10) 10 ltac:(lia)). lia.
  - rewrite E. reflexivity.
Qed.
(** the error of a quotient below 128 *)
Lemma error_128 a b : 0 <= a <= 128 * b -> 0 < b -> (Qabs (true_div a b - inject_Z a / inject_Z b) <= 1 # Z.to_pos (2 ^ 46))%Q.
Proof.
  intros Ha Hb. destruct (Z.eq_dec a 0) as [->|Na].
  { assert (E : (inject_Z 0 / inject_Z b == 0)%Q) by (unfold Qdiv; rewrite Qmult_0_l; reflexivity). rewrite E. change (true_div 0 b) with 0%Q. discriminate. }
  assert (H : 0 < a <= 2 ^ 52 * b) by lia. pose proof (N_pos a b H) as HN. pose proof (f_error a b H) as F. pose proof (P_pos a b H) as HP.
  pose proof (places_spec a b H) as X. cbv zeta in X. destruct X as (X1 & X2 & X3).
  set (P := 2 ^ places a b) in *. set (u := (true_div a b - inject_Z a / inject_Z b)%Q) in *.
  assert (P45 : 2 ^ 45 <= P).
  { destruct X3 as [X3|X3]; [unfold P; rewrite X3; apply Z.pow_le_mono_r; lia|].
    assert (Y : 2 ^ 52 * b <= 128 * b * P) by nia. change (2 ^ 52) with (128 * 2 ^ 45) in Y. nia. }
  assert (A : (Qabs u * inject_Z (P * b) == inject_Z (Z.abs (half_even (a * P) b * b - a * P)))%Q).
  { rewrite <- abs_inject, <- F, Qabs_Qmult, (Qabs_pos (inject_Z (P * b))) by (apply Qlt_le_weak, HN). reflexivity. }
  pose proof (half_even_error (a * P) b Hb) as Er. rewrite Zle_Qle, inject_Z_mult, <- A, inject_Z_mult in Er.
  assert (B : (0 < inject_Z b)%Q) by (apply inject_pos; lia). rewrite Zle_Qle in P45.
  change (1 # Z.to_pos (2 ^ 46))%Q with (/ (inject_Z 2 * inject_Z (2 ^ 45)))%Q.
  set (w := inject_Z (2 ^ 45)) in *. assert (Hw : (0 < w)%Q) by (subst w; reflexivity).
  set (p := inject_Z P) in *. set (v := inject_Z b) in *. change (inject_Z 2) with (2 # 1)%Q in *. pose proof (Qabs_nonneg u) as U. set (t := Qabs u) in *.
  assert (I : (t * ((2 # 1) * w) <= 1)%Q).
  { assert (I1 : ((2 # 1) * (t * p) <= 1)%Q) by (apply (Qmult_le_r _ _ v B); lra). clearbody t p w. nra. }
  apply (Qmult_le_r _ _ ((2 # 1) * w)%Q); [lra|]. rewrite (Qmult_comm (/ _)), Qmult_inv_r by lra. exact I.
Qed.
Lemma Q_as_quotient x : (inject_Z (Qnum x) / inject_Z (Zpos (Qden x)) == x)%Q.
Proof. destruct x as [n d]. cbn [Qnum Qden]. symmetry. apply Qmake_Qdiv. Qed.
(** the printed number is nearest to the exact percentage *)
Lemma percent_shows a b : 0 <= a <= b -> 0 < b < 2 ^ 31 ->
  exists p t, percent (true_div a b) = t ++ ustr "%" /\ shows t p /\ 2 * Z.abs (p * b - 1000000 * a) <= b.
Proof.
  intros Ha Hb. set (x := true_div a b). set (y := times_100 x).
  assert (Rx : (0 <= x <= 1)%Q).
  { apply (rounds_range (inject_Z a / inject_Z b) x); [|apply true_div_rounds; lia]. pose proof (inject_pos b ltac:(lia)) as P. split.
    - apply Qle_shift_div_l; [exact P|]. rewrite Qmult_0_l. change 0%Q with (inject_Z 0). rewrite <- Zle_Qle. lia.
    - apply Qle_shift_div_r; [exact P|]. rewrite Qmult_1_l, <- Zle_Qle. lia. }
  assert (Hx : 0 <= Qnum x <= Zpos (Qden x)) by (destruct Rx as [R1 R2]; unfold Qle in *; cbn in *; lia).
  assert (Ey : (Qabs (y - (100 # 1) * x) <= 1 # Z.to_pos (2 ^ 46))%Q).
  { pose proof (error_128 (100 * Qnum x) (Zpos (Qden x)) ltac:(lia) ltac:(lia)) as E. rewrite inject_Z_mult in E.
    assert (Q1 : (inject_Z 100 * inject_Z (Qnum x) / inject_Z (Zpos (Qden x)) == (100 # 1) * x)%Q).
    { rewrite <- (Q_as_quotient x) at 3. unfold Qdiv. change (inject_Z 100) with (100 # 1)%Q. ring. }
    rewrite Q1 in E. exact E. }
  assert (Hy : 0 <= Qnum y).
  { unfold y, times_100, true_div. destruct (_ =? 0) eqn:E0; [reflexivity|]. cbn [Qnum]. apply half_even_least; [lia|]. apply Z.mul_nonneg_nonneg; [lia|]. apply Z.pow_nonneg; lia. }
  destruct (fixed_4_shows y Hy) as [S S0]. set (p := half_even (10000 * Qnum y) (Zpos (Qden y))) in *.
  exists p, (fixed_4 y). split; [reflexivity|]. split; [exact S|].
  pose proof (half_even_error (10000 * Qnum y) (Zpos (Qden y)) ltac:(lia)) as Ep. fold p in Ep.
  assert (Ep' : (Qabs (inject_Z p - (10000 # 1) * y) <= 1 # 2)%Q).
  { set (D := inject_Z (Zpos (Qden y))). assert (PD : (0 < D)%Q) by (apply inject_pos; lia).
    assert (F : ((inject_Z p - (10000 # 1) * y) * D == inject_Z (p * Zpos (Qden y) - 10000 * Qnum y))%Q).
    { unfold Z.sub. rewrite inject_Z_plus, inject_Z_opp, !inject_Z_mult. fold D. rewrite <- (Q_as_quotient y) at 1. fold D. change (inject_Z 10000) with (10000 # 1)%Q. field. lra. }
    apply (Qmult_le_r _ _ D PD). rewrite <- (Qabs_pos D) at 1 by lra. rewrite <- Qabs_Qmult, F, abs_inject. rewrite Zle_Qle, inject_Z_mult in Ep. fold D in Ep. change (inject_Z 2) with (2 # 1)%Q in Ep. lra. }
  pose proof (true_div_error a b Ha ltac:(lia)) as Ex. fold x in Ex.
  set (q := (inject_Z a / inject_Z b)%Q) in *. pose proof (inject_pos b ltac:(lia)) as PB.
  assert (Q2 : (q * inject_Z b == inject_Z a)%Q) by (unfold q; field; lra).
  assert (T : (Qabs (inject_Z p - (1000000 # 1) * q) <= (1 # 2) + (10000 # 1) * (1 # Z.to_pos (2 ^ 46)) + (1000000 # 1) * (1 # Z.to_pos (2 ^ 54)))%Q).
  { clear - Ep' Ex Ey. set (u := (1 # Z.to_pos (2 ^ 46))%Q) in *. set (v := (1 # Z.to_pos (2 ^ 54))%Q) in *. clearbody u v q y x.
    setoid_replace (inject_Z p - (1000000 # 1) * q)%Q with ((inject_Z p - (10000 # 1) * y) + ((10000 # 1) * (y - (100 # 1) * x) + (1000000 # 1) * (x - q)))%Q by ring.
    eapply Qle_trans; [apply Qabs_triangle|]. pose proof (Qabs_triangle ((10000 # 1) * (y - (100 # 1) * x)) ((1000000 # 1) * (x - q))) as Y.
    rewrite !Qabs_Qmult in Y. change (Qabs (10000 # 1)) with (10000 # 1)%Q in Y. change (Qabs (1000000 # 1)) with (1000000 # 1)%Q in Y. lra. }
  assert (T2 : (Qabs (inject_Z p - (1000000 # 1) * q) * inject_Z b < ((1 # 2) * inject_Z b + (1 # 2)))%Q).
  { assert (W : ((1 # 2) + (10000 # 1) * (1 # Z.to_pos (2 ^ 46)) + (1000000 # 1) * (1 # Z.to_pos (2 ^ 54)) <= (1 # 2) + (1 # Z.to_pos (2 ^ 32)))%Q) by (vm_compute; discriminate).
    assert (Hb31 : (inject_Z b < inject_Z (2 ^ 31))%Q) by (rewrite <- Zlt_Qlt; lia).
    assert (V : ((1 # Z.to_pos (2 ^ 32)) * inject_Z (2 ^ 31) == 1 # 2)%Q) by reflexivity. assert (V0 : (0 < 1 # Z.to_pos (2 ^ 32))%Q) by reflexivity.
    set (z := Qabs (inject_Z p - (1000000 # 1) * q)) in *. set (v := (1 # Z.to_pos (2 ^ 32))%Q) in *. set (g := inject_Z b) in *. set (h := inject_Z (2 ^ 31)) in *.
    assert (Z1 : (z <= (1 # 2) + v)%Q) by (eapply Qle_trans; [exact T|exact W]). clear - Z1 Hb31 V V0 PB. clearbody z v g h. nra. }
  assert (F : ((inject_Z p - (1000000 # 1) * q) * inject_Z b == inject_Z (p * b - 1000000 * a))%Q).
  { unfold Z.sub. rewrite inject_Z_plus, inject_Z_opp, !inject_Z_mult, <- Q2. change (inject_Z 1000000) with (1000000 # 1)%Q. ring. }
  rewrite <- (Qabs_pos (inject_Z b)) in T2 at 1 by lra. rewrite <- Qabs_Qmult, F, abs_inject in T2.
  assert (T3 : (inject_Z (2 * Z.abs (p * b - 1000000 * a)) < inject_Z (b + 1))%Q) by (rewrite inject_Z_mult, inject_Z_plus; change (inject_Z 2) with (2 # 1)%Q; change (inject_Z 1) with 1%Q; lra).
  rewrite <- Zlt_Qlt in T3. lia.
Qed.

(** no count is negative, and there are fewer than 2^31 hands *)
Definition counts_ok (s r c : Z) (low : bool) : bool :=
  (s * r <? c) || hopeless r c low ||
  (forallb (fun k => 0 <=? fst (hand_counts s r c low k)) all_classes && (sumZ (map (fun k => fst (hand_counts s r c low k)) all_classes) <? 2 ^ 31)).
Lemma sweep_counts : forallb (fun s => forallb (fun r => forallb (fun c => forallb (counts_ok s r c) [true; false]) (zrange 1 6)) (zrange 1 14)) (zrange 1 5) = true.
Proof. vm_cast_no_check (eq_refl true). Qed.
Lemma counts_all s r c low : 1 <= s <= 4 -> 1 <= r <= 13 -> 1 <= c <= 5 -> counts_ok s r c low = true.
Proof.
  intros Hs Hr Hc. pose proof sweep_counts as H. rewrite forallb_forall in H.
  specialize (H s). rewrite in_zrange in H. specialize (H ltac:(lia)). rewrite forallb_forall in H.
  specialize (H r). rewrite in_zrange in H. specialize (H ltac:(lia)). rewrite forallb_forall in H.
  specialize (H c). rewrite in_zrange in H. specialize (H ltac:(lia)). rewrite forallb_forall in H.
  apply H. destruct low; cbn; tauto.
Qed.
Lemma in_sum_le (f : hclass -> Z) l k : (forall x, 0 <= f x) -> In k l -> f k <= sumZ (map f l).
Proof.
  intros P. induction l as [|x l IH]; intros H; [destruct H|]. cbn [map]. rewrite sumZ_cons.
  assert (S : 0 <= sumZ (map f l)) by (clear - P; induction l as [|y l IH]; [reflexivity|]; cbn [map]; rewrite sumZ_cons; pose proof (P y); lia).
  pose proof (P x). destruct H as [->|H]; [lia|]. specialize (IH H). lia.
Qed.

(** ** C78 The percentages in the text of an evaluator *)
(** The text lists the classes from the best to the worst.  The number shown for a class has four decimals, and none
    with four decimals is nearer to the listed share in percent. *)
Theorem C78_text : forall s r c m low order e, 1 <= s <= 4 -> 1 <= r <= 13 -> c <= s * r ->
  Evaluator s r c m low order = Ok e -> order_perm order ->
  exists (t : hclass -> list Z) (p : hclass -> Z),
    evaluator_text e = join (ustr " > ") (map (fun k => ustr (class_name k) ++ ustr " (" ++ t k ++ ustr "%)") (ranked_hands e)) /\
    forall k, In k (ranked_hands e) ->
      shows (t k) (p k) /\ (Qabs (inject_Z (p k) / (10000 # 1) - (100 # 1) * listed_share e k) <= (1 # 2) * (1 # 10000))%Q.
Proof.
  intros s r c m low order e Hs Hr Hh He Ho.
  destruct (shares_facts s r c m low order e Hs Hr He Ho Hh) as (F1 & F2 & F3 & _). cbv zeta in *.
  pose proof (fun k => listed s r c m low order e Hs Hr He Ho Hh k) as Li.
  destruct (Evaluator_inv _ _ _ _ _ _ _ He) as (Hc & Ht & _).
  assert (Hop : hopeless r c low = false).
  { destruct (LookupTable_built _ _ _ _ _ _ Ht) as (Hval & hs & s1 & s2 & u1 & u2 & l1 & l2 & l3 & l4 & l5 & Hhs & B).
    pose proof (ranked_classes_perm _ _ _ Ho Hval Hhs) as P.
    destruct (hopeless r c low) eqn:Eh; [|reflexivity]. pose proof (cfg_ok_all s r c low Hs Hr Hc) as Hcfg. unfold cfg_ok in Hcfg.
    replace (no_hands s r c) with false in Hcfg by (unfold no_hands; lia). rewrite Eh, (built_buildable _ _ _ _ _ _ _ _ _ _ _ _ _ _ _ P B) in Hcfg. discriminate Hcfg. }
  pose proof (counts_all s r c low Hs Hr Hc) as C. unfold counts_ok in C. rewrite Hop in C. replace (s * r <? c) with false in C by lia. cbn [orb] in C.
  apply andb_true_iff in C. destruct C as [C1 C2]. rewrite forallb_forall in C1.
  set (suited := fun k => fst (hand_counts s r c low k)) in *. set (total := sumZ (map suited all_classes)) in *.
  assert (Pos : forall k, 0 <= suited k) by (intros k; specialize (C1 k (all_classes_in k)); fold (suited k) in C1; lia).
  assert (Tot : 0 <= total) by (unfold total; clear - Pos; induction all_classes as [|y l IH]; [reflexivity|]; cbn [map]; rewrite sumZ_cons; pose proof (Pos y); lia).
  assert (G : forall k, exists t p, percent (true_div (suited k) total) = t ++ ustr "%" /\ shows t p /\ 2 * Z.abs (p * total - 1000000 * suited k) <= total).
  { intros k. destruct (percent_shows (suited k) total) as (p & t & X); [|lia|exists t, p; exact X]. split; [apply Pos|]. apply in_sum_le; [exact Pos|apply all_classes_in]. }
  assert (G' : exists (t : hclass -> list Z) (p : hclass -> Z), forall k, percent (true_div (suited k) total) = t k ++ ustr "%" /\ shows (t k) (p k) /\ 2 * Z.abs (p k * total - 1000000 * suited k) <= total).
  { destruct (G SF) as (t1 & p1 & G1), (G FK) as (t2 & p2 & G2), (G FH) as (t3 & p3 & G3), (G FL) as (t4 & p4 & G4), (G ST) as (t5 & p5 & G5), (G TK) as (t6 & p6 & G6), (G TP) as (t7 & p7 & G7), (G PA) as (t8 & p8 & G8), (G HC) as (t9 & p9 & G9).
    exists (fun k => match k with SF => t1 | FK => t2 | FH => t3 | FL => t4 | ST => t5 | TK => t6 | TP => t7 | PA => t8 | HC => t9 end),
           (fun k => match k with SF => p1 | FK => p2 | FH => p3 | FL => p4 | ST => p5 | TK => p6 | TP => p7 | PA => p8 | HC => p9 end).
    intros k. destruct k; assumption. }
  destruct G' as (t & p & G'). exists t, p. split.
  - unfold evaluator_text. fold (ranked_hands e). rewrite F1. fold suited. rewrite F2. f_equal. apply map_ext. intros k. destruct (G' k) as (E & _ & _).
    change (fst (hand_counts s r c low k)) with (suited k). rewrite E, <- app_assoc. reflexivity.
  - intros k _. destruct (G' k) as (_ & S & B). split; [exact S|]. rewrite Li. fold suited. fold total. change (fst (hand_counts s r c low k)) with (suited k).
    assert (P : (0 < inject_Z total)%Q) by (apply inject_pos; lia). rewrite Zle_Qle, inject_Z_mult in B.
    assert (E : (((inject_Z (p k) / (10000 # 1) - (100 # 1) * (inject_Z (suited k) / inject_Z total)) * ((10000 # 1) * inject_Z total)) == inject_Z (p k * total - 1000000 * suited k))%Q).
    { unfold Z.sub. rewrite inject_Z_plus, inject_Z_opp, !inject_Z_mult. change (inject_Z 1000000) with (1000000 # 1)%Q. field. lra. }
    apply (Qmult_le_r _ _ ((10000 # 1) * inject_Z total)%Q); [lra|]. rewrite <- (Qabs_pos ((10000 # 1) * inject_Z total)) at 1 by lra. rewrite <- Qabs_Qmult, E, abs_inject.
    change (inject_Z 2) with (2 # 1)%Q in B. lra.
Qed.
Print Assumptions C78_text.

(** So for the decks of [C61_exact] the text shows the true percentages, correct to four decimals. *)
Theorem C78_true : forall s r c m low order e, 1 <= s <= 4 -> 1 <= r <= 13 -> c <= s * r ->
  Evaluator s r c m low order = Ok e -> order_perm order -> good_shares s r c = true ->
  exists (t : hclass -> list Z) (p : hclass -> Z),
    evaluator_text e = join (ustr " > ") (map (fun k => ustr (class_name k) ++ ustr " (" ++ t k ++ ustr "%)") (ranked_hands e)) /\
    forall k, In k (ranked_hands e) ->
      shows (t k) (p k) /\ (Qabs (inject_Z (p k) / (10000 # 1) - (100 # 1) * true_share s r c low k) <= (1 # 2) * (1 # 10000))%Q.
Proof.
  intros s r c m low order e Hs Hr Hh He Ho G. destruct (C78_text s r c m low order e Hs Hr Hh He Ho) as (t & p & E & F). exists t, p. split; [exact E|].
  intros k Hk. destruct (F k Hk) as [A B]. split; [exact A|]. rewrite <- (proj2 (C61_exact s r c m low order e Hs Hr Hh He Ho) G k). exact B.
Qed.
Print Assumptions C78_true.

Lemma same_parts (a b a' b' : list Z) : a ++ b = a' ++ b' -> List.length a = List.length a' -> a = a' /\ b = b'.
Proof.
  revert a'. induction a as [|x a IH]; intros [|y a'] H L; cbn in *; try lia; [auto|]. injection H as -> H. destruct (IH a' H ltac:(lia)) as [-> ->]. auto.
Qed.
Lemma chars_inj ds : forall ds', map (fun d => 48 + d) ds = map (fun d => 48 + d) ds' -> ds = ds'.
Proof. induction ds as [|x ds IH]; intros [|y ds'] H; cbn [map] in H; try discriminate H; [reflexivity|].
  pose proof (f_equal (hd 0) H) as H1. pose proof (f_equal (@tl Z) H) as H2. cbn [hd tl] in H1, H2. f_equal; [lia|now apply IH].
Qed.
(** A text determines the number it shows. *)
Theorem C78_readable : forall t p p', shows t p -> shows t p' -> p = p'.
Proof.
  intros t p p' (w & ds & d1 & d2 & d3 & d4 & D & R & E & T) (w' & ds' & d1' & d2' & d3' & d4' & D' & R' & E' & T').
  rewrite T in T'. unfold chars in T'. cbn [map] in T'.
  assert (L : List.length (map (fun d => 48 + d) ds) = List.length (map (fun d => 48 + d) ds')).
  { apply (f_equal (@List.length Z)) in T'. rewrite !app_length in T'. cbn [List.length] in T'. lia. }
  apply same_parts in T'; [|exact L]. destruct T' as [Td Tf]. apply chars_inj in Td. apply (f_equal (@tl Z)) in Tf. apply (chars_inj [d1; d2; d3; d4] [d1'; d2'; d3'; d4']) in Tf. injection Tf as -> -> -> ->.
  destruct D as (_ & _ & _ & V), D' as (_ & _ & _ & V'). subst ds'. lia.
Qed.
Print Assumptions C78_readable.

(** the standard deck: the text that the test-suite expects (test/test_poker/test_evaluator.py:20-25) *)
Example C78_example : exists e, Evaluator 4 13 5 0 true None = Ok e /\ good_shares 4 13 5 = true /\
  evaluator_text e = ustr "straight flush (0.0015%) > four of a kind (0.0240%) > full house (0.1441%) > flush (0.1965%) > straight (0.3925%) > three of a kind (2.1128%) > two pair (4.7539%) > pair (42.2569%) > high card (50.1177%)".
Proof.
  assert (H : match Evaluator 4 13 5 0 true None with Ok e => Some (evaluator_text e) | Err _ => None end = Some (ustr "straight flush (0.0015%) > four of a kind (0.0240%) > full house (0.1441%) > flush (0.1965%) > straight (0.3925%) > three of a kind (2.1128%) > two pair (4.7539%) > pair (42.2569%) > high card (50.1177%)")) by (vm_compute; reflexivity).
  destruct (Evaluator 4 13 5 0 true None) as [e|]; [|discriminate H]. injection H as H. exists e. split; [reflexivity|]. split; [reflexivity|exact H].
Qed.
