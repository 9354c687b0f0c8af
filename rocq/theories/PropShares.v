(** * PropShares: C61 (the text of an evaluator) and C62 (its speed test) *)
From Coq Require Import Permutation ZifyBool ZifyNat Arith.
From Verif Require Import PyBase PyFacts CardModel CardSpec EvalModel PokerSpec EvalSpec EngineModel ConfigsModel
  CardProofs DeckProofs EvalRank EvalCheck EvalHands EvalTable EvalCfg EvalCount EvalMain EvalRare EvalFinal EvalEnd EvalTextModel PropCards PropEval.

(** ** C61 *)
(** the share of a class: the hands of the deck in this class, of all hands of the deck *)
Definition true_share (s r c : Z) (low : bool) (k : hclass) : Q :=
  (inject_Z (Z.of_nat (class_count (Z.to_nat s) (Z.to_nat r) (Z.to_nat c) low k))
   / inject_Z (Z.of_nat (List.length (all_hands (Z.to_nat s) (Z.to_nat r) (Z.to_nat c)))))%Q.
(** the share listed for a class; nothing for a class that is not listed *)
Definition listed_share (e : evaluator) (k : hclass) : Q :=
  match find (fun p => hclass_eqb (fst p) k) (hand_shares e) with Some p => snd p | None => 0%Q end.
(** the decks for which the listed shares are right *)
Definition good_shares (s r c : Z) : bool :=
  (c =? 1) || ((3 <=? c) && (c <=? r) && (negb (s =? 3) || (c =? 3))) || ((c =? 2) && (s =? 1) && (2 <=? r)).

Definition shares_ok (s r c : Z) (low : bool) : bool :=
  if (s * r <? c) || hopeless r c low then true
  else
    let cc := class_counts s r c low in
    let cs := map (freq cc) all_classes in
    let n := sumZ cs in
    let su := map (fun k => fst (hand_counts s r c low k)) all_classes in
    let total := sumZ su in
    forallb (fun k => negb (snd (hand_counts s r c low k) =? 0) || (fst (hand_counts s r c low k) =? 0)) all_classes
    && (0 <? n) && Bool.eqb (forallb (fun p => fst p * n =? snd p * total) (combine su cs)) (good_shares s r c).
Lemma sweep_shares : forallb (fun s => forallb (fun r => forallb (fun c => forallb (shares_ok s r c) [true; false]) (zrange 1 6)) (zrange 1 14)) (zrange 1 5) = true.
Proof. vm_cast_no_check (eq_refl true). Qed.
Lemma shares_all s r c low : 1 <= s <= 4 -> 1 <= r <= 13 -> 1 <= c <= 5 -> shares_ok s r c low = true.
Proof.
  intros Hs Hr Hc. pose proof sweep_shares as H. rewrite forallb_forall in H.
  specialize (H s). rewrite in_zrange in H. specialize (H ltac:(lia)). rewrite forallb_forall in H.
  specialize (H r). rewrite in_zrange in H. specialize (H ltac:(lia)). rewrite forallb_forall in H.
  specialize (H c). rewrite in_zrange in H. specialize (H ltac:(lia)). rewrite forallb_forall in H.
  apply H. destruct low; cbn; tauto.
Qed.
Lemma class_counts_sum l (f : hand -> hclass) : sumZ (map (fun k => Z.of_nat (List.length (filter (fun h => hclass_eqb (f h) k) l))) all_classes) = Z.of_nat (List.length l).
Proof.
  induction l as [|h l IH]; [reflexivity|]. cbn [List.length]. rewrite Nat2Z.inj_succ, <- IH. unfold all_classes. cbn [map sumZ fold_right filter].
  destruct (f h); cbn [hclass_eqb]; cbn [List.length]; unfold sumZ; cbn [fold_right]; lia.
Qed.

Section Shares.
Variables (s r c m : Z) (low : bool) (order : option (list string)) (e : evaluator).
Hypothesis Hs : 1 <= s <= 4.
Hypothesis Hr : 1 <= r <= 13.
Hypothesis He : Evaluator s r c m low order = Ok e.
Hypothesis Ho : order_perm order.
Hypothesis Hh : c <= s * r.
Let cnt := hand_counts s r c low.
Let suited k := fst (cnt k).
Let count k := Z.of_nat (class_count (Z.to_nat s) (Z.to_nat r) (Z.to_nat c) low k).
Let hands := Z.of_nat (List.length (all_hands (Z.to_nat s) (Z.to_nat r) (Z.to_nat c))).
Lemma shares_facts : let total := sumZ (map suited all_classes) in
  t_counts (e_table e) = cnt /\ sumZ (map suited (ranked_hands e)) = total /\ total <> 0 /\ 0 < hands /\
  (forall k, ~ In k (ranked_hands e) -> suited k = 0) /\ NoDup (ranked_hands e) /\
  (good_shares s r c = true <-> forall k, suited k * hands = count k * total).
Proof.
  cbv zeta. destruct (Evaluator_inv _ _ _ _ _ _ _ He) as (Hc & Ht & _).
  destruct (LookupTable_built _ _ _ _ _ _ Ht) as (Hval & hs & s1 & s2 & u1 & u2 & l1 & l2 & l3 & l4 & l5 & Hhs & B).
  pose proof (ranked_classes_perm _ _ _ Ho Hval Hhs) as P.
  assert (Hop : hopeless r c low = false).
  { destruct (hopeless r c low) eqn:Eh; [|reflexivity]. pose proof (cfg_ok_all s r c low Hs Hr Hc) as Hcfg. unfold cfg_ok in Hcfg.
    replace (no_hands s r c) with false in Hcfg by (unfold no_hands; lia). rewrite Eh, (built_buildable _ _ _ _ _ _ _ _ _ _ _ _ _ _ _ P B) in Hcfg. discriminate Hcfg. }
  pose proof (shares_all s r c low Hs Hr Hc) as S. unfold shares_ok in S. replace (s * r <? c) with false in S by lia. rewrite Hop in S. cbn [orb] in S. cbv zeta in S.
  apply andb_true_iff in S. destruct S as [S S3]. apply andb_true_iff in S. destruct S as [S1 S2].
  assert (CC : forall k, freq (class_counts s r c low) k = count k) by (intros k; symmetry; now apply class_counts_ok).
  assert (HN : sumZ (map (freq (class_counts s r c low)) all_classes) = hands) by (rewrite (map_ext _ _ CC); apply class_counts_sum).
  rewrite HN in *. clear HN. rewrite (map_ext _ _ CC) in S3. clear CC.
  destruct (built_nonneg _ _ _ _ _ _ Hs Hr Hc Ho Ht) as (hs' & P' & Er & Hn).
  assert (RK : ranked_hands e = r_ranked (compute_ranking cnt hs')) by (unfold ranked_hands; now rewrite Er).
  destruct (ranked_suffix cnt Hn hs') as (z & E & Z0). rewrite <- RK in E.
  assert (SU : forall k, snd (cnt k) = 0 -> suited k = 0).
  { intros k Hk. rewrite forallb_forall in S1. specialize (S1 k (all_classes_in k)). fold cnt in S1. unfold suited. lia. }
  assert (Zs : forall k, In k z -> suited k = 0).
  { intros k Hk. apply SU. clear - Hk Z0 Hn. fold cnt in Hn. induction z as [|y z IH]; [destruct Hk|]. rewrite sumU_cons in Z0. pose proof (sumU_nonneg cnt Hn z) as U. specialize (Hn y) as Hy. destruct Hk as [->|Hk]; [lia|apply IH; [lia|exact Hk]]. }
  assert (CT : t_counts (e_table e) = cnt) by apply (b_counts _ _ _ _ _ _ _ _ _ _ _ _ _ _ _ B).
  assert (TT : sumZ (map suited (ranked_hands e)) = sumZ (map suited all_classes)).
  { rewrite (sumZ_perm _ _ (Permutation_map suited P')), E, map_app, sumZ_app. replace (sumZ (map suited z)) with 0; [lia|].
    clear - Zs. induction z as [|y z IH]; [reflexivity|]. cbn [map]. rewrite sumZ_cons, Zs, <- IH; [reflexivity|intros k Hk; apply Zs; now right|now left]. }
  split; [exact CT|]. split; [exact TT|]. split; [|split; [lia|split; [|split]]].
  - intros T0. clear S3. unfold Evaluator in He. destruct ((c <? 1) || (5 <? c)); [discriminate He|]. rewrite Ht in He. cbn [bind] in He. rewrite CT in He. fold (ranked_hands e) in He.
    change (fun h => fst (cnt h)) with suited in He. rewrite TT, T0 in He.
    destruct (List.length (ranked_hands e)) eqn:L; cbn [Nat.eqb negb andb Z.eqb] in He; [|discriminate He].
    apply length_zero_iff_nil in L. pose proof (max_rank_pos _ _ _ _ _ _ Hs Hr Hc Ho Ht) as M. unfold t_max_rank in M. rewrite Er in M.
    change (compute_ranking (hand_counts s r c low) hs') with (rfold cnt hs' init_ranking) in M. rewrite rfold_total in M. cbn [init_ranking r_total] in M. rewrite E, L, app_nil_r in M. lia.
  - intros k Hk. apply Zs. assert (I : In k hs') by (eapply Permutation_in; [exact P'|apply all_classes_in]). rewrite E in I. apply in_app_iff in I. tauto.
  - assert (N : NoDup hs') by (eapply Permutation_NoDup; [exact P'|unfold all_classes; nodup_tac]). rewrite E in N. clear - N. induction z as [|y z IH]; [exact N|]. inversion N; subst. now apply IH.
  - apply eqb_prop in S3. rewrite <- S3. unfold all_classes. cbn [map combine forallb fst snd]. rewrite !andb_true_iff, !Z.eqb_eq. fold cnt. fold (suited SF) (suited FK) (suited FH) (suited FL) (suited ST) (suited TK) (suited TP) (suited PA) (suited HC).
    change (sumZ [suited SF; suited FK; suited FH; suited FL; suited ST; suited TK; suited TP; suited PA; suited HC]) with (sumZ (map suited all_classes)).
    split; [intros H k; destruct k; tauto|]. intros H. repeat split; apply H.
Qed.
Lemma listed k : listed_share e k == inject_Z (suited k) / inject_Z (sumZ (map suited all_classes)).
Proof.
  destruct shares_facts as (F1 & F2 & F3 & F4 & F5 & F6 & F7). unfold listed_share, hand_shares. fold (ranked_hands e). rewrite F1. change (fun h => fst (cnt h)) with suited. rewrite F2.
  set (tot := sumZ (map suited all_classes)) in *. specialize (F5 k). clear - F5. induction (ranked_hands e) as [|y l IH]; cbn [map find fst snd].
  - rewrite F5 by (intros []). unfold Qdiv. now rewrite Qmult_0_l.
  - destruct (hclass_eqb y k) eqn:E; [apply hclass_eqb_eq in E; subst; reflexivity|]. apply IH. intros N. apply F5. intros [->|I]; [rewrite hclass_eqb_refl in E; discriminate E|contradiction].
Qed.
Lemma share_iff k : listed_share e k == true_share s r c low k <-> suited k * hands = count k * sumZ (map suited all_classes).
Proof.
  destruct shares_facts as (F1 & F2 & F3 & F4 & F5 & F6 & F7). rewrite listed. unfold true_share. fold hands. fold (count k). set (tot := sumZ (map suited all_classes)) in *. clearbody tot hands.
  assert (T : ~ inject_Z tot == 0) by (unfold Qeq; cbn; lia). assert (H : ~ inject_Z hands == 0) by (unfold Qeq; cbn; lia).
  assert (X : inject_Z (suited k) / inject_Z tot == inject_Z (count k) / inject_Z hands <-> inject_Z (suited k * hands) == inject_Z (count k * tot)).
  { rewrite !inject_Z_mult. split; intros E.
    - transitivity (inject_Z (suited k) / inject_Z tot * (inject_Z tot * inject_Z hands))%Q; [field; exact T|]. rewrite E. field. exact H.
    - apply (Qmult_inj_r _ _ (inject_Z tot * inject_Z hands)%Q); [intros Z; apply Qmult_integral in Z; tauto|].
      transitivity (inject_Z (suited k) * inject_Z hands)%Q; [field; exact T|]. rewrite E. field. exact H. }
  rewrite X. unfold Qeq. cbn. lia.
Qed.
End Shares.

(** The shares are right exactly for these decks, whatever the order of the classes. *)
Theorem C61_exact : forall s r c m low order e, 1 <= s <= 4 -> 1 <= r <= 13 -> c <= s * r ->
  Evaluator s r c m low order = Ok e -> order_perm order ->
  ((forall k, (listed_share e k == true_share s r c low k)%Q) <-> good_shares s r c = true).
Proof.
  intros s r c m low order e Hs Hr Hh He Ho. destruct (shares_facts s r c m low order e Hs Hr He Ho Hh) as (_ & _ & _ & _ & _ & _ & F7). cbv zeta in F7. rewrite F7.
  split; intros H k; apply (share_iff s r c m low order e Hs Hr He Ho Hh k), H.
Qed.
Print Assumptions C61_exact.

(** For these decks the text lists the classes from the best to the worst, each with its share of the hands; a class that
    is not listed has no hands. *)
Theorem C61_partial : forall percent s r c m low order e, 1 <= s <= 4 -> 1 <= r <= 13 -> c <= s * r ->
  Evaluator s r c m low order = Ok e -> order_perm order -> good_shares s r c = true ->
  (forall p q, (p == q)%Q -> percent p = percent q) ->
  evaluator_str percent e =
    join (ustr " > ") (map (fun k => ustr (class_name k) ++ ustr " (" ++ percent (true_share s r c low k) ++ ustr ")") (ranked_hands e)) /\
  NoDup (ranked_hands e) /\ (forall k, ~ In k (ranked_hands e) -> class_count (Z.to_nat s) (Z.to_nat r) (Z.to_nat c) low k = O).
Proof.
  intros percent s r c m low order e Hs Hr Hh He Ho G Hp. destruct (shares_facts s r c m low order e Hs Hr He Ho Hh) as (F1 & F2 & F3 & F4 & F5 & F6 & F7). cbv zeta in *.
  pose proof (proj1 F7 G) as E. split; [|split; [exact F6|]].
  - unfold evaluator_str. f_equal. unfold hand_shares. fold (ranked_hands e). rewrite map_map. cbn [fst snd]. apply map_ext. intros k. do 2 f_equal. f_equal. apply Hp.
    rewrite F1, F2. rewrite <- (proj2 (share_iff s r c m low order e Hs Hr He Ho Hh k) (E k)). symmetry. apply (listed s r c m low order e Hs Hr He Ho Hh).
  - intros k Hk. specialize (E k). rewrite (F5 k Hk) in E. clear - E F3. nia.
Qed.
Print Assumptions C61_partial.

(** As stated the property is false: for Leduc poker (two suits, three ranks, hands of two cards) the text gives pairs a third of the hands,
    but they are a fifth. *)
Theorem C61_refuted : exists e, Evaluator 2 3 2 0 true None = Ok e /\ ranked_hands e = [PA; HC] /\
  (listed_share e PA == 1 # 3)%Q /\ (listed_share e HC == 2 # 3)%Q /\ (true_share 2 3 2 true PA == 1 # 5)%Q /\ (true_share 2 3 2 true HC == 4 # 5)%Q.
Proof.
  assert (H : match Evaluator 2 3 2 0 true None with Ok e => Some (ranked_hands e, Qred (listed_share e PA), Qred (listed_share e HC)) | Err _ => None end = Some ([PA; HC], (1 # 3)%Q, (2 # 3)%Q)) by (vm_compute; reflexivity).
  destruct (Evaluator 2 3 2 0 true None) as [e|]; [|discriminate H]. injection H as H1 H2 H3. exists e. split; [reflexivity|]. split; [exact H1|].
  rewrite <- (Qred_correct (listed_share e PA)), H2, <- (Qred_correct (listed_share e HC)), H3. repeat split; vm_compute; reflexivity.
Qed.
Print Assumptions C61_refuted.
(** the standard deck: 4 of 10 hands are pairs, and so on *)
Example C61_example : exists e, Evaluator 4 13 5 0 true None = Ok e /\ good_shares 4 13 5 = true /\
  map (fun p => (fst p, Qred (snd p))) (hand_shares e) =
   [(SF, 1 # 64974); (FK, 1 # 4165); (FH, 6 # 4165); (FL, 1277 # 649740); (ST, 5 # 1274); (TK, 88 # 4165); (TP, 198 # 4165); (PA, 352 # 833); (HC, 1277 # 2548)]%Q.
Proof.
  assert (H : match Evaluator 4 13 5 0 true None with Ok e => Some (map (fun p => (fst p, Qred (snd p))) (hand_shares e)) | Err _ => None end = Some 
   [(SF, 1 # 64974); (FK, 1 # 4165); (FH, 6 # 4165); (FL, 1277 # 649740); (ST, 5 # 1274); (TK, 88 # 4165); (TP, 198 # 4165); (PA, 352 # 833); (HC, 1277 # 2548)]%Q) by (vm_compute; reflexivity).
  destruct (Evaluator 4 13 5 0 true None) as [e|]; [|discriminate H]. injection H as H. exists e. split; [reflexivity|]. split; [reflexivity|exact H].
Qed.

(** ** C62 *)
(** the hand of iteration [i] when [deck] is dealt out, seven cards at a time *)
Definition speed_hand (deck : list card) (i : nat) : list card * list card :=
  (firstn 2 (skipn (7 * i) deck), firstn 5 (skipn (7 * i + 2) deck)).
Lemma skipn_skipn' {A} a b (l : list A) : skipn a (skipn b l) = skipn (a + b) l.
Proof. revert l. induction b as [|b IH]; intros l; [now rewrite Nat.add_0_r|]. destruct l as [|x l]; [now rewrite !skipn_nil|]. rewrite Nat.add_succ_r. cbn [skipn]. apply IH. Qed.
Lemma speed_loop_hands e : forall n d l, speed_loop n e d = Ok l -> l = map (speed_hand (d_cards d)) (seq 0 n).
Proof.
  induction n as [|n IH]; intros d l H; cbn [speed_loop] in H; [injection H as <-; reflexivity|].
  rewrite deck_draw_spec in H. rewrite deck_draw_spec in H. cbn [set_cards d_cards] in H.
  destruct (evaluate e _ _); [|discriminate H]. cbn [bind] in H. destruct (speed_loop n e _) as [rest|] eqn:E; [|discriminate H]. cbn [bind] in H. injection H as <-.
  apply IH in E. cbn [set_cards d_cards] in E. cbn [seq map]. f_equal. subst rest. rewrite <- seq_shift, map_map. apply map_ext. intros i. unfold speed_hand.
  change (Z.to_nat 5) with 5%nat. change (Z.to_nat 2) with 2%nat. rewrite !skipn_skipn'. f_equal; f_equal; f_equal; lia.
Qed.
(** What [speed_test] evaluates: the deck is shuffled once and dealt out seven cards at a time; it is never shuffled again. *)
Theorem C62_exact : forall rnd s r c m low order e n l, Evaluator s r c m low order = Ok e -> speed_test rnd e n = Ok l ->
  exists deck, NoDup deck /\ (forall c, In c deck <-> exists i j, 13 - r <= Z.of_nat i < 13 /\ Z.of_nat j < s /\ c = the_card i j) /\
    Z.of_nat (List.length deck) = s * r /\ l = map (speed_hand deck) (seq 0 (Z.to_nat n)) /\
    (* so nothing is evaluated once the deck is used up *)
    forall i, s * r <= 7 * Z.of_nat i -> Z.of_nat i < n -> nth_error l i = Some ([], []).
Proof.
  intros rnd s r c m low order e n l He H. unfold Evaluator in He. destruct ((c <? 1) || (5 <? c)); [discriminate He|]. destruct (LookupTable s r c low order) as [t|]; [|discriminate He]. cbn [bind] in He.
  destruct (_ && _) in He; [discriminate He|]. injection He as <-. unfold speed_test in H. cbn [e_suits e_ranks] in H. destruct (Deck rnd s r) as [d|] eqn:D; [|discriminate H]. cbn [bind] in H.
  destruct (speed_loop _ _ d) as [l'|] eqn:L; [|discriminate H]. cbn [bind] in H. destruct (n =? 0); [discriminate H|]. injection H as ->.
  exists (d_cards d). pose proof (C02_deck_contents rnd s r) as C. rewrite D in C. destruct C as (_ & _ & C & N & I). unfold deck_len in C.
  split; [now apply NoDup_map_inv in N|]. split; [exact I|]. split; [exact C|].
  apply speed_loop_hands in L. split; [exact L|]. intros i Hi Hn. subst l. rewrite nth_error_map, (nth_error_nth' _ 0%nat) by (rewrite seq_length; lia). rewrite seq_nth by lia. cbn [option_map].
  unfold speed_hand. rewrite !skipn_all2 by lia. reflexivity.
Qed.
Print Assumptions C62_exact.

Lemma NoDup_app_fst {A} (l l' : list A) : NoDup (l ++ l') -> NoDup l.
Proof. induction l as [|x l IH]; intros H; [constructor|]. inversion H; subst. constructor; [rewrite in_app_iff in *; tauto|auto]. Qed.
(** With the default order it never fails, except for zero hands. *)
Theorem C62_succeeds : forall rnd s r c m low e n, 1 <= s <= 4 -> 1 <= r <= 13 -> Evaluator s r c m low None = Ok e -> 0 <= m <= c ->
  match speed_test rnd e n with Ok _ => n <> 0 | Err x => n = 0 /\ x = ZeroDivisionError end.
Proof.
  intros rnd s r c m low e n Hs Hr He Hm. pose proof (C02_deck_contents rnd s r) as C. unfold speed_test.
  assert (Es : e_suits e = s /\ e_ranks e = r).
  { unfold Evaluator in He. destruct ((c <? 1) || (5 <? c)); [discriminate He|]. destruct (LookupTable s r c low None) as [t|]; [|discriminate He]. cbn [bind] in He. destruct (_ && _) in He; [discriminate He|]. injection He as <-. auto. }
  destruct Es as [-> ->]. destruct (Deck rnd s r) as [d|x]; [|lia]. cbn [bind]. destruct C as (_ & _ & _ & N & I).
  assert (A : forall k d, NoDup (d_cards d) -> from_deck s r (d_cards d) -> exists l, speed_loop k e d = Ok l).
  { induction k as [|k IH]; intros d' N' F'; [now exists []|]. cbn [speed_loop]. rewrite deck_draw_spec. rewrite deck_draw_spec. cbn [set_cards d_cards].
    set (a := firstn _ _). set (b := firstn _ _). set (rest := skipn (Z.to_nat 5) _).
    assert (E : d_cards d' = (a ++ b) ++ rest) by (unfold a, b, rest; rewrite <- app_assoc, !firstn_skipn; reflexivity). rewrite E in N', F'.
    destruct (C11_best_hand s r c m low None e a b Hs Hr Logic.I He Hm (or_introl eq_refl)) as (v & -> & _); [now apply (NoDup_app_fst _ rest)|intros x Hx; apply F', in_app_iff; now left|].
    cbn [bind]. destruct (IH (set_cards (set_cards d' (skipn (Z.to_nat 2) (d_cards d'))) rest)) as (l & L).
    - cbn [set_cards d_cards]. clear - N'. induction (a ++ b) as [|y q IHq]; [exact N'|]. inversion N'; subst. now apply IHq.
    - cbn [set_cards d_cards]. intros x Hx. apply F', in_app_iff. now right.
    - unfold set_cards in L at 1. cbn [set_cards d_num_ranks d_num_suits d_full d_tricked d_top d_bottom] in L |- *. unfold set_cards. cbn [d_num_ranks d_num_suits d_full d_tricked d_top d_bottom]. rewrite L. eexists. reflexivity. }
  destruct (A (Z.to_nat n) d) as (l & ->); [now apply NoDup_map_inv in N|intros x Hx; now apply I|]. cbn [bind]. destruct (n =? 0) eqn:E0; [split; [lia|reflexivity]|lia].
Qed.
Print Assumptions C62_succeeds.

Lemma firstn_plus {A} a b (l : list A) : firstn (a + b) l = firstn a l ++ firstn b (skipn a l).
Proof. revert l. induction a as [|a IH]; intros l; [reflexivity|]. destruct l as [|x l]; [cbn [Nat.add firstn skipn app]; now rewrite firstn_nil|]. cbn [Nat.add firstn skipn app]. now rewrite IH. Qed.
(** Few hands: as long as the deck lasts every hand has two hole cards and five board cards, all different. *)
Theorem C62_partial : forall rnd s r c m low order e n l, Evaluator s r c m low order = Ok e -> speed_test rnd e n = Ok l -> 7 * n <= s * r ->
  Z.of_nat (List.length l) = Z.max 0 n /\ Forall (fun p => List.length (fst p) = 2%nat /\ List.length (snd p) = 5%nat) l /\
  NoDup (flat_map (fun p => fst p ++ snd p) l) /\ from_deck s r (flat_map (fun p => fst p ++ snd p) l).
Proof.
  intros rnd s r c m low order e n l He H Hn. destruct (C62_exact rnd s r c m low order e n l He H) as (deck & N & I & L & -> & _).
  rewrite map_length, seq_length. split; [lia|]. split.
  - apply Forall_forall. intros p Hp. apply in_map_iff in Hp. destruct Hp as (i & <- & Hi). apply in_seq in Hi. unfold speed_hand. cbn [fst snd]. rewrite !firstn_length, !skipn_length. lia.
  - assert (E : forall k a, flat_map (fun p => fst p ++ snd p) (map (speed_hand deck) (seq a k)) = firstn (7 * k) (skipn (7 * a) deck)).
    { induction k as [|k IH]; intros a; [now rewrite Nat.mul_0_r|]. cbn [seq map flat_map]. rewrite IH. unfold speed_hand. cbn [fst snd].
      replace (7 * a + 2)%nat with (2 + 7 * a)%nat by lia. replace (7 * S a)%nat with (5 + (2 + 7 * a))%nat by lia. rewrite <- !skipn_skipn'. set (q := skipn (7 * a) deck).
      replace (7 * S k)%nat with (2 + (5 + 7 * k))%nat by lia. rewrite <- !app_assoc. clear. rewrite (firstn_plus 2), (firstn_plus 5). reflexivity. }
    rewrite E, Nat.mul_0_r. cbn [skipn]. set (k := (7 * Z.to_nat n)%nat). rewrite <- (firstn_skipn k deck) in N. split; [now apply NoDup_app_fst in N|].
    intros x Hx. apply I. rewrite <- (firstn_skipn k deck), in_app_iff. now left.
Qed.
Print Assumptions C62_partial.

(** As stated the property is false: with the standard deck nothing is left from the ninth hand on, and the default is 100000 hands. *)
Theorem C62_refuted : forall rnd, exists e l, Evaluator 4 13 5 0 true None = Ok e /\ speed_test rnd e 100000 = Ok l /\
  forall i, 8 <= Z.of_nat i < 100000 -> nth_error l i = Some ([], []).
Proof.
  intros rnd. destruct (Evaluator 4 13 5 0 true None) as [e|] eqn:E; [|exfalso; revert E; vm_compute; discriminate].
  pose proof (C62_succeeds rnd 4 13 5 0 true e 100000 ltac:(lia) ltac:(lia) E ltac:(lia)) as S. destruct (speed_test rnd e 100000) as [l|] eqn:T; [|lia].
  exists e, l. split; [reflexivity|]. split; [exact T|]. intros i Hi. destruct (C62_exact rnd 4 13 5 0 true None e 100000 l E T) as (_ & _ & _ & _ & _ & H). apply H; lia.
Qed.
Print Assumptions C62_refuted.
(** the standard deck as [Deck] lays it out, and with one card moved: the first hand, and the eighth, for which three cards are left *)
Example C62_example : match Evaluator 4 13 5 0 true None with
  | Ok e => match speed_test [] e 8, speed_test [51%nat] e 1 with
            | Ok l, Ok l' => Some (nth_error l 0, nth_error l 7, nth_error l' 0)
            | _, _ => None end
  | Err _ => None end =
  Some (Some ([the_card 0 0; the_card 0 1], [the_card 0 2; the_card 0 3; the_card 1 0; the_card 1 1; the_card 1 2]),
        Some ([the_card 12 1; the_card 12 2], [the_card 12 3]),
        Some ([the_card 0 1; the_card 0 2], [the_card 0 3; the_card 1 0; the_card 1 1; the_card 1 2; the_card 1 3])).
Proof. vm_compute. reflexivity. Qed.
