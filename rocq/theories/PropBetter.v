(** * PropBetter: property C84 (a better hand never pays less) *)
From Coq Require Import ZifyBool ZifyNat Arith Permutation Factorial.
From Verif Require Import PyBase PyFacts CardModel EvalModel EngineModel EngineSpec EngineFacts BetFacts EngineDemo MoneyFacts
  PropRound ShowSpec ShowFacts SideFacts SideExists HandEnd PropSide SeatsSpec PropHidden.

(** ** Shares level by level *)
Lemma fact_divides k n : (1 <= k <= n)%nat -> (Z.of_nat k | Z.of_nat (fact n)).
Proof.
  induction n as [|n IH]; intros H; [lia|]. cbn [fact]. change (fact n + n * fact n)%nat with (S n * fact n)%nat. rewrite Nat2Z.inj_mul.
  destruct (Nat.eq_dec k (S n)) as [->|N]; [apply Z.divide_factor_l|]. apply Z.divide_mul_r, IH. lia.
Qed.
Lemma fact_pos n : 0 < Z.of_nat (fact n).
Proof. pose proof (lt_O_fact n). lia. Qed.

Section Levels.
Variable d : showdown.
Local Notation K := (Z.of_nat (fact (sd_players d))).
(** the share of seat [i] in the chips between the levels [a] and [a + 1], times [K] *)
Definition part (w : list nat) (i : nat) (x : Z) : Z := if existsb (Nat.eqb i) w then K / Z.of_nat (List.length w) * x else 0.
Definition level_part (i : nat) (a : Z) : Z := part (winners_fun d a) i (chips_between d a (a + 1)).
Fixpoint levels (i : nat) (a : Z) (m : nat) : Z := match m with O => 0 | S m' => level_part i a + levels i (a + 1) m' end.

Lemma levels_app i m m' : forall a, levels i a (m + m') = levels i a m + levels i (a + Z.of_nat m) m'.
Proof.
  induction m as [|m IH]; intros a; [cbn [levels Nat.add]; now rewrite Z.add_0_r|]. cbn [Nat.add levels]. rewrite IH.
  replace (a + 1 + Z.of_nat m) with (a + Z.of_nat (S m)) by lia. lia.
Qed.
Lemma winners_higher a a' b w : winners d a w -> w <> [] -> (forall i, In i w -> b <= sd_put d i) -> a <= a' < b -> winners d a' w.
Proof.
  intros [Nd H] Ne Hb L. split; [exact Nd|]. intros j. split.
  - intros Hj. pose proof (Hb j Hj). apply H in Hj. destruct Hj as [(A1 & A2 & A3) B]. split; [unfold contends; splits; try assumption; lia|].
    intros k (B1 & B2 & B3). apply B. unfold contends; splits; try assumption; lia.
  - intros [(A1 & A2 & A3) B]. apply H. split; [unfold contends; splits; try assumption; lia|]. intros k C.
    destruct w as [|x w]; [now destruct Ne|]. assert (Hx : In x (x :: w)) by now left. pose proof (Hb x Hx). apply H in Hx. destruct Hx as [(X1 & X2 & X3) X].
    pose proof (X k C). assert (sd_rank d j <= sd_rank d x); [|lia]. apply B. unfold contends; splits; try assumption; lia.
Qed.
Lemma part_perm w w' i x : Permutation w w' -> part w i x = part w' i x.
Proof.
  intros P. unfold part. rewrite (Permutation_length P). replace (existsb (Nat.eqb i) w') with (existsb (Nat.eqb i) w); [reflexivity|].
  apply eq_true_iff_eq. rewrite !existsb_in. split; apply Permutation_in; [exact P|now symmetry].
Qed.
Lemma part_add w i x y : part w i x + part w i y = part w i (x + y).
Proof. unfold part. destruct (existsb (Nat.eqb i) w); lia. Qed.
(** inside a pot *)
Lemma levels_pot i w a0 b : winners d a0 w -> w <> [] -> (forall i, In i w -> b <= sd_put d i) ->
  forall m a, a0 <= a -> a + Z.of_nat m <= b -> levels i a m = part w i (chips_between d a (a + Z.of_nat m)).
Proof.
  intros Hw Ne Hb. induction m as [|m IH]; intros a L1 L2.
  - cbn [levels]. replace (a + Z.of_nat 0) with a by lia. assert (Z : chips_between d a a = 0).
    { pose proof (chips_add d a a a). lia. }
    rewrite Z. unfold part. destruct (existsb (Nat.eqb i) w); lia.
  - cbn [levels]. rewrite IH by lia. unfold level_part.
    rewrite (part_perm _ w) by (apply (winners_perm d a); [apply winners_fun_ok|apply winners_higher with a0 b; try assumption; lia]).
    rewrite part_add, chips_add. f_equal. f_equal. lia.
Qed.
Lemma levels_none i : forall m a, (forall j, ~ contends d a j) -> levels i a m = 0.
Proof.
  induction m as [|m IH]; intros a N; [reflexivity|]. cbn [levels]. rewrite IH.
  - unfold level_part, part. destruct (existsb (Nat.eqb i) (winners_fun d a)) eqn:E; [|reflexivity].
    apply existsb_in in E. apply (proj2 (winners_fun_ok d a)) in E. exfalso. now apply (N i).
  - intros j (A & B & C). apply (N j). unfold contends; splits; try assumption; lia.
Qed.
Lemma winners_size a w : winners d a w -> w <> [] -> (1 <= List.length w <= sd_players d)%nat.
Proof.
  intros [Nd H] Ne. split; [destruct w; [now destruct Ne|cbn; lia]|]. rewrite <- (seq_length (sd_players d) 0). apply NoDup_incl_length; [exact Nd|].
  intros j Hj. apply H in Hj. destruct Hj as [(A & _) _]. apply in_seq. lia.
Qed.
Lemma part_share a w i x : winners d a w -> w <> [] -> 0 <= x ->
  let v := if existsb (Nat.eqb i) w then x / Z.of_nat (List.length w) else 0 in
  K * v <= part w i x /\ (x mod Z.of_nat (List.length w) = 0 -> K * v = part w i x).
Proof.
  intros Hw Ne Hx. cbv zeta. unfold part. pose proof (winners_size a w Hw Ne) as S. pose proof (fact_divides _ _ S) as D. pose proof (fact_pos (sd_players d)) as P.
  destruct (existsb (Nat.eqb i) w); [|split; lia]. set (k := Z.of_nat (List.length w)) in *. assert (Hk : 0 < k) by lia.
  destruct D as (q & E). rewrite E, Z.div_mul by lia. assert (Hq : 0 <= q) by nia.
  pose proof (Z.div_mod x k ltac:(lia)) as M. pose proof (Z.mod_pos_bound x k Hk) as B. split; [nia|]. intros Z0. nia.
Qed.
Lemma share_levels i M : (forall j, (j < sd_players d)%nat -> sd_put d j <= M) -> forall a p, side_pots d a p -> a <= M ->
  K * share p i <= levels i a (Z.to_nat (M - a)) /\ (odd_chips p = 0 -> K * share p i = levels i a (Z.to_nat (M - a))).
Proof.
  intros HM a p H. assert (On : forall a p, side_pots d a p -> 0 <= odd_chips p).
  { clear. induction 1 as [a N|a w b r Hw (k & Hk & Ek) Hb Hr IH]; [cbn; lia|]. unfold odd_chips in *. cbn [map fst snd]. rewrite sumZ_cons.
    assert (0 <= chips_between d a b mod Z.of_nat (List.length w)); [|lia]. apply Z.mod_pos_bound. destruct w; [destruct Hk|cbn; lia]. }
  induction H as [a N|a w b r Hw (k & Hk & Ek) Hb Hr IH]; intros L.
  - rewrite levels_none by exact N. change (share [] i) with 0. split; lia.
  - assert (Ne : w <> []) by (intros ->; destruct Hk).
    assert (Lb : a < b <= M).
    { apply (proj2 Hw) in Hk. destruct Hk as [(A & B & C) _]. specialize (HM k A). lia. }
    destruct (IH ltac:(lia)) as [I1 I2]. replace (Z.to_nat (M - a)) with (Z.to_nat (b - a) + Z.to_nat (M - b))%nat by lia. rewrite levels_app.
    replace (a + Z.of_nat (Z.to_nat (b - a))) with b by lia.
    rewrite (levels_pot i w a b Hw Ne Hb) by lia. replace (a + Z.of_nat (Z.to_nat (b - a))) with b by lia.
    destruct (part_share a w i (chips_between d a b) Hw Ne (chips_mono d a b ltac:(lia))) as [P1 P2]. cbv zeta in *.
    unfold share, odd_chips in *. cbn [map fst snd]. rewrite !sumZ_cons. split; [nia|]. intros E.
    pose proof (On _ _ Hr) as O2. unfold odd_chips in O2.
    assert (O1 : 0 <= chips_between d a b mod Z.of_nat (List.length w)) by (apply Z.mod_pos_bound; destruct w; [destruct Hk|cbn; lia]).
    rewrite Z.mul_add_distr_l, I2, P2 by lia. reflexivity.
Qed.
End Levels.

(** ** Two showdowns which differ in the hand of one player *)
Record improved (i : nat) (d d' : showdown) : Prop := mkImproved {
  im_n : sd_players d' = sd_players d;
  im_in : forall j, sd_in d' j = sd_in d j;
  im_put : forall j, sd_put d' j = sd_put d j;
  im_rank : forall j, j <> i -> sd_rank d' j = sd_rank d j;
  im_better : sd_rank d' i <= sd_rank d i
}.
Section Improved.
Variables (i : nat) (d d' : showdown).
Hypothesis H : improved i d d'.
Lemma im_contends a j : contends d' a j <-> contends d a j.
Proof. unfold contends. now rewrite (im_n _ _ _ H), (im_in _ _ _ H), (im_put _ _ _ H). Qed.
Lemma im_chips a b : chips_between d' a b = chips_between d a b.
Proof. unfold chips_between. rewrite (im_n _ _ _ H). f_equal. apply map_ext. intros j. now rewrite (im_put _ _ _ H). Qed.
Lemma im_rank_le j : sd_rank d' j <= sd_rank d j.
Proof. destruct (Nat.eq_dec j i) as [->|N]; [apply (im_better _ _ _ H)|rewrite (im_rank _ _ _ H) by exact N; lia]. Qed.
(** everybody else who wins with the better hand of [i] on the table wins without it *)
Lemma im_winners_other a w w' j : winners d a w -> winners d' a w' -> j <> i -> In j w' -> In j w /\ incl w w'.
Proof.
  intros [_ W] [_ W'] N Hj. pose proof Hj as Hj'. apply W' in Hj'. destruct Hj' as [C B]. apply im_contends in C.
  assert (Bj : forall k, contends d a k -> sd_rank d j <= sd_rank d' k).
  { intros k Ck. rewrite <- (im_rank _ _ _ H j N). apply B. now apply im_contends. }
  assert (Jw : In j w). { apply W. split; [exact C|]. intros k Ck. pose proof (Bj k Ck). pose proof (im_rank_le k). lia. }
  split; [exact Jw|]. intros m Hm. apply W in Hm. destruct Hm as [Cm Bm]. apply W'. split; [now apply im_contends|]. intros k Ck. apply (proj1 (im_contends a k)) in Ck.
  pose proof (Bj k Ck). pose proof (Bm j C). pose proof (im_rank_le m). lia.
Qed.
Lemma im_winners_own a w w' : winners d a w -> winners d' a w' -> In i w -> In i w' /\ incl w' w.
Proof.
  intros Hw Hw' Hi. pose proof Hi as Hi'. apply (proj2 Hw) in Hi'. destruct Hi' as [C B]. assert (Iw : In i w').
  { apply (proj2 Hw'). split; [now apply im_contends|]. intros k Ck. apply (proj1 (im_contends a k)) in Ck.
    destruct (Nat.eq_dec k i) as [->|N]; [lia|]. rewrite (im_rank _ _ _ H k N). pose proof (B k Ck). pose proof (im_better _ _ _ H). lia. }
  split; [exact Iw|]. intros m Hm. destruct (Nat.eq_dec m i) as [->|N]; [exact Hi|]. now apply (im_winners_other a w w' m Hw Hw' N Hm).
Qed.
Lemma part_le w w' j x : (1 <= List.length w' <= List.length w)%nat -> 0 <= x -> sd_players d' = sd_players d -> In j w' -> part d w j x <= part d' w' j x.
Proof.
  intros L Hx E Hj. unfold part. rewrite E. apply existsb_in in Hj. rewrite Hj. pose proof (fact_pos (sd_players d)) as P.
  assert (0 <= Z.of_nat (fact (sd_players d)) / Z.of_nat (List.length w')) by (apply Z.div_pos; lia).
  destruct (existsb (Nat.eqb j) w); [|nia]. apply Z.mul_le_mono_nonneg_r; [exact Hx|]. apply Z.div_le_compat_l; lia.
Qed.
Lemma level_own a : level_part d i a <= level_part d' i a.
Proof.
  unfold level_part. rewrite im_chips. pose proof (chips_mono d a (a + 1) ltac:(lia)) as Cp.
  pose proof (winners_fun_ok d a) as Hw. pose proof (winners_fun_ok d' a) as Hw'.
  destruct (existsb (Nat.eqb i) (winners_fun d a)) eqn:E.
  - apply existsb_in in E. destruct (im_winners_own a _ _ Hw Hw' E) as [I1 I2]. apply part_le; [|exact Cp|apply (im_n _ _ _ H)|exact I1].
    split; [destruct (winners_fun d' a); [destruct I1|cbn; lia]|]. apply NoDup_incl_length; [apply Hw'|exact I2].
  - unfold part at 1. rewrite E. unfold part. destruct (existsb (Nat.eqb i) (winners_fun d' a)); [|lia].
    apply Z.mul_nonneg_nonneg; [|exact Cp].  pose proof (fact_pos (sd_players d')). destruct (List.length (winners_fun d' a)) as [|m]; [now rewrite Zdiv_0_r|]. apply Z.div_pos; lia.
Qed.
Lemma level_other a j : j <> i -> level_part d' j a <= level_part d j a.
Proof.
  intros N. unfold level_part. rewrite im_chips. pose proof (chips_mono d a (a + 1) ltac:(lia)) as Cp.
  pose proof (winners_fun_ok d a) as Hw. pose proof (winners_fun_ok d' a) as Hw'.
  destruct (existsb (Nat.eqb j) (winners_fun d' a)) eqn:E.
  - apply existsb_in in E. destruct (im_winners_other a _ _ j Hw Hw' N E) as [I1 I2]. unfold part. rewrite (im_n _ _ _ H).
    pose proof I1 as I1'. apply existsb_in in I1'. rewrite I1'. apply existsb_in in E. rewrite E. apply Z.mul_le_mono_nonneg_r; [exact Cp|].
    pose proof (fact_pos (sd_players d)). assert (1 <= List.length (winners_fun d a))%nat by (destruct (winners_fun d a); [destruct I1|cbn; lia]).
    pose proof (NoDup_incl_length (proj1 Hw) I2). apply Z.div_le_compat_l; lia.
  - unfold part at 1. rewrite E. unfold part. destruct (existsb (Nat.eqb j) (winners_fun d a)); [|lia].
    apply Z.mul_nonneg_nonneg; [|exact Cp]. pose proof (fact_pos (sd_players d)). destruct (List.length (winners_fun d a)) as [|m]; [now rewrite Zdiv_0_r|]. apply Z.div_pos; lia.
Qed.
Lemma levels_own m : forall a, levels d i a m <= levels d' i a m.
Proof. induction m as [|m IH]; intros a; cbn [levels]; [lia|]. pose proof (level_own a). pose proof (IH (a + 1)). lia. Qed.
Lemma levels_other j m : j <> i -> forall a, levels d' j a m <= levels d j a m.
Proof. intros N. induction m as [|m IH]; intros a; cbn [levels]; [lia|]. pose proof (level_other a j N). pose proof (IH (a + 1)). lia. Qed.
(** the shares, if the chips can be divided *)
Lemma improved_shares p p' : (forall j, 0 <= sd_put d j) -> side_pots d 0 p -> side_pots d' 0 p' ->
  (odd_chips p' = 0 -> share p i <= share p' i) /\ (odd_chips p = 0 -> forall j, j <> i -> share p' j <= share p j).
Proof.
  intros Hp S S'. set (M := sumZ (map (sd_put d) (seq 0 (sd_players d)))).
  assert (HM : forall j, (j < sd_players d)%nat -> sd_put d j <= M).
  { intros j Hj. unfold M. assert (Hin : In j (seq 0 (sd_players d))) by (apply in_seq; lia). revert Hin. generalize (seq 0 (sd_players d)).
    assert (Nn : forall l, 0 <= sumZ (map (sd_put d) l)) by (induction l as [|x l IHl]; [cbn; lia|]; cbn [map]; rewrite sumZ_cons; specialize (Hp x); lia).
    induction l as [|x l IHl]; intros []; cbn [map]; rewrite sumZ_cons; [subst x; pose proof (Nn l); lia|]. specialize (IHl H0). specialize (Hp x). lia. }
  assert (HM' : forall j, (j < sd_players d')%nat -> sd_put d' j <= M).
  { intros j. rewrite (im_n _ _ _ H), (im_put _ _ _ H). apply HM. }
  assert (M0 : 0 <= M). { unfold M. generalize (seq 0 (sd_players d)). induction l as [|x l IHl]; [cbn; lia|]. cbn [map]. rewrite sumZ_cons. specialize (Hp x). lia. }
  pose proof (fact_pos (sd_players d)) as P. split.
  - intros O. destruct (share_levels d i M HM 0 p S M0) as [A _]. destruct (share_levels d' i M HM' 0 p' S' M0) as [_ B]. specialize (B O).
    pose proof (levels_own (Z.to_nat (M - 0)) 0) as L. rewrite (im_n _ _ _ H) in B. nia.
  - intros O j N. destruct (share_levels d j M HM 0 p S M0) as [_ A]. specialize (A O). destruct (share_levels d' j M HM' 0 p' S' M0) as [B _].
    pose proof (levels_other j (Z.to_nat (M - 0)) N 0) as L. rewrite (im_n _ _ _ H) in B. nia.
Qed.
End Improved.

(** ** Two tables with the same play *)
Lemma same_step c s t b : in_progress s -> same_play s t ->
  (is_ok (snd (step c s b)) = false /\ fst (step c s b) = s) \/
  exists z k d, step c s b = step_end c z /\ step c t b = step_end c (recard z k d (hole_cards t)).
Proof.
  intros Hp Q. rewrite (same_play_recard s t Q). set (k := community_cards t). set (d := the_deck t). set (h := hole_cards t). clearbody k d h. cbn [recard hole_cards].
  destruct (step_anatomy c s b Hp) as [(_ & X & Y)|(s1 & H1 & E)]; [auto|right].
  destruct (step_anatomy c (recard s k d h) b Hp) as [(H2 & _)|(t1 & H2 & E2)]; rewrite recard_after_bet, H1 in H2; [discriminate H2|].
  injection H2 as <-. rewrite E, E2. destruct (recard_settle c s1 k d h) as (k' & d' & ->). now exists (settle c s1), k', d'.
Qed.
Lemma step_end_same c z : active (fst (step_end c z)) = active z /\ pot_commits (fst (step_end c z)) = pot_commits z /\
  street (fst (step_end c z)) = street z /\ hole_cards (fst (step_end c z)) = hole_cards z /\ community_cards (fst (step_end c z)) = community_cards z.
Proof. destruct (step_end_cases c z) as [(e & _ & ->)|[(pay & _ & _ & ->)|(pay & _ & _ & ->)]]; splits; reflexivity. Qed.

(** ** C84 A better hand never pays less *)
(** Two tables at which the same chips were bet by the same players, and the bet [b] leads to the
    showdown at both.  Everybody but [i] shows the same cards, on the same board, and [i] shows a
    hand that is at least as good (a smaller rank) at the second table.  Then [i] is paid at least as
    much at the second table, and nobody else is paid more, if the two showdowns are level: the side
    pots can be divided, and the code pays them as it should (C34_exact). *)
Theorem C84_partial : forall c s t b i, fair c s -> fair c t -> in_progress s -> same_play s t ->
  let s' := fst (step c s b) in let t' := fst (step c t b) in
  action s' = None -> action t' = None -> 2 <= count_true (active s') -> (num_streets c <= street s')%nat ->
  community_cards t' = community_cards s' ->
  (forall j, j <> i -> nth j (hole_cards t') [] = nth j (hole_cards s') []) ->
  (forall v v', evaluate (the_evaluator c) (nth i (hole_cards s') []) (community_cards s') = Ok v ->
     evaluate (the_evaluator c) (nth i (hole_cards t') []) (community_cards t') = Ok v' -> v' <= v) ->
  (i < num_players c)%nat -> is_active s' i ->
  level_showdown c s' -> level_showdown c t' ->
  exists out out', snd (step c s b) = Ok out /\ snd (step c t b) = Ok out' /\
    nth i (out_payouts out) 0 <= nth i (out_payouts out') 0 /\
    forall j, (j < num_players c)%nat -> j <> i -> nth j (out_payouts out') 0 <= nth j (out_payouts out) 0.
Proof.
  intros c s t b i Fs Ft Hp Q. cbv zeta. intros As At Hc Hst Hk Hh Hv Hi Ai Ls Lt.
  assert (Hp' : in_progress t) by (unfold in_progress; now rewrite (sm_action _ _ Q)).
  destruct (same_step c s t b Hp Q) as [(_ & X)|(z & k & d & E1 & E2)]; [rewrite X in As; contradiction|].
  assert (Same : active (fst (step c t b)) = active (fst (step c s b)) /\ pot_commits (fst (step c t b)) = pot_commits (fst (step c s b)) /\ street (fst (step c t b)) = street (fst (step c s b))).
  { rewrite E1, E2. destruct (step_end_same c z) as (-> & -> & -> & _). destruct (step_end_same c (recard z k d (hole_cards t))) as (-> & -> & -> & _). splits; reflexivity. }
  clear z k d E1 E2. destruct Same as (Sa & Sc & Ss).
  assert (Hc' : 2 <= count_true (active (fst (step c t b)))) by now rewrite Sa. assert (Hst' : (num_streets c <= street (fst (step c t b)))%nat) by now rewrite Ss.
  destruct (Ls Hc Hst) as (L1 & L2 & L3). destruct (Lt Hc' Hst') as (L1' & L2' & L3').
  destruct (C34_partial c s b Fs Hp As Hc Hst L1 L2) as (out & pots & H1 & H2 & H3 & (q & _ & H4) & _).
  destruct (C34_partial c t b Ft Hp' At Hc' Hst' L1' L2') as (out' & pots' & H1' & H2' & H3' & (q' & _ & H4') & _).
  exists out, out'. split; [exact H1|]. split; [exact H1'|].
  assert (Ai' : is_active (fst (step c t b)) i) by (unfold is_active in *; now rewrite Sa).
  assert (Im : improved i (show_of c (fst (step c s b))) (show_of c (fst (step c t b)))).
  { split.
    - reflexivity.
    - intros j. cbn [show_of sd_in]. now rewrite Sa.
    - intros j. cbn [show_of sd_put]. unfold committed. now rewrite Sc.
    - intros j Nj. cbn [show_of sd_rank]. now rewrite Hk, Hh.
    - apply Hv; [now apply H2|now apply H2']. }
  assert (Pn : forall j, 0 <= sd_put (show_of c (fst (step c s b))) j).
  { intros j. cbn [show_of sd_put]. destruct (step_ended c s b Fs Hp As) as (z & pay & o & En). pose proof (en_settled _ _ _ _ _ _ En) as Z.
    unfold committed. destruct (se_same _ _ _ _ Z) as (_ & -> & _). apply (se_nonneg _ _ _ _ Z). }
  destruct (improved_shares i _ _ Im pots pots' Pn H3 H3') as [M1 M2]. specialize (M1 (L3' _ H3')). specialize (M2 (L3 _ H3)).
  assert (P : forall j, (j < num_players c)%nat -> nth j (out_payouts out) 0 = share pots j - committed (fst (step c s b)) j).
  { intros j Hj. specialize (H4 j Hj). rewrite (L3 _ H3) in H4. destruct (Nat.eqb j q); lia. }
  assert (P' : forall j, (j < num_players c)%nat -> nth j (out_payouts out') 0 = share pots' j - committed (fst (step c s b)) j).
  { intros j Hj. specialize (H4' j Hj). rewrite (L3' _ H3') in H4'. unfold committed in *. rewrite Sc in H4'. destruct (Nat.eqb j q'); lia. }
  split; [rewrite P, P' by exact Hi; lia|]. intros j Hj Nj. rewrite P, P' by exact Hj. specialize (M2 j Nj). lia.
Qed.
Print Assumptions C84_partial.

(** The same for a whole hand: [bs] are the bets before the last one. *)
Theorem C84_hand_partial : forall c s t bs b i, fair c s -> fair c t -> in_progress s -> same_play s t ->
  Forall (fun r => is_ok r = true) (replies c s bs) -> in_progress (run_steps c s bs) ->
  let s' := run_steps c s (bs ++ [b]) in let t' := run_steps c t (bs ++ [b]) in
  action s' = None -> action t' = None -> 2 <= count_true (active s') -> (num_streets c <= street s')%nat ->
  community_cards t' = community_cards s' ->
  (forall j, j <> i -> nth j (hole_cards t') [] = nth j (hole_cards s') []) ->
  (forall v v', evaluate (the_evaluator c) (nth i (hole_cards s') []) (community_cards s') = Ok v ->
     evaluate (the_evaluator c) (nth i (hole_cards t') []) (community_cards t') = Ok v' -> v' <= v) ->
  (i < num_players c)%nat -> is_active s' i ->
  level_showdown c s' -> level_showdown c t' ->
  stack_of s' i <= stack_of t' i /\
  forall j, (j < num_players c)%nat -> j <> i -> stack_of t' j <= stack_of s' j.
Proof.
  intros c s t bs b i Fs Ft Hp Q Ok1 Hp1. cbv zeta. unfold run_steps at 1 2 3 4 5 6 7 8 9 10 11 12 13 14 15 16 17 18 19. rewrite !fold_left_app. cbn [fold_left].
  fold (run_steps c s bs). fold (run_steps c t bs). intros As At Hc Hst Hk Hh Hv Hi Ai Ls Lt.
  destruct (C43_run c bs s t Hp Q Ok1 Hp1) as [Q1 _]. pose proof (fair_run_steps c s bs Fs) as F1. pose proof (fair_run_steps c t bs Ft) as F2.
  set (u := run_steps c s bs) in *. set (v := run_steps c t bs) in *. clearbody u v. clear Fs Ft Hp Q Ok1 s t.
  destruct (C84_partial c u v b i F1 F2 Hp1 Q1 As At Hc Hst Hk Hh Hv Hi Ai Ls Lt) as (out & out' & H1 & H2 & H3 & H4).
  assert (Hp2 : in_progress v) by (unfold in_progress; now rewrite (sm_action _ _ Q1)).
  destruct (step_ended c u b F1 Hp1 As) as (z & pay & o & En). destruct (step_ended c v b F2 Hp2 At) as (z' & pay' & o' & En').
  assert (Sc : forall j, committed (fst (step c v b)) j = committed (fst (step c u b)) j).
  { destruct (same_step c u v b Hp1 Q1) as [(_ & X)|(y & k & d & E1 & E2)]; [rewrite X in As; contradiction|].
    intros j. unfold committed. rewrite E1, E2. destruct (step_end_same c y) as (_ & -> & _). destruct (step_end_same c (recard y k d (hole_cards v))) as (_ & -> & _). reflexivity. }
  assert (St : forall j, (j < num_players c)%nat -> stack_of (fst (step c v b)) j - nth j (out_payouts out') 0 = stack_of (fst (step c u b)) j - nth j (out_payouts out) 0).
  { intros j Hj. rewrite (ended_stack _ _ _ _ _ _ j En Hj), (ended_stack _ _ _ _ _ _ j En' Hj).
    rewrite (en_out _ _ _ _ _ _ En) in H1. rewrite (en_out _ _ _ _ _ _ En') in H2. injection H1 as <-. injection H2 as <-. cbn [out_payouts].
    pose proof (en_settled _ _ _ _ _ _ En) as Z. pose proof (en_settled _ _ _ _ _ _ En') as Z'.
    rewrite (se_put _ _ _ _ Z j Hj), (se_put _ _ _ _ Z' j Hj). unfold put_in. rewrite Sc.
    assert (X1 : committed z j = committed (fst (step c u b)) j) by (unfold committed; destruct (se_same _ _ _ _ Z) as (_ & -> & _); reflexivity).
    assert (X2 : committed z' j = committed (fst (step c v b)) j) by (unfold committed; destruct (se_same _ _ _ _ Z') as (_ & -> & _); reflexivity).
    rewrite X1, X2, Sc. unfold stack_of, committed. rewrite (sm_stacks _ _ Q1), (sm_commits _ _ Q1). lia. }
  split; [specialize (St i Hi); lia|]. intros j Hj Nj. specialize (H4 j Hj Nj). specialize (St j Hj). lia.
Qed.
Print Assumptions C84_hand_partial.

(** The cards of players who have folded make no difference at all: the payouts and the done flags
    are the same whatever these cards are. *)
Theorem C84_folded : forall c s t b out, fair c s -> fair c t -> in_progress s -> same_play s t ->
  let s' := fst (step c s b) in let t' := fst (step c t b) in
  community_cards t' = community_cards s' ->
  (forall j, is_active s' j -> nth_error (hole_cards t') j = nth_error (hole_cards s') j) ->
  snd (step c s b) = Ok out ->
  same_play s' t' /\ (action s' = None -> exists out', snd (step c t b) = Ok out' /\ out_payouts out' = out_payouts out /\ out_done out' = out_done out).
Proof.
  intros c s t b out Fs Ft Hp Q. cbv zeta. intros Hk Hh Ho.
  assert (Hp' : in_progress t) by (unfold in_progress; now rewrite (sm_action _ _ Q)).
  destruct (same_step c s t b Hp Q) as [(X & _)|(z & k & d & E1 & E2)]; [rewrite Ho in X; discriminate X|].
  assert (P : payouts c (recard z k d (hole_cards t)) = payouts c z).
  { rewrite E1, E2 in Hk, Hh. destruct (step_end_same c z) as (Q1 & Q2 & Q3 & Q4 & Q5). destruct (step_end_same c (recard z k d (hole_cards t))) as (_ & _ & _ & R4 & R5).
    rewrite Q5, R5 in Hk. rewrite Q4, R4 in Hh. unfold is_active in Hh. rewrite Q1 in Hh. cbn [recard community_cards hole_cards] in Hk, Hh. subst k.
    unfold payouts, eval_round. cbn [recard active hole_cards community_cards pot_commits pot street button].
    replace (eval_hands c (active z) (hole_cards t) (community_cards z)) with (eval_hands c (active z) (hole_cards z) (community_cards z)); [reflexivity|].
    unfold eval_hands. induction (seq 0 (num_players c)) as [|j l IH]; [reflexivity|]. cbn [map_res]. rewrite IH.
    destruct (nth j (active z) false) eqn:Aj; [|reflexivity]. unfold get. now rewrite (Hh j Aj). }
  assert (St : same_play (fst (step c s b)) (fst (step c t b))).
  { rewrite E1, E2. unfold step_end. rewrite P. change (done_list c (recard z k d (hole_cards t))) with (done_list c z).
    destruct (payouts c z) as [pay|e]; [|apply recard_same_play]. destruct (all_true (done_list c z)); cbn [fst]; [|apply recard_same_play]. split; reflexivity. }
  split; [exact St|]. intros An. destruct (step_ended c t b Ft Hp' ltac:(now rewrite (sm_action _ _ St))) as (z' & pay' & o' & En).
  exists (mkOut o' pay' (done_list c z')). split; [apply En|]. pose proof (en_out _ _ _ _ _ _ En) as Eo. cbn [out_payouts out_done].
  rewrite E1 in Ho. rewrite E2 in Eo. unfold step_end in Ho, Eo. rewrite P in Eo. change (done_list c (recard z k d (hole_cards t))) with (done_list c z) in Eo.
  destruct (payouts c z) as [pay|e]; [|discriminate Ho]. cbn [snd] in Ho, Eo.
  match type of Ho with bind ?x _ = _ => destruct x as [o1|]; [|discriminate Ho] end. match type of Eo with bind ?x _ = _ => destruct x as [o2|]; [|discriminate Eo] end.
  cbn [bind] in Ho, Eo. injection Ho as <-. injection Eo as <- <- <-. auto.
Qed.
Print Assumptions C84_folded.

(** *** Examples *)
Lemma level_check c s : covered_foldsb (show_of c s) = true -> regular_tiesb (show_of c s) = true ->
  odd_chips (pots_fun (S (num_players c)) (show_of c s) 0) = 0 -> level_showdown c s.
Proof.
  intros H1 H2 H3 _ _. split; [now apply covered_foldsb_ok|]. split; [now apply regular_tiesb_ok|]. intros pots SP.
  destruct (side_pots_unique _ _ _ SP _ (pots_fun_players (show_of c s))) as [-> _]. exact H3.
Qed.
Definition better_deal (a b d e : nat) := [OTrick [demo_card a; demo_card b; demo_card d; demo_card e]; OSetStacks [6; 12; 12; 12]; OReset [] true false] ++ bets [12; 12; 12].
Definition last_out (c : config) (s : state) (b : Z) : option (list Z) := match snd (step c s (PyInt b)) with Ok out => Some (out_payouts out) | Err _ => None end.
Definition better_play : option nat * list bool * nat * list (nat * Z * bool) * Z * (Z * list Z * list Z * nat) * (list Z * list bool * Z) :=
  (Some 2%nat, [true; true; true; true], 0%nat, [(3%nat, 12, false); (0%nat, 6, false); (1%nat, 12, false)], 12, (30, [6; 12; 0; 12], [0; 0; 12; 0], 0%nat),
   ([6; 12; 0; 12], [true; true; false; true], 1)).
(** seat 3 holds a king at the first table and an ace, like seats 0 and 2, at the second; seat 0 is
    all in for half of the others' chips *)
Example C84_example : exists c s t b, fair c s /\ fair c t /\ in_progress s /\ same_play s t /\
  let s' := fst (step c s b) in let t' := fst (step c t b) in
  action s' = None /\ action t' = None /\ 2 <= count_true (active s') /\ (num_streets c <= street s')%nat /\
  community_cards t' = community_cards s' /\
  (forall j, j <> 3%nat -> nth j (hole_cards t') [] = nth j (hole_cards s') []) /\
  (forall v v', evaluate (the_evaluator c) (nth 3 (hole_cards s') []) (community_cards s') = Ok v ->
     evaluate (the_evaluator c) (nth 3 (hole_cards t') []) (community_cards t') = Ok v' -> v' <= v) /\
  (3 < num_players c)%nat /\ is_active s' 3 /\ level_showdown c s' /\ level_showdown c t' /\
  last_out c s 12 = Some [6; -12; 18; -12] /\ last_out c t 12 = Some [2; -12; 5; 5] /\ b = PyInt 12.
Proof.
  assert (K : exists c s0, fair c s0 /\
    let s := run c s0 (better_deal 51 0 48 44) in let t := run c s0 (better_deal 51 0 48 49) in
    let s' := fst (step c s (PyInt 12)) in let t' := fst (step c t (PyInt 12)) in
    (all_allowed c s0 (better_deal 51 0 48 44) = true /\ all_allowed c s0 (better_deal 51 0 48 49) = true) /\
    (play_of s = better_play /\ play_of t = better_play /\ action s = Some 2%nat /\ num_players c = 4%nat) /\
    (action s' = None /\ action t' = None /\ active s' = [true; true; true; true] /\ (num_streets c = 1 /\ street s' = 1)%nat /\ community_cards s' = [] /\ community_cards t' = []) /\
    (hole_cards s' = [[demo_card 51]; [demo_card 0]; [demo_card 48]; [demo_card 44]] /\ hole_cards t' = [[demo_card 51]; [demo_card 0]; [demo_card 48]; [demo_card 49]]) /\
    (match evaluate (the_evaluator c) [demo_card 44] [], evaluate (the_evaluator c) [demo_card 49] [] with Ok v, Ok v' => v' <? v | _, _ => false end = true) /\
    (covered_foldsb (show_of c s') = true /\ regular_tiesb (show_of c s') = true /\ odd_chips (pots_fun 5 (show_of c s') 0) = 0) /\
    (covered_foldsb (show_of c t') = true /\ regular_tiesb (show_of c t') = true /\ odd_chips (pots_fun 5 (show_of c t') 0) = 0) /\
    last_out c s 12 = Some [6; -12; 18; -12] /\ last_out c t 12 = Some [2; -12; 5; 5]).
  { play side_game (@nil op) c s0 E. split; [exact (played_fair _ _ _ _ E)|]. cbv zeta. plays E. }
  destruct K as (c & s0 & F & (A1 & A2) & (B1 & B1' & B2 & B3) & (C1 & C2 & C3 & (C4 & C5) & C6 & C7) & (D1 & D2) & G & (L1 & L2 & L3) & (M1 & M2 & M3) & P1 & P2).
  pose proof (fair_run c s0 (better_deal 51 0 48 44) F A1 eq_refl) as Fs. pose proof (fair_run c s0 (better_deal 51 0 48 49) F A2 eq_refl) as Ft.
  set (s := run c s0 (better_deal 51 0 48 44)) in *. set (t := run c s0 (better_deal 51 0 48 49)) in *. clearbody s t. clear A1 A2 F s0.
  exists c, s, t, (PyInt 12). rewrite <- B1 in B1'. clear B1. rename B1' into B1. split; [exact Fs|]. split; [exact Ft|]. split; [unfold in_progress; rewrite B2; discriminate|].
  split; [clear - B1; unfold play_of in B1; injection B1 as Q1 Q2 Q3 Q4 Q5 Q6 Q7 Q8 Q9 Q10 Q11 Q12; split; assumption|]. cbv zeta.
  split; [exact C1|]. split; [exact C2|]. split; [rewrite C3; cbn; lia|]. split; [rewrite C4, C5; lia|]. split; [now rewrite C6, C7|].
  split; [intros j Nj; rewrite D1, D2; destruct j as [|[|[|[|j]]]]; try reflexivity; now destruct Nj|].
  split. { rewrite D1, D2, C6, C7. cbn [nth]. intros v v' V V'. rewrite V, V' in G. lia. }
  split; [rewrite B3; lia|]. split; [unfold is_active; rewrite C3; reflexivity|]. split; [apply level_check; rewrite ?B3; assumption|]. split; [apply level_check; rewrite ?B3; assumption|].
  split; [exact P1|]. split; [exact P2|reflexivity].
Qed.

(** Without the divisibility of the pots the claim is false: the odd chip goes to the wrong seat
    (C35), and so a player who loses against everybody gets a chip more when the player in seat 3
    holds an ace instead of a deuce. *)
Definition odd_deal (e : nat) := [OReset [] true true; OTrick [demo_card 51; demo_card 0; demo_card 48; demo_card e]; OReset [] false true] ++ bets [7; 7; 7].
Definition odd_play : option nat * list bool * nat * list (nat * Z * bool) * Z * (Z * list Z * list Z * nat) * (list Z * list bool * Z) :=
  (Some 3%nat, [true; true; true; true], 1%nat, [(0%nat, 7, false); (1%nat, 7, false); (2%nat, 6, false)], 5, (23, [7; 7; 7; 2], [13; 13; 13; 18], 0%nat),
   ([7; 7; 7; 2], [true; true; true; false], 1)).
Theorem C84_refuted : ~ forall c s t b i, fair c s -> fair c t -> in_progress s -> same_play s t ->
  let s' := fst (step c s b) in let t' := fst (step c t b) in
  action s' = None -> action t' = None -> 2 <= count_true (active s') -> (num_streets c <= street s')%nat ->
  community_cards t' = community_cards s' ->
  (forall j, j <> i -> nth j (hole_cards t') [] = nth j (hole_cards s') []) ->
  (forall v v', evaluate (the_evaluator c) (nth i (hole_cards s') []) (community_cards s') = Ok v ->
     evaluate (the_evaluator c) (nth i (hole_cards t') []) (community_cards t') = Ok v' -> v' <= v) ->
  (i < num_players c)%nat -> is_active s' i ->
  covered_folds (show_of c s') -> regular_ties (show_of c s') -> covered_folds (show_of c t') -> regular_ties (show_of c t') ->
  exists out out', snd (step c s b) = Ok out /\ snd (step c t b) = Ok out' /\
    nth i (out_payouts out) 0 <= nth i (out_payouts out') 0 /\
    forall j, (j < num_players c)%nat -> j <> i -> nth j (out_payouts out') 0 <= nth j (out_payouts out) 0.
Proof.
  intros H.
  assert (K : exists c s0, fair c s0 /\
    let s := run c s0 (odd_deal 1) in let t := run c s0 (odd_deal 49) in
    let s' := fst (step c s (PyInt 7)) in let t' := fst (step c t (PyInt 7)) in
    (all_allowed c s0 (odd_deal 1) = true /\ all_allowed c s0 (odd_deal 49) = true) /\
    (play_of s = odd_play /\ play_of t = odd_play /\ action s = Some 3%nat /\ num_players c = 4%nat) /\
    (action s' = None /\ action t' = None /\ active s' = [true; true; true; true] /\ (num_streets c = 1 /\ street s' = 1)%nat /\ community_cards s' = [] /\ community_cards t' = []) /\
    (hole_cards s' = [[demo_card 51]; [demo_card 0]; [demo_card 48]; [demo_card 1]] /\ hole_cards t' = [[demo_card 51]; [demo_card 0]; [demo_card 48]; [demo_card 49]]) /\
    (match evaluate (the_evaluator c) [demo_card 1] [], evaluate (the_evaluator c) [demo_card 49] [] with Ok v, Ok v' => v' <? v | _, _ => false end = true) /\
    (covered_foldsb (show_of c s') = true /\ regular_tiesb (show_of c s') = true) /\
    (covered_foldsb (show_of c t') = true /\ regular_tiesb (show_of c t') = true) /\
    last_out c s 7 = Some [7; -7; 7; -7] /\ last_out c t 7 = Some [2; -6; 2; 2]).
  { play odd_game (@nil op) c s0 E. split; [exact (played_fair _ _ _ _ E)|]. cbv zeta. plays E. }
  destruct K as (c & s0 & F & (A1 & A2) & (B1 & B1' & B2 & B3) & (C1 & C2 & C3 & (C4 & C5) & C6 & C7) & (D1 & D2) & G & (L1 & L2) & (M1 & M2) & P1 & P2).
  pose proof (fair_run c s0 (odd_deal 1) F A1 eq_refl) as Fs. pose proof (fair_run c s0 (odd_deal 49) F A2 eq_refl) as Ft.
  set (s := run c s0 (odd_deal 1)) in *. set (t := run c s0 (odd_deal 49)) in *. clearbody s t. clear A1 A2 F s0.
  rewrite <- B1 in B1'. clear B1. rename B1' into B1.
  specialize (H c s t (PyInt 7) 3%nat Fs Ft). cbv zeta in H. destruct H as (out & out' & H1 & H2 & _ & H3).
  - unfold in_progress. rewrite B2. discriminate.
  - clear - B1. unfold play_of in B1. injection B1 as Q1 Q2 Q3 Q4 Q5 Q6 Q7 Q8 Q9 Q10 Q11 Q12. split; assumption.
  - exact C1.
  - exact C2.
  - rewrite C3. cbn. lia.
  - rewrite C4, C5. lia.
  - now rewrite C6, C7.
  - intros j Nj. rewrite D1, D2. destruct j as [|[|[|[|j]]]]; try reflexivity. now destruct Nj.
  - rewrite D1, D2, C6, C7. cbn [nth]. intros v v' V V'. rewrite V, V' in G. lia.
  - rewrite B3. lia.
  - unfold is_active. rewrite C3. reflexivity.
  - now apply covered_foldsb_ok.
  - now apply regular_tiesb_ok.
  - now apply covered_foldsb_ok.
  - now apply regular_tiesb_ok.
  - unfold last_out in P1, P2. rewrite H1 in P1. rewrite H2 in P2. injection P1 as P1. injection P2 as P2. specialize (H3 1%nat). rewrite P1, P2, B3 in H3. cbn [nth] in H3. lia.
Qed.
Print Assumptions C84_refuted.
