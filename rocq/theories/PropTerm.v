(** * PropTerm: C32, every hand comes to an end *)
From Coq Require Import ZifyBool ZifyNat Arith.
From Verif Require Import PyBase PyFacts CardModel EvalModel EngineModel EngineSpec EngineFacts BetFacts EngineDemo MoneyFacts PropRound HandEnd PropShow PropSide SolventSpec SolventFacts.

(** every step taken while the hand is in progress returns (does not raise) *)
Definition no_step_raises (c : config) (s : state) (bs : list pynum) : Prop :=
  forall k b, nth_error bs k = Some b -> in_progress (run_steps c s (firstn k bs)) ->
    is_ok (snd (step c (run_steps c s (firstn k bs)) b)) = true.

(** chips that can still be bet, players who can still fold, streets that can still come *)
Definition moves_left (c : config) (s : state) : Z :=
  sumZ (map Z.abs (stacks s)) + count_true (active s) + Z.of_nat (num_streets c - street s).
Lemma abs_add_at l i v : (i < List.length l)%nat -> sumZ (map Z.abs (add_at l i v)) = sumZ (map Z.abs l) - Z.abs (nth i l 0) + Z.abs (nth i l 0 + v).
Proof.
  unfold add_at. revert i; induction l as [|x l IH]; intros i Hi; [cbn in Hi; lia|]. destruct i as [|i].
  - cbn [upd map nth]. rewrite !sumZ_cons. lia.
  - cbn [upd map nth]. rewrite !sumZ_cons, IH by (cbn in Hi; lia). lia.
Qed.
Lemma abs_sum_nonneg l : 0 <= sumZ (map Z.abs l).
Proof. induction l as [|x l IH]; [cbn; lia|]. cbn [map]. rewrite sumZ_cons. lia. Qed.

(** nothing has to be done by this player before the street is over *)
Definition at_rest (s : state) (u : nat) : Prop :=
  nth u (street_option s) false = true /\ (street_committed s u = maxZ (street_commits s) \/ stack_of s u = 0).
(** the players in the hand who sit [k] or more seats after [a] are at rest *)
Definition rest_from (c : config) (s : state) (a k : nat) : Prop :=
  forall d, (k <= d < num_players c)%nat -> is_active s ((a + d) mod num_players c) -> at_rest s ((a + d) mod num_players c).

Lemma all_rest_agreed c s a : cfg_wf c -> (a < num_players c)%nat -> is_active s a ->
  List.length (active s) = num_players c -> List.length (stacks s) = num_players c ->
  List.length (street_commits s) = num_players c -> List.length (street_option s) = num_players c ->
  ring (num_players c) (active s) (street_option s) None -> rest_from c s a 0 -> all_agreed s = true.
Proof.
  intros W La Aa L1 L2 L3 L4 R Q.
  assert (G : forall j, (j < num_players c)%nat -> is_active s j -> at_rest s j).
  { intros j Hj Aj. pose proof (Q ((j + num_players c - a) mod num_players c)%nat) as X.
    rewrite Nat.add_mod_idemp_r in X by lia. replace (a + (j + num_players c - a))%nat with (j + 1 * num_players c)%nat in X by lia.
    rewrite Nat.mod_add, (Nat.mod_small j) in X by lia. apply X; [|exact Aj]. split; [lia|]. apply Nat.mod_upper_bound. lia. }
  unfold all_agreed. apply andb_true_iff. split.
  - apply all_true_spec. rewrite L4. apply (ring_all _ (active s) _ a La Aa R). intros j Hj Aj. now apply G.
  - assert (Lc : List.length (combine (combine (street_commits s) (stacks s)) (active s)) = num_players c) by (rewrite !combine_length; lia).
    apply all_true_spec. rewrite map_length, Lc. intros j Hj. rewrite (map_nth_lt _ _ _ _ (0, 0, false)) by lia.
    rewrite combine_nth_lt by (rewrite ?combine_length; lia). rewrite combine_nth_lt by lia.
    destruct (nth j (active s) false) eqn:Aj; [|cbn [negb]; lia]. destruct (G j Hj Aj) as [_ X]. unfold street_committed, stack_of in X. lia.
Qed.

(** one step: something is used up, or one seat fewer is not at rest *)
Lemma settle_uses c s b a k s1 : money c s -> ring (num_players c) (active s) (street_option s) None -> action s = Some a ->
  after_bet c s b = Some s1 -> rest_from c s a (S k) ->
  moves_left c (settle c s1) < moves_left c s \/
  (moves_left c (settle c s1) = moves_left c s /\ k <> O /\
   exists a', action (settle c s1) = Some a' /\ rest_from c (settle c s1) a' k).
Proof.
  intros M Rg Ha H1 Q. pose proof (mo_cfg _ _ M) as W. pose proof (mo_wf _ _ M) as Iw.
  pose proof (cw_two _ W) as H2. destruct (wf_turn _ _ Iw a Ha) as [La Ea].
  assert (Hp : in_progress s) by (unfold in_progress; congruence).
  destruct (after_bet_effect c s b s1 H1) as (a0 & call & mi & ma & bet & folds & B).
  assert (Ea0 : a0 = a) by (pose proof (be_turn _ _ _ _ _ _ _ _ _ _ B) as X; rewrite Ha in X; now injection X). subst a0.
  pose proof (money_limits c s a call mi ma M Ha (be_sizes _ _ _ _ _ _ _ _ _ _ B)) as L.
  destruct (be_round _ _ _ _ _ _ _ _ _ _ B) as (z & Hz & Hs). pose proof (settled_bet s a call mi ma b z L Hz) as G. rewrite Hs in G.
  destruct G as (G1 & G2 & G3 & G4 & G5 & G6).
  pose proof (bet_sizes_street c s _ W (be_sizes _ _ _ _ _ _ _ _ _ _ B)) as Hst.
  destruct (after_bet_wf c s b s1 W Iw H1) as (A1 & A2 & A3 & A4 & A5 & A6 & A7 & A8 & A9 & A10 & _).
  assert (S1 : sumZ (map Z.abs (stacks s1)) = sumZ (map Z.abs (stacks s)) - Z.abs (Z.min (nth a (stacks s) 0) bet)).
  { rewrite (be_stacks _ _ _ _ _ _ _ _ _ _ B), abs_add_at by (rewrite (wf_stacks _ _ Iw); exact La). lia. }
  assert (C1 : count_true (active s1) = count_true (active s) - b2z folds).
  { rewrite (be_active _ _ _ _ _ _ _ _ _ _ B). destruct folds; [rewrite count_true_upd_false by exact Ea|]; cbn [b2z]; lia. }
  unfold moves_left. rewrite (sk_stacks _ _ (settle_keep c s1 W)), (sk_active _ _ (settle_keep c s1 W)), S1, C1.
  destruct (settle_cases c s1 W) as [[Ag Es]|[Ag Es]].
  - rewrite Es, (be_street _ _ _ _ _ _ _ _ _ _ B) in *. destruct folds; [left; cbn [b2z]; lia|]. cbn [b2z].
    destruct (Z_lt_le_dec (nth a (stacks s) 0) 0) as [Neg|Na]; [left; lia|]. specialize (G4 Na).
    destruct (Z.eq_dec bet 0) as [Eb|Nb]; [|left; lia]. right. subst bet. split; [lia|].
    assert (Ea1 : active s1 = active s) by (rewrite (be_active _ _ _ _ _ _ _ _ _ _ B); reflexivity).
    assert (Et1 : street_commits s1 = street_commits s).
    { rewrite (be_street_commits _ _ _ _ _ _ _ _ _ _ B). replace (Z.min (nth a (stacks s) 0) 0) with 0 by lia.
      unfold add_at. rewrite Z.add_0_r. apply upd_self. }
    assert (Es1 : stacks s1 = stacks s).
    { rewrite (be_stacks _ _ _ _ _ _ _ _ _ _ B). replace (Z.min (nth a (stacks s) 0) 0) with 0 by lia.
      unfold add_at. cbn [Z.opp]. rewrite Z.add_0_r. apply upd_self. }
    assert (Rk : forall u, at_rest s u -> at_rest s1 u).
    { intros u [U1 U2]. split; [|unfold street_committed, stack_of in *; rewrite Et1, Es1; exact U2].
      apply (be_opt2 _ _ _ _ _ _ _ _ _ _ B). destruct (Nat.eq_dec u a) as [->|Hu]; [apply upd_nth_same; rewrite (wf_option _ _ Iw); exact La|].
      rewrite upd_nth_other by congruence. exact U1. }
    assert (Ra : at_rest s1 a).
    { split; [apply (be_opt2 _ _ _ _ _ _ _ _ _ _ B), upd_nth_same; rewrite (wf_option _ _ Iw); exact La|].
      unfold street_committed, stack_of. rewrite Et1, Es1. destruct (G6 eq_refl Na) as [_ G6'].
      pose proof (li_call _ _ _ _ _ L) as Lc. pose proof (li_raw _ _ _ _ _ L) as Lr. unfold raw_call in *. lia. }
    destruct (be_next _ _ _ _ _ _ _ _ _ _ B a La La ltac:(rewrite Ea1; exact Ea)) as (a' & T1 & T2 & T3 & (i & Hi & Ei & _ & Bt)).
    assert (Q1 : rest_from c s1 a' k).
    { intros d Hd. unfold is_active. rewrite Ei, Ea1. rewrite Nat.add_mod_idemp_l by lia. intros Ad.
      destruct (Nat.lt_ge_cases (i + d) (num_players c)) as [Lt|Ge].
      - apply Rk. rewrite <- Nat.add_assoc in *. apply Q; [lia|exact Ad].
      - replace (a + i + d)%nat with (a + (i + d - num_players c) + 1 * num_players c)%nat in * by lia.
        rewrite Nat.mod_add in * by lia.
        destruct (Nat.eq_dec (i + d) (num_players c)) as [E|E].
        + replace (i + d - num_players c)%nat with O in * by lia. rewrite Nat.add_0_r, Nat.mod_small in * by lia. exact Ra.
        + exfalso. rewrite Ea1 in Bt. rewrite (Bt (i + d - num_players c)%nat ltac:(lia)) in Ad. discriminate. }
    split; [|exists a'; split; [exact T1|exact Q1]].
    intros ->. enough (all_agreed s1 = true) by congruence.
    apply (all_rest_agreed c s1 a'); try assumption.
    exact (after_bet_ring c s b s1 W Iw H1 Rg).
  - left. pose proof (se_street _ _ _ (ne_street _ _ _ Es)) as X. rewrite X, (be_street _ _ _ _ _ _ _ _ _ _ B).
    destruct folds; destruct (all_all_in s1); cbn [b2z]; lia.
Qed.

Lemma step_uses c s b a k : fair c s -> action s = Some a -> after_bet c s b <> None ->
  in_progress (fst (step c s b)) -> rest_from c s a (S k) ->
  moves_left c (fst (step c s b)) < moves_left c s \/
  (moves_left c (fst (step c s b)) = moves_left c s /\ k <> O /\
   exists a', action (fst (step c s b)) = Some a' /\ rest_from c (fst (step c s b)) a' k).
Proof.
  intros F Ha Hok Hp' Q. pose proof (fair_money c s F) as M.
  assert (Hp : in_progress s) by (unfold in_progress; congruence).
  pose proof (mo_cfg _ _ M) as W. pose proof (mo_wf _ _ M) as Iw. destruct (wf_turn _ _ Iw a Ha) as [La Ea].
  destruct (step_take c s b a W Ha) as [(_ & _ & X)|(call & mi & ma & bet & folds & s1 & H1 & P)]; [contradiction|].
  destruct (parts_going _ _ _ _ _ _ _ _ _ _ _ a W Iw La P Hp') as [_ E']. rewrite E'.
  exact (settle_uses c s b a k s1 M (reachable_ring c s (fair_reachable _ _ F) Hp) Ha H1 Q).
Qed.
Lemma run_idle c s bs : action s = None -> run_steps c s bs = s.
Proof.
  intros H. induction bs as [|b bs IH]; [reflexivity|]. change (run_steps c s (b :: bs)) with (run_steps c (fst (step c s b)) bs).
  assert (E : fst (step c s b) = s) by (unfold step; now rewrite H). now rewrite E.
Qed.
(** the bets of the list are all taken, as long as the hand is in progress *)
Definition all_taken (c : config) (s : state) (bs : list pynum) : Prop :=
  forall k b, nth_error bs k = Some b -> in_progress (run_steps c s (firstn k bs)) -> after_bet c (run_steps c s (firstn k bs)) b <> None.
Lemma ends_within c bs : forall s a k, fair c s -> action s = Some a -> (S k <= num_players c)%nat -> rest_from c s a (S k) ->
  all_taken c s bs ->
  moves_left c s * Z.of_nat (num_players c) + Z.of_nat k < Z.of_nat (List.length bs) -> action (run_steps c s bs) = None.
Proof.
  induction bs as [|b bs IH]; intros s a k F Ha Hk Q R H.
  - exfalso. cbn [List.length] in H. assert (0 <= moves_left c s); [|nia]. unfold moves_left.
    pose proof (count_true_nonneg (active s)). pose proof (abs_sum_nonneg (stacks s)). lia.
  - change (run_steps c s (b :: bs)) with (run_steps c (fst (step c s b)) bs).
    assert (Hp : in_progress s) by (unfold in_progress; congruence).
    assert (Hok : after_bet c s b <> None) by exact (R O b eq_refl Hp).
    set (s' := fst (step c s b)) in *.
    destruct (action s') as [a'|] eqn:Ea'; [|rewrite run_idle; exact Ea'].
    assert (Hp' : in_progress s') by (unfold in_progress; congruence).
    assert (F' : fair c s') by exact (fair_op c s (OStep b) F I I).
    assert (R' : all_taken c s' bs) by (intros j x Hj Hx; exact (R (S j) x Hj Hx)).
    cbn [List.length] in H. rewrite Nat2Z.inj_succ in H.
    destruct (step_uses c s b a k F Ha Hok Hp' Q) as [D|(D & Dk & a'' & T & Q')]; fold s' in D.
    + apply (IH s' a' (num_players c - 1)%nat); try assumption; [lia|intros d Hd; lia|nia].
    + fold s' in T, Q'. rewrite Ea' in T. injection T as <-. apply (IH s' a' (k - 1)%nat); try assumption; [lia|replace (S (k - 1)) with k by lia; exact Q'|nia].
Qed.

(** ** C32 Every hand comes to an end *)
(** the number of bets after which a hand is over *)
Definition longest (c : config) (s : state) : Z :=
  (sumZ (map Z.abs (stacks s)) + count_true (active s) + Z.of_nat (num_streets c - street s) + 1) * Z.of_nat (num_players c).

(** If no step raises, the hand is over after that many bets. *)
Theorem C32_partial : forall c s bs, fair c s -> no_step_raises c s bs ->
  longest c s <= Z.of_nat (List.length bs) -> ~ in_progress (run_steps c s bs).
Proof.
  intros c s bs F R H. unfold in_progress. destruct (action s) as [a|] eqn:Ha; [|rewrite run_idle by exact Ha; rewrite Ha; auto].
  enough (E : action (run_steps c s bs) = None) by (rewrite E; auto).
  pose proof (cw_two _ (reachable_cfg c s (fair_reachable _ _ F))) as H2.
  apply (ends_within c bs s a (num_players c - 1)); try assumption; [lia|intros d Hd; lia| |unfold longest, moves_left in *; nia].
  intros k b Hk Hp X. specialize (R k b Hk Hp).
  destruct (step_anatomy c _ b Hp) as [(_ & _ & E)|(s1 & E & _)]; congruence.
Qed.
Print Assumptions C32_partial.

Lemma past_end c s bs : fair c s -> in_progress s -> (num_streets c <= street s)%nat -> run_steps c s bs = s.
Proof.
  intros F Hp H. induction bs as [|b bs IH]; [reflexivity|]. change (run_steps c s (b :: bs)) with (run_steps c (fst (step c s b)) bs).
  destruct (C35_stuck c s b (fair_reachable _ _ F) Hp H) as [E _]. now rewrite E.
Qed.
Lemma taken_or_stuck c bs : forall s, fair c s -> Forall (fun b => is_ok (py_round b) = true) bs ->
  all_taken c s bs \/ (in_progress (run_steps c s bs) /\ (num_streets c <= street (run_steps c s bs))%nat).
Proof.
  induction bs as [|b bs IH]; intros s F Hb; [left; intros [|k] b Hk; discriminate|]. inversion Hb as [|? ? Hb1 Hb2]; subst.
  change (run_steps c s (b :: bs)) with (run_steps c (fst (step c s b)) bs).
  destruct (action s) as [a|] eqn:Ha.
  2:{ left. intros k x _ Hp. exfalso. apply Hp. now rewrite run_idle. }
  assert (Hp : in_progress s) by (unfold in_progress; congruence).
  assert (W : cfg_wf c) by exact (reachable_cfg c s (fair_reachable _ _ F)).
  destruct (Nat.lt_ge_cases (street s) (num_streets c)) as [Lt|Ge].
  - assert (A : after_bet c s b <> None).
    { unfold after_bet. rewrite Ha. destruct (py_round b); [|discriminate]. destruct (bet_sizes_ok c s W Lt) as [[[x y] z] ->].
      destruct (settle_bet _ _ _ _ _). discriminate. }
    destruct (IH (fst (step c s b)) (fair_op c s (OStep b) F I I) Hb2) as [T|T]; [left|now right].
    intros [|k] x Hk Hx; [cbn in Hk; injection Hk as <-; exact A|]. exact (T k x Hk Hx).
  - right. destruct (C35_stuck c s b (fair_reachable _ _ F) Hp Ge) as [E _]. rewrite E, (past_end c s bs F Hp Ge). auto.
Qed.
(** Finite bets only: after that many bets the hand is over, or it stands at a showdown that cannot
    be paid out (see C35_exact), from where only a reset leads on. *)
Theorem C32_exact : forall c s bs, fair c s -> Forall (fun b => is_ok (py_round b) = true) bs ->
  longest c s <= Z.of_nat (List.length bs) ->
  let s' := run_steps c s bs in
  action s' = None \/
  (in_progress s' /\ (num_streets c <= street s')%nat /\ forall b, fst (step c s' b) = s' /\ is_ok (snd (step c s' b)) = false).
Proof.
  intros c s bs F Hb H. cbv zeta. destruct (action s) as [a|] eqn:Ha; [|left; now rewrite run_idle].
  destruct (taken_or_stuck c bs s F Hb) as [T|[T1 T2]].
  - left. pose proof (cw_two _ (reachable_cfg c s (fair_reachable _ _ F))) as H2.
    apply (ends_within c bs s a (num_players c - 1)); try assumption; [lia|intros d Hd; lia|unfold longest, moves_left in *; nia].
  - right. split; [exact T1|]. split; [exact T2|]. intros b. apply C35_stuck; try assumption.
    apply fair_reachable. clear - F. revert s F; induction bs as [|b bs IH]; intros s F; [exact F|]. exact (IH _ (fair_op c s (OStep b) F I I)).
Qed.
Print Assumptions C32_exact.

(** ** without the conditions the claim is false *)
Theorem C32_refuted : ~ forall c s, fair c s -> in_progress s ->
  exists N, forall bs, Forall (fun b => is_ok (py_round b) = true) bs -> (N <= List.length bs)%nat -> ~ in_progress (run_steps c s bs).
Proof.
  intros H. destruct C35_stuck_reached as (c & s & F & _ & _ & Hp & _ & Hs). cbv zeta in *.
  destruct (H c _ (fair_op c s (OStep (PyInt (-1))) F I I) Hp) as [N HN].
  apply (HN (repeat (PyInt 0) N)); [|rewrite repeat_length; lia|].
  - apply Forall_forall. intros b Hb. apply repeat_spec in Hb. subst b. reflexivity.
  - change (apply_op c s (OStep (PyInt (-1)))) with (fst (step c s (PyInt (-1)))). rewrite Hs. exact Hp.
Qed.
Print Assumptions C32_refuted.
(** a hand of three players with stacks of ten chips, after the first raise *)
Definition term_game := demo 3 2 [1; 2; 0] [0; 0; 0] [RawInf; RawInf] [RawCountInf; RawCountInf] [0; 1] 10.
Example C32_example : exists c s, fair c s /\ in_progress s /\ longest c s = 87 /\
  Forall (fun b => is_ok (py_round b) = true) (repeat (PyInt 3) 87) /\
  action (run_steps c s (repeat (PyInt 3) 87)) = None /\ action (run_steps c s (repeat (PyInt 3) 2)) <> None.
Proof.
  assert (K : exists c s, fair c s /\ action s = Some 1%nat /\ longest c s = 87 /\
    action (run_steps c s (repeat (PyInt 3) 87)) = None /\ action (run_steps c s (repeat (PyInt 3) 2)) = Some 1%nat).
  { play term_game (new_hand :: bets [4]) c s E. split; [exact (played_fair _ _ _ _ E)|]. plays E. }
  destruct K as (c & s & F & K1 & K2 & K3 & K4). exists c, s. split; [exact F|]. split; [unfold in_progress; rewrite K1; discriminate|].
  split; [exact K2|]. split; [apply Forall_forall; intros b Hb; apply repeat_spec in Hb; now rewrite Hb|]. split; [exact K3|rewrite K4; discriminate].
Qed.
