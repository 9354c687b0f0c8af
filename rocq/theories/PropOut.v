(** * PropOut: C98, a player who is out of chips stays out *)
From Coq Require Import ZifyBool ZifyNat Arith.
From Verif Require Import PyBase PyFacts CardModel EvalModel EngineModel EngineSpec EngineFacts BetFacts EngineDemo MoneyFacts
  PropRound ShowSpec ShowFacts SideFacts SideExists HandEnd PropSide SolventSpec
  NumpyModel NumpySpec NumpyFacts PropNumpy PropNumpyRound PropSolvent PropBetting PropShow SolventFacts.

(** ** Specification *)
(** no chips left, and no part in the hand that is being played *)
Definition out_of_chips (s : state) (i : nat) : Prop :=
  stack_of s i = 0 /\ (in_progress s -> ~ is_active s i /\ committed s i = 0).
(** nobody is given new chips by the caller *)
Definition no_rebuy (o : op) : Prop :=
  match o with OReset _ _ rs => rs = false | OSetStacks _ => False | _ => True end.
(** a hand that ends by this call ends without showdown, or with the button at seat 0 *)
Definition quiet_end (c : config) (s : state) (o : op) : Prop :=
  match o with
  | OStep b => let s' := fst (step c s b) in
      in_progress s -> action s' = None -> count_true (active s') = 1 \/ (street s' < num_streets c)%nat \/ button s' = O
  | _ => True
  end.
(** [t] is reached from [s] by any further calls without new chips and without debts *)
Inductive later (c : config) (s : state) : state -> Prop :=
| later_now : later c s s
| later_op t o : later c s t -> allowed c t o -> no_rebuy o -> quiet_end c t o ->
    match o with OReset rnd rb rs => no_debts (fst (reset c t rnd rb rs)) | _ => True end ->
    later c s (apply_op c t o).
(** the array dealer: no condition on how the hands end *)
Inductive np_later (c : config) (s : state) : state -> Prop :=
| np_later_now : np_later c s s
| np_later_op t o : np_later c s t -> np_allowed c t o -> no_rebuy o ->
    match o with OReset rnd rb rs => no_debts (fst (np_reset c t rnd rb rs)) | _ => True end ->
    np_later c s (np_apply_op c t o).

(** ** The list dealer *)
Lemma reset_keeps_out c s rnd rb i : money c s -> allowed c s (OReset rnd rb false) -> (i < num_players c)%nat -> out_of_chips s i ->
  out_of_chips (fst (reset c s rnd rb false)) i.
Proof.
  intros M Al Hi [O1 O2]. pose proof (mo_cfg _ _ M) as W. pose proof (mo_wf _ _ M) as I.
  destruct (is_ok (snd (reset c s rnd rb false))) eqn:Eok.
  - destruct (reset_spec c s rnd rb false W I) as [(_ & _ & X)|[(_ & X)|(_ & _ & _ & E)]]; [rewrite X in Eok; discriminate Eok|rewrite X in Eok; discriminate Eok|].
    assert (Ai : nth i (active (fst (reset c s rnd rb false))) false = false).
    { rewrite (re_active _ _ _ _ _ _ E). rewrite (nth_indep _ false (0 <? 0)) by (rewrite map_length, (wf_stacks _ _ I); exact Hi). rewrite map_nth.
      change (nth i (stacks s) 0) with (stack_of s i). rewrite O1. reflexivity. }
    destruct (reset_money_exact c s rnd rb false E W (mo_sane _ _ M) I) as [_ R2]. specialize (R2 i Hi). cbv beta iota in R2.
    assert (Ci : committed (fst (reset c s rnd rb false)) i = 0).
    { destruct (re_money _ _ _ _ _ _ E) as (st & ante & blind & M1 & M2 & M3 & M4 & M5 & M6 & M7 & M8 & _).
      unfold committed. rewrite M8, add_lists_nth by congruence. destruct (M7 i Hi) as (N1 & N2 & _). rewrite N1, N2, Ai, !andb_false_r. reflexivity. }
    split; [lia|]. intros _. unfold is_active. rewrite Ai. split; [discriminate|exact Ci].
  - destruct (reset_failed c s rnd rb false W I Eok) as (F1 & F2 & F3 & F4 & F5 & _). unfold allowed in Al. destruct Al as [Al|Al]; [|rewrite Al in Eok; discriminate Eok].
    split; [|intros P; exfalso; apply P; now rewrite F1]. unfold stack_of. rewrite F3. exact O1.
Qed.
Lemma step_keeps_out c s b i : equal_antes c -> solvent c s -> (i < num_players c)%nat -> quiet_end c s (OStep b) -> out_of_chips s i ->
  out_of_chips (fst (step c s b)) i.
Proof.
  intros Eq So Hi Q [O1 O2]. pose proof (solvent_fair c s So) as F. destruct (action s) as [a|] eqn:Ha.
  2:{ rewrite C38_state by exact Ha. split; [exact O1|]. intros P. exfalso. now apply P. }
  assert (Hp : in_progress s) by (unfold in_progress; rewrite Ha; discriminate). destruct (O2 Hp) as [O3 O4].
  assert (Na : i <> a). { intros ->. apply O3. exact (proj2 (wf_turn _ _ (reachable_wf c s (fair_reachable _ _ F)) a Ha)). }
  destruct (action (fst (step c s b))) as [a'|] eqn:Ha'.
  - destruct (C27_others_untouched c s a b i (fair_reachable _ _ F) Ha Na) as (K1 & K2 & K3); [unfold in_progress; rewrite Ha'; discriminate|].
    split; [lia|]. intros _. split; [tauto|lia].
  - split; [|intros P; exfalso; now apply P].
    destruct (C37_payout c s b F Hp Ha') as (out & Ho & P). destruct (P i Hi) as (_ & P2 & P3 & P4).
    destruct (C26_stays_out c s [b] i (fair_reachable _ _ F) O3) as [Aw Cw]. change (run_steps c s [b]) with (fst (step c s b)) in Aw, Cw.
    unfold put_in in P2. enough (X : nth i (out_payouts out) 0 = - committed (fst (step c s b)) i) by lia.
    destruct (Q Hp Ha') as [Q1|[Q1|Q1]].
    + destruct (C36_no_showdown c s b F Hp Ha' (or_introl Q1)) as (out' & Ho' & K). rewrite Ho in Ho'. injection Ho' as <-. now apply K.
    + destruct (C36_no_showdown c s b F Hp Ha' (or_intror Q1)) as (out' & Ho' & K). rewrite Ho in Ho'. injection Ho' as <-. now apply K.
    + destruct (C36_partial c s b Eq So Hp Ha' Q1) as (out' & Ho' & K). rewrite Ho in Ho'. injection Ho' as <-. now apply K.
Qed.
(** Missing for the full statement: showdowns with the button elsewhere, in which it fails. *)
Theorem C98_partial : forall c s t i, equal_antes c -> solvent c s -> (i < num_players c)%nat ->
  out_of_chips s i -> later c s t -> out_of_chips t i.
Proof.
  intros c s t i Eq So Hi Hs L. enough (K : solvent c t /\ out_of_chips t i) by apply K.
  induction L as [|t o L IH Al Nr Qe Nd]; [now split|]. destruct IH as [IH1 IH2]. split.
  - apply solvent_op; [exact IH1|exact Al|]. destruct o; try exact Nd. destruct Nr.
  - destruct o as [rnd rb rs|b|cs| |l]; cbn [apply_op no_rebuy] in *.
    + subst rs. apply reset_keeps_out; [exact (fair_money _ _ (solvent_fair _ _ IH1))|exact Al|exact Hi|exact IH2].
    + now apply step_keeps_out.
    + destruct (deck_trick cs (the_deck t)); exact IH2.
    + exact IH2.
    + destruct Nr.
Qed.
Print Assumptions C98_partial.
(** With the button anywhere, one bet brings back at most one of the players who are out. *)
Theorem C98_at_most_one : forall c s b, equal_antes c -> solvent c s ->
  exists q, forall i, (i < num_players c)%nat -> i <> q -> out_of_chips s i -> out_of_chips (fst (step c s b)) i.
Proof.
  intros c s b Eq So. pose proof (solvent_fair c s So) as F. destruct (action s) as [a|] eqn:Ha.
  2:{ exists O. intros i _ _ X. now rewrite C38_state by exact Ha. }
  assert (Hp : in_progress s) by (unfold in_progress; rewrite Ha; discriminate).
  destruct (action (fst (step c s b))) as [a'|] eqn:Ha'.
  { exists O. intros i Hi _ X. apply step_keeps_out; try assumption. intros _ Y. rewrite Ha' in Y. discriminate Y. }
  destruct (C36_all_but_one c s b Eq So Hp Ha') as (out & q & Ho & K). exists q. intros i Hi Nq [O1 O2]. destruct (O2 Hp) as [O3 O4].
  split; [|intros P; exfalso; now apply P]. destruct (C37_payout c s b F Hp Ha') as (out' & Ho' & P). rewrite Ho in Ho'. injection Ho' as <-. destruct (P i Hi) as (_ & P2 & _).
  destruct (C26_stays_out c s [b] i (fair_reachable _ _ F) O3) as [Aw Cw]. change (run_steps c s [b]) with (fst (step c s b)) in Aw, Cw.
  specialize (K i Hi Aw Nq). unfold put_in in P2. lia.
Qed.
Print Assumptions C98_at_most_one.
(** The odd chip of a showdown goes to a seat that is out of chips: the button is at seat 1, seats 0 and 2 tie for 17 chips, and
    seat 1, which has no chips and no part in the hand, is given one of them, and is dealt in again by the next reset. *)
Definition out_game := demo 4 1 [1; 3; 0; 0] [0; 0; 0; 0] [RawInf] [RawCountInf] [0] 20.
Definition out_ops := [OReset [] true true] ++ bets [-1; -1; -1] ++ [OTrick [demo_card 51; demo_card 10; demo_card 48; demo_card 0]; OSetStacks [20; 0; 20; 20]; OReset [] false false] ++ bets [7; 6].
Definition back_in (c : config) (s : state) : state := fst (reset c (fst (step c s (PyInt (-1)))) [] false false).
Theorem C98_refuted : ~ forall c s b i, equal_antes c -> solvent c s -> (i < num_players c)%nat -> out_of_chips s i ->
  out_of_chips (fst (step c s b)) i.
Proof.
  intros H.
  assert (K : exists c s, solvent c s /\ num_players c = 4%nat /\ antes c = [0; 0; 0; 0] /\ stacks s = [13; 0; 13; 17] /\ active s = [true; false; true; true] /\
    pot_commits s = [7; 0; 7; 3] /\ stacks (fst (step c s (PyInt (-1)))) = [21; 1; 21; 17]).
  { play out_game out_ops c s E. split; [apply (played_solvent _ _ _ _ E); vm_compute; reflexivity|]. plays E. }
  destruct K as (c & s & So & K1 & K2 & K3 & K4 & K5 & K6). destruct (H c s (PyInt (-1)) 1%nat) as [X _].
  - unfold equal_antes. rewrite K2. exists 0. repeat constructor.
  - exact So.
  - rewrite K1. lia.
  - unfold out_of_chips, stack_of, is_active, committed. rewrite K3, K4, K5. cbn [nth]. split; [reflexivity|]. intros _. split; [discriminate|reflexivity].
  - unfold stack_of in X. rewrite K6 in X. discriminate X.
Qed.
Print Assumptions C98_refuted.
Example C98_refuted_example : exists c s, solvent c s /\ active s = [true; false; true; true] /\ stacks s = [13; 0; 13; 17] /\
  stacks (fst (step c s (PyInt (-1)))) = [21; 1; 21; 17] /\ active (back_in c s) = [true; true; true; true] /\ action (back_in c s) = Some 1%nat.
Proof. play out_game out_ops c s E. split; [apply (played_solvent _ _ _ _ E); vm_compute; reflexivity|]. plays E. Qed.

(** ** The array dealer *)
Lemma np_step_keeps_out c s b i : equal_antes c -> np_solvent c s -> (i < num_players c)%nat -> out_of_chips s i ->
  out_of_chips (fst (np_step c s b)) i.
Proof.
  intros Eq So Hi [O1 O2]. pose proof (np_solvent_fair c s So) as F. destruct (action s) as [a|] eqn:Ha.
  2:{ unfold np_step. rewrite Ha. split; [exact O1|]. intros P. exfalso. now apply P. }
  assert (Hp : in_progress s) by (unfold in_progress; rewrite Ha; discriminate). destruct (O2 Hp) as [O3 O4].
  assert (Na : i <> a).
  { intros ->. apply O3. pose proof (mo_wf _ _ (np_fair_money c s F)) as I. pose proof (np_fair_money c s F) as M.
    exact (proj2 (wf_turn _ _ I a Ha)). }
  destruct (C95_others c s a b i F Ha Na) as (K1 & K2 & K3).
  destruct (action (fst (np_step c s b))) as [a'|] eqn:Ha'.
  - split; [rewrite K3; [exact O1|unfold in_progress; rewrite Ha'; discriminate]|]. intros _. split; [tauto|lia].
  - split; [|intros P; exfalso; now apply P]. destruct (C65_payouts c s b F Hp Ha') as (out & Ho & _ & _ & P). destruct (P i Hi) as (_ & P2 & _).
    enough (X : nth i (out_payouts out) 0 = - committed (fst (np_step c s b)) i) by lia.
    assert (Aw : ~ is_active (fst (np_step c s b)) i) by tauto.
    destruct (Z.le_gt_cases 2 (count_true (active (fst (np_step c s b))))) as [C|C].
    + destruct (C66_solvent c s b Eq So Hp Ha' C) as (out' & pots & Ho' & _ & _ & K). rewrite Ho in Ho'. injection Ho' as <-. now apply K.
    + destruct (np_step_ended c s b (np_fair_money c s F) Hp Ha') as (z & pay & o & E). pose proof (ne_settled _ _ _ _ _ _ E) as Z.
      rewrite (ne_out _ _ _ _ _ _ E) in Ho. injection Ho as <-. cbn [out_payouts]. rewrite (ne_state _ _ _ _ _ _ E) in *.
      unfold is_active, committed in *. cbn [finish_hand active pot_commits] in *. pose proof (ns_count _ _ _ _ Z) as C1. pose proof (ne_pay _ _ _ _ _ _ E) as Py.
      rewrite np_payouts_same in Py by (left; lia). destruct (payouts_fold c z ltac:(lia) (ns_active _ _ _ _ Z) (ns_commits _ _ _ _ Z)) as (pay' & P' & K).
      rewrite Py in P'. injection P' as <-. rewrite (K i Hi). apply not_true_is_false in Aw. rewrite Aw. reflexivity.
Qed.
(** Missing for the full statement: unequal antes and debts. *)
Theorem C98_array_partial : forall c s t i, equal_antes c -> np_solvent c s -> (i < num_players c)%nat ->
  out_of_chips s i -> np_later c s t -> out_of_chips t i.
Proof.
  intros c s t i Eq So Hi Hs L. enough (K : np_solvent c t /\ out_of_chips t i) by apply K.
  induction L as [|t o L IH Al Nr Nd]; [now split|]. destruct IH as [IH1 IH2]. split.
  - apply np_solvent_op; [exact IH1|exact Al|]. destruct o; try exact Nd. destruct Nr.
  - destruct o as [rnd rb rs|b|cs| |l]; cbn [np_apply_op no_rebuy] in *.
    + subst rs. pose proof (np_fair_money _ _ (np_solvent_fair _ _ IH1)) as M. pose proof (mo_cfg _ _ M) as W. destruct (np_reset_wrap c t rnd rb false W) as [E1 _].
      change (out_of_chips (wrap c (fst (np_reset c t rnd rb false))) i). rewrite E1.
      apply reset_keeps_out; [exact M|exact (np_allowed_wrap c t rnd rb false W Al)|exact Hi|exact IH2].
    + now apply np_step_keeps_out.
    + destruct (deck_trick cs (the_deck t)); exact IH2.
    + exact IH2.
    + destruct Nr.
Qed.
Print Assumptions C98_array_partial.
(** With unequal antes the chips of a folded player that nobody else has matched are shared by all seats, the empty ones too:
    seat 1, which has no chips and no part in the hand, is given 4 chips. *)
Definition np_out_game := demo 4 1 [1; 2; 0; 0] [0; 9; 0; 0] [RawInf] [RawCountInf] [0] 20.
Definition np_out_ops := [OTrick [demo_card 10; demo_card 51; demo_card 48; demo_card 0]; new_hand] ++ bets [-1; -1; -1] ++ [OSetStacks [20; 0; 20; 20]; OReset [] true false] ++ bets [4; 3].
Theorem C98_array_refuted : ~ forall c s b i, np_solvent c s -> (i < num_players c)%nat -> out_of_chips s i ->
  out_of_chips (fst (np_step c s b)) i.
Proof.
  intros H.
  assert (K : exists c s, np_solvent c s /\ num_players c = 4%nat /\ stacks s = [16; 0; 16; 9] /\ active s = [true; false; true; true] /\
    pot_commits s = [4; 0; 4; 11] /\ stacks (fst (np_step c s (PyInt (-1)))) = [17; 4; 29; 10]).
  { np_play np_out_game np_out_ops c s E. split; [apply (np_played_solvent _ _ _ _ E); vm_compute; reflexivity|]. np_plays E. }
  destruct K as (c & s & So & K1 & K3 & K4 & K5 & K6). destruct (H c s (PyInt (-1)) 1%nat) as [X _].
  - exact So.
  - rewrite K1. lia.
  - unfold out_of_chips, stack_of, is_active, committed. rewrite K3, K4, K5. cbn [nth]. split; [reflexivity|]. intros _. split; [discriminate|reflexivity].
  - unfold stack_of in X. rewrite K6 in X. discriminate X.
Qed.
Print Assumptions C98_array_refuted.

(** the hypotheses are met: the game above, in which the list dealer brings seat 1 back and the array dealer does not *)
Definition np_after (c : config) (s : state) : state := fst (np_step c s (PyInt (-1))).
Example C98_array_example : exists c s, equal_antes c /\ np_solvent c s /\ (1 < num_players c)%nat /\ out_of_chips s 1 /\ in_progress s /\
  np_later c s (np_after c s) /\ stacks (np_after c s) = [21; 0; 22; 17].
Proof.
  assert (K : exists c s, np_solvent c s /\ num_players c = 4%nat /\ antes c = [0; 0; 0; 0] /\ stacks s = [13; 0; 13; 17] /\ active s = [true; false; true; true] /\
    pot_commits s = [7; 0; 7; 3] /\ action s = Some 3%nat /\ stacks (np_after c s) = [21; 0; 22; 17]).
  { np_play out_game out_ops c s E. split; [apply (np_played_solvent _ _ _ _ E); vm_compute; reflexivity|]. np_plays E. }
  destruct K as (c & s & So & K1 & K2 & K3 & K4 & K5 & K6 & K7). exists c, s.
  split; [unfold equal_antes; rewrite K2; exists 0; repeat constructor|]. split; [exact So|]. split; [rewrite K1; lia|].
  split; [unfold out_of_chips, stack_of, is_active, committed; rewrite K3, K4, K5; cbn [nth]; split; [reflexivity|]; intros _; split; [discriminate|reflexivity]|].
  split; [unfold in_progress; rewrite K6; discriminate|]. split; [|exact K7].
  apply (np_later_op c s s (OStep (PyInt (-1)))); [apply np_later_now|exact I|exact I|exact I].
Qed.
(** the list dealer: the same hand, ended by the folds of seats 2 and 3; the next reset leaves seat 1 out *)
Definition after_folds (c : config) (s : state) : state := fst (step c (fst (step c s (PyInt (-1)))) (PyInt (-1))).
Definition next_hand (c : config) (s : state) : state := fst (reset c (after_folds c s) [] false false).
Example C98_example : exists c s, equal_antes c /\ solvent c s /\ (1 < num_players c)%nat /\ out_of_chips s 1 /\ in_progress s /\
  later c s (next_hand c s) /\ active (next_hand c s) = [true; false; true; true] /\ stacks (next_hand c s) = [21; 0; 19; 16].
Proof.
  assert (K : exists c s, solvent c s /\ num_players c = 4%nat /\ antes c = [0; 0; 0; 0] /\ stacks s = [13; 0; 19; 17] /\ active s = [true; false; true; true] /\
    pot_commits s = [7; 0; 1; 3] /\ action s = Some 2%nat /\ (action (fst (step c s (PyInt (-1)))) = Some 3%nat /\ count_true (active (after_folds c s)) = 1 /\
    is_ok (snd (reset c (after_folds c s) [] false false)) = true /\ stacks (next_hand c s) = [21; 0; 19; 16] /\ active (next_hand c s) = [true; false; true; true])).
  { play out_game ([OReset [] true true] ++ bets [-1; -1; -1] ++ [OSetStacks [20; 0; 20; 20]; OReset [] false false] ++ bets [7]) c s E. split; [apply (played_solvent _ _ _ _ E); vm_compute; reflexivity|]. plays E. }
  destruct K as (c & s & So & K1 & K2 & K3 & K4 & K5 & K6 & K7 & K8 & K9 & K10 & K11). exists c, s.
  split; [unfold equal_antes; rewrite K2; exists 0; repeat constructor|]. split; [exact So|]. split; [rewrite K1; lia|].
  split; [unfold out_of_chips, stack_of, is_active, committed; rewrite K3, K4, K5; cbn [nth]; split; [reflexivity|]; intros _; split; [discriminate|reflexivity]|].
  split; [unfold in_progress; rewrite K6; discriminate|]. split; [|split; [exact K11|exact K10]].
  apply (later_op c s (after_folds c s) (OReset [] false false)); [|right; exact K9|reflexivity|exact I|].
  - apply (later_op c s (fst (step c s (PyInt (-1)))) (OStep (PyInt (-1)))); [|exact I|exact I|intros _ _; left; exact K8|exact I].
    apply (later_op c s s (OStep (PyInt (-1)))); [apply later_now|exact I|exact I| |exact I].
    intros _ X. rewrite K7 in X. discriminate X.
  - intros j. unfold stack_of. change (fst (reset c (after_folds c s) [] false false)) with (next_hand c s). rewrite K10. destruct j as [|[|[|[|j]]]]; cbn [nth]; try lia. destruct j; lia.
Qed.
