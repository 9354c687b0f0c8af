(** * PropSolvent: stacks, and hands at tables where everybody can pay (C21, C34, C36) *)
From Coq Require Import ZifyBool ZifyNat Arith.
From Verif Require Import PyBase PyFacts CardModel EvalModel EngineModel EngineSpec EngineFacts BetFacts EngineDemo MoneyFacts PropRound ShowSpec ShowFacts SideFacts SideExists HandEnd PropShow PropSide SolventSpec SolventFacts.

(** ** C21 Stacks never go negative *)
(** no step makes a stack negative, whatever is bet and however the hand ends *)
Theorem C21_step : forall c s b, fair c s -> (forall i, 0 <= stack_of s i) -> forall i, 0 <= stack_of (fst (step c s b)) i.
Proof. intros c s b F N. now apply step_solvent. Qed.
Print Assumptions C21_step.
(** a reset makes a stack negative only if somebody cannot pay *)
Theorem C21_reset : forall c s rnd rb rs, fair c s -> (forall i, 0 <= stack_of s i) -> affordable c s rs ->
  is_ok (snd (reset c s rnd rb rs)) = true -> forall i, 0 <= stack_of (fst (reset c s rnd rb rs)) i.
Proof. intros c s rnd rb rs F N A H. now apply affordable_reset. Qed.
Print Assumptions C21_reset.
Theorem C21_partial : forall c s, solvent c s -> forall i, 0 <= stack_of s i.
Proof. intros c s S. exact (solvent_nonneg c s S). Qed.
Print Assumptions C21_partial.
(** a reset takes the whole blind from a player with fewer chips *)
Definition poor_game := demo 3 1 [1; 2; 0] [0; 0; 0] [RawInf] [RawCountInf] [0] 20.
Theorem C21_refuted : ~ forall c s rnd rb rs, fair c s -> (forall i, 0 <= stack_of s i) ->
  is_ok (snd (reset c s rnd rb rs)) = true -> forall i, 0 <= stack_of (fst (reset c s rnd rb rs)) i.
Proof.
  intros H.
  assert (K : exists c s, fair c s /\ stacks s = [5; 5; 1] /\ is_ok (snd (reset c s [] true false)) = true /\ stacks (fst (reset c s [] true false)) = [5; 4; -1]).
  { play poor_game [OSetStacks [5; 5; 1]] c s E. split; [exact (played_fair _ _ _ _ E)|]. plays E. }
  destruct K as (c & s & F & K1 & K2 & K3). specialize (H c s [] true false F).
  assert (N : forall i, 0 <= stack_of s i) by (intros i; unfold stack_of; rewrite K1; destruct i as [|[|[|[|i]]]]; cbn [nth]; lia).
  specialize (H N K2 2%nat). unfold stack_of in H. rewrite K3 in H. cbn [nth] in H. lia.
Qed.
Print Assumptions C21_refuted.

(** ** C36 Folded players win nothing: equal antes, the button at seat 0 *)
Theorem C36_partial : forall c s b, equal_antes c -> solvent c s -> in_progress s ->
  let s' := fst (step c s b) in
  action s' = None -> button s' = O ->
  exists out, snd (step c s b) = Ok out /\
    forall i, (i < num_players c)%nat -> ~ is_active s' i -> nth i (out_payouts out) 0 = - committed s' i.
Proof.
  intros c s b Eq S Hp. cbv zeta. intros Hn Hb. apply C36_covered; try assumption; [now apply solvent_fair|now apply step_covered_show].
Qed.
Print Assumptions C36_partial.
(** with the button anywhere, at most one seat that has folded can be given something: the odd chips *)
Theorem C36_all_but_one : forall c s b, equal_antes c -> solvent c s -> in_progress s ->
  let s' := fst (step c s b) in
  action s' = None ->
  exists out q, snd (step c s b) = Ok out /\
    forall i, (i < num_players c)%nat -> ~ is_active s' i -> i <> q -> nth i (out_payouts out) 0 = - committed s' i.
Proof.
  intros c s b Eq S Hp. cbv zeta. intros Hn. pose proof (solvent_fair c s S) as F. pose proof (step_covered_show c s b Eq S Hp) as Cov.
  destruct (step_ended c s b F Hp Hn) as (z & pay & o & E).
  pose proof (en_settled _ _ _ _ _ _ E) as Z. destruct (se_same _ _ _ _ Z) as (E1 & E2 & E3 & E4 & _). rewrite (show_of_same _ _ _ _ Z) in Cov.
  destruct (Z.eq_dec (count_true (active z)) 1) as [C|C].
  { destruct (C36_no_showdown c s b F Hp Hn ltac:(left; rewrite E1; exact C)) as (out & Ho & H). exists out, 0%nat. split; [exact Ho|]. intros i Hi Ai _. now apply H. }
  destruct (Nat.lt_ge_cases (street z) (num_streets c)) as [L|L].
  { destruct (C36_no_showdown c s b F Hp Hn ltac:(right; rewrite E3; exact L)) as (out & Ho & H). exists out, 0%nat. split; [exact Ho|]. intros i Hi Ai _. now apply H. }
  destruct (show_payouts c z C L (se_commits _ _ _ _ Z) (se_hole _ _ _ _ Z) (se_button _ _ _ _ Z) (se_nonneg _ _ _ _ Z) (or_introl (se_pot _ _ _ _ Z))) as [(e & _ & X)|(st & X & G & T & P)];
    [rewrite (en_pay _ _ _ _ _ _ E) in X; discriminate|].
  cbv zeta in *. destruct (eval_hands_spec c z st (se_hole _ _ _ _ Z) X) as [Ls Hst].
  assert (Sh : forall j, (j < num_players c)%nat -> nth j (active z) false = false -> share (pots_of c z st) j = 0).
  { intros j Hj Aj. apply (show_out (show_of c z) (worst_hand c) st (pot_commits z) (num_players c) j); try assumption; try reflexivity; [apply Z| |].
    - intros k Hk Ak. destruct (Hst k Hk) as [H _]. now apply H.
    - intros k Hk Ak. destruct (Hst k Hk) as [_ H]. now apply H. }
  exists (mkOut o pay (done_list c z)). rewrite (en_pay _ _ _ _ _ _ E) in P. cbn [out_payouts]. unfold is_active, committed. rewrite E1, E2.
  destruct (odd_chips (pots_of c z st) =? 0) eqn:E0.
  - injection P as ->. exists 0%nat. split; [apply E|]. intros i Hi Ai _. apply not_true_is_false in Ai.
    rewrite sub_lists_nth by (rewrite base_length; symmetry; apply Z). rewrite base_nth by exact Hi. rewrite (Sh i Hi Ai). lia.
  - destruct (first_after _ _ _) as [q|] eqn:Eq'; [|discriminate]. injection P as ->. apply first_after_spec in Eq'. destruct Eq' as (Q1 & _).
    exists (q - button z)%nat. split; [apply E|]. intros i Hi Ai Ne. apply not_true_is_false in Ai.
    rewrite sub_lists_nth by (rewrite add_at_length, base_length; symmetry; apply Z). rewrite add_at_nth by (rewrite base_length; lia).
    replace (Nat.eqb i (q - button z)) with false by lia. rewrite base_nth by exact Hi. rewrite (Sh i Hi Ai). lia.
Qed.
Print Assumptions C36_all_but_one.

(** ** C34 Side pots: with equal antes only the ties matter *)
Theorem C34_solvent_partial : forall c s b, equal_antes c -> solvent c s -> in_progress s ->
  let s' := fst (step c s b) in
  action s' = None -> 2 <= count_true (active s') -> (num_streets c <= street s')%nat -> regular_ties (show_of c s') ->
  exists out pots, snd (step c s b) = Ok out /\ side_pots (show_of c s') 0 pots /\
    exists q, (q < num_players c)%nat /\ forall i, (i < num_players c)%nat ->
       nth i (out_payouts out) 0 + committed s' i = share pots i + (if Nat.eqb i q then odd_chips pots else 0).
Proof.
  intros c s b Eq S Hp. cbv zeta. intros Hn Hc Hs Reg.
  destruct (C34_partial c s b (solvent_fair c s S) Hp Hn Hc Hs (step_covered_show c s b Eq S Hp) Reg) as (out & pots & H1 & H2 & H3 & H4 & H5).
  exists out, pots. auto.
Qed.
Print Assumptions C34_solvent_partial.
(** two side pots and a folded player, in a hand played after another one *)
Definition side_hand := [OTrick [demo_card 44; demo_card 8; demo_card 48; demo_card 45]; OSetStacks [10; 21; 5; 20]; OReset [] true false] ++ bets [20; 20; 20].
Example C21_example : exists c s, solvent c s /\ equal_antes c /\ in_progress s /\
  let s' := fst (step c s (PyInt 20)) in
  action s' = None /\ count_true (active s') = 4 /\ button s' = O /\ regular_ties (show_of c s') /\ stacks s' = [7; 1; 21; 27].
Proof.
  play side_game side_hand c s E. split; [apply (played_solvent _ _ _ _ E); vm_compute; reflexivity|].
  split; [exists 0; assert (X : antes c = [0; 0; 0; 0]) by by_play E; rewrite X; repeat constructor|].
  split; [unfold in_progress; assert (X : action s = Some 2%nat) by by_play E; rewrite X; discriminate|].
  cbv zeta. split; [by_play E|]. split; [by_play E|]. split; [by_play E|]. split; [apply regular_tiesb_ok; by_play E|]. by_play E.
Qed.
Example C36_partial_example : exists c s, solvent c s /\ equal_antes c /\ in_progress s /\
  let s' := fst (step c s (PyInt (-1))) in
  action s' = None /\ button s' = O /\ active s' = [false; true; false; true] /\ pot_commits s' = [0; 7; 3; 7] /\ stacks s' = [20; 22; 17; 21].
Proof.
  play fold_game ([OTrick [demo_card 10; demo_card 51; demo_card 0; demo_card 48]; OReset [] true true] ++ bets [7; -1; 6]) c s E.
  split; [apply (played_solvent _ _ _ _ E); vm_compute; reflexivity|].
  split; [exists 0; assert (X : antes c = [0; 0; 0; 0]) by by_play E; rewrite X; repeat constructor|].
  split; [unfold in_progress; assert (X : action s = Some 2%nat) by by_play E; rewrite X; discriminate|].
  cbv zeta. plays E.
Qed.
