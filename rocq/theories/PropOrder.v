(** * PropOrder: C102, a better hand with at least as many chips in is not paid less *)
From Coq Require Import ZifyBool ZifyNat Arith.
From Verif Require Import PyBase PyFacts CardModel EvalModel EngineModel EngineSpec EngineFacts BetFacts EngineDemo MoneyFacts ShowSpec ShowFacts SideFacts SideExists HandEnd PropRound PropSide
  SolventSpec NumpyModel NumpySpec NumpyFacts PropNumpy.

(** ** Side pots *)
Lemma share_mono d i j : (i < sd_players d)%nat -> sd_in d i = true -> sd_rank d i <= sd_rank d j -> sd_put d j <= sd_put d i ->
  forall a pots, side_pots d a pots -> share pots j <= share pots i.
Proof.
  intros Hi Ii Hr Hp a pots SP. induction SP as [a N|a w b r (Nw & W) (k & Kw & Kb) Hb SP IH]; [reflexivity|].
  unfold share in *. cbn [map]. unfold sumZ in *. cbn [fold_right fst snd] in *.
  assert (0 <= chips_between d a b) as C0. { apply chips_mono. pose proof (proj1 (W k) Kw) as [(_ & _ & X) _]. lia. }
  assert (L : 0 < Z.of_nat (List.length w)). { destruct w; [destruct Kw|cbn [List.length]; lia]. }
  assert (Q : 0 <= chips_between d a b / Z.of_nat (List.length w)) by (apply Z.div_pos; lia).
  destruct (existsb (Nat.eqb j) w) eqn:Ej; [|destruct (existsb (Nat.eqb i) w); lia].
  apply existsb_exists in Ej. destruct Ej as (j' & Hj & Ej). apply Nat.eqb_eq in Ej. subst j'.
  assert (In i w). { apply W in Hj. destruct Hj as [(J1 & J2 & J3) J4]. apply W. split; [split; [exact Hi|]; split; [exact Ii|lia]|]. intros m Hm. specialize (J4 m Hm). lia. }
  replace (existsb (Nat.eqb i) w) with true; [lia|]. symmetry. apply existsb_exists. exists i. split; [assumption|apply Nat.eqb_refl].
Qed.
Definition contenders (d : showdown) (a : Z) : list nat := filter (fun i => sd_in d i && (a <? sd_put d i)) (seq 0 (sd_players d)).
Lemma contenders_spec d a i : In i (contenders d a) <-> contends d a i.
Proof. unfold contenders, contends. rewrite filter_In, in_seq, andb_true_iff, Z.ltb_lt. split; [intros (H1 & H2 & H3)|intros (H1 & H2 & H3)]; splits; try assumption; lia. Qed.
Lemma odd_bound d a pots : side_pots d a pots -> let k := Z.of_nat (List.length (contenders d a)) in 0 <= odd_chips pots /\ 2 * odd_chips pots <= k * (k - 1).
Proof.
  cbv zeta. intros SP. induction SP as [a N|a w b r (Nw & W) (k & Kw & Kb) Hb SP IH].
  - unfold odd_chips. cbn [map sumZ]. unfold sumZ. cbn [fold_right]. nia.
  - assert (L : (0 < List.length w)%nat). { destruct w; [destruct Kw|cbn [List.length]; lia]. }
    assert (L1 : (List.length w <= List.length (contenders d a))%nat).
    { apply NoDup_incl_length; [exact Nw|]. intros x Hx. apply contenders_spec. now apply W in Hx. }
    assert (L2 : (S (List.length (contenders d b)) <= List.length (contenders d a))%nat).
    { change (S (List.length (contenders d b))) with (List.length (k :: contenders d b)). apply W in Kw. destruct Kw as [Kw _]. apply NoDup_incl_length.
      - constructor; [|apply NoDup_filter, seq_NoDup]. intros X. apply contenders_spec in X. destruct X as (_ & _ & X). lia.
      - intros x [<-|Hx]; [now apply contenders_spec|]. apply contenders_spec in Hx. apply contenders_spec. destruct Hx as (X1 & X2 & X3). destruct Kw as (_ & _ & Kw). split; [exact X1|]; split; [exact X2|lia]. }
    unfold odd_chips in *. cbn [map]. unfold sumZ in *. cbn [fold_right fst snd] in *. pose proof (Z.mod_pos_bound (chips_between d a b) (Z.of_nat (List.length w)) ltac:(lia)) as B.
    set (x := chips_between d a b mod _) in *. set (o := fold_right _ _ _) in *. clearbody x o. destruct IH as [I1 I2].
    assert (Q : forall m y : nat, (S y <= m)%nat -> Z.of_nat y * (Z.of_nat y - 1) <= (Z.of_nat m - 1) * (Z.of_nat m - 2)).
    { intros m y Hm. assert (exists e, m = (y + 1 + e)%nat) as (e & ->) by (exists (m - S y)%nat; lia). destruct e; nia. }
    specialize (Q _ _ L2). split; [lia|]. nia.
Qed.
Lemma odd_bound_players d pots : side_pots d 0 pots -> 0 <= odd_chips pots /\ 2 * odd_chips pots <= Z.of_nat (sd_players d) * (Z.of_nat (sd_players d) - 1).
Proof.
  intros S. destruct (odd_bound d 0 pots S) as [H1 H2]. split; [exact H1|]. assert (L : (List.length (contenders d 0) <= sd_players d)%nat).
  { rewrite <- (seq_length (sd_players d) 0). apply NoDup_incl_length; [apply NoDup_filter, seq_NoDup|]. intros x Hx. now apply filter_In in Hx. }
  assert (Q : forall m y : nat, (y <= m)%nat -> Z.of_nat y * (Z.of_nat y - 1) <= Z.of_nat m * (Z.of_nat m - 1)).
  { intros m y Hm. assert (exists e, m = (y + e)%nat) as (e & ->) by (exists (m - y)%nat; lia). destruct e; nia. }
  specialize (Q _ _ L). lia.
Qed.

(** ** C102 A hand that is at least as good, with at least as many chips in, does not win less *)
(** what the player [i] gets out of the pot, own chips included *)
Definition gets (out : step_out) (s' : state) (i : nat) : Z := nth i (out_payouts out) 0 + committed s' i.

(** Two players at a showdown.  The hand of [i] is at least as good as that of [j] (its rank is not
    larger), and [i] has put in at least as much.  Then [i] gets at least as much as [j], apart from the
    chips that cannot be divided; these are at most n (n - 1) / 2.  At the array dealer if nobody who
    folded has put in more than everybody else. *)
Theorem C102_array_partial : forall c s b i j v v', np_fair c s -> in_progress s ->
  let s' := fst (np_step c s b) in let n := Z.of_nat (num_players c) in
  action s' = None -> 2 <= count_true (active s') -> covered_folds (show_of c s') ->
  (i < num_players c)%nat -> (j < num_players c)%nat -> is_active s' i -> is_active s' j ->
  evaluate (the_evaluator c) (nth i (hole_cards s') []) (community_cards s') = Ok v ->
  evaluate (the_evaluator c) (nth j (hole_cards s') []) (community_cards s') = Ok v' ->
  v <= v' -> committed s' j <= committed s' i ->
  exists out pots, snd (np_step c s b) = Ok out /\ side_pots (show_of c s') 0 pots /\
    gets out s' j <= gets out s' i + odd_chips pots /\ 0 <= odd_chips pots /\ 2 * odd_chips pots <= n * (n - 1).
Proof.
  intros c s b i j v v' F Hp. cbv zeta. intros An Hc Cov Hi Hj Ai Aj Ev Ev' Hv Hm.
  destruct (C66_partial c s b F Hp An Hc Cov) as (out & pots & H1 & _ & H3 & (q & _ & _ & H4) & _). exists out, pots. split; [exact H1|]. split; [exact H3|].
  pose proof (odd_bound_players _ _ H3) as [O1 O2]. cbn [show_of sd_players] in O2. split; [|split; [exact O1|exact O2]].
  assert (M : share pots j <= share pots i).
  { apply (share_mono (show_of c (fst (np_step c s b))) i j Hi Ai) with (a := 0); [|exact Hm|exact H3]. cbn [show_of sd_rank]. rewrite Ev, Ev'. exact Hv. }
  unfold gets. rewrite (H4 i Hi), (H4 j Hj). destruct (Nat.eqb i q); destruct (Nat.eqb j q); lia.
Qed.
Print Assumptions C102_array_partial.

(** ... and always, if nobody ever owed chips and the antes are equal *)
Theorem C102_array_solvent : forall c s b i j v v', equal_antes c -> np_solvent c s -> in_progress s ->
  let s' := fst (np_step c s b) in let n := Z.of_nat (num_players c) in
  action s' = None -> 2 <= count_true (active s') ->
  (i < num_players c)%nat -> (j < num_players c)%nat -> is_active s' i -> is_active s' j ->
  evaluate (the_evaluator c) (nth i (hole_cards s') []) (community_cards s') = Ok v ->
  evaluate (the_evaluator c) (nth j (hole_cards s') []) (community_cards s') = Ok v' ->
  v <= v' -> committed s' j <= committed s' i ->
  exists out pots, snd (np_step c s b) = Ok out /\ side_pots (show_of c s') 0 pots /\
    gets out s' j <= gets out s' i + odd_chips pots /\ 0 <= odd_chips pots /\ 2 * odd_chips pots <= n * (n - 1).
Proof.
  intros c s b i j v v' Eq So Hp. cbv zeta. intros An Hc Hi Hj Ai Aj Ev Ev' Hv Hm.
  destruct (C66_solvent c s b Eq So Hp An Hc) as (out & pots & H1 & H3 & (q & _ & _ & H4) & _). exists out, pots. split; [exact H1|]. split; [exact H3|].
  pose proof (odd_bound_players _ _ H3) as [O1 O2]. cbn [show_of sd_players] in O2. split; [|split; [exact O1|exact O2]].
  assert (M : share pots j <= share pots i).
  { apply (share_mono (show_of c (fst (np_step c s b))) i j Hi Ai) with (a := 0); [|exact Hm|exact H3]. cbn [show_of sd_rank]. rewrite Ev, Ev'. exact Hv. }
  unfold gets. rewrite (H4 i Hi), (H4 j Hj). destruct (Nat.eqb i q); destruct (Nat.eqb j q); lia.
Qed.
Print Assumptions C102_array_solvent.

(** At the list dealer also the ties have to be regular ([regular_ties] in ShowSpec.v). *)
Theorem C102_partial : forall c s b i j v v', fair c s -> in_progress s ->
  let s' := fst (step c s b) in let n := Z.of_nat (num_players c) in
  action s' = None -> 2 <= count_true (active s') -> (num_streets c <= street s')%nat -> covered_folds (show_of c s') -> regular_ties (show_of c s') ->
  (i < num_players c)%nat -> (j < num_players c)%nat -> is_active s' i -> is_active s' j ->
  evaluate (the_evaluator c) (nth i (hole_cards s') []) (community_cards s') = Ok v ->
  evaluate (the_evaluator c) (nth j (hole_cards s') []) (community_cards s') = Ok v' ->
  v <= v' -> committed s' j <= committed s' i ->
  exists out pots, snd (step c s b) = Ok out /\ side_pots (show_of c s') 0 pots /\
    gets out s' j <= gets out s' i + odd_chips pots /\ 0 <= odd_chips pots /\ 2 * odd_chips pots <= n * (n - 1).
Proof.
  intros c s b i j v v' F Hp. cbv zeta. intros An Hc Hs Cov Reg Hi Hj Ai Aj Ev Ev' Hv Hm.
  destruct (C34_partial c s b F Hp An Hc Hs Cov Reg) as (out & pots & H1 & _ & H3 & (q & _ & H4) & _). exists out, pots. split; [exact H1|]. split; [exact H3|].
  pose proof (odd_bound_players _ _ H3) as [O1 O2]. cbn [show_of sd_players] in O2. split; [|split; [exact O1|exact O2]].
  assert (M : share pots j <= share pots i).
  { apply (share_mono (show_of c (fst (step c s b))) i j Hi Ai) with (a := 0); [|exact Hm|exact H3]. cbn [show_of sd_rank]. rewrite Ev, Ev'. exact Hv. }
  unfold gets. rewrite (H4 i Hi), (H4 j Hj). destruct (Nat.eqb i q); destruct (Nat.eqb j q); lia.
Qed.
Print Assumptions C102_partial.

(** Without that it fails: in the hand of C34_refuted the seats 0 and 1 show equal hands and have put in
    the same ten chips, but seat 0 gets 13 and seat 1 gets 24. *)
Theorem C102_refuted : ~ forall c s b i j v out, fair c s -> in_progress s ->
  let s' := fst (step c s b) in let n := Z.of_nat (num_players c) in
  action s' = None -> 2 <= count_true (active s') -> covered_folds (show_of c s') ->
  (i < num_players c)%nat -> (j < num_players c)%nat -> is_active s' i -> is_active s' j ->
  evaluate (the_evaluator c) (nth i (hole_cards s') []) (community_cards s') = Ok v ->
  evaluate (the_evaluator c) (nth j (hole_cards s') []) (community_cards s') = Ok v ->
  committed s' j = committed s' i -> snd (step c s b) = Ok out ->
  2 * (gets out s' j - gets out s' i) <= n * (n - 1).
Proof.
  intros H.
  assert (K : exists c s, fair c s /\ action s = Some 2%nat /\ let s' := fst (step c s (PyInt 20)) in action s' = None /\
    active s' = [true; true; true; true] /\ num_players c = 4%nat /\ pot_commits s' = [10; 10; 20; 20] /\
    (evaluate (the_evaluator c) (nth 0 (hole_cards s') []) (community_cards s') = Ok 0 /\ evaluate (the_evaluator c) (nth 1 (hole_cards s') []) (community_cards s') = Ok 0) /\
    match snd (step c s (PyInt 20)) with Ok out => Some (out_payouts out) | Err _ => None end = Some [3; 14; 3; -20]).
  { play side_game side_ops c s E. split; [exact (played_fair _ _ _ _ E)|]. cbv zeta. plays E. }
  destruct K as (c & s & F & K1 & K2 & K3 & K4 & K5 & (K6 & K7) & K8). destruct (snd (step c s (PyInt 20))) as [out|] eqn:Eo; [|discriminate K8]. injection K8 as K8.
  specialize (H c s (PyInt 20) 0%nat 1%nat 0 out F). cbv zeta in H. unfold is_active, gets, committed in H. rewrite K3, K4, K5, K8 in H. cbn [nth] in H.
  assert (X : 2 * (14 + 10 - (3 + 10)) <= Z.of_nat 4 * (Z.of_nat 4 - 1)); [|lia].
  apply H; [unfold in_progress; rewrite K1; discriminate|exact K2|cbn; lia| |lia|lia|reflexivity|reflexivity|exact K6|exact K7|reflexivity|exact Eo].
  intros i Hi Ii. cbn [show_of sd_in sd_players] in *. rewrite K4 in Hi. rewrite K3 in Ii. exfalso. destruct i as [|[|[|[|i]]]]; try discriminate Ii. lia.
Qed.
Print Assumptions C102_refuted.

(** *** Examples *)
(** at the array dealer the same hand: seats 0 and 1 get 13 and 14 *)
Example C102_array_example : exists c s, np_fair c s /\ action s = Some 2%nat /\ let s' := fst (np_step c s (PyInt 20)) in action s' = None /\
  count_true (active s') = 4 /\ covered_foldsb (show_of c s') = true /\ pot_commits s' = [10; 10; 20; 20] /\
  (evaluate (the_evaluator c) (nth 0 (hole_cards s') []) (community_cards s') = Ok 0 /\ evaluate (the_evaluator c) (nth 1 (hole_cards s') []) (community_cards s') = Ok 0) /\
  match snd (np_step c s (PyInt 20)) with Ok out => Some (out_payouts out) | Err _ => None end = Some [3; 4; 13; -20].
Proof. np_play side_game side_ops c s E. split; [exact (np_played_fair _ _ _ _ E)|]. cbv zeta. np_plays E. Qed.
(** at the list dealer: seats 0 and 3 show equal hands, seat 2 the best one, with five chips in *)
Example C102_example : exists c s, fair c s /\ in_progress s /\ let s' := fst (step c s (PyInt 20)) in action s' = None /\
  count_true (active s') = 4 /\ covered_foldsb (show_of c s') = true /\ regular_tiesb (show_of c s') = true /\ (num_streets c = 1%nat /\ street s' = 1%nat) /\ pot_commits s' = [10; 20; 5; 20] /\
  match snd (step c s (PyInt 20)) with Ok out => Some (out_payouts out) | Err _ => None end = Some [-3; -20; 16; 7].
Proof. play side_game ([OTrick [demo_card 44; demo_card 8; demo_card 48; demo_card 45]; OSetStacks [10; 21; 5; 20]; OReset [] true false] ++ bets [20; 20; 20]) c s E. split; [exact (played_fair _ _ _ _ E)|]. split; [unfold in_progress; intros X; enough (Y : action s = Some 2%nat) by (rewrite Y in X; discriminate X); by_play E|]. cbv zeta. plays E. Qed.
(** ... and without debts, with equal antes *)
Example C102_array_solvent_example : exists c s, np_solvent c s /\ equal_antes c /\ in_progress s /\
  let s' := fst (np_step c s (PyInt 20)) in action s' = None /\ count_true (active s') = 4 /\ pot_commits s' = [10; 10; 20; 20] /\
  (evaluate (the_evaluator c) (nth 0 (hole_cards s') []) (community_cards s') = Ok 0 /\ evaluate (the_evaluator c) (nth 1 (hole_cards s') []) (community_cards s') = Ok 0) /\
  stacks s' = [13; 14; 33; 0].
Proof.
  np_play side_game (new_hand :: bets [0; 0; 0; 0] ++ side_ops) c s E. split; [apply (np_played_solvent _ _ _ _ E); vm_compute; reflexivity|].
  split; [exists 0; assert (X : antes c = [0; 0; 0; 0]) by np_by_play E; rewrite X; repeat constructor|].
  split; [unfold in_progress; assert (X : action s = Some 2%nat) by np_by_play E; rewrite X; discriminate|].
  cbv zeta. np_plays E.
Qed.
