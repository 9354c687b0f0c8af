(** * PropBetween: C55, the table between two hands *)
From Coq Require Import PeanoNat.
From Verif Require Import PyBase PyFacts CardModel EvalModel EngineModel EngineSpec EngineFacts HandEnd EngineDemo PropShow.

Lemma move_turn c s : action (move_action c s) <> None.
Proof. unfold move_action. destruct (move_loop _ _ _ _ _ _ _) as [a o]. cbn. discriminate. Qed.
(** C55, first part: whenever no hand is in progress the pot is empty, so all chips are in the stacks *)
Theorem C55_pot_empty : forall c s, reachable c s -> action s = None -> pot s = 0 /\ all_chips s = sumZ (stacks s).
Proof.
  intros c s R H. enough (E : pot s = 0) by (unfold all_chips; rewrite E; split; [reflexivity|lia]). revert H.
  induction R as [w rnd s D|s o R IH A]; intros N.
  - apply Dealer_inv in D. rewrite (bd_state _ _ _ _ D). reflexivity.
  - destruct o as [rnd rb rs|b|cs| |l]; cbn [apply_op] in *.
    + revert N. unfold reset. destruct (reset_active c s rs) as [act stk]. destruct (negb rs && _); [exact IH|]. destruct (num_community_cards c); [exact IH|].
      destruct (deck_draw _ _). destruct (deal_hands _ _ _). cbn [fst]. intros N. apply move_turn in N. contradiction.
    + revert N. unfold step. destruct (action s) as [a|] eqn:Ea; [|intros _; apply IH; reflexivity]. 
      destruct (py_round b); [|cbn [fst]; rewrite Ea; discriminate]. destruct (bet_sizes c s) as [[[? ?] ?]|]; [|cbn [fst]; rewrite Ea; discriminate].
      destruct (settle_bet _ _ _ _ _). cbv zeta. set (s2 := if all_agreed _ then _ else _).
      assert (T : action s2 <> None).
      { unfold s2. set (s1 := place_bet _ _ _ _ _ _ _). assert (T1 : action s1 <> None) by apply move_turn. destruct (all_agreed s1); [|exact T1].
        unfold next_street. cbv zeta. cbn [action]. assert (L : forall f x, action (street_loop c f x) = action x).
        { induction f as [|f IHf]; intros x; [reflexivity|]. cbn [street_loop]. cbv zeta. destruct (Nat.leb _ _); [reflexivity|]. destruct (deck_draw _ _). destruct (_ <=? 1); [rewrite IHf|]; reflexivity. }
        rewrite L. apply move_turn. }
      clearbody s2. destruct (step_end_cases c s2) as [(e & _ & ->)|[(pay & _ & _ & ->)|(pay & _ & _ & ->)]]; [cbn [fst]; intros X; contradiction|reflexivity|intros X; contradiction].
    + destruct (deck_trick cs (the_deck s)); apply IH; exact N.
    + apply IH. exact N.
    + apply IH. exact N.
Qed.
Print Assumptions C55_pot_empty.

(** C55, second part: the step that ends a hand says so to everybody, and its observation shows the
    table as it is: nobody to act, nothing to call, no raise possible, the pot empty and the stacks with
    the winnings *)
Theorem C55_last_observation : forall c s b, fair c s -> in_progress s ->
  let s' := fst (step c s b) in
  action s' = None ->
  exists out, snd (step c s b) = Ok out /\ out_done out = repeat true (num_players c) /\
    let o := out_obs out in
    o_action o = None /\ o_call o = 0 /\ o_min_raise o = 0 /\ o_max_raise o = 0 /\ o_pot o = 0 /\
    o_stacks o = stacks s' /\ o_active o = active s' /\ o_button o = button s' /\ o_community_cards o = community_cards s'.
Proof.
  intros c s b F Hp. cbv zeta. intros Hn. destruct (step_ended c s b F Hp Hn) as (z & pay & o & E). rewrite (en_state _ _ _ _ _ _ E). exists (mkOut o pay (done_list c z)).
  split; [apply E|]. cbn [out_done out_obs]. split.
  - pose proof (en_done _ _ _ _ _ _ E) as D. pose proof (en_settled _ _ _ _ _ _ E) as Z. rewrite all_true_spec in D.
    assert (L : List.length (done_list c z) = num_players c).
    { unfold done_list. destruct (_ || _); [apply repeat_length|]. apply map_combine_length; [apply Z|apply Z]. }
    rewrite L in D. apply nth_ext with (d := false) (d' := true); [rewrite L, repeat_length; reflexivity|]. intros n Hn'. rewrite L in Hn'. rewrite (D n Hn'), nth_repeat. reflexivity.
  - pose proof (en_obs _ _ _ _ _ _ E) as O. unfold observation in O. cbn [bind] in O. destruct (match action (finish_hand z pay) with Some a => _ | None => _ end) as [h|e]; [|discriminate O].
    cbn [bind] in O. injection O as <-. cbn. splits; reflexivity.
Qed.
Print Assumptions C55_last_observation.

(** a hand that ends with a fold: the pot of 3 chips goes to the other player *)
Example C55_example : exists c s, fair c s /\ in_progress s /\ pot s = 3 /\ stacks s = [8; 9] /\
  action (fst (step c s (PyInt (-1)))) = None /\ pot (fst (step c s (PyInt (-1)))) = 0 /\ stacks (fst (step c s (PyInt (-1)))) = [11; 9].
Proof.
  assert (K : exists c s, fair c s /\ action s = Some 1%nat /\ pot s = 3 /\ stacks s = [8; 9] /\ action (fst (step c s (PyInt (-1)))) = None /\
    pot (fst (step c s (PyInt (-1)))) = 0 /\ stacks (fst (step c s (PyInt (-1)))) = [11; 9]).
  { play (demo 2 1 [1; 2] [0; 0] [RawInf] [RawCountInf] [0] 10) [OReset [] false false] c s E. split; [exact (played_fair _ _ _ _ E)|]. plays E. }
  destruct K as (c & s & F & A & K). exists c, s. split; [exact F|]. split; [unfold in_progress; rewrite A; discriminate|exact K].
Qed.
