(** * PropSession: several hands one after the other (C48) *)
From Coq Require Import ZifyBool ZifyNat Arith.
From Verif Require Import PyBase PyFacts CardModel EvalModel EngineModel EngineSpec EngineFacts BetFacts EngineDemo MoneyFacts PropBetting PropRound PropReset ShowSpec ShowFacts SideFacts HandEnd PropShow.

(** a session: bets, tricked or untricked decks, and resets, between hands only, that keep the stacks *)
Fixpoint session (c : config) (s : state) (ops : list op) : Prop :=
  match ops with
  | [] => True
  | o :: r =>
    match o with
    | OReset _ _ rs => action s = None /\ rs = false
    | OSetStacks _ => False
    | _ => True
    end /\ session c (apply_op c s o) r
  end.
(** the chips that disappear in a session, hand by hand: when a hand is cut short, those of the folded players *)
Fixpoint vanished (c : config) (s : state) (ops : list op) : Z :=
  match ops with
  | [] => 0
  | o :: r =>
    let s' := apply_op c s o in
    (match o, action s, action s' with
     | OStep _, Some _, None => if cut_short c s' then folded_chips s' else 0
     | _, _, _ => 0
     end) + vanished c s' r
  end.

(** between hands the pot is empty *)
Lemma idle_pot c s : reachable c s -> action s = None -> pot s = 0.
Proof.
  induction 1 as [w rnd s H|s o R IH Ho]; intros Ha.
  - apply Dealer_inv in H. now rewrite (bd_state _ _ _ _ H).
  - pose proof (reachable_cfg c s R) as W. pose proof (reachable_wf c s R) as I. destruct o as [rnd rb rs|b|cs| |l]; cbn [apply_op] in *.
    + destruct (reset_spec c s rnd rb rs W I) as [(E1 & E2 & E3)|[(E1 & E2)|(E1 & E2 & E3 & E)]].
      * unfold reset in *. subst rs. cbn [reset_active fst] in *. assert (E2' : count_true (map (fun x => 0 <? x) (stacks s)) <= 1) by exact E2.
        replace (negb false && (count_true (map (fun x => 0 <? x) (stacks s)) <=? 1)) with true in * by (cbn [negb andb]; lia). cbn [fst pot action] in *. now apply IH.
      * assert (Ecc : num_community_cards c = []) by (apply length_zero_iff_nil; rewrite (cw_comm _ W); exact E1).
        unfold reset in *. rewrite Ecc in *. destruct (reset_active c s rs) as [act stk]. destruct (negb rs && _); cbn [fst pot action] in *; now apply IH.
      * destruct (re_turn _ _ _ _ _ _ E) as (a & X & _). congruence.
    + destruct (action s) as [a|] eqn:Ea; [|unfold step in *; rewrite Ea in *; now apply IH].
      destruct (step_anatomy c s b ltac:(congruence)) as [(_ & E & _)|(s1 & H1 & E)]; [rewrite E in *; congruence|].
      rewrite E in *. destruct (step_end_cases c (settle c s1)) as [(e & _ & E')|[(pay & _ & _ & E')|(pay & _ & _ & E')]]; rewrite E' in *; [|reflexivity|].
      * exfalso. destruct (after_bet_wf c s b s1 W I H1) as (A1 & A2 & A3 & A4 & A5 & A6 & A7 & A8 & A9 & A10 & A11).
        destruct (settle_wf c s1 W A1 A2 A3 A4 A5 A6 A7 A8 A9 A10) as (_ & B1 & B2 & B3 & B4 & B5 & B6 & B7 & B8 & (x & X & _)). cbn [fst] in Ha. congruence.
      * exfalso. destruct (after_bet_wf c s b s1 W I H1) as (A1 & A2 & A3 & A4 & A5 & A6 & A7 & A8 & A9 & A10 & A11).
        destruct (settle_wf c s1 W A1 A2 A3 A4 A5 A6 A7 A8 A9 A10) as (_ & B1 & B2 & B3 & B4 & B5 & B6 & B7 & B8 & (x & X & _)). congruence.
    + destruct (deck_trick cs (the_deck s)); now apply IH.
    + now apply IH.
    + now apply IH.
Qed.
Theorem C48_between_hands : forall c s, reachable c s -> ~ in_progress s -> all_chips s = sumZ (stacks s).
Proof.
  intros c s R H. unfold all_chips. rewrite (idle_pot c s R); [lia|]. unfold in_progress in H. destruct (action s); [exfalso; apply H; discriminate|reflexivity].
Qed.
Print Assumptions C48_between_hands.

Lemma session_step c s o : fair c s -> session c s [o] -> all_chips (apply_op c s o) = all_chips s - vanished c s [o].
Proof.
  intros F [Ho _]. pose proof (fair_reachable c s F) as R. cbn [vanished]. rewrite Z.add_0_r. destruct o as [rnd rb rs|b|cs| |l]; cbn [apply_op] in *.
  - destruct Ho as [Ha ->]. destruct (is_ok (snd (reset c s rnd rb false))) eqn:Ok.
    + destruct (C41_reset c s rnd rb false F Ok) as (_ & _ & _ & _ & _ & _ & _ & X & _). cbv zeta in X. rewrite X.
      unfold all_chips. rewrite (idle_pot c s R Ha). lia.
    + destruct (reset_spec c s rnd rb false (reachable_cfg c s R) (reachable_wf c s R)) as [(E1 & E2 & E3)|[(E1 & E2)|(E1 & E2 & E3 & E)]]; [| |congruence].
      * unfold reset. cbn [reset_active fst]. assert (E2' : count_true (map (fun x => 0 <? x) (stacks s)) <= 1) by exact E2.
        replace (negb false && (count_true (map (fun x => 0 <? x) (stacks s)) <=? 1)) with true by (cbn [negb andb]; lia). unfold all_chips. cbn [fst pot stacks]. lia.
      * assert (Ecc : num_community_cards c = []) by (apply length_zero_iff_nil; rewrite (cw_comm _ (reachable_cfg c s R)); exact E1).
        unfold reset. rewrite Ecc. cbn [reset_active]. destruct (negb false && _); unfold all_chips; cbn [fst pot stacks]; lia.
  - destruct (action s) as [a|] eqn:Ea.
    + assert (P : in_progress s) by (unfold in_progress; congruence). destruct (action (fst (step c s b))) as [a'|] eqn:Ea'.
      * rewrite (C18_betting c s b R); [lia|]. unfold in_progress. congruence.
      * pose proof (C19_exact c s b F P Ea') as X. cbv zeta in X. unfold all_chips at 1.
        rewrite (idle_pot c (fst (step c s b))); [lia| |exact Ea']. apply (reach_op c s (OStep b)); [exact R|exact I].
    + unfold step. rewrite Ea. cbn [fst]. lia.
  - destruct (deck_trick cs (the_deck s)); unfold all_chips; cbn [set_deck stacks pot]; lia.
  - unfold all_chips. cbn [set_deck stacks pot]. lia.
  - destruct Ho.
Qed.
Lemma session_fair c s o : fair c s -> session c s [o] -> fair c (apply_op c s o).
Proof.
  intros F [Ho _]. apply fair_op; [exact F| |]; destruct o as [rnd rb rs|b|cs| |l]; cbn in *; try exact I; try tauto.
Qed.

(** exactly *)
Theorem C48_exact : forall c s ops, fair c s -> session c s ops ->
  all_chips (run c s ops) = all_chips s - vanished c s ops.
Proof.
  intros c s ops. revert s. induction ops as [|o ops IH]; intros s F H; [cbn; lia|].
  destruct H as [Ho H]. assert (H1 : session c s [o]) by (split; [exact Ho|exact I]).
  change (run c s (o :: ops)) with (run c (apply_op c s o) ops). rewrite (IH _ (session_fair c s o F H1) H), (session_step c s o F H1).
  cbn [vanished]. lia.
Qed.
Print Assumptions C48_exact.
(** no hand of the session is cut short *)
Fixpoint played_out (c : config) (s : state) (ops : list op) : Prop :=
  match ops with
  | [] => True
  | o :: r => let s' := apply_op c s o in (action s' = None -> cut_short c s' = false) /\ played_out c s' r
  end.
Theorem C48_partial : forall c s ops, fair c s -> session c s ops -> played_out c s ops ->
  all_chips (run c s ops) = all_chips s /\
  (~ in_progress s -> ~ in_progress (run c s ops) -> sumZ (stacks (run c s ops)) = sumZ (stacks s)).
Proof.
  intros c s ops F H P. assert (X : all_chips (run c s ops) = all_chips s).
  { rewrite (C48_exact c s ops F H). enough (V : vanished c s ops = 0) by lia. clear F H.
    revert s P. induction ops as [|o ops IH]; intros s P; [reflexivity|]. destruct P as [P1 P2]. cbn [vanished]. rewrite (IH _ P2).
    destruct o; try reflexivity. destruct (action s); [|reflexivity]. destruct (action (apply_op c s (OStep bet))); [reflexivity|]. now rewrite (P1 eq_refl). }
  split; [exact X|]. intros N1 N2. rewrite <- (C48_between_hands c s (fair_reachable c s F) N1), <- X.
  symmetry. apply (C48_between_hands c); [|exact N2]. apply fair_reachable. clear P X N1 N2.
  revert s F H. induction ops as [|o ops IH]; intros s F H; [exact F|]. destruct H as [Ho H].
  change (run c s (o :: ops)) with (run c (apply_op c s o) ops). apply IH; [|exact H]. apply session_fair; [exact F|]. split; [exact Ho|exact I].
Qed.
Print Assumptions C48_partial.
(** a hand that is cut short loses chips for the rest of the session *)
Theorem C48_refuted : ~ forall c s ops, fair c s -> session c s ops -> ~ in_progress s -> ~ in_progress (run c s ops) ->
  sumZ (stacks (run c s ops)) = sumZ (stacks s).
Proof.
  intros H.
  assert (K : exists c s, fair c s /\ action s = None /\ sumZ (stacks s) = 15 /\
    action (fst (reset c s [] true false)) <> None /\
    action (run c s (OReset [] true false :: bets [5; -1])) = None /\ sumZ (stacks (run c s (OReset [] true false :: bets [5; -1]))) = 14).
  { play short_game (@nil op) c s E. split; [exact (played_fair _ _ _ _ E)|]. splits; try by_play E.
    assert (X : action (fst (reset c s [] true false)) = Some 0%nat) by by_play E. rewrite X. discriminate. }
  destruct K as (c & s & F & K1 & K2 & K3 & K4 & K5). specialize (H c s (OReset [] true false :: bets [5; -1]) F).
  rewrite K2, K5 in H. enough (X : 14 = 15) by discriminate X. apply H.
  - split; [split; [exact K1|reflexivity]|]. split; [exact I|]. split; [exact I|exact I].
  - unfold in_progress. rewrite K1. tauto.
  - unfold in_progress. rewrite K4. tauto.
Qed.
Print Assumptions C48_refuted.
(** two hands: a showdown and a fold *)
Fixpoint sessionb (c : config) (s : state) (ops : list op) : bool :=
  match ops with
  | [] => true
  | o :: r =>
    match o with
    | OReset _ _ rs => match action s with None => negb rs | Some _ => false end
    | OSetStacks _ => false
    | _ => true
    end && match action (apply_op c s o) with None => negb (cut_short c (apply_op c s o)) | Some _ => true end && sessionb c (apply_op c s o) r
  end.
Lemma sessionb_ok c s ops : sessionb c s ops = true -> session c s ops /\ played_out c s ops.
Proof.
  revert s; induction ops as [|o ops IH]; intros s H; [split; exact I|]. cbn [sessionb] in H. apply andb_true_iff in H. destruct H as [H H3].
  apply andb_true_iff in H. destruct H as [H1 H2]. destruct (IH _ H3) as [I1 I2]. split; (split; [|assumption]).
  - destruct o as [rnd rb rs|b|cs| |l]; try exact I; [|discriminate]. destruct (action s); [discriminate|]. split; [reflexivity|]. now destruct rs.
  - intros E. rewrite E in H2. now destruct (cut_short _ _).
Qed.
Definition two_hands := OReset [] true false :: bets [2; 1; 0; 3; 3; -1] ++ OReset [] false false :: bets [-1; 5; -1].
Example C48_example : exists c s, fair c s /\ ~ in_progress s /\ stacks s = [20; 20; 20] /\
  session c s two_hands /\ played_out c s two_hands /\ ~ in_progress (run c s two_hands) /\ stacks (run c s two_hands) = [16; 21; 23].
Proof.
  play no_limit_3 (@nil op) c s E. split; [exact (played_fair _ _ _ _ E)|].
  split; [unfold in_progress; assert (X : action s = None) by by_play E; rewrite X; tauto|]. split; [by_play E|].
  assert (X : sessionb c s two_hands = true) by by_play E. apply sessionb_ok in X. destruct X as [X1 X2]. split; [exact X1|]. split; [exact X2|].
  split; [unfold in_progress; assert (X : action (run c s two_hands) = None) by by_play E; rewrite X; tauto|by_play E].
Qed.
