(** * PropNumpyHidden: property C88 (the array dealer hides the other players' cards) *)
From Coq Require Import ZifyBool ZifyNat Arith.
From Verif Require Import PyBase PyFacts CardModel EvalModel EngineModel EngineSpec EngineFacts BetFacts EngineDemo MoneyFacts ShowSpec HandEnd PropRound PropHidden
  NumpyModel NumpySpec NumpyFacts PropNumpy.

(** ** Two tables with the same play *)
Lemma np_same_step c s t b : in_progress s -> same_play s t ->
  (is_ok (snd (np_step c s b)) = false /\ fst (np_step c s b) = s /\ np_step c t b = (t, snd (np_step c s b))) \/
  exists z k d, np_step c s b = np_step_end c z /\ np_step c t b = np_step_end c (recard z k d (hole_cards t)).
Proof.
  intros Hp Q. rewrite (same_play_recard s t Q). set (k := community_cards t). set (d := the_deck t). set (h := hole_cards t). clearbody k d h. cbn [recard hole_cards].
  unfold in_progress in Hp. unfold np_step. change (action (recard s k d h)) with (action s). destruct (action s) as [a|]; [|now destruct Hp].
  destruct (py_round b) as [bet0|e]; [|left; auto]. change (bet_sizes c (recard s k d h)) with (bet_sizes c s).
  destruct (bet_sizes c s) as [[[call mi] ma]|e]; [|left; auto]. destruct (np_settle_bet _ _ _ _ _) as [bet folds]. right.
  rewrite recard_place. destruct (recard_settle c (place_bet c s a (pynum_neg b) bet folds call) k d h) as (k' & d' & E). unfold settle in E.
  exists (settle c (place_bet c s a (pynum_neg b) bet folds call)), k', d'. split; [reflexivity|]. rewrite E. reflexivity.
Qed.
Lemma np_not_done_street c z : all_true (np_done_list c z) = false -> (street z < num_streets c)%nat.
Proof.
  unfold np_done_list. destruct (Nat.leb (num_streets c) (street z)) eqn:E; [|intros _; now apply Nat.leb_gt].
  cbn [orb]. intros H. apply all_true_false in H. destruct H as (i & Hi & H). rewrite repeat_length in Hi. rewrite nth_repeat_lt in H by exact Hi. discriminate H.
Qed.
Lemma np_recard_end c z k d h out : snd (np_step_end c z) = Ok out -> in_progress (fst (np_step_end c z)) ->
  fst (np_step_end c z) = z /\ fst (np_step_end c (recard z k d h)) = recard z k d h /\
  (observation c (recard z k d h) false = observation c z false -> snd (np_step_end c (recard z k d h)) = Ok out).
Proof.
  intros Ho Hp. unfold np_step_end in *.
  assert (P : all_true (np_done_list c z) = false -> np_payouts c (recard z k d h) = np_payouts c z).
  { intros D. apply np_not_done_street in D. unfold np_payouts. cbn [recard pot_commits active street pot].
    replace (Nat.leb (num_streets c) (street z)) with false by (symmetry; now apply Nat.leb_gt). reflexivity. }
  change (np_done_list c (recard z k d h)) with (np_done_list c z).
  destruct (np_payouts c z) as [pay|e] eqn:Ep; [|discriminate Ho]. cbn [fst snd] in *.
  destruct (all_true (np_done_list c z)) eqn:D; [exfalso; now apply Hp|]. rewrite P by reflexivity. cbn [fst snd].
  split; [reflexivity|]. split; [reflexivity|]. intros ->. exact Ho.
Qed.

(** ** C88 Observations of the array dealer hide the other players' cards *)
Theorem C88_step : forall c s t b out, in_progress s -> same_play s t ->
  snd (np_step c s b) = Ok out -> in_progress (fst (np_step c s b)) ->
  same_play (fst (np_step c s b)) (fst (np_step c t b)) /\
  (sees_same (fst (np_step c s b)) (fst (np_step c t b)) -> snd (np_step c t b) = Ok out).
Proof.
  intros c s t b out Hp Q Ho Hp'. destruct (np_same_step c s t b Hp Q) as [(X & _)|(z & k & d & E & E2)]; [rewrite Ho in X; discriminate X|].
  rewrite E in *. rewrite E2. clear E E2. destruct (np_recard_end c z k d (hole_cards t) out Ho Hp') as (E1 & E2 & E3). rewrite E1, E2 in *. split; [apply recard_same_play|].
  intros V. apply E3. apply same_observation; [apply recard_same_play|exact V].
Qed.
Print Assumptions C88_step.

(** the replies to a sequence of bets *)
Fixpoint np_replies (c : config) (s : state) (bs : list pynum) : list (result step_out) :=
  match bs with
  | [] => []
  | b :: r => snd (np_step c s b) :: np_replies c (fst (np_step c s b)) r
  end.
(** A whole hand, as long as it is in progress and no step has raised. *)
Theorem C88_run : forall c bs s t, in_progress s -> same_play s t ->
  Forall (fun r => is_ok r = true) (np_replies c s bs) -> in_progress (np_run_steps c s bs) ->
  same_play (np_run_steps c s bs) (np_run_steps c t bs) /\
  (sees_same (np_run_steps c s bs) (np_run_steps c t bs) -> observation c (np_run_steps c t bs) false = observation c (np_run_steps c s bs) false).
Proof.
  intros c bs. induction bs as [|b bs IH]; intros s t Hp Q Ho Hp'.
  - split; [exact Q|]. now apply same_observation.
  - change (np_run_steps c s (b :: bs)) with (np_run_steps c (fst (np_step c s b)) bs) in *.
    change (np_run_steps c t (b :: bs)) with (np_run_steps c (fst (np_step c t b)) bs) in *.
    cbn [np_replies] in Ho. inversion Ho as [|? ? Ho1 Ho2]; subst. destruct (snd (np_step c s b)) as [out|] eqn:E; [|discriminate Ho1].
    assert (P1 : in_progress (fst (np_step c s b))).
    { intros X. apply Hp'. enough (G : np_run_steps c (fst (np_step c s b)) bs = fst (np_step c s b)) by now rewrite G.
      clear - X. induction bs as [|x bs IH]; [reflexivity|]. change (np_run_steps c (fst (np_step c s b)) (x :: bs)) with (np_run_steps c (fst (np_step c (fst (np_step c s b)) x)) bs).
      assert (G : fst (np_step c (fst (np_step c s b)) x) = fst (np_step c s b)) by (unfold np_step at 1; now rewrite X). now rewrite G. }
    apply IH; try assumption. now apply (C88_step c s t b out).
Qed.
Print Assumptions C88_run.

Lemma np_recard_collect c s k d h b ts : np_collect_multiple_bets c (recard s k d h) b ts = recard (np_collect_multiple_bets c s b ts) k d h.
Proof. reflexivity. Qed.
(** A new hand: the shuffles and the decks may differ in any way. *)
Theorem C88_reset : forall c s t rnd rnd' rb rs o, stacks t = stacks s -> button t = button s ->
  snd (np_reset c s rnd rb rs) = Ok o ->
  same_play (fst (np_reset c s rnd rb rs)) (fst (np_reset c t rnd' rb rs)) /\
  (sees_same (fst (np_reset c s rnd rb rs)) (fst (np_reset c t rnd' rb rs)) -> snd (np_reset c t rnd' rb rs) = Ok o).
Proof.
  intros c s t rnd rnd' rb rs o Hs Hb Ho. unfold np_reset in *.
  assert (R : reset_active c t rs = reset_active c s rs) by (unfold reset_active; now rewrite Hs). rewrite R, Hb. clear R.
  destruct (reset_active c s rs) as [act stk]. destruct (negb rs && (count_true act <=? 1)); [discriminate Ho|].
  destruct (num_community_cards c) as [|cc0 rest]; [discriminate Ho|].
  destruct (deck_draw cc0 (deck_shuffle rnd (the_deck s))) as [k1 d1]. destruct (deck_draw cc0 (deck_shuffle rnd' (the_deck t))) as [k2 d2].
  destruct (deal_hands (num_players c) (num_hole_cards c) d1) as [h1 e1]. destruct (deal_hands (num_players c) (num_hole_cards c) d2) as [h2 e2].
  cbn [fst snd] in *. set (b := if rb then O else _) in *.
  match goal with |- same_play ?x ?y /\ _ => set (s' := x) in *; set (t' := y) in * end.
  assert (E : t' = recard s' k2 e2 h2).
  { subst s' t'. destruct (Nat.ltb 2 (num_players c)); rewrite <- ?recard_move, <- ?np_recard_collect, <- ?recard_move, <- ?np_recard_collect, <- ?recard_move; reflexivity. }
  clearbody s' t'. subst t'. split; [apply recard_same_play|]. intros V. rewrite (same_observation c s' (recard s' k2 e2 h2) (recard_same_play _ _ _ _) V). exact Ho.
Qed.
Print Assumptions C88_reset.

(** two tables that differ in the cards of the players who are not to act, as in C43 *)
Example C88_example : exists c s t, np_fair c s /\ np_fair c t /\ in_progress s /\ same_play s t /\ sees_same s t /\
  hole_cards s = [[demo_card 51]; [demo_card 3]; [demo_card 9]] /\ hole_cards t = [[demo_card 51]; [demo_card 48]; [demo_card 0]] /\
  in_progress (fst (np_step c s (PyInt 5))) /\ is_ok (snd (np_step c s (PyInt 5))) = true.
Proof.
  assert (K : exists c s0, np_fair c s0 /\
    let s := np_run c s0 (deal_first 51 3 9) in let t := np_run c s0 (deal_first 51 48 0) in
    (np_all_allowed c s0 (deal_first 51 3 9) = true /\ np_all_allowed c s0 (deal_first 51 48 0) = true) /\
    (action s = Some 0%nat /\ play_of s = first_move /\ play_of t = first_move /\ community_cards s = [] /\ community_cards t = []) /\
    (hole_cards s = [[demo_card 51]; [demo_card 3]; [demo_card 9]] /\ hole_cards t = [[demo_card 51]; [demo_card 48]; [demo_card 0]]) /\
    (action (fst (np_step c s (PyInt 5))) = Some 1%nat /\ is_ok (snd (np_step c s (PyInt 5))) = true)).
  { np_play hidden_game (@nil op) c s0 E. split; [exact (np_played_fair _ _ _ _ E)|]. cbv zeta. np_plays E. }
  destruct K as (c & s0 & F & (A1 & A2) & (B1 & B2 & B2' & B3 & B4) & (C1 & C2) & (D1 & D2)). cbv zeta in *.
  exists c, (np_run c s0 (deal_first 51 3 9)), (np_run c s0 (deal_first 51 48 0)).
  split; [apply np_fair_run; [exact F|exact A1]|]. split; [apply np_fair_run; [exact F|exact A2]|].
  split; [unfold in_progress; rewrite B1; discriminate|]. split.
  - rewrite <- B2' in B2. clear - B2. set (x := np_run c s0 (deal_first 51 3 9)) in *. set (y := np_run c s0 (deal_first 51 48 0)) in *. clearbody x y.
    unfold play_of in B2. injection B2 as Q1 Q2 Q3 Q4 Q5 Q6 Q7 Q8 Q9 Q10 Q11 Q12. split; symmetry; assumption.
  - split; [exists O; rewrite C1, C2, B3, B4; auto|]. split; [exact C1|]. split; [exact C2|]. split; [unfold in_progress; rewrite D1; discriminate|exact D2].
Qed.

(** Once the hand is over the observation shows the cards of the player in the last seat, as at the
    list dealer. *)
Theorem C88_after_the_end : exists c s b out, np_fair c s /\ in_progress s /\ np_step c s b = (fst (np_step c s b), Ok out) /\
  action (fst (np_step c s b)) = None /\ nth 2 (active (fst (np_step c s b))) true = false /\
  o_hole_cards (out_obs out) = nth 2 (hole_cards s) [] /\ nth 2 (hole_cards s) [] <> nth 0 (hole_cards s) [].
Proof.
  assert (K : exists c s, np_fair c s /\ action s = Some 2%nat /\
    action (fst (np_step c s (PyInt (-1)))) = None /\ active (fst (np_step c s (PyInt (-1)))) = [true; false; false] /\
    hole_cards s = [[demo_card 51]; [demo_card 3]; [demo_card 9]] /\
    match snd (np_step c s (PyInt (-1))) with Ok out => Some (o_hole_cards (out_obs out)) | Err _ => None end = Some [demo_card 9]).
  { np_play hidden_game (OReset [] true true :: deal_first 51 3 9 ++ bets [10; -1]) c s E. split; [exact (np_played_fair _ _ _ _ E)|]. np_plays E. }
  destruct K as (c & s & F & K1 & K2 & K3 & K4 & K5).
  destruct (snd (np_step c s (PyInt (-1)))) as [out|] eqn:Eo; [|discriminate K5]. exists c, s, (PyInt (-1)), out.
  split; [exact F|]. split; [unfold in_progress; rewrite K1; discriminate|]. split; [rewrite <- Eo; apply surjective_pairing|].
  split; [exact K2|]. rewrite K3, K4. split; [reflexivity|]. injection K5 as ->. split; [reflexivity|]. vm_compute. discriminate.
Qed.
Print Assumptions C88_after_the_end.
