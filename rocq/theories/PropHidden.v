(** * PropHidden: C43, observations hide what a player may not see *)
From Coq Require Import ZifyBool ZifyNat Arith.
From Verif Require Import PyBase PyFacts CardModel EvalModel EngineModel EngineSpec EngineFacts BetFacts EngineDemo MoneyFacts PropRound.

(** two tables on which everything but the cards is the same: the deck, the hole cards and the
    community cards may differ in any way *)
Record same_play (s t : state) : Prop := mkSamePlay {
  sm_action : action t = action s;
  sm_active : active t = active s;
  sm_button : button t = button s;
  sm_history : history t = history s;
  sm_largest : largest_raise t = largest_raise s;
  sm_pot : pot t = pot s;
  sm_commits : pot_commits t = pot_commits s;
  sm_stacks : stacks t = stacks s;
  sm_street : street t = street s;
  sm_street_commits : street_commits t = street_commits s;
  sm_option : street_option t = street_option s;
  sm_raises : street_raises t = street_raises s
}.
(** the player to act sees the same cards at both tables: their own and the board *)
Definition sees_same (s t : state) : Prop :=
  exists i, action s = Some i /\ nth_error (hole_cards t) i = nth_error (hole_cards s) i /\ community_cards t = community_cards s.

Definition recard (s : state) (k : list card) (d : deck) (h : list (list card)) : state :=
  mkState (action s) (active s) (button s) k d (history s) h (largest_raise s) (pot s) (pot_commits s) (stacks s)
          (street s) (street_commits s) (street_option s) (street_raises s).
Lemma same_play_recard s t : same_play s t -> t = recard s (community_cards t) (the_deck t) (hole_cards t).
Proof. intros [? ? ? ? ? ? ? ? ? ? ? ?]. destruct t; cbn in *. unfold recard. subst. reflexivity. Qed.
Lemma recard_same_play s k d h : same_play s (recard s k d h).
Proof. split; reflexivity. Qed.
Lemma recard_move c s k d h : move_action c (recard s k d h) = recard (move_action c s) k d h.
Proof. unfold move_action. change (act_idx c (recard s k d h)) with (act_idx c s). cbn [active street_option recard]. destruct (move_loop _ _ _ _ _ _ _); reflexivity. Qed.
Lemma recard_collect c s k d h b ts : collect_multiple_bets c (recard s k d h) b ts = recard (collect_multiple_bets c s b ts) k d h.
Proof. reflexivity. Qed.
Lemma recard_place c s k d h a f b fo ca : place_bet c (recard s k d h) a f b fo ca = recard (place_bet c s a f b fo ca) k d h.
Proof. unfold place_bet. rewrite <- recard_move. reflexivity. Qed.
Lemma recard_loop c f : forall s k d h, exists k' d', street_loop c f (recard s k d h) = recard (street_loop c f s) k' d' h.
Proof.
  induction f as [|f IH]; intros s k d h; [exists k, d; reflexivity|]. cbn [street_loop].
  change (street (recard s k d h)) with (street s). change (active (recard s k d h)) with (active s). change (stacks (recard s k d h)) with (stacks s).
  destruct (Nat.leb (num_streets c) (S (street s))); [exists k, d; reflexivity|].
  change (the_deck (recard s k d h)) with d. change (community_cards (recard s k d h)) with k.
  destruct (deck_draw (nth (S (street s)) (num_community_cards c) 0) d) as [cs1 d1].
  destruct (deck_draw (nth (S (street s)) (num_community_cards c) 0) (the_deck s)) as [cs2 d2].
  destruct (_ <=? 1); [|exists (k ++ cs1), d1; reflexivity].
  match goal with |- exists k' d', _ = recard (street_loop c f ?x) _ _ _ => destruct (IH x (k ++ cs1) d1 h) as (k' & d' & E) end.
  exists k', d'. exact E.
Qed.
Lemma recard_next c s k d h : exists k' d', next_street c (recard s k d h) = recard (next_street c s) k' d' h.
Proof.
  unfold next_street. change (set_action (recard s k d h) (Some (button (recard s k d h)))) with (recard (set_action s (Some (button s))) k d h).
  rewrite recard_move. destruct (recard_loop c (S (num_streets c)) (move_action c (set_action s (Some (button s)))) k d h) as (k' & d' & E).
  rewrite E. exists k', d'. reflexivity.
Qed.
Lemma recard_settle c s k d h : exists k' d', settle c (recard s k d h) = recard (settle c s) k' d' h.
Proof.
  unfold settle. change (all_agreed (recard s k d h)) with (all_agreed s). destruct (all_agreed s); [apply recard_next|exists k, d; reflexivity].
Qed.
Lemma recard_after_bet c s k d h b : after_bet c (recard s k d h) b =
  match after_bet c s b with Some s1 => Some (recard s1 k d h) | None => None end.
Proof.
  unfold after_bet. change (action (recard s k d h)) with (action s). destruct (action s) as [a|]; [|reflexivity].
  destruct (py_round b); [|reflexivity]. change (bet_sizes c (recard s k d h)) with (bet_sizes c s).
  destruct (bet_sizes c s) as [[[x y] z0]|]; [|reflexivity]. destruct (settle_bet _ _ _ _ _) as [bet folds]. now rewrite recard_place.
Qed.

(** what can be observed of a hand in progress *)
Lemma same_observation c s t : same_play s t -> sees_same s t -> observation c t false = observation c s false.
Proof.
  intros P (i & Ai & Hh & Hk). rewrite (same_play_recard s t P). unfold observation.
  change (bet_sizes c (recard s (community_cards t) (the_deck t) (hole_cards t))) with (bet_sizes c s).
  destruct (bet_sizes c s) as [[[x y] z]|]; [|reflexivity]. cbn [bind recard action hole_cards]. rewrite Ai. unfold get. rewrite Hh, Hk. reflexivity.
Qed.
Lemma not_done_street c z : all_true (done_list c z) = false -> (street z < num_streets c)%nat.
Proof.
  unfold done_list. destruct (Nat.leb (num_streets c) (street z)) eqn:E; [|intros _; now apply Nat.leb_gt].
  cbn [orb]. intros H. apply all_true_false in H. destruct H as (i & Hi & H). rewrite repeat_length in Hi. rewrite nth_repeat_lt in H by exact Hi. discriminate.
Qed.
Lemma recard_end c z k d h out : snd (step_end c z) = Ok out -> in_progress (fst (step_end c z)) ->
  fst (step_end c z) = z /\ fst (step_end c (recard z k d h)) = recard z k d h /\
  (observation c (recard z k d h) false = observation c z false -> snd (step_end c (recard z k d h)) = Ok out).
Proof.
  intros Ho Hp. unfold step_end in *.
  assert (P : all_true (done_list c z) = false -> payouts c (recard z k d h) = payouts c z).
  { intros D. apply not_done_street in D. unfold payouts. cbn [recard pot_commits active street pot].
    replace (Nat.leb (num_streets c) (street z)) with false by (symmetry; now apply Nat.leb_gt). reflexivity. }
  change (done_list c (recard z k d h)) with (done_list c z).
  destruct (payouts c z) as [pay|e] eqn:Ep; [|discriminate Ho]. cbn [fst snd] in *.
  destruct (all_true (done_list c z)) eqn:D; [exfalso; now apply Hp|]. rewrite P by reflexivity. cbn [fst snd].
  split; [reflexivity|]. split; [reflexivity|]. intros ->. exact Ho.
Qed.

(** ** C43 Observations hide the other players' cards *)
(** A step at two tables at which everything but the cards is the same.  If the hand goes on, then
    everything but the cards is still the same, and the reply (observation, payouts, done) is the
    same as soon as the next player to act holds the same hole cards and sees the same board. *)
Theorem C43_step : forall c s t b out, in_progress s -> same_play s t ->
  snd (step c s b) = Ok out -> in_progress (fst (step c s b)) ->
  same_play (fst (step c s b)) (fst (step c t b)) /\
  (sees_same (fst (step c s b)) (fst (step c t b)) -> snd (step c t b) = Ok out).
Proof.
  intros c s t b out Hp Q Ho Hp'. rewrite (same_play_recard s t Q). set (k := community_cards t). set (d := the_deck t). set (h := hole_cards t). clearbody k d h.
  destruct (step_anatomy c s b Hp) as [(_ & _ & X)|(s1 & H1 & E)]; [rewrite Ho in X; discriminate|].
  destruct (step_anatomy c (recard s k d h) b Hp) as [(H2 & _)|(t1 & H2 & E2)]; rewrite recard_after_bet, H1 in H2; [discriminate|].
  injection H2 as <-. rewrite E in *. rewrite E2. clear E E2. destruct (recard_settle c s1 k d h) as (k' & d' & ->).
  destruct (recard_end c (settle c s1) k' d' h out Ho Hp') as (E1 & E2 & E3). rewrite E1, E2 in *. split; [apply recard_same_play|].
  intros V. apply E3. apply same_observation; [apply recard_same_play|exact V].
Qed.
Print Assumptions C43_step.

(** the replies to a sequence of bets *)
Fixpoint replies (c : config) (s : state) (bs : list pynum) : list (result step_out) :=
  match bs with
  | [] => []
  | b :: r => snd (step c s b) :: replies c (fst (step c s b)) r
  end.
(** A whole hand, as long as it is in progress and no step has raised. *)
Theorem C43_run : forall c bs s t, in_progress s -> same_play s t ->
  Forall (fun r => is_ok r = true) (replies c s bs) -> in_progress (run_steps c s bs) ->
  same_play (run_steps c s bs) (run_steps c t bs) /\
  (sees_same (run_steps c s bs) (run_steps c t bs) -> observation c (run_steps c t bs) false = observation c (run_steps c s bs) false).
Proof.
  intros c bs. induction bs as [|b bs IH]; intros s t Hp Q Ho Hp'.
  - split; [exact Q|]. now apply same_observation.
  - change (run_steps c s (b :: bs)) with (run_steps c (fst (step c s b)) bs) in *.
    change (run_steps c t (b :: bs)) with (run_steps c (fst (step c t b)) bs) in *.
    cbn [replies] in Ho. inversion Ho as [|? ? Ho1 Ho2]; subst. destruct (snd (step c s b)) as [out|] eqn:E; [|discriminate].
    assert (P1 : in_progress (fst (step c s b))).
    { intros X. apply Hp'. enough (G : run_steps c (fst (step c s b)) bs = fst (step c s b)) by now rewrite G.
      clear - X. induction bs as [|x bs IH]; [reflexivity|]. change (run_steps c (fst (step c s b)) (x :: bs)) with (run_steps c (fst (step c (fst (step c s b)) x)) bs).
      assert (G : fst (step c (fst (step c s b)) x) = fst (step c s b)) by (unfold step at 1; now rewrite X). now rewrite G. }
    apply IH; try assumption. now apply (C43_step c s t b out).
Qed.
Print Assumptions C43_run.

(** A new hand: the shuffles and the decks may differ in any way. *)
Theorem C43_reset : forall c s t rnd rnd' rb rs o, stacks t = stacks s -> button t = button s ->
  snd (reset c s rnd rb rs) = Ok o ->
  same_play (fst (reset c s rnd rb rs)) (fst (reset c t rnd' rb rs)) /\
  (sees_same (fst (reset c s rnd rb rs)) (fst (reset c t rnd' rb rs)) -> snd (reset c t rnd' rb rs) = Ok o).
Proof.
  intros c s t rnd rnd' rb rs o Hs Hb Ho. unfold reset in *.
  assert (R : reset_active c t rs = reset_active c s rs) by (unfold reset_active; now rewrite Hs). rewrite R, Hb. clear R.
  destruct (reset_active c s rs) as [act stk]. destruct (negb rs && (count_true act <=? 1)); [discriminate Ho|].
  destruct (num_community_cards c) as [|cc0 rest]; [discriminate Ho|].
  destruct (deck_draw cc0 (deck_shuffle rnd (the_deck s))) as [k1 d1]. destruct (deck_draw cc0 (deck_shuffle rnd' (the_deck t))) as [k2 d2].
  destruct (deal_hands (num_players c) (num_hole_cards c) d1) as [h1 e1]. destruct (deal_hands (num_players c) (num_hole_cards c) d2) as [h2 e2].
  cbn [fst snd] in *. set (b := if rb then O else _) in *.
  match goal with |- same_play ?x ?y /\ _ => set (s' := x) in *; set (t' := y) in * end.
  assert (E : t' = recard s' k2 e2 h2).
  { subst s' t'. destruct (Nat.ltb 2 (num_players c)); rewrite <- ?recard_move, <- ?recard_collect, <- ?recard_move, <- ?recard_collect, <- ?recard_move; reflexivity. }
  clearbody s' t'. subst t'. split; [apply recard_same_play|]. intros V. rewrite (same_observation c s' (recard s' k2 e2 h2) (recard_same_play _ _ _ _) V). exact Ho.
Qed.
Print Assumptions C43_reset.

(** two tables that differ in the cards of the players who are not to act: the first player to act
    is seat 0, who holds the ace of the same suit at both *)
Definition hidden_game := demo 3 2 [1; 2; 0] [0; 0; 0] [RawInf; RawInf] [RawCountInf; RawCountInf] [0; 1] 10.
Definition deal_first (a b d : nat) := [OTrick [demo_card a; demo_card b; demo_card d]; OReset [] true true].
Definition play_of (s : state) :=
  (action s, active s, button s, history s, largest_raise s, (pot s, pot_commits s, stacks s, street s), (street_commits s, street_option s, street_raises s)).
Definition first_move : option nat * list bool * nat * list (nat * Z * bool) * Z * (Z * list Z * list Z * nat) * (list Z * list bool * Z) :=
  (Some 0%nat, [true; true; true], 0%nat, [], 2, (3, [0; 1; 2], [10; 9; 8], 0%nat), ([0; 1; 2], [false; false; false], 0)).
Example C43_example : exists c s t, fair c s /\ fair c t /\ in_progress s /\ same_play s t /\ sees_same s t /\
  hole_cards s = [[demo_card 51]; [demo_card 3]; [demo_card 9]] /\ hole_cards t = [[demo_card 51]; [demo_card 48]; [demo_card 0]] /\
  forall o, observation c s false = Ok o -> o_hole_cards o = [demo_card 51].
Proof.
  assert (K : exists c s0, fair c s0 /\
    let s := run c s0 (deal_first 51 3 9) in let t := run c s0 (deal_first 51 48 0) in
    (all_allowed c s0 (deal_first 51 3 9) = true /\ all_allowed c s0 (deal_first 51 48 0) = true) /\
    (action s = Some 0%nat /\ play_of s = first_move /\ play_of t = first_move /\ community_cards s = [] /\ community_cards t = []) /\
    (hole_cards s = [[demo_card 51]; [demo_card 3]; [demo_card 9]] /\ hole_cards t = [[demo_card 51]; [demo_card 48]; [demo_card 0]]) /\
    match observation c s false with Ok o => Some (o_hole_cards o) | Err _ => None end = Some [demo_card 51]).
  { play hidden_game (@nil op) c s0 E. split; [exact (played_fair _ _ _ _ E)|]. cbv zeta. plays E. }
  destruct K as (c & s0 & F & (A1 & A2) & (B1 & B2 & B2' & B3 & B4) & (C1 & C2) & D). cbv zeta in *.
  exists c, (run c s0 (deal_first 51 3 9)), (run c s0 (deal_first 51 48 0)).
  split; [apply fair_run; [exact F|exact A1|reflexivity]|]. split; [apply fair_run; [exact F|exact A2|reflexivity]|].
  split; [unfold in_progress; rewrite B1; discriminate|]. split.
  - rewrite <- B2' in B2. clear - B2. set (x := run c s0 (deal_first 51 3 9)) in *. set (y := run c s0 (deal_first 51 48 0)) in *. clearbody x y.
    unfold play_of in B2. injection B2 as Q1 Q2 Q3 Q4 Q5 Q6 Q7 Q8 Q9 Q10 Q11 Q12. split; symmetry; assumption.
  - split; [exists O; rewrite C1, C2, B3, B4; auto|]. split; [exact C1|]. split; [exact C2|]. intros o Ho. rewrite Ho in D. now injection D.
Qed.

(** Once the hand is over the observation shows the cards of the player in the last seat, here to
    seat 0 who has won because the last seat folded; so the claim cannot be made for finished hands. *)
Theorem C43_after_the_end : exists c s b out, fair c s /\ in_progress s /\ step c s b = (fst (step c s b), Ok out) /\
  action (fst (step c s b)) = None /\ nth 2 (active (fst (step c s b))) true = false /\
  o_hole_cards (out_obs out) = nth 2 (hole_cards s) [] /\ nth 2 (hole_cards s) [] <> nth 0 (hole_cards s) [].
Proof.
  assert (K : exists c s, fair c s /\ action s = Some 2%nat /\
    action (fst (step c s (PyInt (-1)))) = None /\ active (fst (step c s (PyInt (-1)))) = [true; false; false] /\
    hole_cards s = [[demo_card 51]; [demo_card 3]; [demo_card 9]] /\
    match snd (step c s (PyInt (-1))) with Ok out => Some (o_hole_cards (out_obs out)) | Err _ => None end = Some [demo_card 9]).
  { play hidden_game (new_hand :: deal_first 51 3 9 ++ bets [10; -1]) c s E. split; [exact (played_fair _ _ _ _ E)|]. plays E. }
  destruct K as (c & s & F & K1 & K2 & K3 & K4 & K5).
  destruct (snd (step c s (PyInt (-1)))) as [out|] eqn:Eo; [|discriminate]. exists c, s, (PyInt (-1)), out.
  split; [exact F|]. split; [unfold in_progress; rewrite K1; discriminate|]. split; [rewrite <- Eo; apply surjective_pairing|].
  split; [exact K2|]. rewrite K3, K4. split; [reflexivity|]. injection K5 as ->. split; [reflexivity|]. vm_compute. discriminate.
Qed.
Print Assumptions C43_after_the_end.
