(** * PropNumpyScale: property C90 (the value of a chip does not matter at the array dealer) *)
From Coq Require Import ZifyBool ZifyNat Arith Permutation.
From Verif Require Import PyBase PyFacts CardModel EvalModel EngineModel EngineSpec EngineFacts BetFacts EngineDemo MoneyFacts
  PropRound ShowSpec ShowFacts SideFacts SideExists HandEnd PropSide PaidSpec PaidFacts PropPaid PropBetween ScaleSpec PropScale
  NumpyModel NumpySpec NumpyFacts PropNumpy PropNumpyEnds NumpyPaidSpec PropNumpyPaid PropNumpyBetter.

(** no chip is left over when the table [s] goes to a showdown: the pots of [NumpyPaidSpec] *)
Definition np_no_odd_chips (c : config) (s : state) : Prop :=
  2 <= count_true (active s) -> (num_streets c <= street s)%nat ->
  forall pots, array_pots (show_of c s) 0 pots -> odd_chips pots = 0.
(** a program none of whose showdowns leaves a chip over and whose bets are whole *)
Fixpoint np_evenly (c : config) (s : state) (ops : list op) : Prop :=
  match ops with
  | [] => True
  | o :: r =>
    match o with OStep b => whole b /\ np_no_odd_chips c (fst (np_step c s b)) | _ => True end /\
    np_evenly c (np_apply_op c s o) r
  end.

Section Scale.
Variable k : Z.
Hypothesis K : 0 < k.
Local Notation sc := (k_config k).
Local Notation ss := (k_state k).
Local Notation "'km' l" := (map (Z.mul k) l) (at level 9, l at level 8).

(** ** The pots *)
Definition k_hand (h : hand3) : hand3 := mkHand (h_idx h) (h_strength h) (k * h_commit h).
Lemma hand_le_k a b : hand_le (k_hand a) (k_hand b) = hand_le a b.
Proof. unfold hand_le, k_hand. cbn [h_strength h_commit]. now rewrite k_leb. Qed.
Lemma insert_k x l : insert_sorted hand_le (k_hand x) (map k_hand l) = map k_hand (insert_sorted hand_le x l).
Proof.
  induction l as [|y l IH]; [reflexivity|]. cbn [map insert_sorted]. rewrite hand_le_k. destruct (hand_le x y); [reflexivity|].
  cbn [map]. now rewrite IH.
Qed.
Lemma sort_k l : sort_by hand_le (map k_hand l) = map k_hand (sort_by hand_le l).
Proof.
  unfold sort_by. induction l as [|x l IH]; [reflexivity|]. cbn [map fold_right]. rewrite IH. apply insert_k.
Qed.
Lemma zip_k st cm : zip_hands st (km cm) = map k_hand (zip_hands st cm).
Proof.
  unfold zip_hands. rewrite map_map. generalize (combine (seq 0 (List.length st)) st). intros l. revert cm.
  induction l as [|x l IH]; intros [|y cm]; cbn [map combine]; [reflexivity..|]. rewrite IH. reflexivity.
Qed.
Lemma chips_of_k all a b : chips_of (map k_hand all) (k * a) (k * b) = k * chips_of all a b.
Proof.
  unfold chips_of. rewrite <- (km_sum k), !map_map. f_equal. apply map_ext. intros o. cbn [k_hand h_commit].
  rewrite !(k_min k K). lia.
Qed.
Lemma eligible_k worst all mk x : eligible_for worst (map k_hand all) mk x = eligible_for worst all mk x.
Proof.
  unfold eligible_for. induction all as [|o all IH]; [reflexivity|]. cbn [map filter].
  change (cur_strength worst mk (k_hand o)) with (cur_strength worst mk o).
  destruct (cur_strength worst mk o =? x); cbn [map]; rewrite IH; reflexivity.
Qed.
Lemma np_dealt_k worst all rest : forall L mk,
  np_dealt worst (map k_hand all) (map k_hand rest) (k * L) mk = k_pots k (np_dealt worst all rest L mk).
Proof.
  induction rest as [|h rest IH]; intros L mk; [reflexivity|]. cbn [map np_dealt].
  change (h_commit (k_hand h)) with (k * h_commit h). change (h_idx (k_hand h)) with (h_idx h). change (h_strength (k_hand h)) with (h_strength h).
  rewrite (k_leb k K). destruct (h_commit h <=? L); [apply IH|]. rewrite eligible_k, chips_of_k, IH. reflexivity.
Qed.
Lemma np_show_pots_k worst st cm : np_show_pots worst st (km cm) = k_pots k (np_show_pots worst st cm).
Proof.
  unfold np_show_pots. assert (E : show_hands st (km cm) = map k_hand (show_hands st cm)) by (unfold show_hands; now rewrite zip_k, sort_k).
  rewrite E, <- np_dealt_k, Z.mul_0_r. reflexivity.
Qed.

(** ** The pieces of a step *)
Lemma np_clean_k b call lo hi : np_clean_bet (k * b) (k * call) (k * lo) (k * hi) = k * np_clean_bet b call lo hi.
Proof.
  unfold np_clean_bet.
  replace (map (fun v => Z.abs (v - k * b)) [0; k * call; k * lo; k * hi])
     with (km (map (fun v => Z.abs (v - b)) [0; call; lo; hi])).
  2:{ cbn [map]. rewrite <- !(k_abs k K), !Z.mul_sub_distr_l, Z.mul_0_r. reflexivity. }
  rewrite (argmin_k k K). destruct (argmin _) as [|[|[|[|q]]]]; rewrite ?(k_max k K), ?(k_min k K); lia.
Qed.
Lemma np_settle_k fold b call lo hi :
  np_settle_bet fold (k * b) (k * call) (k * lo) (k * hi)
  = let '(bet, folds) := np_settle_bet fold b call lo hi in (k * bet, folds).
Proof.
  unfold np_settle_bet. rewrite np_clean_k, (k_eqb0 k K), (k_ltb k K).
  destruct (negb (call =? 0) && ((np_clean_bet b call lo hi <? call) || fold)); f_equal. lia.
Qed.
Lemma np_collect_k c s bets to : np_collect_multiple_bets (sc c) (ss s) (km bets) to = ss (np_collect_multiple_bets c s bets to).
Proof.
  unfold np_collect_multiple_bets, np_roll. change (act_idx (sc c) (ss s)) with (act_idx c s).
  rewrite map_length, km_roll, (forced_k k K).
  cbn [k_state action active button community_cards the_deck history hole_cards largest_raise pot pot_commits stacks street
       street_commits street_option street_raises]. unfold k_state at 1.
  cbn [action active button community_cards the_deck history hole_cards largest_raise pot pot_commits stacks street
       street_commits street_option street_raises].
  rewrite km_sum, !km_add, km_sub, <- Z.mul_add_distr_l. destruct to; reflexivity.
Qed.
Lemma np_payouts_k c z : List.length (pot_commits z) = num_players c -> List.length (hole_cards z) = num_players c ->
  (forall i, 0 <= committed z i) -> pot z = sumZ (pot_commits z) -> 1 <= count_true (active z) -> np_no_odd_chips c z ->
  np_payouts (sc c) (ss z) = k_result (map (Z.mul k)) (np_payouts c z).
Proof.
  intros Lc Lh Hn Hp C1 NO.
  assert (Fold : map (fun p => if snd p : bool then 0 else - fst p) (combine (km (pot_commits z)) (active z))
                 = km (map (fun p => if snd p : bool then 0 else - fst p) (combine (pot_commits z) (active z)))).
  { generalize (active z), (pot_commits z). intros l. induction l as [|a l IH]; intros [|x cm]; cbn [map combine]; try reflexivity.
    cbn [fst snd]. rewrite IH. f_equal. destruct a; lia. }
  destruct (Z.eq_dec (count_true (active z)) 1) as [E1|N1]; [|destruct (Nat.leb (num_streets c) (street z)) eqn:Es].
  - unfold np_payouts. cbn [k_state k_config active pot_commits pot street]. replace (count_true (active z) =? 1) with true by lia. cbn [k_result].
    f_equal. rewrite Fold. generalize (active z), (pot_commits z). intros l. induction l as [|a l IH]; intros [|x cm]; cbn [map combine]; try reflexivity.
    rewrite IH. f_equal. cbn [fst snd]. destruct a; lia.
  - assert (C2 : 2 <= count_true (active z)) by lia. assert (Hs : (num_streets c <= street z)%nat) by lia.
    destruct (np_show_payouts c z N1 Hs Lc Lh Hn Hp) as [(e & E & P)|(st & E & G & T & P)].
    { rewrite P. unfold np_payouts, np_eval_round. cbn [k_state k_config active pot_commits pot street num_streets hole_cards community_cards].
      replace (count_true (active z) =? 1) with false by lia. rewrite Es.
      change (eval_hands (sc c) (active z) (hole_cards z) (community_cards z)) with (eval_hands c (active z) (hole_cards z) (community_cards z)). rewrite E. reflexivity. }
    cbv zeta in *. destruct (eval_hands_spec c z st Lh E) as [Ls Hst].
    assert (SP : array_pots (show_of c z) 0 (np_pots_of c z st)).
    { apply np_show_array with (n := num_players c); try assumption; try reflexivity.
      + intros i Hi Ai. destruct (Hst i Hi) as [H _]. destruct (H Ai) as (H1 & H2 & _). auto.
      + intros i Hi Ai. destruct (Hst i Hi) as [_ H]. now apply H. }
    pose proof (NO C2 Hs _ SP) as Odd. destruct P as [(_ & P)|[(P0 & _)|(P0 & _)]]; [|lia..]. rewrite P. cbn [k_result].
    destruct (even_pots k K _ _ G Odd) as [V1 V2].
    destruct (np_show_payouts (sc c) (ss z)) as [(e & E' & _)|(st' & E' & G' & T' & P')]; cbn [k_state k_config active pot_commits pot street num_streets num_players hole_cards community_cards button]; try assumption.
    { now rewrite map_length. }
    { intros i. unfold committed. cbn [pot_commits k_state]. rewrite km_nth. specialize (Hn i). unfold committed in Hn. nia. }
    { rewrite km_sum, Hp. reflexivity. }
    { cbn [k_state active hole_cards community_cards] in E'. change (eval_hands (sc c) (active z) (hole_cards z) (community_cards z)) with (eval_hands c (active z) (hole_cards z) (community_cards z)) in E'. rewrite E in E'. discriminate E'. }
    cbv zeta in P'. cbn [k_state active hole_cards community_cards] in E'.
    change (eval_hands (sc c) (active z) (hole_cards z) (community_cards z)) with (eval_hands c (active z) (hole_cards z) (community_cards z)) in E'.
    rewrite E in E'. injection E' as <-.
    assert (EP : np_pots_of (sc c) (ss z) st = k_pots k (np_pots_of c z st)) by (unfold np_pots_of; cbn [k_state pot_commits]; apply np_show_pots_k).
    rewrite EP, V1 in P'. destruct P' as [(_ & P')|[(P0 & _)|(P0 & _)]]; [|lia..]. rewrite P'. f_equal.
    rewrite <- km_sub. cbn [k_state pot_commits k_config num_players]. f_equal.
    rewrite map_map. apply map_ext. intros i. apply V2.
  - unfold np_payouts. cbn [k_state k_config active pot_commits pot street num_streets]. replace (count_true (active z) =? 1) with false by lia. rewrite Es. cbn [k_result].
    now rewrite Fold.
Qed.
Lemma np_step_end_k c z : List.length (pot_commits z) = num_players c -> List.length (hole_cards z) = num_players c ->
  (forall i, 0 <= committed z i) -> pot z = sumZ (pot_commits z) -> 1 <= count_true (active z) -> np_no_odd_chips c z ->
  np_step_end (sc c) (ss z) = (ss (fst (np_step_end c z)), k_result (k_out k) (snd (np_step_end c z))).
Proof.
  intros A1 A2 A3 A4 A5 A6. unfold np_step_end. rewrite np_payouts_k by assumption.
  change (np_done_list (sc c) (ss z)) with (np_done_list c z). destruct (np_payouts c z) as [pay|e]; [|reflexivity].
  cbn [k_result]. destruct (all_true (np_done_list c z)).
  - assert (E : finish_hand (ss z) (km pay) = ss (finish_hand z pay)).
    { unfold finish_hand, k_state. cbn [action active button community_cards the_deck history hole_cards largest_raise pot pot_commits stacks street street_commits street_option street_raises]. rewrite !km_add, Z.mul_0_r. reflexivity. }
    rewrite E, (observation_k k K). cbn [fst snd]. destruct (observation c (finish_hand z pay) true); reflexivity.
  - rewrite (observation_k k K). cbn [fst snd]. destruct (observation c z false); reflexivity.
Qed.
Lemma np_no_odd_same c z s' : active s' = active z -> pot_commits s' = pot_commits z -> street s' = street z -> hole_cards s' = hole_cards z -> community_cards s' = community_cards z ->
  np_no_odd_chips c s' -> np_no_odd_chips c z.
Proof. intros E1 E2 E3 E4 E5. unfold np_no_odd_chips, show_of, committed. now rewrite E1, E2, E3, E4, E5. Qed.

Lemma np_step_k c s b : np_fair c s -> in_progress s -> whole b -> np_no_odd_chips c (fst (np_step c s b)) ->
  np_step (sc c) (ss s) (k_bet k b) = (ss (fst (np_step c s b)), k_result (k_out k) (snd (np_step c s b))).
Proof.
  intros F Hp Wb NO. destruct (round_k k K b Wb) as [Rb Nb].
  destruct (action s) as [a|] eqn:Ea; [|exfalso; now apply Hp].
  assert (St : np_step c s b = match py_round b with Err e => (s, Err e) | Ok bet0 => match bet_sizes c s with Err e => (s, Err e) | Ok (call, mi, ma) =>
     let '(bet, folds) := np_settle_bet (pynum_neg b) bet0 call mi ma in let s1 := place_bet c s a (pynum_neg b) bet folds call in
     np_step_end c (if all_agreed s1 then next_street c s1 else s1) end end) by (unfold np_step; rewrite Ea; reflexivity).
  unfold np_step at 1. change (action (ss s)) with (action s). rewrite Ea, Nb, Rb, (sizes_k k K).
  destruct (py_round b) as [bet0|e] eqn:Er; cbn [k_result]; [|rewrite St; reflexivity].
  destruct (bet_sizes c s) as [[[call mi] ma]|e] eqn:Eb; cbn [k_result k_sizes]; [|rewrite St; reflexivity].
  rewrite np_settle_k. destruct (np_settle_bet (pynum_neg b) bet0 call mi ma) as [bet folds] eqn:Es. cbv zeta in *. rewrite (place_k k K), (agreed_k k K).
  set (s1 := place_bet c s a (pynum_neg b) bet folds call) in *.
  assert (E2 : (if all_agreed s1 then next_street (sc c) (ss s1) else ss s1) = ss (if all_agreed s1 then next_street c s1 else s1)).
  { destruct (all_agreed s1); [apply (next_k k K)|reflexivity]. }
  rewrite E2. set (z := if all_agreed s1 then next_street c s1 else s1) in *.
  pose proof (np_fair_money c s F) as M. assert (Hn : (0 < num_players c)%nat) by (pose proof (cw_two _ (mo_cfg _ _ M)); lia).
  assert (Z : List.length (pot_commits z) = num_players c /\ List.length (hole_cards z) = num_players c /\
     (forall i, 0 <= committed z i) /\ pot z = sumZ (pot_commits z) /\ 1 <= count_true (active z)).
  { assert (L : limits (wrap c s) a call mi ma) by (apply (money_limits c); [exact M|exact Ea|rewrite wrap_bet_sizes; exact Eb]).
    rewrite (np_settle_same _ _ _ _ _ _ _ L Er) in Es.
    assert (H1 : after_bet c (wrap c s) b = Some (wrap c s1)).
    { unfold after_bet. change (action (wrap c s)) with (action s). rewrite wrap_bet_sizes, Ea, Er, Eb, Es. unfold s1. now rewrite wrap_place. }
    assert (H2 : settle c (wrap c s1) = wrap c z) by (unfold z; fold (settle c s1); now rewrite settle_wrap).
    pose proof (settle_money c (wrap c s) b _ M Hp H1) as Kf. cbv zeta in Kf. rewrite H2 in Kf.
    destruct Kf as (K1 & K2 & K3 & K4 & K5 & K6 & K7 & K8 & K9 & _). splits; assumption. }
  destruct Z as (Z1 & Z2 & Z3 & Z4 & Z5). rewrite St. apply np_step_end_k; try assumption.
  destruct (np_step_end_same c z) as (Q1 & Q2 & Q3 & Q4 & Q5). rewrite St in NO. eapply np_no_odd_same; [..|exact NO]; assumption.
Qed.

Lemma np_reset_k c s rnd rb rs : np_reset (sc c) (ss s) rnd rb rs = (ss (fst (np_reset c s rnd rb rs)), k_result (k_obs k) (snd (np_reset c s rnd rb rs))).
Proof.
  unfold np_reset.
  assert (A : reset_active (sc c) (ss s) rs = (fst (reset_active c s rs), km (snd (reset_active c s rs)))).
  { unfold reset_active. cbn [k_config k_state num_players start_stack stacks]. destruct rs; cbn [fst snd]; [now rewrite km_repeat|].
    f_equal. rewrite map_map. apply map_ext. intros x. apply (k_ltb0 k K). }
  rewrite A. destruct (reset_active c s rs) as [act stk]. cbn [fst snd].
  destruct (negb rs && (count_true act <=? 1)); [reflexivity|].
  change (num_community_cards (sc c)) with (num_community_cards c).
  change (the_deck (ss s)) with (the_deck s). change (num_players (sc c)) with (num_players c). change (num_hole_cards (sc c)) with (num_hole_cards c).
  change (button (ss s)) with (button s). destruct (num_community_cards c) as [|cc0 ccs] eqn:Ec; [reflexivity|].
  destruct (deck_draw cc0 (deck_shuffle rnd (the_deck s))) as [comm d1]. destruct (deal_hands (num_players c) (num_hole_cards c) d1) as [holes d2].
  cbv zeta. set (b := if rb then 0%nat else (button s + 1 mod num_players c)%nat).
  set (s1 := mkState (Some b) act b comm d2 [] holes (big_blind c) 0 (repeat 0 (num_players c)) stk 0 (repeat 0 (num_players c)) (repeat false (num_players c)) 0).
  assert (S1 : mkState (Some b) act b comm d2 [] holes (big_blind (sc c)) 0 (repeat 0 (num_players c)) km stk 0 (repeat 0 (num_players c)) (repeat false (num_players c)) 0 = ss s1).
  { unfold s1, k_state. cbn. rewrite <- km_zero, Z.mul_0_r. reflexivity. }
  rewrite S1. change (antes (sc c)) with (km (antes c)). change (blinds (sc c)) with (km (blinds c)).
  assert (E2 : (if (2 <? num_players c)%nat then move_action (sc c) (ss s1) else ss s1) = ss (if (2 <? num_players c)%nat then move_action c s1 else s1)).
  { destruct (2 <? num_players c)%nat; [apply move_k|reflexivity]. }
  rewrite E2, !np_collect_k, !move_k, (observation_k k K). reflexivity.
Qed.
Lemma np_op_k c s o : np_fair c s -> match o with OStep b => whole b /\ np_no_odd_chips c (fst (np_step c s b)) | _ => True end ->
  np_apply_op (sc c) (ss s) (k_op k o) = ss (np_apply_op c s o).
Proof.
  intros F H. destruct o as [rnd rb rs|b|cs| |l]; cbn [np_apply_op k_op].
  - rewrite np_reset_k. reflexivity.
  - destruct H as [W N]. destruct (action s) as [a|] eqn:Ea.
    + rewrite np_step_k; [reflexivity|exact F|unfold in_progress; rewrite Ea; discriminate|exact W|exact N].
    + unfold np_step. change (action (ss s)) with (action s). rewrite Ea. reflexivity.
  - change (the_deck (ss s)) with (the_deck s). destruct (deck_trick cs (the_deck s)); reflexivity.
  - reflexivity.
  - reflexivity.
Qed.
End Scale.

(** ** Theorems *)
(** the constructor of both dealers is the same; [C82_dealer] says that it makes the same table with [k] times the chips *)
Theorem C90_reset : forall k c s rnd rb rs, 0 < k ->
  let '(s', r) := np_reset c s rnd rb rs in
  np_reset (k_config k c) (k_state k s) rnd rb rs = (k_state k s', k_result (k_obs k) r).
Proof. intros k c s rnd rb rs K. rewrite np_reset_k by exact K. now destruct (np_reset c s rnd rb rs). Qed.
Print Assumptions C90_reset.

Theorem C90_step : forall k c s b, 0 < k -> np_fair c s -> in_progress s -> whole b ->
  let '(s', r) := np_step c s b in
  np_no_odd_chips c s' ->
  np_step (k_config k c) (k_state k s) (k_bet k b) = (k_state k s', k_result (k_out k) r).
Proof.
  intros k c s b K F Hp W. destruct (np_step c s b) as [s' r] eqn:E. intros N.
  rewrite np_step_k; try assumption; rewrite E; [reflexivity|exact N].
Qed.
Print Assumptions C90_step.

(** whole sessions: any number of hands, with resets, tricked decks and assigned stacks *)
Theorem C90_session : forall k rnd w ops, 0 < k ->
  match Dealer rnd w with
  | Err e => Dealer rnd (k_raw k w) = Err e
  | Ok (c, s) => sane c -> np_all_allowed c s ops = true -> np_evenly c s ops ->
    Dealer rnd (k_raw k w) = Ok (k_config k c, k_state k s) /\
    np_run (k_config k c) (k_state k s) (map (k_op k) ops) = k_state k (np_run c s ops)
  end.
Proof.
  intros k rnd w ops K. rewrite dealer_k. destruct (Dealer rnd w) as [[c s]|e] eqn:E; [|reflexivity].
  intros Sn Al Ev. split; [reflexivity|]. assert (F : np_fair c s) by (eapply np_fair_new; eassumption). clear E.
  revert s F Al Ev. induction ops as [|o ops IH]; intros s F Al Ev; [reflexivity|].
  unfold np_run. cbn [map fold_left]. fold (np_run (k_config k c) (np_apply_op (k_config k c) (k_state k s) (k_op k o)) (map (k_op k) ops)).
  fold (np_run c (np_apply_op c s o) ops). pose proof (np_fair_run c s [o] F) as F1. cbn [np_all_allowed] in Al, F1.
  destruct (np_allowedb c s o) eqn:Ao; [|discriminate Al]. destruct Ev as [Ev1 Ev2].
  rewrite (np_op_k k K c s o F Ev1). apply IH; try assumption. now apply F1.
Qed.
Print Assumptions C90_session.

(** the condition on showdowns is needed, as at the list dealer: 40 chips shared by three leave one over, 120 chips do not *)
Theorem C90_odd_chips : exists c s, np_fair c s /\
  let pays r := match snd r with Ok out => out_payouts out | Err _ => [] end in
  pays (np_step c s (PyInt 20)) = [3; 4; 13; -20] /\
  pays (np_step (k_config 3 c) (k_state 3 s) (PyInt 60)) = [10; 10; 40; -60].
Proof. np_play side_game side_ops c s E. split; [exact (np_played_fair _ _ _ _ E)|]. cbv zeta. np_plays E. Qed.
Print Assumptions C90_odd_chips.

(** and one chip left over by everybody in the hand raises ValueError (C66), three chips do not *)
Theorem C90_odd_error : exists c s, np_fair c s /\ in_progress s /\
  snd (np_step c s (PyInt 0)) = Err ValueError /\
  is_ok (snd (np_step (k_config 3 c) (k_state 3 s) (PyInt 0))) = true.
Proof.
  assert (G : exists c s, np_fair c s /\ action s = Some 0%nat /\ snd (np_step c s (PyInt 0)) = Err ValueError /\
    is_ok (snd (np_step (k_config 3 c) (k_state 3 s) (PyInt 0))) = true).
  { np_play lost_game lost_ops c s E. split; [exact (np_played_fair _ _ _ _ E)|]. np_plays E. }
  destruct G as (c & s & F & G1 & G2 & G3). exists c, s. split; [exact F|]. split; [unfold in_progress; rewrite G1; discriminate|]. split; assumption.
Qed.
Print Assumptions C90_odd_error.

(** seats 0 and 1 tie, with 10 and 20 chips; seats 2 and 3 lose 20 chips each *)
Example C90_example : exists c s, np_fair c s /\ in_progress s /\ np_no_odd_chips c (fst (np_step c s (PyInt 20))) /\
  2 <= count_true (active (fst (np_step c s (PyInt 20)))) /\ (num_streets c <= street (fst (np_step c s (PyInt 20))))%nat /\
  match snd (np_step c s (PyInt 20)) with Ok out => out_payouts out | Err _ => [] end = [10; 30; -20; -20].
Proof.
  assert (G : exists c s, np_fair c s /\ action s = Some 2%nat /\
    active (fst (np_step c s (PyInt 20))) = [true; true; true; true] /\ num_streets c = 1%nat /\ street (fst (np_step c s (PyInt 20))) = 1%nat /\
    Nat.ltb (List.length (above (show_of c (fst (np_step c s (PyInt 20)))) 0)) 5 = true /\
    odd_chips (array_fun 5 (show_of c (fst (np_step c s (PyInt 20)))) 0) = 0 /\
    match snd (np_step c s (PyInt 20)) with Ok out => out_payouts out | Err _ => [] end = [10; 30; -20; -20]).
  { np_play side_game even_ops c s E. split; [exact (np_played_fair _ _ _ _ E)|]. np_plays E. }
  destruct G as (c & s & F & G1 & G2 & G3 & G4 & G5 & G6 & G7). exists c, s. split; [exact F|]. split; [unfold in_progress; rewrite G1; discriminate|].
  split; [|split; [rewrite G2; cbn; lia|split; [lia|exact G7]]].
  intros _ _ pots H. assert (L : (List.length (above (show_of c (fst (np_step c s (PyInt 20)))) 0) < 5)%nat) by lia.
  destruct (array_pots_unique _ _ _ H _ (array_fun_ok _ 5 0 L)) as [-> _]. exact G6.
Qed.
