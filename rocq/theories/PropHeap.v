(** * PropHeap: C49 and C54, the lists shared between the dealer and the observations *)
From Coq Require Import PeanoNat.
From Verif Require Import PyBase PyFacts CardModel EvalModel EngineModel EngineSpec EngineFacts EngineDemo HeapModel HeapFacts.

(** ** Specification *)
(** [hreachable c q]: the dealer [q] was built and then any calls were made *)
Inductive hreachable (c : config) : hdealer -> Prop :=
| hreach_new w rnd s : Dealer rnd w = Ok (c, s) -> hreachable c (hnew s)
| hreach_op q o : hreachable c q -> hreachable c (happly c q o).
(** [held c q o]: the caller has the observation [o], returned by some earlier call, and the dealer
    is now [q] *)
Inductive held (c : config) : hdealer -> hobs -> Prop :=
| held_reset q rnd rb rs o : hreachable c q -> snd (hreset c q rnd rb rs) = Ok o -> held c (fst (hreset c q rnd rb rs)) o
| held_step q b o pay done : hreachable c q -> snd (hstep c q b) = Ok (o, pay, done) -> held c (fst (hstep c q b)) o
| held_later q o op : held c q o -> held c (happly c q op) o.
(** what the caller sees in it *)
Definition seen (q : hdealer) (o : hobs) : obs := look (q_heap q) o.
Definition hsteps (c : config) (q : hdealer) (bs : list pynum) : hdealer := hrun c q (map OStep bs).

(** ** Facts *)
Lemma hreachable_apart c q : hreachable c q -> apart q.
Proof. induction 1 as [w rnd s _|q o _ IH]; [apply hnew_apart|apply (happly_refines c q o IH)]. Qed.
Lemma held_reachable c q o : held c q o -> hreachable c q.
Proof.
  induction 1 as [q rnd rb rs o R _|q b o pay done R _|q o op _ IH].
  - exact (hreach_op c q (OReset rnd rb rs) R).
  - exact (hreach_op c q (OStep b) R).
  - exact (hreach_op c q op IH).
Qed.
(** where the objects of an observation are: each of them was bound to one attribute only *)
Record placed (q : hdealer) (o : hobs) : Prop := mkPlaced {
  pl_active : (ho_active o < List.length (bools (q_heap q)))%nat /\ ho_active o <> r_option (q_refs q);
  pl_stacks : (ho_stacks o < List.length (ints (q_heap q)))%nat /\ ho_stacks o <> r_pot_commits (q_refs q) /\ ho_stacks o <> r_commits (q_refs q);
  pl_commits : (ho_commits o < List.length (ints (q_heap q)))%nat /\ ho_commits o <> r_pot_commits (q_refs q) /\ ho_commits o <> r_stacks (q_refs q);
  pl_community : (ho_community o < List.length (cardss (q_heap q)))%nat /\ ~ In (ho_community o) (r_holes (q_refs q));
  pl_hole : (ho_hole o < List.length (cardss (q_heap q)))%nat /\ ho_hole o <> r_community (q_refs q)
}.
Lemma observation_refs c q done o : apart q -> hobservation c q done = Ok o ->
  ho_active o = r_active (q_refs q) /\ ho_stacks o = r_stacks (q_refs q) /\ ho_commits o = r_commits (q_refs q) /\
  ho_community o = r_community (q_refs q) /\ In (ho_hole o) (r_holes (q_refs q)).
Proof.
  intros W. unfold hobservation. destruct (if done then _ else _) as [[[x y] z]|e]; cbn [bind]; [|discriminate].
  destruct (match z_action (q_scal q) with Some a => _ | None => _ end) as [l|e] eqn:E; cbn [bind]; [|discriminate]. intros H. injection H as <-. cbn.
  split; [reflexivity|]. split; [reflexivity|]. split; [reflexivity|]. split; [reflexivity|].
  destruct (z_action (q_scal q)) as [a|].
  - unfold get in E. destruct (nth_error (r_holes (q_refs q)) a) eqn:N; [|discriminate]. injection E as <-. exact (nth_error_In _ _ N).
  - unfold get_last in E. apply in_rev. destruct (rev (r_holes (q_refs q))); [discriminate|]. injection E as <-. left. reflexivity.
Qed.
Lemma placed_new q o : apart q -> ho_active o = r_active (q_refs q) /\ ho_stacks o = r_stacks (q_refs q) /\ ho_commits o = r_commits (q_refs q) /\
  ho_community o = r_community (q_refs q) /\ In (ho_hole o) (r_holes (q_refs q)) -> placed q o.
Proof.
  intros [W1 W2 W3 W4 W5 W6 W7 W8 W9 W10 W11 W12] (E1 & E2 & E3 & E4 & E5). rewrite Forall_forall in W11.
  constructor; rewrite ?E1, ?E2, ?E3, ?E4.
  - split; assumption.
  - split; [assumption|]. split; assumption.
  - split; [assumption|]. split; intros X; [apply W9|apply W8]; symmetry; exact X.
  - split; [assumption|]. intros I. destruct (W11 _ I) as [_ N]. apply N. reflexivity.
  - exact (W11 _ E5).
Qed.
Lemma placed_frame q q' o : frame q q' -> placed q o -> placed q' o.
Proof.
  intros [F1 F2 F3 F4 F5 F6 F7 F8 F9 F10 F11 F12 F13] [P1 P2 P3 P4 P5]. constructor; try lia.
  split; [lia|]. destruct F13 as [->|F13]; [apply P4|]. intros I. rewrite Forall_forall in F13. specialize (F13 _ I). lia.
Qed.
Lemma held_placed c q o : held c q o -> placed q o.
Proof.
  induction 1 as [q rnd rb rs o R E|q b o pay done R E|q o op H IH].
  - pose proof (hreachable_apart _ _ R) as W. destruct (hreset_refines c q rnd rb rs W) as ((W' & _ & _) & _). apply placed_new; [exact W'|].
    revert W' E. unfold hreset. cbv zeta. set (q0 := if rs then _ else _). clearbody q0. destruct (negb rs && _); [discriminate|].
    destruct (num_community_cards c); [discriminate|]. destruct (deck_draw _ _). destruct (deal_hands _ _ _). cbn [fst snd]. apply observation_refs.
  - pose proof (hreachable_apart _ _ R) as W. destruct (hstep_refines c q b W) as ((W' & _ & _) & _). apply placed_new; [exact W'|].
    revert W' E. unfold hstep. destruct (z_action (q_scal q)).
    + destruct (py_round b); [|discriminate]. destruct (bet_sizes c (view q)) as [[[? ?] ?]|]; [|discriminate]. destruct (settle_bet _ _ _ _ _). cbv zeta.
      set (q2 := if all_agreed _ then _ else _). clearbody q2. unfold hstep_end. destruct (payouts c (view q2)); [|discriminate]. cbn [fst snd].
      set (q3 := if all_true _ then _ else _). clearbody q3. destruct (hobservation c q3 _) as [o'|] eqn:O; cbn [bind]; [|discriminate].
      intros W' E. injection E as <- _ _. exact (observation_refs _ _ _ _ W' O).
    + cbn [fst snd]. unfold hstep_idle. destruct (any_true _); [|discriminate]. cbv zeta. destruct (payouts c (view q)); cbn [bind]; [|discriminate].
      destruct (hobservation c q _) as [o'|] eqn:O; cbn [bind]; [|discriminate]. intros W' E. injection E as <- _ _. exact (observation_refs _ _ _ _ W' O).
  - apply (placed_frame q); [|exact IH]. apply happly_refines. apply hreachable_apart with c. exact (held_reachable _ _ _ H).
Qed.

(** ** C49: what can change *)
(** when it is returned, the observation shows the dealer's state: reading it at once gives the
    observation of the dealer with lists as values *)
Theorem C49_when_returned : forall c q, hreachable c q ->
  (forall rnd rb rs o, snd (hreset c q rnd rb rs) = Ok o -> snd (reset c (view q) rnd rb rs) = Ok (seen (fst (hreset c q rnd rb rs)) o)) /\
  (forall b o pay done, snd (hstep c q b) = Ok (o, pay, done) -> snd (step c (view q) b) = Ok (mkOut (seen (fst (hstep c q b)) o) pay done)).
Proof.
  intros c q R. pose proof (hreachable_apart _ _ R) as W. split.
  - intros rnd rb rs o E. destruct (hreset_refines c q rnd rb rs W) as (_ & S). rewrite E in S. unfold same_obs in S. destruct (snd (reset c (view q) rnd rb rs)) as [o'|e]; [|contradiction]. f_equal. symmetry. exact S.
  - intros b o pay done E. destruct (hstep_refines c q b W) as (_ & S). rewrite E in S. unfold same_out in S. destruct (snd (step c (view q) b)) as [[o' p' d']|e]; [|contradiction].
    cbn in S. destruct S as (S1 & S2 & S3). f_equal. unfold seen. congruence.
Qed.
Print Assumptions C49_when_returned.

(** C49, what holds: the numbers in an observation and the hole cards never change, whatever is
    called later *)
Theorem C49_partial : forall c q o ops, held c q o ->
  let now := seen q o in let later := seen (hrun c q ops) o in
  o_action later = o_action now /\ o_button later = o_button now /\ o_call later = o_call now /\ o_hole_cards later = o_hole_cards now /\
  o_max_raise later = o_max_raise now /\ o_min_raise later = o_min_raise now /\ o_pot later = o_pot now.
Proof.
  intros c q o ops H. pose proof (held_placed _ _ _ H) as P. pose proof (hreachable_apart _ _ (held_reachable _ _ _ H)) as W.
  destruct (hrun_refines c ops q W) as (_ & F & _). cbn. split; [reflexivity|]. split; [reflexivity|]. split; [reflexivity|]. split; [|split; [reflexivity|split; reflexivity]].
  apply (fr_cards _ _ F); apply P.
Qed.
Print Assumptions C49_partial.

Definition free (q : hdealer) (o : hobs) : Prop :=
  ho_active o <> r_active (q_refs q) /\ ho_stacks o <> r_stacks (q_refs q) /\ ho_commits o <> r_commits (q_refs q) /\ ho_community o <> r_community (q_refs q).
Lemma free_stays q q' o : frame q q' -> placed q o -> free q o -> seen q' o = seen q o.
Proof.
  intros F P (A & B & C & D). destruct P as [P1 P2 P3 P4 P5]. unfold seen, look.
  rewrite (fr_bools _ _ F (ho_active o)), (fr_cards _ _ F (ho_community o)), (fr_cards _ _ F (ho_hole o)), (fr_ints _ _ F (ho_stacks o)), (fr_ints _ _ F (ho_commits o)); try tauto.
Qed.
Lemma move_loop_refs n a0 k : forall i a q, let q' := snd (hmove_loop n a0 k i a q) in
  q_refs q' = q_refs q /\ ints (q_heap q') = ints (q_heap q) /\ cardss (q_heap q') = cardss (q_heap q).
Proof.
  induction k as [|k IH]; intros i a q; cbn [hmove_loop]; [split; [|split]; reflexivity|]. destruct (nth _ _ _); [split; [|split]; reflexivity|].
  cbv zeta in *. destruct (IH (S i) (Nat.modulo (a0 + i) n) (write_option (Nat.modulo (a0 + i) n) true q)) as (A & B & C). rewrite A, B, C. destruct q as [[b v w] r z]. cbn. split; [|split]; reflexivity.
Qed.
Lemma move_refs c q : q_refs (hmove_action c q) = q_refs q /\ ints (q_heap (hmove_action c q)) = ints (q_heap q) /\ cardss (q_heap (hmove_action c q)) = cardss (q_heap q).
Proof.
  unfold hmove_action. pose proof (move_loop_refs (num_players c) (act_idx c (view q)) (num_players c) 1 (act_idx c (view q)) q) as M. cbv zeta in M.
  destruct (hmove_loop _ _ _ _ _ _) as [a q1]. exact M.
Qed.
Lemma collect_refs c q bets t : let q' := hcollect_multiple_bets c q bets t in
  r_active (q_refs q') = r_active (q_refs q) /\ r_community (q_refs q') = r_community (q_refs q) /\ (List.length (ints (q_heap q)) <= List.length (ints (q_heap q')))%nat /\
  (List.length (ints (q_heap q)) <= r_stacks (q_refs q'))%nat /\
  (r_commits (q_refs q') = r_commits (q_refs q) \/ (List.length (ints (q_heap q)) <= r_commits (q_refs q'))%nat).
Proof.
  cbv zeta. unfold hcollect_multiple_bets. cbv zeta. set (b := forced_bets _ _). destruct q as [[bs is cs] [ra ro rs rp rm rc rh] z].
  destruct t; cbn; rewrite ?app_length; cbn; lia.
Qed.
(** [old q q']: the objects that are in the store of [q] have the same contents in [q'] *)
Definition old (q q' : hdealer) : Prop :=
  (exists m, bools (q_heap q') = bools (q_heap q) ++ m) /\ (exists m, ints (q_heap q') = ints (q_heap q) ++ m) /\ (exists m, cardss (q_heap q') = cardss (q_heap q) ++ m).
Lemma collect_old c q bets t : bools (q_heap (hcollect_multiple_bets c q bets t)) = bools (q_heap q) /\
  (exists m, ints (q_heap (hcollect_multiple_bets c q bets t)) = ints (q_heap q) ++ m) /\ cardss (q_heap (hcollect_multiple_bets c q bets t)) = cardss (q_heap q).
Proof.
  unfold hcollect_multiple_bets. cbv zeta. set (b := forced_bets _ _). destruct q as [[bs is cs] [ra ro rs rp rm rc rh] z].
  destruct t; cbn; (split; [reflexivity|split; [|reflexivity]]); rewrite <- ?app_assoc; eexists; reflexivity.
Qed.
Lemma reset_refs c q rnd rb rs o : apart q -> snd (hreset c q rnd rb rs) = Ok o -> let q' := fst (hreset c q rnd rb rs) in
  ((List.length (bools (q_heap q)) <= r_active (q_refs q'))%nat /\ (List.length (ints (q_heap q)) <= r_stacks (q_refs q'))%nat /\
   (List.length (ints (q_heap q)) <= r_commits (q_refs q'))%nat /\ (List.length (cardss (q_heap q)) <= r_community (q_refs q'))%nat) /\
  (forall l, (l < List.length (bools (q_heap q)))%nat -> read_bools (q_heap q') l = read_bools (q_heap q) l) /\
  (forall l, (l < List.length (ints (q_heap q)))%nat -> read_ints (q_heap q') l = read_ints (q_heap q) l) /\
  (forall l, (l < List.length (cardss (q_heap q)))%nat -> read_cards (q_heap q') l = read_cards (q_heap q) l).
Proof.
  intros W. unfold hreset. cbv zeta. set (q0 := if rs then _ else _).
  assert (R0 : apart q0 /\ (List.length (bools (q_heap q)) <= r_active (q_refs q0))%nat /\ old q q0).
  { unfold q0. split; [|].
    - destruct rs; [|apply (do_assign_active _ q W)]. destruct (do_assign_active (repeat true (num_players c)) q W) as (W1 & _ & _). apply (do_assign_stacks _ _ W1).
    - unfold old. clear W. destruct q as [[bs is cs] [ra ro rs' rp rm rc rh] z]. destruct rs; cbn; (split; [lia|]).
      + split; [eexists; reflexivity|]. split; [eexists; reflexivity|]. exists []. now rewrite app_nil_r.
      + split; [eexists; reflexivity|]. split; [exists []; now rewrite app_nil_r|]. exists []. now rewrite app_nil_r. }
  clearbody q0. destruct R0 as (W0 & R0 & (b0 & Eb0) & (i0 & Ei0) & (c0 & Ec0)). destruct (negb rs && _); [discriminate|]. destruct (num_community_cards c); [discriminate|].
  match goal with |- context [deck_draw ?x ?y] => destruct (deck_draw x y) as [comm d1] end.
  match goal with |- context [deal_hands ?u ?x ?y] => destruct (deal_hands u x y) as [holes d2] end. intros _.
  cbn [fst]. match goal with |- context [if Nat.ltb 2 _ then hmove_action c ?x else _] => set (q7 := x) end.
  assert (R7 : r_active (q_refs q7) = r_active (q_refs q0) /\ r_community (q_refs q7) = List.length (cardss (q_heap q0)) /\
    (List.length (ints (q_heap q0)) <= r_commits (q_refs q7))%nat /\ (List.length (bools (q_heap q0)) <= r_option (q_refs q7))%nat /\ old q0 q7).
  { unfold q7, old. clear - q0. destruct q0 as [[bs is cs] [ra ro rs' rp rm rc rh] z]. cbn. rewrite <- ?app_assoc, ?app_length. cbn.
    split; [reflexivity|]. split; [reflexivity|]. split; [lia|]. split; [lia|]. split; [eexists; reflexivity|]. split; eexists; reflexivity. }
  assert (W7 : apart q7).
  { unfold q7. repeat (first [apply act_put_action | apply act_put_street_raises | apply do_assign_option | apply do_assign_commits | apply act_put_street | apply do_assign_pot_commits | apply act_put_pot
      | apply act_put_largest_raise | apply do_assign_holes | apply act_put_deck | apply act_put_history | apply do_assign_community | apply act_put_button]). exact W0. }
  clearbody q7. destruct R7 as (R7a & R7b & R7c & R7d & (b7 & Eb7) & (i7 & Ei7) & (c7 & Ec7)).
  set (q8 := if Nat.ltb 2 (num_players c) then hmove_action c q7 else q7).
  assert (R8 : q_refs q8 = q_refs q7 /\ ints (q_heap q8) = ints (q_heap q7) /\ cardss (q_heap q8) = cardss (q_heap q7) /\ apart q8 /\ frame q7 q8).
  { unfold q8. destruct (Nat.ltb 2 (num_players c)).
    - destruct (move_refs c q7) as (A & B & C). destruct (act_move_action c q7 W7) as (D & E & _). splits; assumption.
    - splits; [reflexivity|reflexivity|reflexivity|exact W7|apply frame_refl]. }
  clearbody q8. destruct R8 as (R8 & I8 & C8 & W8 & F8). 
  destruct (collect_refs c q8 (antes c) false) as (A1 & A2 & A3 & A4 & A5). destruct (collect_old c q8 (antes c) false) as (_ & (i9 & Ei9) & Ec9).
  destruct (act_collect_multiple_bets c (antes c) false q8 W8) as (W9 & F9 & _). set (q9 := hcollect_multiple_bets c q8 (antes c) false) in *. clearbody q9.
  destruct (collect_refs c q9 (blinds c) true) as (B1 & B2 & B3 & B4 & B5). destruct (collect_old c q9 (blinds c) true) as (_ & (i10 & Ei10) & Ec10).
  destruct (act_collect_multiple_bets c (blinds c) true q9 W9) as (W10 & F10 & _). set (q10 := hcollect_multiple_bets c q9 (blinds c) true) in *. clearbody q10.
  destruct (move_refs c q10) as (M1 & M2 & M3). destruct (act_move_action c q10 W10) as (W11 & F11 & _). set (q11 := hmove_action c q10) in *. clearbody q11.
  destruct (move_refs c q11) as (M4 & M5 & M6). destruct (act_move_action c q11 W11) as (W12 & F12 & _). set (q12 := hmove_action c q11) in *. clearbody q12.
  pose proof (frame_trans _ _ _ F8 (frame_trans _ _ _ F9 (frame_trans _ _ _ F10 (frame_trans _ _ _ F11 F12)))) as FF.
  assert (Li : exists m, ints (q_heap q12) = ints (q_heap q) ++ m) by (rewrite M5, M2, Ei10, Ei9, I8, Ei7, Ei0, <- !app_assoc; eexists; reflexivity).
  assert (Lc : exists m, cardss (q_heap q12) = cardss (q_heap q) ++ m) by (rewrite M6, M3, Ec10, Ec9, C8, Ec7, Ec0, <- !app_assoc; eexists; reflexivity).
  assert (L0 : (List.length (ints (q_heap q)) <= List.length (ints (q_heap q0)))%nat) by (rewrite Ei0, app_length; lia).
  assert (L1 : (List.length (bools (q_heap q)) <= List.length (bools (q_heap q0)) <= List.length (bools (q_heap q7)))%nat) by (rewrite Eb7, app_length, Eb0, app_length; lia).
  assert (L2 : (List.length (cardss (q_heap q)) <= List.length (cardss (q_heap q0)))%nat) by (rewrite Ec0, app_length; lia).
  assert (L3 : (List.length (ints (q_heap q0)) <= List.length (ints (q_heap q7)))%nat) by (rewrite Ei7, app_length; lia).
  split; [rewrite M4, M1, R8, I8 in *; lia|]. split; [|split].
  - intros x L. rewrite (fr_bools _ _ FF) by lia. unfold read_bools. rewrite Eb7, Eb0, <- app_assoc, nth_old by lia. reflexivity.
  - intros x L. destruct Li as (m & Em). unfold read_ints. rewrite Em. apply nth_old. exact L.
  - intros x L. destruct Lc as (m & Em). unfold read_cards. rewrite Em. apply nth_old. exact L.
Qed.

(** C49, what holds (2): once the next hand is dealt, the observations of earlier hands never change
    again, neither by the reset itself nor by anything called after it *)
Theorem C49_after_reset : forall c q o rnd rb rs o' ops, held c q o -> snd (hreset c q rnd rb rs) = Ok o' ->
  seen (hrun c (fst (hreset c q rnd rb rs)) ops) o = seen q o.
Proof.
  intros c q o rnd rb rs o' ops H E. pose proof (held_placed _ _ _ H) as P. pose proof (hreachable_apart _ _ (held_reachable _ _ _ H)) as W.
  destruct (reset_refs _ _ _ _ _ _ W E) as ((R1 & R2 & R3 & R4) & Rb & Ri & Rc). destruct (hreset_refines c q rnd rb rs W) as ((W1 & F1 & _) & _).
  set (q1 := fst (hreset c q rnd rb rs)) in *.
  assert (FR : free q1 o) by (destruct P as [P1 P2 P3 P4 P5]; unfold free; lia).
  destruct (hrun_refines c ops q1 W1) as (_ & F2 & _). rewrite (free_stays q1 _ o F2 (placed_frame _ _ _ F1 P) FR).
  destruct P as [P1 P2 P3 P4 P5]. unfold seen, look. rewrite Rb, !Ri, !Rc; tauto.
Qed.
Print Assumptions C49_after_reset.

(** ** The hand the observation belongs to *)
(** [returned c q o]: the dealer [q] has just returned [o] *)
Inductive returned (c : config) : hdealer -> hobs -> Prop :=
| returned_reset q rnd rb rs o : hreachable c q -> snd (hreset c q rnd rb rs) = Ok o -> returned c (fst (hreset c q rnd rb rs)) o
| returned_step q b o pay done : hreachable c q -> snd (hstep c q b) = Ok (o, pay, done) -> returned c (fst (hstep c q b)) o.
Lemma returned_held c q o : returned c q o -> held c q o.
Proof. intros [q' rnd rb rs o' R E|q' b o' pay done R E]; [exact (held_reset _ _ _ _ _ _ R E)|exact (held_step _ _ _ _ _ _ R E)]. Qed.
Lemma returned_refs c q o : returned c q o ->
  ho_active o = r_active (q_refs q) /\ ho_stacks o = r_stacks (q_refs q) /\ ho_commits o = r_commits (q_refs q) /\
  ho_community o = r_community (q_refs q) /\ In (ho_hole o) (r_holes (q_refs q)).
Proof.
  intros [q' rnd rb rs o' R E|q' b o' pay done R E]; pose proof (hreachable_apart _ _ R) as W.
  - destruct (hreset_refines c q' rnd rb rs W) as ((W' & _ & _) & _).
    revert W' E. unfold hreset. cbv zeta. set (q0 := if rs then _ else _). clearbody q0. destruct (negb rs && _); [discriminate|].
    destruct (num_community_cards c); [discriminate|]. destruct (deck_draw _ _). destruct (deal_hands _ _ _). cbn [fst snd]. apply observation_refs.
  - destruct (hstep_refines c q' b W) as ((W' & _ & _) & _).
    revert W' E. unfold hstep. destruct (z_action (q_scal q')).
    + destruct (py_round b); [|discriminate]. destruct (bet_sizes c (view q')) as [[[? ?] ?]|]; [|discriminate]. destruct (settle_bet _ _ _ _ _). cbv zeta.
      set (q2 := if all_agreed _ then _ else _). clearbody q2. unfold hstep_end. destruct (payouts c (view q2)); [|discriminate]. cbn [fst snd].
      set (q3 := if all_true _ then _ else _). clearbody q3. destruct (hobservation c q3 _) as [o''|] eqn:O; cbn [bind]; [|discriminate].
      intros W' E. injection E as <- _ _. exact (observation_refs _ _ _ _ W' O).
    + cbn [fst snd]. unfold hstep_idle. destruct (any_true _); [|discriminate]. cbv zeta. destruct (payouts c (view q')); cbn [bind]; [|discriminate].
      destruct (hobservation c q' _) as [o''|] eqn:O; cbn [bind]; [|discriminate]. intros W' E. injection E as <- _ _. exact (observation_refs _ _ _ _ W' O).
Qed.

Lemma place_refs c q a fold bet folds call : q_refs (hplace_bet c q a fold bet folds call) = q_refs q /\ z_street (q_scal (hplace_bet c q a fold bet folds call)) = z_street (q_scal q).
Proof.
  unfold hplace_bet. cbv zeta. set (q1 := if folds then _ else _). assert (E1 : q_refs q1 = q_refs q /\ z_street (q_scal q1) = z_street (q_scal q)) by (unfold q1; destruct folds; destruct q as [[? ? ?] ? ?]; split; reflexivity).
  clearbody q1. set (q2 := if _ && _ then _ else _). assert (E2 : q_refs q2 = q_refs q1 /\ z_street (q_scal q2) = z_street (q_scal q1)) by (unfold q2; destruct (_ && _); destruct q1 as [[? ? ?] ? ?]; split; reflexivity).
  clearbody q2. destruct E1 as [<- <-], E2 as [<- <-]. 
  assert (MS : forall q, z_street (q_scal (hmove_action c q)) = z_street (q_scal q)).
  { intros p. unfold hmove_action. destruct (hmove_loop _ _ _ _ _ p) as [x p'] eqn:E. cbn. revert p p' x E. generalize (num_players c) at 2. generalize 1%nat. clear. intros i k p p' x.
    generalize (act_idx c (view p)) at 2. generalize (act_idx c (view p)). intros a0. revert i p p' x. induction k as [|k IH]; intros i p p' x a; cbn [hmove_loop]; intros E; [injection E as _ <-; reflexivity|].
    destruct (nth _ _ _); [injection E as _ <-; reflexivity|]. apply IH in E. rewrite E. destruct p as [[? ? ?] ? ?]. reflexivity. }
  rewrite (proj1 (move_refs c _)), MS. destruct q2 as [[? ? ?] ? ?]. split; reflexivity.
Qed.
Lemma loop_refs c fuel : forall q, q_refs (hstreet_loop c fuel q) = q_refs q.
Proof.
  induction fuel as [|f IH]; intros q; [reflexivity|]. cbn [hstreet_loop]. cbv zeta. destruct (Nat.leb _ _); [reflexivity|]. destruct (deck_draw _ _) as [cs d].
  destruct (_ <=? 1); [rewrite IH|]; destruct q as [[? ? ?] ? ?]; reflexivity.
Qed.
Lemma street_loop_later c fuel : forall s, (street s <= street (street_loop c fuel s))%nat /\ (fuel <> 0%nat -> (street s < street (street_loop c fuel s))%nat).
Proof.
  induction fuel as [|f IH]; intros s; cbn [street_loop]; [split; lia|]. cbv zeta. destruct (Nat.leb _ _); [cbn; split; lia|].
  destruct (deck_draw _ _) as [cs d]. destruct (_ <=? 1); [|cbn; split; lia].
  set (s2 := mkState _ _ _ _ _ _ _ _ _ _ _ _ _ _ _). pose proof (proj1 (IH s2)) as L. cbn in L. fold s2. split; lia.
Qed.
Lemma next_street_later c s : (street s < street (next_street c s))%nat.
Proof.
  unfold next_street. cbv zeta. cbn [street]. set (s1 := move_action c (set_action s (Some (button s)))). assert (E : street s1 = street s).
  { unfold s1, move_action. destruct (move_loop _ _ _ _ _ _ _). reflexivity. }
  rewrite <- E. apply (proj2 (street_loop_later c (S (num_streets c)) s1)). discriminate.
Qed.
Lemma step_refs c q b : apart q -> let q' := fst (hstep c q b) in
  r_active (q_refs q') = r_active (q_refs q) /\ r_community (q_refs q') = r_community (q_refs q) /\
  (z_action (q_scal q') <> None -> r_stacks (q_refs q') = r_stacks (q_refs q)) /\
  (z_street (q_scal q') = z_street (q_scal q) -> r_commits (q_refs q') = r_commits (q_refs q)) /\
  (z_street (q_scal q) <= z_street (q_scal q'))%nat.
Proof.
  intros W. unfold hstep. destruct (z_action (q_scal q)) as [a|] eqn:A; [|cbn [fst]; splits; auto].
  destruct (py_round b); [|cbn [fst]; splits; auto]. destruct (bet_sizes c (view q)) as [[[call mn] mx]|]; [|cbn [fst]; splits; auto].
  destruct (settle_bet _ _ _ _ _) as [bet folds]. cbv zeta.
  destruct (place_refs c q a (pynum_neg b) bet folds call) as [P1 P2]. destruct (act_place_bet c a (pynum_neg b) bet folds call q W A) as (W1 & _ & _).
  set (q1 := hplace_bet _ _ _ _ _ _ _) in *. clearbody q1. set (q2 := if all_agreed (view q1) then hnext_street c q1 else q1).
  assert (R2 : r_active (q_refs q2) = r_active (q_refs q) /\ r_community (q_refs q2) = r_community (q_refs q) /\ r_stacks (q_refs q2) = r_stacks (q_refs q) /\
    (z_street (q_scal q2) = z_street (q_scal q) -> r_commits (q_refs q2) = r_commits (q_refs q)) /\ (z_street (q_scal q) <= z_street (q_scal q2))%nat).
  { unfold q2. destruct (all_agreed (view q1)); [|rewrite P1, P2; splits; auto].
    destruct (act_next_street c q1 W1) as (_ & _ & V). pose proof (next_street_later c (view q1)) as L. rewrite <- V in L. change (street (view ?x)) with (z_street (q_scal x)) in L. rewrite P2 in L.
    assert (E : r_active (q_refs (hnext_street c q1)) = r_active (q_refs q1) /\ r_community (q_refs (hnext_street c q1)) = r_community (q_refs q1) /\ r_stacks (q_refs (hnext_street c q1)) = r_stacks (q_refs q1)).
    { unfold hnext_street. cbv zeta. set (q1' := hstreet_loop _ _ _). assert (E : q_refs q1' = q_refs q1) by (unfold q1'; rewrite loop_refs, (proj1 (move_refs c _)); reflexivity).
      clearbody q1'. rewrite <- E. destruct q1' as [[? ? ?] [? ? ? ? ? ? ?] ?]. cbn. splits; reflexivity. }
    destruct E as (E1 & E2 & E3). rewrite E1, E2, E3, P1. splits; try reflexivity; [intros X; lia|lia]. }
  clearbody q2. destruct R2 as (R2a & R2b & R2c & R2d & R2e). unfold hstep_end. destruct (payouts c (view q2)); cbn [fst]; [|splits; auto].
  destruct (all_true _); [|splits; auto]. unfold hfinish_hand. cbv zeta. set (x := add_lists _ _). clearbody x.
  destruct q2 as [[? ? ?] [? ? ? ? ? ? ?] ?]. cbn in *. splits; try assumption. intros X. exfalso. apply X. reflexivity.
Qed.
Lemma hstep_idle_same c q b : z_action (q_scal q) = None -> fst (hstep c q b) = q.
Proof. intros E. unfold hstep. rewrite E. reflexivity. Qed.
Lemma hsteps_idle c bs : forall q, z_action (q_scal q) = None -> hsteps c q bs = q.
Proof.
  induction bs as [|b bs IH]; intros q E; [reflexivity|]. change (hsteps c q (b :: bs)) with (hsteps c (fst (hstep c q b)) bs). rewrite hstep_idle_same by exact E. apply IH. exact E.
Qed.
Lemma steps_refs c bs : forall q, apart q -> let q' := hsteps c q bs in
  r_active (q_refs q') = r_active (q_refs q) /\ r_community (q_refs q') = r_community (q_refs q) /\
  (z_action (q_scal q') <> None -> r_stacks (q_refs q') = r_stacks (q_refs q)) /\
  (z_street (q_scal q') = z_street (q_scal q) -> r_commits (q_refs q') = r_commits (q_refs q)) /\
  (z_street (q_scal q) <= z_street (q_scal q'))%nat.
Proof.
  induction bs as [|b bs IH]; intros q W; cbv zeta; [unfold hsteps; cbn; splits; auto|].
  change (hsteps c q (b :: bs)) with (hsteps c (fst (hstep c q b)) bs). destruct (step_refs c q b W) as (A1 & A2 & A3 & A4 & A5).
  assert (W1 : apart (fst (hstep c q b))) by apply (hstep_refines c q b W). destruct (IH _ W1) as (B1 & B2 & B3 & B4 & B5).
  set (q1 := fst (hstep c q b)) in *. set (q2 := hsteps c q1 bs) in *. splits; [congruence|congruence| | |lia].
  - intros N. rewrite (B3 N). apply A3. intros X. apply N. unfold q2. rewrite (hsteps_idle c bs q1 X). exact X.
  - intros E. rewrite B4 by lia. apply A4. lia.
Qed.

(** C49, exactly: as long as the hand goes on, an observation shows the players in the hand, the
    community cards and the stacks as they are now, and the bets of the street as they are now until
    the street ends.  In a hand that is over it still shows the players and the community cards. *)
Theorem C49_live : forall c q o bs, returned c q o ->
  let q' := hsteps c q bs in let later := seen q' o in let s := view q' in
  o_active later = active s /\ o_community_cards later = community_cards s /\
  (in_progress s -> o_stacks later = stacks s) /\
  (street s = street (view q) -> o_street_commits later = street_commits s).
Proof.
  intros c q o bs R. cbv zeta. destruct (returned_refs _ _ _ R) as (E1 & E2 & E3 & E4 & _).
  destruct (steps_refs c bs q (hreachable_apart _ _ (held_reachable _ _ _ (returned_held _ _ _ R)))) as (A1 & A2 & A3 & A4 & _).
  unfold seen, look, view, in_progress. cbn. rewrite E1, E2, E3, E4, A1, A2. splits; [reflexivity|reflexivity| |].
  - intros N. rewrite (A3 N). reflexivity.
  - intros N. rewrite (A4 N). reflexivity.
Qed.
Print Assumptions C49_live.

(** ** C49 is false as stated *)
Definition heap_game : raw_config := demo 2 2 [1; 2] [0; 0] [RawInf; RawInf] [RawCountInf; RawCountInf] [0; 1] 10.
(** the dealer after the first reset, and what the reset returned *)
Definition heap_start : result (config * hdealer * hobs) :=
  let* cs := Dealer [] heap_game in
  let '(c, s) := cs in
  let* o := snd (hreset c (hnew s) [] false false) in Ok (c, fst (hreset c (hnew s) [] false false), o).
Lemma heap_start_returned c q o : heap_start = Ok (c, q, o) -> returned c q o.
Proof.
  unfold heap_start. destruct (Dealer [] heap_game) as [[c0 s0]|] eqn:E; cbn [bind]; [|discriminate].
  destruct (snd (hreset c0 (hnew s0) [] false false)) as [o0|] eqn:F; cbn [bind]; [|discriminate]. intros H. injection H as <- <- <-.
  exact (returned_reset _ _ _ _ _ _ (hreach_new _ _ _ _ E) F).
Qed.
Lemma heap_fact {A} (f : config -> hdealer -> hobs -> A) v c q o : heap_start = Ok (c, q, o) ->
  match heap_start with Ok (c, q, o) => Some (f c q o) | Err _ => None end = Some v -> f c q o = v.
Proof. intros ->. intros H. injection H. exact (fun e => e). Qed.
Ltac heaps E := splits; lazymatch type of E with heap_start = Ok (?c, ?q, ?o) =>
  lazymatch goal with |- ?l = ?v => let p := eval pattern c, q, o in l in
    lazymatch p with ?f c q o => apply (heap_fact f v c q o E); vm_compute; reflexivity end end end.

(** Two players, blinds 1 and 2, stacks of 10 chips.  The player to act keeps the observation returned by
    the reset and calls, and then the other one checks: the observation now shows the stacks after the
    call, the bets of the street (which is over, so it shows them as they were when it ended), and the
    new community card; if the player to act folds it shows that player as not in the hand. *)
Theorem C49_refuted : exists c q o, returned c q o /\
  (o_stacks (seen q o) = [8; 9] /\ o_street_commits (seen q o) = [2; 1] /\ o_active (seen q o) = [true; true] /\ List.length (o_community_cards (seen q o)) = 0%nat) /\
  (let q1 := hsteps c q [PyInt 1] in o_stacks (seen q1 o) = [8; 8] /\ o_street_commits (seen q1 o) = [2; 2]) /\
  (let q2 := hsteps c q [PyInt 1; PyInt 0] in List.length (o_community_cards (seen q2 o)) = 1%nat) /\
  (let q3 := hsteps c q [PyInt (-1)] in o_active (seen q3 o) = [true; false]).
Proof.
  destruct heap_start as [[[c q] o]|] eqn:E; [exists c, q, o|exfalso; vm_compute in E; discriminate E].
  split; [exact (heap_start_returned _ _ _ E)|]. cbv zeta. heaps E.
Qed.
Print Assumptions C49_refuted.

(** the observation is still held when the next hand is dealt; it keeps what it showed at the end of
    its own hand, while the game goes on *)
Example C49_example : exists c q o, held c q o /\
  (is_ok (snd (hreset c q [] false false)) = true /\ o_stacks (seen q o) = [8; 8]) /\
  (let q1 := fst (hreset c q [] false false) in let q2 := hsteps c q1 [PyInt 1] in
   o_stacks (seen q2 o) = [8; 8] /\ o_community_cards (seen q2 o) = o_community_cards (seen q o)).
Proof.
  destruct heap_start as [[[c q] o]|] eqn:E; [exists c, (happly c q (OStep (PyInt 1))), o|exfalso; vm_compute in E; discriminate E].
  split; [apply held_later; exact (returned_held _ _ _ (heap_start_returned _ _ _ E))|]. cbv zeta.
  split; [heaps E|]. split; [heaps E|].
  destruct (snd (hreset c (happly c q (OStep (PyInt 1))) [] false false)) as [o'|e] eqn:R.
  - f_equal. apply (C49_after_reset c _ o [] false false o' (map OStep [PyInt 1])); [|exact R].
    apply held_later. exact (returned_held _ _ _ (heap_start_returned _ _ _ E)).
  - exfalso. assert (X : is_ok (snd (hreset c (happly c q (OStep (PyInt 1))) [] false false)) = true) by heaps E. rewrite R in X. discriminate X.
Qed.

(** ** C54: changing an observation *)
Definition pokes (q : hdealer) (o : hobs) (ps : list poke) : hdealer := fold_left (fun q p => poked q o p) ps q.

(** not the objects of the dealer: the objects of [o] are bound to no attribute *)
Record stale (q : hdealer) (o : hobs) : Prop := mkStale {
  st_active : ho_active o <> r_active (q_refs q) /\ ho_active o <> r_option (q_refs q);
  st_stacks : ho_stacks o <> r_stacks (q_refs q) /\ ho_stacks o <> r_pot_commits (q_refs q) /\ ho_stacks o <> r_commits (q_refs q);
  st_commits : ho_commits o <> r_stacks (q_refs q) /\ ho_commits o <> r_pot_commits (q_refs q) /\ ho_commits o <> r_commits (q_refs q);
  st_community : ho_community o <> r_community (q_refs q) /\ ~ In (ho_community o) (r_holes (q_refs q));
  st_hole : ho_hole o <> r_community (q_refs q) /\ ~ In (ho_hole o) (r_holes (q_refs q))
}.
Lemma holes_upd k x v rh : ~ In x rh -> map (fun l => nth l (upd k x v) []) rh = map (fun l => nth l k (@nil card)) rh.
Proof. intros N. apply map_read_upd. apply Forall_forall. intros l I ->. apply N. exact I. Qed.
Lemma poked_stale q o p : stale q o -> view (poked q o p) = view q /\ q_refs (poked q o p) = q_refs q /\
  List.length (bools (q_heap (poked q o p))) = List.length (bools (q_heap q)) /\ List.length (ints (q_heap (poked q o p))) = List.length (ints (q_heap q)) /\ List.length (cardss (q_heap (poked q o p))) = List.length (cardss (q_heap q)).
Proof.
  intros [S1 S2 S3 S4 S5]. destruct q as [[b i k] r z]. cbn in *. destruct p; cbn; rewrite ?upd_length; (split; [|splits; reflexivity]);
    unfold view, read_bools, read_ints, read_cards; cbn; rewrite ?upd_nth_other by tauto; rewrite ?holes_upd by tauto; reflexivity.
Qed.
Lemma pokes_stale q o ps : stale q o -> view (pokes q o ps) = view q /\ q_refs (pokes q o ps) = q_refs q /\
  List.length (bools (q_heap (pokes q o ps))) = List.length (bools (q_heap q)) /\ List.length (ints (q_heap (pokes q o ps))) = List.length (ints (q_heap q)) /\ List.length (cardss (q_heap (pokes q o ps))) = List.length (cardss (q_heap q)).
Proof.
  revert q. induction ps as [|p ps IH]; intros q S; [splits; reflexivity|]. destruct (poked_stale q o p S) as (A & B & C & D & E).
  assert (S' : stale (poked q o p) o) by (destruct S as [S1 S2 S3 S4 S5]; constructor; rewrite B; assumption). destruct (IH _ S') as (A' & B' & C' & D' & E').
  change (pokes q o (p :: ps)) with (pokes (poked q o p) o ps). splits; congruence.
Qed.
Lemma pokes_apart q o ps : stale q o -> apart q -> apart (pokes q o ps).
Proof.
  intros S [W1 W2 W3 W4 W5 W6 W7 W8 W9 W10 W11 W12]. destruct (pokes_stale q o ps S) as (_ & B & C & D & E).
  constructor; rewrite ?B, ?C, ?D, ?E; assumption.
Qed.
Lemma collect_holes c q bets t : r_holes (q_refs (hcollect_multiple_bets c q bets t)) = r_holes (q_refs q).
Proof.
  unfold hcollect_multiple_bets. cbv zeta. set (b := forced_bets _ _). destruct q as [[bs is cs] [ra ro rs rp rm rc rh] z]. destruct t; reflexivity.
Qed.
Lemma reset_holes c q rnd rb rs o : snd (hreset c q rnd rb rs) = Ok o ->
  Forall (fun l => (List.length (cardss (q_heap q)) <= l)%nat) (r_holes (q_refs (fst (hreset c q rnd rb rs)))).
Proof.
  unfold hreset. cbv zeta. set (q0 := if rs then _ else _).
  assert (R0 : cardss (q_heap q0) = cardss (q_heap q)) by (unfold q0; destruct q as [[bs is cs] [ra ro rs' rp rm rc rh] z]; destruct rs; reflexivity).
  clearbody q0. destruct (negb rs && _); [discriminate|]. destruct (num_community_cards c); [discriminate|].
  match goal with |- context [deck_draw ?x ?y] => destruct (deck_draw x y) as [comm d1] end.
  match goal with |- context [deal_hands ?u ?x ?y] => destruct (deal_hands u x y) as [holes d2] end. intros _.
  cbn [fst]. match goal with |- context [if Nat.ltb 2 _ then hmove_action c ?x else _] => set (q7 := x) end.
  assert (R7 : Forall (fun l => (List.length (cardss (q_heap q0)) <= l)%nat) (r_holes (q_refs q7))).
  { unfold q7. clear - q0. destruct q0 as [[bs is cs] [ra ro rs' rp rm rc rh] zz]. cbn. rewrite app_length. apply Forall_forall. intros x I. apply in_seq in I. lia. }
  clearbody q7. set (q8 := if Nat.ltb 2 (num_players c) then hmove_action c q7 else q7).
  assert (R8 : q_refs q8 = q_refs q7) by (unfold q8; destruct (Nat.ltb 2 (num_players c)); [apply move_refs|reflexivity]). clearbody q8.
  rewrite (proj1 (move_refs c _)), (proj1 (move_refs c _)), !collect_holes, R8, <- R0. exact R7.
Qed.
Lemma reset_stale c q o rnd rb rs o' : held c q o -> snd (hreset c q rnd rb rs) = Ok o' -> stale (fst (hreset c q rnd rb rs)) o.
Proof.
  intros H E. pose proof (held_placed _ _ _ H) as P. pose proof (hreachable_apart _ _ (held_reachable _ _ _ H)) as W.
  destruct (reset_refs _ _ _ _ _ _ W E) as ((R1 & R2 & R3 & R4) & _). pose proof (reset_holes _ _ _ _ _ _ E) as R5. rewrite Forall_forall in R5.
  destruct (hreset_refines c q rnd rb rs W) as ((W1 & F1 & _) & _).
  pose proof (placed_frame _ _ _ F1 P) as P'. destruct P as [P1 P2 P3 P4 P5]. destruct P' as [P1' P2' P3' P4' P5']. constructor; try lia; (split; [lia|]); intros I; apply R5 in I; lia.
Qed.
Lemma stale_frame q q' o : frame q q' -> placed q o -> stale q o -> stale q' o.
Proof.
  intros [F1 F2 F3 F4 F5 F6 F7 F8 F9 F10 F11 F12 F13] [P1 P2 P3 P4 P5] [S1 S2 S3 S4 S5]. clear F4 F5 F6.
  assert (H : forall x, (x < List.length (cardss (q_heap q)))%nat -> ~ In x (r_holes (q_refs q)) -> ~ In x (r_holes (q_refs q'))).
  { intros x L N. destruct F13 as [->|F13]; [exact N|]. intros I. rewrite Forall_forall in F13. specialize (F13 _ I). lia. }
  destruct P1 as [P1 _], P2 as [P2 _], P3 as [P3 _], P4 as [P4 _], P5 as [P5 _]. destruct S4 as [S4 S4'], S5 as [S5 S5'].
  constructor.
  - clear - F7 F8 P1 S1. lia.
  - clear - F9 F10 F11 P2 S2. lia.
  - clear - F9 F10 F11 P3 S3. lia.
  - split; [clear - F12 P4 S4; lia|exact (H _ P4 S4')].
  - split; [clear - F12 P5 S5; lia|exact (H _ P5 S5')].
Qed.

(** C54, what holds: changing the lists of an observation of an earlier hand, at any time after the
    next hand was dealt, changes nothing of the game, now or later *)
Theorem C54_partial : forall c q o rnd rb rs o' ops ps ops', held c q o -> snd (hreset c q rnd rb rs) = Ok o' ->
  let q1 := hrun c (fst (hreset c q rnd rb rs)) ops in
  view (hrun c (pokes q1 o ps) ops') = view (hrun c q1 ops').
Proof.
  intros c q o rnd rb rs o' ops ps ops' H E. cbv zeta. pose proof (reset_stale _ _ _ _ _ _ _ H E) as S. pose proof (held_placed _ _ _ H) as P. pose proof (hreachable_apart _ _ (held_reachable _ _ _ H)) as W.
  destruct (hreset_refines c q rnd rb rs W) as ((W1 & F1 & _) & _). set (q1 := fst (hreset c q rnd rb rs)) in *. pose proof (placed_frame _ _ _ F1 P) as P1.
  destruct (hrun_refines c ops q1 W1) as (W2 & F2 & _). set (q2 := hrun c q1 ops) in *. pose proof (stale_frame _ _ _ F2 P1 S) as S2.
  destruct (hrun_refines c ops' q2 W2) as (_ & _ & V3). destruct (hrun_refines c ops' _ (pokes_apart q2 o ps S2 W2)) as (_ & _ & V4).
  rewrite V3, V4, (proj1 (pokes_stale q2 o ps S2)). reflexivity.
Qed.
Print Assumptions C54_partial.

(** C54, exactly: while the hand goes on, such an assignment is an assignment to the attribute of the
    dealer; the caller can change the game *)
Theorem C54_live : forall c q o bs, returned c q o ->
  let q' := hsteps c q bs in let s := view q' in
  (forall j v, active (view (poked q' o (PActive j v))) = upd (active s) j v) /\
  (forall j v, community_cards (view (poked q' o (PCommunity j v))) = upd (community_cards s) j v) /\
  (in_progress s -> forall j v, stacks (view (poked q' o (PStacks j v))) = upd (stacks s) j v) /\
  (street s = street (view q) -> forall j v, street_commits (view (poked q' o (PCommits j v))) = upd (street_commits s) j v).
Proof.
  intros c q o bs R. cbv zeta. destruct (returned_refs _ _ _ R) as (E1 & E2 & E3 & E4 & _). pose proof (hreachable_apart _ _ (held_reachable _ _ _ (returned_held _ _ _ R))) as W.
  destruct (steps_refs c bs q W) as (A1 & A2 & A3 & A4 & _). destruct (hrun_refines c (map OStep bs) q W) as (W' & _ & _). fold (hsteps c q bs) in W'.
  set (q' := hsteps c q bs) in *. clearbody q'. destruct W' as [W1 W2 W3 W4 W5 W6 W7 W8 W9 W10 W11 W12]. unfold view, in_progress, read_bools, read_ints, read_cards.
  destruct q' as [[b i k] [ra ro rs rp rm rc rh] z]. cbn in *. rewrite E1, E2, E3, E4, <- A1, <- A2. splits.
  - intros j v. apply upd_nth_same. exact W1.
  - intros j v. apply upd_nth_same. exact W10.
  - intros N j v. rewrite <- (A3 N). apply upd_nth_same. exact W4.
  - intros N j v. rewrite <- (A4 N). apply upd_nth_same. exact W6.
Qed.
Print Assumptions C54_live.

(** C54 is false as stated: after the first reset the caller writes 1000 to the stack of the player to
    act in the observation, and that player can then bet 999 chips *)
Theorem C54_refuted : exists c q o, returned c q o /\
  (stacks (view q) = [8; 9] /\ o_max_raise (seen q o) = 9) /\
  (let q1 := poked q o (PStacks 1 1000) in stacks (view q1) = [8; 1000] /\ stacks (view (hsteps c q1 [PyInt 999])) = [8; 1] /\ pot (view (hsteps c q1 [PyInt 999])) = 1002).
Proof.
  destruct heap_start as [[[c q] o]|] eqn:E; [exists c, q, o|exfalso; vm_compute in E; discriminate E].
  split; [exact (heap_start_returned _ _ _ E)|]. cbv zeta. heaps E.
Qed.
Print Assumptions C54_refuted.

(** after the next reset the same change does not reach the game *)
Example C54_example : exists c q o, held c q o /\
  is_ok (snd (hreset c q [] false true)) = true /\
  (let q1 := fst (hreset c q [] false true) in
   stacks (view q1) = [9; 8] /\ stacks (view (pokes q1 o [PStacks 1 1000])) = [9; 8] /\ o_stacks (seen (pokes q1 o [PStacks 1 1000]) o) = [8; 1000]).
Proof.
  destruct heap_start as [[[c q] o]|] eqn:E; [exists c, q, o|exfalso; vm_compute in E; discriminate E].
  split; [exact (returned_held _ _ _ (heap_start_returned _ _ _ E))|]. cbv zeta. heaps E.
Qed.
