(** * NumpyHeapFacts: the dealer with arrays as objects does what the dealer with arrays as values does *)
From Coq Require Import PeanoNat.
From Verif Require Import PyBase PyFacts CardModel EvalModel EngineModel EngineDemo HeapModel HeapFacts NumpyModel NumpyHeapModel.

(** ** Statements *)
Ltac nprim W11 := unfold fill_active, fill_option, fill_stacks, fill_pot_commits, fill_commits, tolist_bools, tolist_ints;
  cbn [r_active r_option r_stacks r_pot_commits r_commits r_community r_holes]; split; [apart_tac W11|split; [frame_tac|view_tac W11]].
Lemma do_fill_active l q : apart q -> let s := view q in does q (fill_active l q)
  (mkState (action s) l (button s) (community_cards s) (the_deck s) (history s) (hole_cards s) (largest_raise s) (pot s) (pot_commits s) (stacks s) (street s) (street_commits s) (street_option s) (street_raises s)).
Proof. intros W. opens q W. nprim W11. Qed.
Lemma do_fill_option l q : apart q -> let s := view q in does q (fill_option l q)
  (mkState (action s) (active s) (button s) (community_cards s) (the_deck s) (history s) (hole_cards s) (largest_raise s) (pot s) (pot_commits s) (stacks s) (street s) (street_commits s) l (street_raises s)).
Proof. intros W. opens q W. nprim W11. Qed.
Lemma do_fill_stacks l q : apart q -> let s := view q in does q (fill_stacks l q)
  (mkState (action s) (active s) (button s) (community_cards s) (the_deck s) (history s) (hole_cards s) (largest_raise s) (pot s) (pot_commits s) l (street s) (street_commits s) (street_option s) (street_raises s)).
Proof. intros W. opens q W. nprim W11. Qed.
Lemma do_fill_pot_commits l q : apart q -> let s := view q in does q (fill_pot_commits l q)
  (mkState (action s) (active s) (button s) (community_cards s) (the_deck s) (history s) (hole_cards s) (largest_raise s) (pot s) l (stacks s) (street s) (street_commits s) (street_option s) (street_raises s)).
Proof. intros W. opens q W. nprim W11. Qed.
Lemma do_fill_commits l q : apart q -> let s := view q in does q (fill_commits l q)
  (mkState (action s) (active s) (button s) (community_cards s) (the_deck s) (history s) (hole_cards s) (largest_raise s) (pot s) (pot_commits s) (stacks s) (street s) l (street_option s) (street_raises s)).
Proof. intros W. opens q W. nprim W11. Qed.
Lemma do_tolist_bools x q : apart q -> does q (tolist_bools x q) (view q).
Proof. intros W. opens q W. nprim W11. Qed.
Lemma do_tolist_ints x q : apart q -> does q (tolist_ints x q) (view q).
Proof. intros W. opens q W. nprim W11. Qed.

(** ** Methods *)
Lemma act_nh_collect c bets to_street : acts (fun q => nh_collect_multiple_bets c q bets to_street) (fun s => np_collect_multiple_bets c s bets to_street).
Proof.
  intros q W. unfold nh_collect_multiple_bets, np_collect_multiple_bets. cbv zeta. start q s F V. set (b := forced_bets _ _). clearbody b.
  destruct to_street.
  - go (do_fill_commits (add_lists (street_commits s) b)) W F V.
    go (do_fill_pot_commits (add_lists (pot_commits s) b)) W F V.
    go (act_put_pot (pot s + sumZ b)) W F V.
    go (do_fill_stacks (sub_lists (stacks s) b)) W F V. finish W F V.
  - rewrite V. go (do_fill_pot_commits (add_lists (pot_commits s) b)) W F V.
    go (act_put_pot (pot s + sumZ b)) W F V.
    go (do_fill_stacks (sub_lists (stacks s) b)) W F V. finish W F V.
Qed.
Lemma act_nh_next_street c : acts (nh_next_street c) (next_street c).
Proof.
  intros q W. unfold nh_next_street, next_street. cbv zeta. start q s F V.
  go (act_put_action (Some (button s))) W F V. go (act_move_action c) W F V. go (act_street_loop c (S (num_streets c))) W F V.
  change (mkState (Some (button s)) (active s) (button s) (community_cards s) (the_deck s) (history s) (hole_cards s) (largest_raise s) (pot s) (pot_commits s) (stacks s) (street s) (street_commits s) (street_option s) (street_raises s)) with (set_action s (Some (button s))) in V.
  set (t := street_loop c _ _) in *. clearbody t.
  go (do_fill_commits (repeat 0 (num_players c))) W F V. go (do_assign_option (map negb (active t))) W F V. go (act_put_street_raises 0) W F V. finish W F V.
Qed.
Lemma act_nh_finish_hand pay : acts (fun q => nh_finish_hand q pay) (fun s => finish_hand s pay).
Proof.
  intros q W. unfold nh_finish_hand, finish_hand. cbv zeta. start q s F V.
  go (act_put_action None) W F V. go (act_put_pot 0) W F V. go (do_fill_stacks (add_lists (add_lists (stacks s) pay) (pot_commits s))) W F V. finish W F V.
Qed.

(** ** Observations *)
(** the objects of an observation just made by the dealer that is now [q]: the arrays have been copied *)
Record made (q : hdealer) (o : hobs) : Prop := mkMade {
  md_active : (ho_active o < List.length (bools (q_heap q)))%nat /\ ho_active o <> r_active (q_refs q) /\ ho_active o <> r_option (q_refs q);
  md_stacks : (ho_stacks o < List.length (ints (q_heap q)))%nat /\ ho_stacks o <> r_stacks (q_refs q) /\ ho_stacks o <> r_pot_commits (q_refs q) /\ ho_stacks o <> r_commits (q_refs q);
  md_commits : (ho_commits o < List.length (ints (q_heap q)))%nat /\ ho_commits o <> r_stacks (q_refs q) /\ ho_commits o <> r_pot_commits (q_refs q) /\ ho_commits o <> r_commits (q_refs q);
  md_community : (ho_community o < List.length (cardss (q_heap q)))%nat /\ ~ In (ho_community o) (r_holes (q_refs q));
  md_hole : (ho_hole o < List.length (cardss (q_heap q)))%nat /\ ho_hole o <> r_community (q_refs q)
}.
(** what a successful call gives *)
Record gives (q : hdealer) (o : hobs) : Prop := mkGives {
  gv_made : made q o;
  gv_community : ho_community o = r_community (q_refs q);
  gv_hole : In (ho_hole o) (r_holes (q_refs q));
  gv_who : forall a, z_action (q_scal q) = Some a -> nth_error (r_holes (q_refs q)) a = Some (ho_hole o)
}.
Lemma act_nh_observation c q done : apart q ->
  does q (fst (nh_observation c q done)) (view q) /\
  cardss (q_heap (fst (nh_observation c q done))) = cardss (q_heap q) /\ q_refs (fst (nh_observation c q done)) = q_refs q /\
  same_obs (q_heap (fst (nh_observation c q done))) (snd (nh_observation c q done)) (observation c (view q) done) /\
  (forall o, snd (nh_observation c q done) = Ok o -> gives (fst (nh_observation c q done)) o).
Proof.
  intros W. pose proof (look_observation c q done) as L. revert L. unfold hobservation, nh_observation.
  destruct (if done then Ok (0, 0, 0) else bet_sizes c (view q)) as [[[x y] z]|e]; cbn [bind].
  2:{ intros L. cbn [fst snd]. splits; [apply does_refl; exact W|reflexivity|reflexivity|exact L|intros o H; discriminate H]. }
  destruct (match z_action (q_scal q) with Some a => _ | None => _ end) as [l|e] eqn:E; cbn [bind].
  2:{ intros L. cbn [fst snd]. splits; [apply does_refl; exact W|reflexivity|reflexivity|exact L|intros o H; discriminate H]. }
  assert (I : In l (r_holes (q_refs q))).
  { destruct (z_action (q_scal q)) as [a|].
    - unfold get in E. destruct (nth_error (r_holes (q_refs q)) a) eqn:N; [|discriminate]. injection E as <-. exact (nth_error_In _ _ N).
    - unfold get_last in E. apply in_rev. destruct (rev (r_holes (q_refs q))); [discriminate|]. injection E as <-. left. reflexivity. }
  assert (N : forall a, z_action (q_scal q) = Some a -> nth_error (r_holes (q_refs q)) a = Some l).
  { intros a Ha. rewrite Ha in E. unfold get in E. destruct (nth_error (r_holes (q_refs q)) a); [|discriminate]. injection E as <-. reflexivity. }
  clear E. intros L. cbv zeta. cbn [fst snd].
  pose proof (does_seq _ _ _ _ _ (do_tolist_bools (r_active (q_refs q)) q W)
     (fun W1 V1 => does_seq _ _ _ _ _ (do_tolist_ints (r_stacks (q_refs q)) _ W1) (fun W2 V2 => do_tolist_ints (r_commits (q_refs q)) _ W2))) as D.
  set (q3 := tolist_ints (r_commits (q_refs q)) _) in *.
  assert (V3 : view q3 = view q).
  { destruct (do_tolist_bools (r_active (q_refs q)) q W) as (W1 & _ & V1). destruct (do_tolist_ints (r_stacks (q_refs q)) _ W1) as (W2 & _ & V2).
    destruct (do_tolist_ints (r_commits (q_refs q)) _ W2) as (_ & _ & V3). unfold q3. rewrite V3, V2, V1. reflexivity. }
  assert (D' : does q q3 (view q)).
  { destruct D as (D1 & D2 & _). split; [exact D1|]. split; [exact D2|exact V3]. }
  clear D V3. split; [exact D'|]. clear D'. unfold q3. clear q3. opens q W. unfold tolist_bools, tolist_ints. cbn [q_heap q_refs bools ints cardss].
  split; [reflexivity|]. split; [reflexivity|]. unfold same_obs in *. destruct (observation c _ done) as [o'|e]; [|contradiction].
  split.
  - rewrite <- L. unfold look, read_bools, read_ints, read_cards. cbn [q_heap bools ints cardss ho_action ho_active ho_button ho_call ho_community ho_hole ho_max_raise ho_min_raise ho_pot ho_stacks ho_commits q_scal q_refs].
    rewrite nth_new. rewrite (nth_old (i ++ [nth rs i []])) by (rewrite app_length; cbn; lia). rewrite !nth_new. rewrite (nth_old i) by exact W6. reflexivity.
  - intros o H. injection H as <-. rewrite Forall_forall in W11. pose proof (W11 _ I) as WI.
    constructor; [constructor|reflexivity|exact I|exact N]; cbn; rewrite ?app_length; cbn; try lia.
    split; [exact W10|]. intros J. apply (proj2 (W11 _ J)). reflexivity.
Qed.

(** ** reset and step *)
Lemma move_cards c q : q_refs (hmove_action c q) = q_refs q /\ cardss (q_heap (hmove_action c q)) = cardss (q_heap q).
Proof.
  unfold hmove_action.
  assert (M : forall n a0 k i a p, q_refs (snd (hmove_loop n a0 k i a p)) = q_refs p /\ cardss (q_heap (snd (hmove_loop n a0 k i a p))) = cardss (q_heap p)).
  { intros n a0. induction k as [|k IH]; intros i a p; cbn [hmove_loop]; [split; reflexivity|]. destruct (nth _ _ _); [split; reflexivity|].
    destruct (IH (S i) (Nat.modulo (a0 + i) n) (write_option (Nat.modulo (a0 + i) n) true p)) as (A & B). rewrite A, B. destruct p as [[b v w] r z]. split; reflexivity. }
  specialize (M (num_players c) (act_idx c (view q)) (num_players c) 1%nat (act_idx c (view q)) q). destruct (hmove_loop _ _ _ _ _ _) as [a q1]. exact M.
Qed.
Lemma collect_cards c q bets t : q_refs (nh_collect_multiple_bets c q bets t) = q_refs q /\ cardss (q_heap (nh_collect_multiple_bets c q bets t)) = cardss (q_heap q).
Proof. unfold nh_collect_multiple_bets. cbv zeta. set (b := forced_bets _ _). destruct q as [[bs is cs] r z]. destruct t; split; reflexivity. Qed.

Lemma nh_reset_refines c q rnd rb rs : apart q ->
  does q (fst (nh_reset c q rnd rb rs)) (fst (np_reset c (view q) rnd rb rs)) /\
  same_obs (q_heap (fst (nh_reset c q rnd rb rs))) (snd (nh_reset c q rnd rb rs)) (snd (np_reset c (view q) rnd rb rs)) /\
  (forall o, snd (nh_reset c q rnd rb rs) = Ok o -> gives (fst (nh_reset c q rnd rb rs)) o).
Proof.
  intros W. unfold nh_reset, np_reset, reset_active. cbv zeta. start q s F V. set (n := num_players c).
  set (q0 := if rs then _ else _).
  assert (D0 : exists act stk, (if rs then (repeat true n, repeat (start_stack c) n) else (map (fun x => 0 <? x) (stacks s), stacks s)) = (act, stk) /\
    does q q0 (mkState (action s) act (button s) (community_cards s) (the_deck s) (history s) (hole_cards s) (largest_raise s) (pot s) (pot_commits s) stk (street s) (street_commits s) (street_option s) (street_raises s))).
  { unfold q0. destruct rs.
    - eexists. eexists. split; [reflexivity|]. go (do_fill_active (repeat true n)) W F V. go (do_assign_stacks (repeat (start_stack c) n)) W F V. finish W F V.
    - eexists. eexists. split; [reflexivity|]. go (do_assign_active (map (fun x => 0 <? x) (stacks s))) W F V. finish W F V. }
  clearbody q0. clear W F. destruct D0 as (act & stk & -> & W & F & V0). clear V. rename V0 into V. rewrite V. fields.
  destruct (negb rs && (count_true act <=? 1)).
  { cbn [fst snd]. split; [finish W F V|]. split; [cbn; reflexivity|intros o H; discriminate H]. }
  set (b := if rb then 0%nat else _). clearbody b.
  go (act_put_button b) W F V. go (act_put_deck (deck_shuffle rnd (the_deck s))) W F V.
  destruct (num_community_cards c) as [|cc0 ccs]; [cbn [fst snd]; split; [finish W F V|]; split; [cbn; reflexivity|intros o H; discriminate H]|].
  destruct (deck_draw cc0 (deck_shuffle rnd (the_deck s))) as [comm d1].
  go (act_put_deck d1) W F V. go (do_assign_community comm) W F V. go (act_put_history []) W F V.
  destruct (deal_hands n (num_hole_cards c) d1) as [holes d2].
  go (act_put_deck d2) W F V. go (do_assign_holes holes) W F V.
  go (act_put_largest_raise (big_blind c)) W F V. go (act_put_pot 0) W F V. go (do_fill_pot_commits (repeat 0 n)) W F V.
  go (act_put_street 0%nat) W F V. go (do_fill_commits (repeat 0 n)) W F V. go (do_fill_option (repeat false n)) W F V.
  go (act_put_street_raises 0) W F V. go (act_put_action (Some b)) W F V.
  match type of V with view ?p = _ => set (q7 := p) in * end. clearbody q7. set (s1 := mkState _ _ _ _ _ _ _ _ _ _ _ _ _ _ _) in *. clearbody s1.
  set (q8 := if Nat.ltb 2 n then hmove_action c q7 else q7). assert (D8 : does q q8 (if Nat.ltb 2 n then move_action c s1 else s1)).
  { unfold q8. destruct (Nat.ltb 2 n); [|finish W F V]. go (act_move_action c) W F V. finish W F V. }
  clearbody q8. clear W F V. destruct D8 as (W & F & V).
  go (act_nh_collect c (antes c) false) W F V. go (act_nh_collect c (blinds c) true) W F V.
  go (act_move_action c) W F V. go (act_move_action c) W F V. cbn [fst snd].
  match type of V with view ?p = _ => set (q9 := p) in * end. clearbody q9. rewrite <- V.
  destruct (act_nh_observation c q9 false W) as ((W' & F' & V') & _ & _ & S & G). split; [|split; [exact S|exact G]].
  split; [exact W'|]. split; [exact (frame_trans _ _ _ F F')|exact V'].
Qed.
Lemma nh_reset_new c q rnd rb rs o : apart q -> snd (nh_reset c q rnd rb rs) = Ok o -> let q' := fst (nh_reset c q rnd rb rs) in
  (exists m, cardss (q_heap q') = cardss (q_heap q) ++ m) /\ (List.length (cardss (q_heap q)) <= r_community (q_refs q'))%nat /\
  Forall (fun l => (List.length (cardss (q_heap q)) <= l)%nat) (r_holes (q_refs q')).
Proof.
  intros W E. cbv zeta. destruct (nh_reset_refines c q rnd rb rs W) as (_ & _ & _). revert E. unfold nh_reset. cbv zeta. set (q0 := if rs then _ else _).
  assert (R0 : cardss (q_heap q0) = cardss (q_heap q)) by (unfold q0; destruct q as [[bs is cs] [ra ro rs' rp rm rc rh] z]; destruct rs; reflexivity).
  assert (W0 : apart q0).
  { unfold q0. destruct rs; [|apply (do_assign_active _ q W)]. destruct (do_fill_active (repeat true (num_players c)) q W) as (W1 & _ & _). apply (do_assign_stacks _ _ W1). }
  clearbody q0. rewrite <- R0. clear q W R0. destruct (negb rs && _); [intros H; discriminate H|]. destruct (num_community_cards c); [intros H; discriminate H|].
  match goal with |- context [deck_draw ?x ?y] => destruct (deck_draw x y) as [comm d1] end.
  match goal with |- context [deal_hands ?u ?x ?y] => destruct (deal_hands u x y) as [holes d2] end.
  match goal with |- context [if Nat.ltb 2 _ then hmove_action c ?x else _] => set (q7 := x) end.
  assert (R7 : cardss (q_heap q7) = (cardss (q_heap q0) ++ [comm]) ++ holes /\ r_community (q_refs q7) = List.length (cardss (q_heap q0)) /\
    r_holes (q_refs q7) = seq (List.length (cardss (q_heap q0) ++ [comm])) (List.length holes)).
  { unfold q7. clear - q0. destruct q0 as [[bs is cs] [ra ro rs' rp rm rc rh] zz]. cbn. splits; reflexivity. }
  assert (W7 : apart q7).
  { unfold q7. repeat (first [apply act_put_action | apply act_put_street_raises | apply do_fill_option | apply do_fill_commits | apply act_put_street | apply do_fill_pot_commits | apply act_put_pot
      | apply act_put_largest_raise | apply do_assign_holes | apply act_put_deck | apply act_put_history | apply do_assign_community | apply act_put_button]). exact W0. }
  clearbody q7. destruct R7 as (R7a & R7b & R7c). set (q8 := if Nat.ltb 2 (num_players c) then hmove_action c q7 else q7).
  assert (R8 : q_refs q8 = q_refs q7 /\ cardss (q_heap q8) = cardss (q_heap q7) /\ apart q8).
  { unfold q8. destruct (Nat.ltb 2 (num_players c)); [|splits; [reflexivity|reflexivity|exact W7]]. destruct (move_cards c q7) as [A B]. splits; [exact A|exact B|]. apply (act_move_action c q7 W7). }
  clearbody q8. destruct R8 as (R8a & R8b & W8).
  assert (W9 : apart (nh_collect_multiple_bets c (nh_collect_multiple_bets c q8 (antes c) false) (blinds c) true)).
  { apply act_nh_collect. apply act_nh_collect. exact W8. }
  destruct (collect_cards c q8 (antes c) false) as [A1 A2]. destruct (collect_cards c (nh_collect_multiple_bets c q8 (antes c) false) (blinds c) true) as [A3 A4].
  set (q9 := nh_collect_multiple_bets c (nh_collect_multiple_bets c q8 (antes c) false) (blinds c) true) in *. clearbody q9.
  destruct (act_move_action c q9 W9) as (W10 & _). destruct (act_move_action c _ W10) as (W11 & _).
  destruct (move_cards c q9) as [B1 B2]. destruct (move_cards c (hmove_action c q9)) as [B3 B4].
  set (q11 := hmove_action c (hmove_action c q9)) in *. clearbody q11. intros _. destruct (act_nh_observation c q11 false W11) as (_ & C1 & C2 & _). rewrite C1, C2, B3, B4, B1, B2, A3, A4, A1, A2, R8a, R8b, R7a, R7b, R7c.
  splits; [rewrite <- app_assoc; eexists; reflexivity|apply Nat.le_refl|]. apply Forall_forall. intros x I. apply in_seq in I. rewrite app_length in I. lia.
Qed.

Lemma nh_return_refines c q pay done : apart q ->
  does q (fst (nh_return c q pay done)) (view q) /\ q_refs (fst (nh_return c q pay done)) = q_refs q /\
  same_out (q_heap (fst (nh_return c q pay done))) (snd (nh_return c q pay done)) (let* o := observation c (view q) (all_true done) in Ok (mkOut o pay done)) /\
  (forall o p d, snd (nh_return c q pay done) = Ok (o, p, d) -> gives (fst (nh_return c q pay done)) o).
Proof.
  intros W. destruct (act_nh_observation c q (all_true done) W) as (D & _ & R & S & G). unfold nh_return.
  destruct (nh_observation c q (all_true done)) as [q' [o|e]]; cbn [fst snd] in *; (split; [exact D|]); (split; [exact R|]).
  - split; [|intros o' p d H; injection H as <- _ _; apply G; reflexivity].
    unfold same_obs in S. destruct (observation c (view q) (all_true done)) as [o'|e]; cbn; [|contradiction]. split; [exact S|]. split; reflexivity.
  - split; [|intros o' p d H; discriminate H]. unfold same_obs in S. destruct (observation c (view q) (all_true done)); cbn; [contradiction|exact S].
Qed.
Lemma place_cards c q a fold bet folds call : q_refs (hplace_bet c q a fold bet folds call) = q_refs q.
Proof.
  unfold hplace_bet. cbv zeta. set (q1 := if folds then _ else _). assert (E1 : q_refs q1 = q_refs q) by (unfold q1; destruct folds; destruct q as [[? ? ?] ? ?]; reflexivity).
  clearbody q1. set (q2 := if _ && _ then _ else _). assert (E2 : q_refs q2 = q_refs q1) by (unfold q2; destruct (_ && _); destruct q1 as [[? ? ?] ? ?]; reflexivity).
  clearbody q2. rewrite <- E1, <- E2. rewrite (proj1 (move_cards c _)). destruct q2 as [[? ? ?] ? ?]. reflexivity.
Qed.
Lemma loop_cards c fuel : forall q, q_refs (hstreet_loop c fuel q) = q_refs q.
Proof.
  induction fuel as [|f IH]; intros q; [reflexivity|]. cbn [hstreet_loop]. cbv zeta. destruct (Nat.leb _ _); [reflexivity|]. destruct (deck_draw _ _) as [cs d].
  destruct (_ <=? 1); [rewrite IH|]; destruct q as [[? ? ?] ? ?]; reflexivity.
Qed.
Definition same_cards (q q' : hdealer) : Prop := r_community (q_refs q') = r_community (q_refs q) /\ r_holes (q_refs q') = r_holes (q_refs q).
Lemma nh_step_end_refines c q : apart q ->
  does q (fst (nh_step_end c q)) (fst (np_step_end c (view q))) /\ same_cards q (fst (nh_step_end c q)) /\
  same_out (q_heap (fst (nh_step_end c q))) (snd (nh_step_end c q)) (snd (np_step_end c (view q))) /\
  (forall o p d, snd (nh_step_end c q) = Ok (o, p, d) -> gives (fst (nh_step_end c q)) o).
Proof.
  intros W. unfold nh_step_end, np_step_end. cbv zeta. start q s F V. destruct (np_payouts c s) as [pay|e].
  2:{ cbn [fst snd]. split; [finish W F V|]. split; [split; reflexivity|]. split; [cbn; reflexivity|intros o p d H; discriminate H]. }
  cbn [fst snd]. set (q' := if all_true (np_done_list c s) then nh_finish_hand q pay else q).
  assert (D : does q q' (if all_true (np_done_list c s) then finish_hand s pay else s)).
  { unfold q'. destruct (all_true (np_done_list c s)); [|finish W F V]. go (act_nh_finish_hand pay) W F V. finish W F V. }
  assert (Q : same_cards q q').
  { unfold q', same_cards. destruct (all_true (np_done_list c s)); [|split; reflexivity]. unfold nh_finish_hand. cbv zeta. set (x := add_lists _ _). clearbody x. destruct q as [[? ? ?] ? ?]. split; reflexivity. }
  clearbody q'. clear W F V. destruct D as (W & F & V). destruct (nh_return_refines c q' pay (np_done_list c s) W) as ((W' & F' & V') & R & S & G).
  rewrite V in *. split; [split; [exact W'|split; [exact (frame_trans _ _ _ F F')|exact V']]|]. split; [unfold same_cards in *; rewrite R; exact Q|]. split; [exact S|exact G].
Qed.
Lemma nh_step_refines c q b : apart q ->
  does q (fst (nh_step c q b)) (fst (np_step c (view q) b)) /\ same_cards q (fst (nh_step c q b)) /\
  same_out (q_heap (fst (nh_step c q b))) (snd (nh_step c q b)) (snd (np_step c (view q) b)) /\
  (forall o p d, snd (nh_step c q b) = Ok (o, p, d) -> gives (fst (nh_step c q b)) o).
Proof.
  intros W. unfold nh_step, np_step. cbv zeta. change (action (view q)) with (z_action (q_scal q)).
  assert (Err_case : forall e : exn, does q q (view q) /\ same_cards q q /\ same_out (q_heap q) (Err e) (Err e) /\ (forall o p d, @Err hout e = Ok (o, p, d) -> gives q o)).
  { intros e. split; [apply does_refl; exact W|]. split; [split; reflexivity|]. split; [cbn; reflexivity|intros o p d H; discriminate H]. }
  destruct (z_action (q_scal q)) as [a|] eqn:A.
  2:{ cbn [fst snd]. unfold nh_step_idle, np_step_idle. destruct (any_true (active (view q))); [|apply Err_case]. cbv zeta.
      destruct (np_payouts c (view q)) as [pay|e]; cbn [bind]; [|apply Err_case].
      destruct (nh_return_refines c q pay (np_done_list c (view q)) W) as (D & R & S & G). split; [exact D|]. split; [unfold same_cards; rewrite R; split; reflexivity|]. split; [exact S|exact G]. }
  destruct (py_round b) as [bet0|e]; [|apply Err_case]. destruct (bet_sizes c (view q)) as [[[call mn] mx]|e]; [|apply Err_case].
  destruct (np_settle_bet (pynum_neg b) bet0 call mn mx) as [bet folds].
  destruct (act_place_bet c a (pynum_neg b) bet folds call q W A) as (W1 & F1 & V1). rewrite V1. pose proof (place_cards c q a (pynum_neg b) bet folds call) as P1.
  set (q1 := hplace_bet _ _ _ _ _ _ _) in *. set (s1 := place_bet _ _ _ _ _ _ _) in *. clearbody q1 s1.
  set (q2 := if all_agreed s1 then nh_next_street c q1 else q1). assert (D : does q q2 (if all_agreed s1 then next_street c s1 else s1)).
  { unfold q2. destruct (all_agreed s1); [|finish W1 F1 V1]. go (act_nh_next_street c) W1 F1 V1. finish W1 F1 V1. }
  assert (Q : same_cards q q2).
  { unfold q2, same_cards. rewrite <- P1. destruct (all_agreed s1); [|split; reflexivity]. unfold nh_next_street. cbv zeta. set (q1' := hstreet_loop _ _ _).
    assert (E : q_refs q1' = q_refs q1) by (unfold q1'; rewrite loop_cards, (proj1 (move_cards c _)); reflexivity). clearbody q1'. rewrite <- E. destruct q1' as [[? ? ?] [? ? ? ? ? ? ?] ?]. split; reflexivity. }
  clearbody q2. destruct D as (W2 & F2 & V2). destruct (nh_step_end_refines c q2 W2) as ((W3 & F3 & V3) & R & S & G). rewrite V2 in *.
  split; [split; [exact W3|split; [exact (frame_trans _ _ _ F2 F3)|exact V3]]|]. split; [|split; [exact S|exact G]]. destruct Q as [Q1 Q2], R as [R1 R2]. split; congruence.
Qed.
Lemma nh_apply_refines c q o : apart q -> does q (nh_apply c q o) (np_apply_op c (view q) o).
Proof.
  intros W. destruct o as [rnd rb rs|b|cs| |l]; cbn [nh_apply np_apply_op].
  - apply nh_reset_refines. exact W.
  - apply nh_step_refines. exact W.
  - destruct (deck_trick cs (the_deck (view q))); [|apply does_refl; exact W]. apply act_put_deck. exact W.
  - apply act_put_deck. exact W.
  - apply do_assign_stacks. exact W.
Qed.
Lemma nh_run_refines c ops : forall q, apart q -> does q (nh_run c q ops) (np_run c (view q) ops).
Proof.
  induction ops as [|o ops IH]; intros q W; [apply does_refl; exact W|].
  destruct (nh_apply_refines c q o W) as (W1 & F1 & V1). destruct (IH _ W1) as (W2 & F2 & V2). rewrite V1 in V2.
  split; [exact W2|]. split; [exact (frame_trans _ _ _ F1 F2)|exact V2].
Qed.
Lemma made_frame q q' o : frame q q' -> made q o -> made q' o.
Proof.
  intros [F1 F2 F3 F4 F5 F6 F7 F8 F9 F10 F11 F12 F13] [P1 P2 P3 P4 P5]. clear F4 F5 F6. constructor; try lia.
  split; [lia|]. destruct F13 as [->|F13]; [apply P4|]. intros I. rewrite Forall_forall in F13. specialize (F13 _ I). lia.
Qed.
Lemma given_made c q o x : apart q -> In x (given c q o) -> gives (nh_apply c q o) x.
Proof.
  intros W. destruct o as [rnd rb rs|b|cs| |l]; cbn [given nh_apply]; intros I; try contradiction.
  - destruct (nh_reset_refines c q rnd rb rs W) as (_ & _ & G). destruct (snd (nh_reset c q rnd rb rs)) as [o|e]; [|contradiction]. destruct I as [<-|[]]. apply G. reflexivity.
  - destruct (nh_step_refines c q b W) as (_ & _ & _ & G). destruct (snd (nh_step c q b)) as [[[o p] d]|e]; [|contradiction]. destruct I as [<-|[]]. eapply G. reflexivity.
Qed.
