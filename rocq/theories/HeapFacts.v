(** * HeapFacts: the dealer with list objects does what the dealer with list values does *)
From Coq Require Import PeanoNat.
From Verif Require Import PyBase PyFacts CardModel EvalModel EngineModel HeapModel.

(** ** Well-formed stores: the attributes are different objects *)
Record apart (q : hdealer) : Prop := mkApart {
  ap_active : (r_active (q_refs q) < List.length (bools (q_heap q)))%nat;
  ap_option : (r_option (q_refs q) < List.length (bools (q_heap q)))%nat;
  ap_bools : r_active (q_refs q) <> r_option (q_refs q);
  ap_stacks : (r_stacks (q_refs q) < List.length (ints (q_heap q)))%nat;
  ap_pot : (r_pot_commits (q_refs q) < List.length (ints (q_heap q)))%nat;
  ap_commits : (r_commits (q_refs q) < List.length (ints (q_heap q)))%nat;
  ap_ints1 : r_stacks (q_refs q) <> r_pot_commits (q_refs q);
  ap_ints2 : r_stacks (q_refs q) <> r_commits (q_refs q);
  ap_ints3 : r_pot_commits (q_refs q) <> r_commits (q_refs q);
  ap_community : (r_community (q_refs q) < List.length (cardss (q_heap q)))%nat;
  ap_holes : Forall (fun l => (l < List.length (cardss (q_heap q)))%nat /\ l <> r_community (q_refs q)) (r_holes (q_refs q));
  ap_nodup : NoDup (r_holes (q_refs q))
}.

(** ** What an operation leaves alone *)
Record frame (q q' : hdealer) : Prop := mkFrame {
  fr_bools_len : (List.length (bools (q_heap q)) <= List.length (bools (q_heap q')))%nat;
  fr_ints_len : (List.length (ints (q_heap q)) <= List.length (ints (q_heap q')))%nat;
  fr_cards_len : (List.length (cardss (q_heap q)) <= List.length (cardss (q_heap q')))%nat;
  fr_bools : forall l, (l < List.length (bools (q_heap q)))%nat -> l <> r_active (q_refs q) -> l <> r_option (q_refs q) ->
    read_bools (q_heap q') l = read_bools (q_heap q) l;
  fr_ints : forall l, (l < List.length (ints (q_heap q)))%nat -> l <> r_stacks (q_refs q) -> l <> r_pot_commits (q_refs q) -> l <> r_commits (q_refs q) ->
    read_ints (q_heap q') l = read_ints (q_heap q) l;
  fr_cards : forall l, (l < List.length (cardss (q_heap q)))%nat -> l <> r_community (q_refs q) -> read_cards (q_heap q') l = read_cards (q_heap q) l;
  fr_active : r_active (q_refs q') = r_active (q_refs q) \/ (List.length (bools (q_heap q)) <= r_active (q_refs q'))%nat;
  fr_option : r_option (q_refs q') = r_option (q_refs q) \/ (List.length (bools (q_heap q)) <= r_option (q_refs q'))%nat;
  fr_stacks : r_stacks (q_refs q') = r_stacks (q_refs q) \/ (List.length (ints (q_heap q)) <= r_stacks (q_refs q'))%nat;
  fr_pot : r_pot_commits (q_refs q') = r_pot_commits (q_refs q) \/ (List.length (ints (q_heap q)) <= r_pot_commits (q_refs q'))%nat;
  fr_commits : r_commits (q_refs q') = r_commits (q_refs q) \/ (List.length (ints (q_heap q)) <= r_commits (q_refs q'))%nat;
  fr_community : r_community (q_refs q') = r_community (q_refs q) \/ (List.length (cardss (q_heap q)) <= r_community (q_refs q'))%nat;
  fr_holes : r_holes (q_refs q') = r_holes (q_refs q) \/ Forall (fun l => (List.length (cardss (q_heap q)) <= l)%nat) (r_holes (q_refs q'))
}.
Lemma frame_refl q : frame q q.
Proof. constructor; auto. Qed.
Lemma frame_trans q1 q2 q3 : frame q1 q2 -> frame q2 q3 -> frame q1 q3.
Proof.
  intros [A1 A2 A3 A4 A5 A6 A7 A8 A9 A10 A11 A12 A13] [B1 B2 B3 B4 B5 B6 B7 B8 B9 B10 B11 B12 B13].
  constructor; try lia.
  - intros l L N1 N2. rewrite B4; [apply A4; assumption|lia|lia|lia].
  - intros l L N1 N2 N3. rewrite B5; [apply A5; assumption|lia|lia|lia|lia].
  - intros l L N1. rewrite B6; [apply A6; assumption|lia|lia].
  - destruct B13 as [->|B13]; [exact A13|]. right. revert B13. apply Forall_impl. intros. lia.
Qed.

(** one operation: it keeps the store well-formed, respects the frame, and its effect on the contents is [s'] *)
Definition does (q q' : hdealer) (s' : state) : Prop := apart q' /\ frame q q' /\ view q' = s'.
Lemma does_refl q : apart q -> does q q (view q).
Proof. intros W. split; [exact W|]. split; [apply frame_refl|reflexivity]. Qed.
Lemma does_seq q1 q2 q3 s2 s3 : does q1 q2 s2 -> (apart q2 -> view q2 = s2 -> does q2 q3 s3) -> does q1 q3 s3.
Proof. intros (W & F & V) H. destruct (H W V) as (W' & F' & V'). split; [exact W'|]. split; [exact (frame_trans _ _ _ F F')|exact V']. Qed.

Lemma nth_old {A} (l m : list A) j d : (j < List.length l)%nat -> nth j (l ++ m) d = nth j l d.
Proof. intros H. apply app_nth1. exact H. Qed.
Lemma nth_new {A} (l : list A) x d : nth (List.length l) (l ++ [x]) d = x.
Proof. rewrite app_nth2 by lia. rewrite Nat.sub_diag. reflexivity. Qed.
Lemma map_read_old k ls hs (P : Forall (fun l => (l < List.length k)%nat) hs) : map (fun l => nth l (k ++ ls) []) hs = map (fun l => nth l k (@nil card)) hs.
Proof. apply map_ext_in. intros l I. apply nth_old. rewrite Forall_forall in P. apply P. exact I. Qed.
Lemma map_read_new (k ls : list (list card)) : map (fun l => nth l (k ++ ls) []) (seq (List.length k) (List.length ls)) = ls.
Proof.
  revert k. induction ls as [|x ls IH]; intros k; [reflexivity|]. cbn [List.length seq map]. rewrite nth_middle. f_equal.
  specialize (IH (k ++ [x])). rewrite app_length in IH. cbn [List.length] in IH. rewrite Nat.add_1_r in IH. rewrite <- app_assoc in IH. exact IH.
Qed.
Lemma map_read_upd k j v hs (P : Forall (fun l => l <> j) hs) : map (fun l => nth l (upd k j v) []) hs = map (fun l => nth l k (@nil card)) hs.
Proof. apply map_ext_in. intros l I. apply upd_nth_other. rewrite Forall_forall in P. intros E. apply (P l I). symmetry. exact E. Qed.

Ltac opens q W :=
  destruct q as [[b i k] [ra ro rs rp rm rc rh] [za zb zd zh zl zp zs zr]]; destruct W as [W1 W2 W3 W4 W5 W6 W7 W8 W9 W10 W11 W12];
  cbn [q_heap q_refs q_scal bools ints cardss r_active r_option r_stacks r_pot_commits r_commits r_community r_holes] in *.
Ltac heap_simpl := unfold view, read_bools, read_ints, read_cards, on_scal in *;
  cbn [q_heap q_refs q_scal bools ints cardss r_active r_option r_stacks r_pot_commits r_commits r_community r_holes
       z_action z_button z_deck z_history z_largest_raise z_pot z_street z_street_raises
       action active button community_cards the_deck history hole_cards largest_raise pot pot_commits stacks street street_commits street_option street_raises] in *.
Lemma holes_lt k rc rh : Forall (fun l => (l < List.length k)%nat /\ l <> rc) rh -> Forall (fun l => (l < List.length (A := list card) k)%nat) rh.
Proof. apply Forall_impl. intros a [H _]. exact H. Qed.
Lemma holes_ne {A} (k : list A) rc rh : Forall (fun l => (l < List.length k)%nat /\ l <> rc) rh -> Forall (fun l => l <> rc) rh.
Proof. apply Forall_impl. intros a [_ H]. exact H. Qed.
Ltac frame_tac :=
  constructor; heap_simpl; rewrite ?app_length, ?upd_length; cbn [List.length]; try lia; try (left; reflexivity);
  intros; rewrite ?nth_old by lia; rewrite ?upd_nth_other by lia; try reflexivity.
Ltac apart_tac W11 :=
  constructor; cbn [q_heap q_refs q_scal bools ints cardss r_active r_option r_stacks r_pot_commits r_commits r_community r_holes];
  rewrite ?app_length, ?upd_length; cbn [List.length]; try lia; try assumption;
  try (revert W11; apply Forall_impl; intros; cbn beta in *; lia).
Ltac view_tac W11 :=
  heap_simpl; rewrite ?nth_new; rewrite ?upd_nth_same by lia; rewrite ?nth_old by lia; rewrite ?upd_nth_other by lia;
  rewrite ?(map_read_old _ _ _ (holes_lt _ _ _ W11)), ?(map_read_upd _ _ _ _ (holes_ne _ _ _ W11)); try reflexivity.
Ltac unprim := unfold assign_active, assign_option, assign_stacks, assign_pot_commits, assign_commits, assign_community, assign_holes,
  write_active, write_option, add_stacks, add_pot_commits, add_commits, extend_community.
Ltac prim W11 := unprim; cbn [r_active r_option r_stacks r_pot_commits r_commits r_community r_holes]; split; [apart_tac W11|split; [frame_tac|view_tac W11]].

Lemma do_assign_active l q : apart q -> let s := view q in does q (assign_active l q)
  (mkState (action s) l (button s) (community_cards s) (the_deck s) (history s) (hole_cards s) (largest_raise s) (pot s) (pot_commits s) (stacks s) (street s) (street_commits s) (street_option s) (street_raises s)).
Proof. intros W. opens q W. prim W11. Qed.
Lemma do_assign_option l q : apart q -> let s := view q in does q (assign_option l q)
  (mkState (action s) (active s) (button s) (community_cards s) (the_deck s) (history s) (hole_cards s) (largest_raise s) (pot s) (pot_commits s) (stacks s) (street s) (street_commits s) l (street_raises s)).
Proof. intros W. opens q W. prim W11. Qed.
Lemma do_assign_stacks l q : apart q -> let s := view q in does q (assign_stacks l q)
  (mkState (action s) (active s) (button s) (community_cards s) (the_deck s) (history s) (hole_cards s) (largest_raise s) (pot s) (pot_commits s) l (street s) (street_commits s) (street_option s) (street_raises s)).
Proof. intros W. opens q W. prim W11. Qed.
Lemma do_assign_pot_commits l q : apart q -> let s := view q in does q (assign_pot_commits l q)
  (mkState (action s) (active s) (button s) (community_cards s) (the_deck s) (history s) (hole_cards s) (largest_raise s) (pot s) l (stacks s) (street s) (street_commits s) (street_option s) (street_raises s)).
Proof. intros W. opens q W. prim W11. Qed.
Lemma do_assign_commits l q : apart q -> let s := view q in does q (assign_commits l q)
  (mkState (action s) (active s) (button s) (community_cards s) (the_deck s) (history s) (hole_cards s) (largest_raise s) (pot s) (pot_commits s) (stacks s) (street s) l (street_option s) (street_raises s)).
Proof. intros W. opens q W. prim W11. Qed.
Lemma do_assign_community l q : apart q -> let s := view q in does q (assign_community l q)
  (mkState (action s) (active s) (button s) l (the_deck s) (history s) (hole_cards s) (largest_raise s) (pot s) (pot_commits s) (stacks s) (street s) (street_commits s) (street_option s) (street_raises s)).
Proof. intros W. opens q W. prim W11. Qed.
Lemma do_assign_holes ls q : apart q -> let s := view q in does q (assign_holes ls q)
  (mkState (action s) (active s) (button s) (community_cards s) (the_deck s) (history s) ls (largest_raise s) (pot s) (pot_commits s) (stacks s) (street s) (street_commits s) (street_option s) (street_raises s)).
Proof.
  intros W. opens q W. prim W11.
  - apply Forall_forall. intros l I. apply in_seq in I. lia.
  - apply seq_NoDup.
  - right. apply Forall_forall. intros l I. apply in_seq in I. lia.
  - rewrite map_read_new. reflexivity.
Qed.
Lemma do_write_active j v q : apart q -> let s := view q in does q (write_active j v q)
  (mkState (action s) (upd (active s) j v) (button s) (community_cards s) (the_deck s) (history s) (hole_cards s) (largest_raise s) (pot s) (pot_commits s) (stacks s) (street s) (street_commits s) (street_option s) (street_raises s)).
Proof. intros W. opens q W. prim W11. Qed.
Lemma do_write_option j v q : apart q -> let s := view q in does q (write_option j v q)
  (mkState (action s) (active s) (button s) (community_cards s) (the_deck s) (history s) (hole_cards s) (largest_raise s) (pot s) (pot_commits s) (stacks s) (street s) (street_commits s) (upd (street_option s) j v) (street_raises s)).
Proof. intros W. opens q W. prim W11. Qed.
Lemma do_add_stacks j v q : apart q -> let s := view q in does q (add_stacks j v q)
  (mkState (action s) (active s) (button s) (community_cards s) (the_deck s) (history s) (hole_cards s) (largest_raise s) (pot s) (pot_commits s) (add_at (stacks s) j v) (street s) (street_commits s) (street_option s) (street_raises s)).
Proof. intros W. opens q W. prim W11. Qed.
Lemma do_add_pot_commits j v q : apart q -> let s := view q in does q (add_pot_commits j v q)
  (mkState (action s) (active s) (button s) (community_cards s) (the_deck s) (history s) (hole_cards s) (largest_raise s) (pot s) (add_at (pot_commits s) j v) (stacks s) (street s) (street_commits s) (street_option s) (street_raises s)).
Proof. intros W. opens q W. prim W11. Qed.
Lemma do_add_commits j v q : apart q -> let s := view q in does q (add_commits j v q)
  (mkState (action s) (active s) (button s) (community_cards s) (the_deck s) (history s) (hole_cards s) (largest_raise s) (pot s) (pot_commits s) (stacks s) (street s) (add_at (street_commits s) j v) (street_option s) (street_raises s)).
Proof. intros W. opens q W. prim W11. Qed.
Lemma do_extend_community l q : apart q -> let s := view q in does q (extend_community l q)
  (mkState (action s) (active s) (button s) (community_cards s ++ l) (the_deck s) (history s) (hole_cards s) (largest_raise s) (pot s) (pot_commits s) (stacks s) (street s) (street_commits s) (street_option s) (street_raises s)).
Proof. intros W. opens q W. prim W11. Qed.

(** attributes that are not lists *)
Lemma do_scal f q : apart q -> does q (on_scal f q) (view (on_scal f q)).
Proof. intros [W1 W2 W3 W4 W5 W6 W7 W8 W9 W10 W11 W12]. split; [constructor; assumption|]. split; [|reflexivity]. constructor; auto. Qed.

(** ** Methods *)
Ltac fields := cbn [action active button community_cards the_deck history hole_cards largest_raise pot pot_commits stacks street street_commits street_option street_raises].
Ltac fields_in V := cbn [action active button community_cards the_deck history hole_cards largest_raise pot pot_commits stacks street street_commits street_option street_raises] in V.
Lemma view_scal f q : view (on_scal f q) =
  let s := view q in let z := f (q_scal q) in
  mkState (z_action z) (active s) (z_button z) (community_cards s) (z_deck z) (z_history z) (hole_cards s) (z_largest_raise z) (z_pot z) (pot_commits s) (stacks s) (z_street z) (street_commits s) (street_option s) (z_street_raises z).
Proof. reflexivity. Qed.
Lemma does_scal q1 q2 s f : does q1 q2 s -> does q1 (on_scal f q2) (view (on_scal f q2)).
Proof. intros (W & F & V). destruct (do_scal f q2 W) as (W' & F' & V'). split; [exact W'|]. split; [exact (frame_trans _ _ _ F F')|exact V']. Qed.
(** a method that does [g] to the contents *)
Definition acts (m : hdealer -> hdealer) (g : state -> state) : Prop := forall q, apart q -> does q (m q) (g (view q)).
Lemma acts_then m1 g1 m2 g2 : acts m1 g1 -> acts m2 g2 -> acts (fun q => m2 (m1 q)) (fun s => g2 (g1 s)).
Proof. intros A B q W. destruct (A q W) as (W1 & F1 & V1). destruct (B _ W1) as (W2 & F2 & V2). split; [exact W2|]. split; [exact (frame_trans _ _ _ F1 F2)|]. rewrite V2, V1. reflexivity. Qed.
Lemma acts_ext m g g' : acts m g -> (forall s, g s = g' s) -> acts m g'.
Proof. intros A E q W. rewrite <- E. apply A. exact W. Qed.

Lemma act_move_loop n a0 k : forall i a q, apart q ->
  let s := view q in let f := move_loop n a0 (active s) k i a (street_option s) in let r := hmove_loop n a0 k i a q in
  fst r = fst f /\
  does q (snd r) (mkState (action s) (active s) (button s) (community_cards s) (the_deck s) (history s) (hole_cards s) (largest_raise s) (pot s) (pot_commits s) (stacks s) (street s) (street_commits s) (snd f) (street_raises s)).
Proof.
  induction k as [|k IH]; intros i a q W; cbv zeta; cbn [hmove_loop move_loop].
  - split; [reflexivity|]. split; [exact W|]. split; [apply frame_refl|reflexivity].
  - destruct (nth (Nat.modulo (a0 + i) n) (active (view q)) false) eqn:E.
    + split; [reflexivity|]. split; [exact W|]. split; [apply frame_refl|reflexivity].
    + destruct (do_write_option (Nat.modulo (a0 + i) n) true q W) as (W1 & F1 & V1).
      destruct (IH (S i) (Nat.modulo (a0 + i) n) _ W1) as (E2 & W2 & F2 & V2). rewrite V1 in *. fields_in E2. fields_in V2.
      split; [exact E2|]. split; [exact W2|]. split; [exact (frame_trans _ _ _ F1 F2)|exact V2].
Qed.
Lemma act_move_action c : acts (hmove_action c) (move_action c).
Proof.
  intros q W. unfold hmove_action, move_action. destruct (act_move_loop (num_players c) (act_idx c (view q)) (num_players c) 1 (act_idx c (view q)) q W) as (E & W1 & F1 & V1).
  destruct (hmove_loop _ _ _ _ _ q) as [a q1]. cbn [fst snd] in *. destruct (move_loop _ _ _ _ _ _ _) as [a' opt]. cbn [fst snd] in *. subst a'.
  destruct (do_scal (fun z => mkScalars (Some a) (z_button z) (z_deck z) (z_history z) (z_largest_raise z) (z_pot z) (z_street z) (z_street_raises z)) q1 W1) as (W2 & F2 & _).
  split; [exact W2|]. split; [exact (frame_trans _ _ _ F1 F2)|]. unfold put_action. rewrite view_scal. cbv zeta. rewrite V1. fields.
  cbn [z_action z_button z_deck z_history z_largest_raise z_pot z_street z_street_raises].
  f_equal; [exact (f_equal button V1)|exact (f_equal the_deck V1)|exact (f_equal history V1)|exact (f_equal largest_raise V1)|exact (f_equal pot V1)|exact (f_equal street V1)|exact (f_equal street_raises V1)].
Qed.
Ltac scal_tac := intros q W; split; [apply (do_scal _ q W)|split; [apply (do_scal _ q W)|reflexivity]].
Lemma act_put_action x : acts (put_action x) (fun s => mkState x (active s) (button s) (community_cards s) (the_deck s) (history s) (hole_cards s) (largest_raise s) (pot s) (pot_commits s) (stacks s) (street s) (street_commits s) (street_option s) (street_raises s)).
Proof. scal_tac. Qed.
Lemma act_put_button x : acts (put_button x) (fun s => mkState (action s) (active s) x (community_cards s) (the_deck s) (history s) (hole_cards s) (largest_raise s) (pot s) (pot_commits s) (stacks s) (street s) (street_commits s) (street_option s) (street_raises s)).
Proof. scal_tac. Qed.
Lemma act_put_deck x : acts (put_deck x) (fun s => mkState (action s) (active s) (button s) (community_cards s) x (history s) (hole_cards s) (largest_raise s) (pot s) (pot_commits s) (stacks s) (street s) (street_commits s) (street_option s) (street_raises s)).
Proof. scal_tac. Qed.
Lemma act_put_history x : acts (put_history x) (fun s => mkState (action s) (active s) (button s) (community_cards s) (the_deck s) x (hole_cards s) (largest_raise s) (pot s) (pot_commits s) (stacks s) (street s) (street_commits s) (street_option s) (street_raises s)).
Proof. scal_tac. Qed.
Lemma act_put_largest_raise x : acts (put_largest_raise x) (fun s => mkState (action s) (active s) (button s) (community_cards s) (the_deck s) (history s) (hole_cards s) x (pot s) (pot_commits s) (stacks s) (street s) (street_commits s) (street_option s) (street_raises s)).
Proof. scal_tac. Qed.
Lemma act_put_pot x : acts (put_pot x) (fun s => mkState (action s) (active s) (button s) (community_cards s) (the_deck s) (history s) (hole_cards s) (largest_raise s) x (pot_commits s) (stacks s) (street s) (street_commits s) (street_option s) (street_raises s)).
Proof. scal_tac. Qed.
Lemma act_put_street x : acts (put_street x) (fun s => mkState (action s) (active s) (button s) (community_cards s) (the_deck s) (history s) (hole_cards s) (largest_raise s) (pot s) (pot_commits s) (stacks s) x (street_commits s) (street_option s) (street_raises s)).
Proof. scal_tac. Qed.
Lemma act_put_street_raises x : acts (put_street_raises x) (fun s => mkState (action s) (active s) (button s) (community_cards s) (the_deck s) (history s) (hole_cards s) (largest_raise s) (pot s) (pot_commits s) (stacks s) (street s) (street_commits s) (street_option s) x).
Proof. scal_tac. Qed.

(** follow the statements one by one: the dealer after them, its contents, and the frame since the start *)
Ltac go L W F V :=
  let W' := fresh "W" in let F' := fresh "F" in let V' := fresh "V" in
  destruct (L _ W) as (W' & F' & V'); cbv zeta in V'; rewrite V in V'; fields_in V';
  let F'' := fresh "F" in pose proof (frame_trans _ _ _ F F') as F''; clear F F'; rename F'' into F; clear W; rename W' into W; clear V; rename V' into V;
  try rewrite V; fields.
Ltac start q s F V := pose proof (frame_refl q) as F; remember (view q) as s eqn:V; symmetry in V.
Ltac finish W F V := split; [exact W|split; [exact F|exact V]].

Lemma act_collect_multiple_bets c bets to_street : acts (fun q => hcollect_multiple_bets c q bets to_street) (fun s => collect_multiple_bets c s bets to_street).
Proof.
  intros q W. unfold hcollect_multiple_bets, collect_multiple_bets. cbv zeta. start q s F V. set (b := forced_bets _ _). clearbody b.
  destruct to_street.
  - go (do_assign_commits (add_lists (street_commits s) b)) W F V.
    go (act_put_pot (pot s + sumZ b)) W F V.
    go (do_assign_pot_commits (add_lists (pot_commits s) b)) W F V.
    go (do_assign_stacks (sub_lists (stacks s) b)) W F V. finish W F V.
  - rewrite V. go (act_put_pot (pot s + sumZ b)) W F V.
    go (do_assign_pot_commits (add_lists (pot_commits s) b)) W F V.
    go (do_assign_stacks (sub_lists (stacks s) b)) W F V. finish W F V.
Qed.
Lemma act_collect_bet a bet : acts (hcollect_bet a bet) (fun s => let taken := Z.min (nth a (stacks s) 0) bet in
  mkState (action s) (active s) (button s) (community_cards s) (the_deck s) (history s) (hole_cards s) (largest_raise s) (pot s + taken) (add_at (pot_commits s) a taken) (add_at (stacks s) a (- taken)) (street s) (add_at (street_commits s) a taken) (street_option s) (street_raises s)).
Proof.
  intros q W. unfold hcollect_bet. cbv zeta. start q s F V. set (t := Z.min _ _). clearbody t.
  go (act_put_pot (pot s + t)) W F V. go (do_add_pot_commits a t) W F V. go (do_add_commits a t) W F V. go (do_add_stacks a (- t)) W F V. finish W F V.
Qed.
Lemma act_place_bet c a fold bet folds call : forall q, apart q -> z_action (q_scal q) = Some a ->
  does q (hplace_bet c q a fold bet folds call) (place_bet c (view q) a fold bet folds call).
Proof.
  intros q W A. change (z_action (q_scal q)) with (action (view q)) in A. unfold hplace_bet, place_bet. cbv zeta. start q s F V.
  set (q1 := if folds then write_active a false q else q).
  assert (D1 : does q q1 (mkState (action s) (if folds then upd (active s) a false else active s) (button s) (community_cards s) (the_deck s) (history s) (hole_cards s) (largest_raise s) (pot s) (pot_commits s) (stacks s) (street s) (street_commits s) (street_option s) (street_raises s))).
  { unfold q1. destruct folds; [rewrite <- V; apply (do_write_active a false q W)|]. split; [exact W|]. split; [exact F|]. rewrite V. destruct s; reflexivity. }
  destruct D1 as (W1 & F1 & V1). clearbody q1. rewrite V1. fields. set (act := if folds then _ else _) in *. clearbody act.
  set (raise := negb (bet =? 0) && (largest_raise s <=? bet - call)) in *.
  set (q2 := if raise then _ else q1).
  assert (D2 : does q q2 (mkState (action s) act (button s) (community_cards s) (the_deck s) (history s) (hole_cards s) (if raise then bet - call else largest_raise s) (pot s) (pot_commits s) (stacks s) (street s) (street_commits s) (street_option s) (if raise then street_raises s + 1 else street_raises s))).
  { unfold q2. destruct raise; [|finish W1 F1 V1]. go (act_put_largest_raise (bet - call)) W1 F1 V1. go (act_put_street_raises (street_raises s + 1)) W1 F1 V1. finish W1 F1 V1. }
  destruct D2 as (W2 & F2 & V2). clearbody q2. clear W1 F1 V1 q1. set (lr := if raise then bet - call else _) in *. set (sr := if raise then street_raises s + 1 else _) in *. clearbody lr sr.
  go (act_collect_bet a bet) W2 F2 V2. go (act_put_history (history s ++ [(a, bet, fold)])) W2 F2 V2. go (do_write_option a true) W2 F2 V2.
  rewrite A in V2. go (act_move_action c) W2 F2 V2. finish W2 F2 V2.
Qed.
Lemma act_street_loop c fuel : acts (hstreet_loop c fuel) (street_loop c fuel).
Proof.
  induction fuel as [|f IH]; intros q W; cbn [hstreet_loop street_loop]; [apply does_refl; exact W|]. cbv zeta. start q s F V.
  go (act_put_street (S (street s))) W F V. destruct (Nat.leb (num_streets c) (S (street s))); [finish W F V|].
  destruct (deck_draw (nth (S (street s)) (num_community_cards c) 0) (the_deck s)) as [cards d].
  go (act_put_deck d) W F V. go (do_extend_community cards) W F V.
  destruct (count_true (active s) - count_true (map (fun p => fst p && (snd p =? 0)) (combine (active s) (stacks s))) <=? 1); [|finish W F V].
  go IH W F V. finish W F V.
Qed.
Lemma act_next_street c : acts (hnext_street c) (next_street c).
Proof.
  intros q W. unfold hnext_street, next_street. cbv zeta. start q s F V.
  go (act_put_action (Some (button s))) W F V. go (act_move_action c) W F V. go (act_street_loop c (S (num_streets c))) W F V.
  change (mkState (Some (button s)) (active s) (button s) (community_cards s) (the_deck s) (history s) (hole_cards s) (largest_raise s) (pot s) (pot_commits s) (stacks s) (street s) (street_commits s) (street_option s) (street_raises s)) with (set_action s (Some (button s))) in V.
  set (t := street_loop c _ _) in *. clearbody t.
  go (do_assign_commits (repeat 0 (num_players c))) W F V. go (do_assign_option (map negb (active t))) W F V. go (act_put_street_raises 0) W F V. finish W F V.
Qed.
Lemma act_finish_hand pay : acts (fun q => hfinish_hand q pay) (fun s => finish_hand s pay).
Proof.
  intros q W. unfold hfinish_hand, finish_hand. cbv zeta. start q s F V.
  go (act_put_action None) W F V. go (act_put_pot 0) W F V. go (do_assign_stacks (add_lists (add_lists (stacks s) pay) (pot_commits s))) W F V. finish W F V.
Qed.

(** ** Observations *)
Definition same_obs (h : heap) (r : result hobs) (s : result obs) : Prop :=
  match r, s with Ok o, Ok o' => look h o = o' | Err e, Err e' => e = e' | _, _ => False end.
Lemma map_nth_error_read h rh a : nth_error (map (read_cards h) rh) a = option_map (read_cards h) (nth_error rh a).
Proof. apply nth_error_map. Qed.
Lemma look_observation c q done : same_obs (q_heap q) (hobservation c q done) (observation c (view q) done).
Proof.
  unfold hobservation, observation. destruct (if done then Ok (0, 0, 0) else bet_sizes c (view q)) as [[[x y] z]|e]; cbn [bind]; [|cbn; reflexivity].
  change (action (view q)) with (z_action (q_scal q)). change (hole_cards (view q)) with (map (read_cards (q_heap q)) (r_holes (q_refs q))).
  destruct (z_action (q_scal q)) as [a|].
  - unfold get. rewrite nth_error_map. destruct (nth_error (r_holes (q_refs q)) a) as [l|]; cbn [option_map bind]; cbn; reflexivity.
  - unfold get_last. rewrite <- map_rev. destruct (rev (r_holes (q_refs q))) as [|l rh]; cbn [map bind]; cbn; reflexivity.
Qed.

(** ** reset and step *)
Theorem hreset_refines c q rnd rb rs : apart q ->
  does q (fst (hreset c q rnd rb rs)) (fst (reset c (view q) rnd rb rs)) /\
  same_obs (q_heap (fst (hreset c q rnd rb rs))) (snd (hreset c q rnd rb rs)) (snd (reset c (view q) rnd rb rs)).
Proof.
  intros W. unfold hreset, reset, reset_active. cbv zeta. start q s F V. set (n := num_players c).
  set (q0 := if rs then _ else _).
  assert (D0 : exists act stk, (if rs then (repeat true n, repeat (start_stack c) n) else (map (fun x => 0 <? x) (stacks s), stacks s)) = (act, stk) /\
    does q q0 (mkState (action s) act (button s) (community_cards s) (the_deck s) (history s) (hole_cards s) (largest_raise s) (pot s) (pot_commits s) stk (street s) (street_commits s) (street_option s) (street_raises s))).
  { unfold q0. destruct rs.
    - eexists. eexists. split; [reflexivity|]. go (do_assign_active (repeat true n)) W F V. go (do_assign_stacks (repeat (start_stack c) n)) W F V. finish W F V.
    - eexists. eexists. split; [reflexivity|]. go (do_assign_active (map (fun x => 0 <? x) (stacks s))) W F V. finish W F V. }
  clearbody q0. clear W F. destruct D0 as (act & stk & -> & W & F & V0). clear V. rename V0 into V. rewrite V. fields.
  destruct (negb rs && (count_true act <=? 1)).
  { cbn [fst snd]. split; [finish W F V|cbn; reflexivity]. }
  set (b := if rb then 0%nat else _). clearbody b.
  go (act_put_button b) W F V. go (act_put_deck (deck_shuffle rnd (the_deck s))) W F V.
  destruct (num_community_cards c) as [|cc0 ccs]; [cbn [fst snd]; split; [finish W F V|cbn; reflexivity]|].
  destruct (deck_draw cc0 (deck_shuffle rnd (the_deck s))) as [comm d1].
  go (act_put_deck d1) W F V. go (do_assign_community comm) W F V. go (act_put_history []) W F V.
  destruct (deal_hands n (num_hole_cards c) d1) as [holes d2].
  go (act_put_deck d2) W F V. go (do_assign_holes holes) W F V.
  go (act_put_largest_raise (big_blind c)) W F V. go (act_put_pot 0) W F V. go (do_assign_pot_commits (repeat 0 n)) W F V.
  go (act_put_street 0%nat) W F V. go (do_assign_commits (repeat 0 n)) W F V. go (do_assign_option (repeat false n)) W F V.
  go (act_put_street_raises 0) W F V. go (act_put_action (Some b)) W F V.
  match type of V with view ?p = _ => set (q7 := p) in * end. clearbody q7. set (s1 := mkState _ _ _ _ _ _ _ _ _ _ _ _ _ _ _) in *. clearbody s1.
  set (q8 := if Nat.ltb 2 n then hmove_action c q7 else q7). assert (D8 : does q q8 (if Nat.ltb 2 n then move_action c s1 else s1)).
  { unfold q8. destruct (Nat.ltb 2 n); [|finish W F V]. go (act_move_action c) W F V. finish W F V. }
  clearbody q8. clear W F V. destruct D8 as (W & F & V).
  go (act_collect_multiple_bets c (antes c) false) W F V. go (act_collect_multiple_bets c (blinds c) true) W F V.
  go (act_move_action c) W F V. go (act_move_action c) W F V. cbn [fst snd]. split; [finish W F V|]. rewrite <- V. apply look_observation.
Qed.

Definition same_out (h : heap) (r : result hout) (s : result step_out) : Prop :=
  match r, s with Ok (o, pay, done), Ok out => look h o = out_obs out /\ pay = out_payouts out /\ done = out_done out | Err e, Err e' => e = e' | _, _ => False end.
Lemma step_end_refines c q : apart q ->
  does q (fst (hstep_end c q)) (fst (step_end c (view q))) /\
  same_out (q_heap (fst (hstep_end c q))) (snd (hstep_end c q)) (snd (step_end c (view q))).
Proof.
  intros W. unfold hstep_end, step_end. cbv zeta. start q s F V. destruct (payouts c s) as [pay|e]; [|cbn [fst snd]; split; [finish W F V|cbn; reflexivity]].
  cbn [fst snd]. set (q' := if all_true (done_list c s) then hfinish_hand q pay else q).
  assert (D : does q q' (if all_true (done_list c s) then finish_hand s pay else s)).
  { unfold q'. destruct (all_true (done_list c s)); [|finish W F V]. go (act_finish_hand pay) W F V. finish W F V. }
  clearbody q'. clear W F V. destruct D as (W & F & V). split; [finish W F V|]. rewrite <- V. pose proof (look_observation c q' (all_true (done_list c s))) as L.
  destruct (hobservation _ _ _) as [o|e], (observation _ _ _) as [o'|e']; cbn in *; try contradiction; [|exact L]. split; [exact L|]. split; reflexivity.
Qed.
Theorem hstep_refines c q b : apart q ->
  does q (fst (hstep c q b)) (fst (step c (view q) b)) /\
  same_out (q_heap (fst (hstep c q b))) (snd (hstep c q b)) (snd (step c (view q) b)).
Proof.
  intros W. unfold hstep, step. cbv zeta. change (action (view q)) with (z_action (q_scal q)). destruct (z_action (q_scal q)) as [a|] eqn:A.
  2:{ cbn [fst snd]. split; [apply does_refl; exact W|]. unfold hstep_idle, step_idle. destruct (any_true (active (view q))); [|cbn; reflexivity].
      cbv zeta. destruct (payouts c (view q)) as [pay|e]; cbn [bind]; [|cbn; reflexivity]. pose proof (look_observation c q (all_true (done_list c (view q)))) as L.
      destruct (hobservation _ _ _) as [o|e], (observation _ _ _) as [o'|e']; cbn in *; try contradiction; [|exact L]. split; [exact L|]. split; reflexivity. }
  destruct (py_round b) as [bet0|e]; [|cbn [fst snd]; split; [apply does_refl; exact W|cbn; reflexivity]].
  destruct (bet_sizes c (view q)) as [[[call mn] mx]|e]; [|cbn [fst snd]; split; [apply does_refl; exact W|cbn; reflexivity]].
  destruct (settle_bet (pynum_neg b) bet0 call mn mx) as [bet folds].
  destruct (act_place_bet c a (pynum_neg b) bet folds call q W A) as (W1 & F1 & V1). rewrite V1.
  set (q1 := hplace_bet _ _ _ _ _ _ _) in *. set (s1 := place_bet _ _ _ _ _ _ _) in *. clearbody q1 s1.
  set (q2 := if all_agreed s1 then hnext_street c q1 else q1). assert (D : does q q2 (if all_agreed s1 then next_street c s1 else s1)).
  { unfold q2. destruct (all_agreed s1); [|finish W1 F1 V1]. go (act_next_street c) W1 F1 V1. finish W1 F1 V1. }
  clearbody q2. destruct D as (W2 & F2 & V2). destruct (step_end_refines c q2 W2) as ((W3 & F3 & V3) & O). rewrite V2 in *.
  split; [|exact O]. split; [exact W3|]. split; [exact (frame_trans _ _ _ F2 F3)|exact V3].
Qed.
Theorem happly_refines c q o : apart q -> does q (happly c q o) (apply_op c (view q) o).
Proof.
  intros W. destruct o as [rnd rb rs|b|cs| |l]; cbn [happly apply_op].
  - apply hreset_refines. exact W.
  - apply hstep_refines. exact W.
  - destruct (deck_trick cs (the_deck (view q))); [|apply does_refl; exact W]. apply act_put_deck. exact W.
  - apply act_put_deck. exact W.
  - apply do_assign_stacks. exact W.
Qed.
Theorem hrun_refines c ops : forall q, apart q -> does q (hrun c q ops) (run c (view q) ops).
Proof.
  induction ops as [|o ops IH]; intros q W; [apply does_refl; exact W|].
  destruct (happly_refines c q o W) as (W1 & F1 & V1). destruct (IH _ W1) as (W2 & F2 & V2). rewrite V1 in V2.
  split; [exact W2|]. split; [exact (frame_trans _ _ _ F1 F2)|exact V2].
Qed.
Lemma hnew_apart s : apart (hnew s) /\ view (hnew s) = s.
Proof.
  split.
  - constructor; cbn; try lia; [|apply seq_NoDup]. apply Forall_forall. intros l I. apply in_seq in I. lia.
  - destruct s as [a1 a2 a3 a4 a5 a6 a7 a8 a9 a10 a11 a12 a13 a14 a15]. unfold view, hnew. cbn. f_equal.
    exact (map_read_new [a4] a7).
Qed.
