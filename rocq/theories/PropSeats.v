(** * PropSeats: property C83 (only the order of the seats matters, not their numbers) *)
From Coq Require Import ZifyBool ZifyNat Arith Permutation.
From Verif Require Import PyBase PyFacts CardModel CardProofs EvalModel EngineModel EngineSpec EngineFacts BetFacts EngineDemo MoneyFacts
  PropRound ShowSpec ShowFacts SideFacts SideExists HandEnd PropSide SeatsSpec.

(** ** Sums, maxima and tests do not depend on the order *)
Lemma sumZ_perm l l' : Permutation l l' -> sumZ l = sumZ l'.
Proof. induction 1; unfold sumZ in *; cbn [fold_right]; lia. Qed.
Lemma count_perm l l' : Permutation l l' -> count_true l = count_true l'.
Proof. intros P. unfold count_true. apply sumZ_perm. now apply Permutation_map. Qed.
Lemma all_true_perm l l' : Permutation l l' -> all_true l = all_true l'.
Proof. unfold all_true. induction 1 as [|x l l' P IH|x y l|l l' l'' P IH P' IH']; cbn [forallb]; [reflexivity|now rewrite IH| |congruence]. now destruct x, y. Qed.
Lemma any_true_perm l l' : Permutation l l' -> any_true l = any_true l'.
Proof. unfold any_true. induction 1 as [|x l l' P IH|x y l|l l' l'' P IH P' IH']; cbn [existsb]; [reflexivity|now rewrite IH| |congruence]. now destruct x, y. Qed.
Lemma maxZ_perm l l' : Permutation l l' -> maxZ l = maxZ l'.
Proof.
  intros P. destruct l as [|x l]; [apply Permutation_nil in P; now subst|].
  assert (N : l' <> []) by (intros ->; symmetry in P; apply Permutation_nil in P; discriminate P).
  assert (N0 : x :: l <> []) by (intros H; discriminate H).
  pose proof (maxZ_in _ N0) as I1. pose proof (maxZ_in _ N) as I2.
  pose proof (maxZ_ge _ _ (Permutation_in _ P I1)). pose proof (maxZ_ge _ _ (Permutation_in _ (Permutation_sym P) I2)). lia.
Qed.
Lemma minZ_perm l l' : Permutation l l' -> minZ l = minZ l'.
Proof.
  assert (G : forall l m, (fold_left Z.min l m = m \/ In (fold_left Z.min l m) l) /\ fold_left Z.min l m <= m /\ forall x, In x l -> fold_left Z.min l m <= x).
  { clear. induction l as [|y l IH]; intros m; cbn [fold_left]; [splits; [now left|lia|intros x []]|].
    destruct (IH (Z.min m y)) as (A & B & C). splits.
    - destruct A as [A|A]; [|right; now right]. rewrite A. destruct (Z.min_spec m y) as [[_ ->]|[_ ->]]; [now left|right; now left].
    - lia.
    - intros x [<-|H]; [lia|now apply C]. }
  assert (Mi : forall l, l <> [] -> In (minZ l) l /\ forall x, In x l -> minZ l <= x).
  { intros [|y k] H; [now destruct H|]. cbn [minZ]. destruct (G k y) as (A & B & C). split.
    - destruct A as [A|A]; [left; now rewrite A|now right].
    - intros x [<-|Hx]; [exact B|now apply C]. }
  intros P. destruct l as [|x l]; [apply Permutation_nil in P; now subst|].
  assert (N : l' <> []) by (intros ->; symmetry in P; apply Permutation_nil in P; discriminate P).
  assert (N0 : x :: l <> []) by (intros H; discriminate H).
  destruct (Mi _ N0) as [I1 J1]. destruct (Mi _ N) as [I2 J2].
  pose proof (J2 _ (Permutation_in _ P I1)). pose proof (J1 _ (Permutation_in _ (Permutation_sym P) I2)). lia.
Qed.

Section Seats.
Variables n r : nat.
Hypothesis Hr : (r < n)%nat.
Local Notation tl := (t_list r).
Local Notation sg := (t_seat n r).

(** ** Seats and lists *)
Lemma sg_cases i : (i < n)%nat -> ((i + r < n)%nat /\ sg i = (i + r)%nat) \/ ((n <= i + r)%nat /\ sg i = (i + r - n)%nat).
Proof.
  intros Hi. unfold t_seat. destruct (lt_dec (i + r) n) as [H|H]; [left; split; [exact H|now apply Nat.mod_small]|right; split; [lia|]].
  replace (i + r)%nat with ((i + r - n) + 1 * n)%nat at 1 by lia. rewrite Nat.mod_add by lia. apply Nat.mod_small. lia.
Qed.
Lemma sg_lt i : (i < n)%nat -> (sg i < n)%nat.
Proof. intros Hi. apply Nat.mod_upper_bound. lia. Qed.
Lemma sg_inj i j : (i < n)%nat -> (j < n)%nat -> sg i = sg j -> i = j.
Proof. intros Hi Hj. destruct (sg_cases i Hi) as [[? ->]|[? ->]], (sg_cases j Hj) as [[? ->]|[? ->]]; lia. Qed.
Lemma sg_eqb i j : (i < n)%nat -> (j < n)%nat -> Nat.eqb (sg i) (sg j) = Nat.eqb i j.
Proof. intros Hi Hj. destruct (Nat.eqb_spec i j) as [->|N]; [apply Nat.eqb_refl|]. apply Nat.eqb_neq. intros E. now apply N, sg_inj. Qed.
Lemma sg_onto j : (j < n)%nat -> exists i, (i < n)%nat /\ sg i = j.
Proof.
  intros Hj. destruct (lt_dec j r) as [H|H].
  - exists (j + n - r)%nat. split; [lia|]. destruct (sg_cases (j + n - r) ltac:(lia)) as [[? E]|[? E]]; lia.
  - exists (j - r)%nat. split; [lia|]. destruct (sg_cases (j - r) ltac:(lia)) as [[? E]|[? E]]; lia.
Qed.
Lemma sg_add a i : sg (Nat.modulo (a + i) n) = Nat.modulo (sg a + i) n.
Proof.
  unfold t_seat. rewrite Nat.add_mod_idemp_l, Nat.add_mod_idemp_l by lia. f_equal. lia.
Qed.

Lemma t_length {A} (l : list A) : List.length (tl l) = List.length l.
Proof. unfold t_list. rewrite app_length, skipn_length, firstn_length. lia. Qed.
Lemma t_perm {A} (l : list A) : Permutation l (tl l).
Proof. unfold t_list. rewrite <- (firstn_skipn (List.length l - r) l) at 1. apply Permutation_app_comm. Qed.
Lemma t_nth {A} (l : list A) i d : List.length l = n -> (i < n)%nat -> nth (sg i) (tl l) d = nth i l d.
Proof.
  intros L Hi. unfold t_list. rewrite L. destruct (sg_cases i Hi) as [[H ->]|[H ->]].
  - rewrite app_nth2 by (rewrite skipn_length; lia). rewrite skipn_length, L. rewrite nth_firstn_lt by lia. f_equal. lia.
  - rewrite app_nth1 by (rewrite skipn_length; lia). rewrite nth_skipn_add. f_equal. lia.
Qed.
Lemma t_ext {A} (l l' : list A) d : List.length l = n -> List.length l' = n ->
  (forall i, (i < n)%nat -> nth (sg i) l' d = nth i l d) -> l' = tl l.
Proof.
  intros L L' H. apply nth_ext with (d := d) (d' := d); [rewrite t_length; congruence|]. intros j Hj. rewrite L' in Hj.
  destruct (sg_onto j Hj) as (i & Hi & <-). rewrite t_nth by assumption. now apply H.
Qed.
Lemma t_get {A} (l : list A) i : List.length l = n -> (i < n)%nat -> get (tl l) (sg i) = get l i.
Proof.
  intros L Hi. unfold get. destruct l as [|x l]; [cbn in L; lia|].
  rewrite !(nth_error_nth' _ x) by (rewrite ?t_length, L; try apply sg_lt; exact Hi). now rewrite t_nth.
Qed.
Lemma t_upd {A} (l : list A) i v : List.length l = n -> (i < n)%nat -> upd (tl l) (sg i) v = tl (upd l i v).
Proof.
  intros L Hi. apply t_ext with (d := v); rewrite ?upd_length, ?t_length; try assumption. intros j Hj.
  rewrite !upd_nth by (rewrite ?t_length, L; try apply sg_lt; exact Hi). rewrite sg_eqb, t_nth by assumption. reflexivity.
Qed.
Lemma t_add_at l i v : List.length l = n -> (i < n)%nat -> add_at (tl l) (sg i) v = tl (add_at l i v).
Proof. intros L Hi. unfold add_at. rewrite t_nth by assumption. now apply t_upd. Qed.
Lemma t_map {A B} (f : A -> B) l : map f (tl l) = tl (map f l).
Proof. unfold t_list. rewrite map_app, map_length, skipn_map, firstn_map. reflexivity. Qed.
Lemma t_combine {A B} (a : list A) (b : list B) : List.length a = n -> List.length b = n -> combine (tl a) (tl b) = tl (combine a b).
Proof.
  intros La Lb. destruct a as [|x a], b as [|y b]; try (cbn in La, Lb; lia).
  apply t_ext with (d := (x, y)); rewrite ?combine_length, ?t_length, ?La, ?Lb; try lia.
  intros i Hi. rewrite !combine_nth by (rewrite ?t_length; congruence). now rewrite !t_nth by assumption.
Qed.
Lemma t_repeat {A} (v : A) m : tl (repeat v m) = repeat v m.
Proof.
  unfold t_list. rewrite repeat_length. set (k := (m - r)%nat).
  assert (H : forall k m, (k <= m)%nat -> skipn k (repeat v m) = repeat v (m - k) /\ firstn k (repeat v m) = repeat v k).
  { clear. induction k as [|k IH]; intros m H; [rewrite Nat.sub_0_r; split; reflexivity|]. destruct m as [|m]; [lia|].
    destruct (IH m ltac:(lia)) as [A1 A2]. cbn [repeat skipn firstn Nat.sub]. rewrite A1, A2. split; reflexivity. }
  destruct (H k m ltac:(lia)) as [-> ->]. rewrite <- repeat_app. f_equal. lia.
Qed.
Lemma t_add_lists a b : List.length a = n -> List.length b = n -> add_lists (tl a) (tl b) = tl (add_lists a b).
Proof. intros La Lb. unfold add_lists. rewrite t_combine by assumption. apply t_map. Qed.
Lemma t_sub_lists a b : List.length a = n -> List.length b = n -> sub_lists (tl a) (tl b) = tl (sub_lists a b).
Proof. intros La Lb. unfold sub_lists. rewrite t_combine by assumption. apply t_map. Qed.
Lemma t_roll a bets : List.length bets = n -> (a < n)%nat -> roll (sg a) bets = tl (roll a bets).
Proof.
  intros L Ha. pose proof (sg_lt a Ha) as Hs. apply t_ext with (d := 0); rewrite ?roll_length by lia; try assumption.
  intros i Hi. rewrite !roll_nth by (rewrite L; try apply sg_lt; assumption). rewrite L. f_equal.
  destruct (sg_cases a Ha) as [[H ->]|[H ->]], (sg_cases i Hi) as [[H' ->]|[H' ->]].
  - f_equal. lia.
  - replace (i + n - a)%nat with ((i - a) + 1 * n)%nat by lia. rewrite Nat.mod_add by lia. f_equal. lia.
  - replace (i + r + n - (a + r - n))%nat with ((i + n - a) + 1 * n)%nat by lia. apply Nat.mod_add. lia.
  - f_equal. lia.
Qed.

(** ** The table *)
Variable c : config.
Hypothesis Hn : num_players c = n.
Hypothesis W : cfg_wf c.
Local Notation T := (t_state n r).

(** the fields used below have the right lengths and seats *)
Record seated (s : state) : Prop := mkSeated {
  st_active : List.length (active s) = n;
  st_commits : List.length (pot_commits s) = n;
  st_stacks : List.length (stacks s) = n;
  st_street : List.length (street_commits s) = n;
  st_option : List.length (street_option s) = n;
  st_hole : List.length (hole_cards s) = n;
  st_button : (button s < n)%nat;
  st_turn : exists a, action s = Some a /\ (a < n)%nat
}.
Lemma move_loop_t act k : forall i a a0 opt, List.length act = n -> List.length opt = n -> (a0 < n)%nat ->
  move_loop n (sg a0) (tl act) k i (sg a) (tl opt) = let '(x, o) := move_loop n a0 act k i a opt in (sg x, tl o).
Proof.
  induction k as [|k IH]; intros i a a0 opt La Lo Ha; [reflexivity|]. cbn [move_loop]. rewrite <- sg_add.
  assert (Hm : (Nat.modulo (a0 + i) n < n)%nat) by (apply Nat.mod_upper_bound; lia).
  rewrite t_nth by assumption. destruct (nth _ act false); [reflexivity|].
  rewrite t_upd by assumption. apply IH; [exact La|now rewrite upd_length|exact Ha].
Qed.
Lemma move_loop_lt act k : forall i a a0 opt, (a < n)%nat -> (fst (move_loop n a0 act k i a opt) < n)%nat.
Proof.
  induction k as [|k IH]; intros i a a0 opt Ha; [exact Ha|]. cbn [move_loop].
  assert (Hm : (Nat.modulo (a0 + i) n < n)%nat) by (apply Nat.mod_upper_bound; lia).
  destruct (nth _ act false); [exact Hm|]. now apply IH.
Qed.
Lemma move_t s : seated s -> move_action c (T s) = T (move_action c s) /\ seated (move_action c s).
Proof.
  intros [L1 L2 L3 L4 L5 L6 L7 (a & Ea & Ha)]. unfold move_action.
  assert (E : act_idx c s = a) by (unfold act_idx; now rewrite Ea).
  assert (E' : act_idx c (T s) = sg a) by (unfold act_idx; cbn [t_state action]; now rewrite Ea).
  rewrite E, E', Hn. cbn [t_state active street_option]. rewrite move_loop_t by assumption.
  pose proof (move_loop_lt (active s) n 1 a a (street_option s) Ha) as Hx.
  pose proof (move_loop_opt_length n a (active s) n 1 a (street_option s)) as Lx.
  destruct (move_loop n a (active s) n 1 a (street_option s)) as [x o]. cbn [fst snd] in *. split; [reflexivity|].
  split; cbn [active pot_commits stacks street_commits street_option hole_cards button action]; try assumption; [now rewrite Lx|].
  now exists x.
Qed.
Lemma forced_t s bets : seated s -> List.length bets = n -> forced_bets (T s) (tl bets) = tl (forced_bets s bets).
Proof.
  intros [L1 L2 L3 L4 L5 L6 L7 L8] L. unfold forced_bets. cbn [t_state stacks active].
  rewrite t_combine by assumption. rewrite t_combine by (rewrite ?combine_length; lia). apply t_map.
Qed.
Lemma collect_t s bets to : seated s -> List.length bets = n ->
  collect_multiple_bets c (T s) bets to = T (collect_multiple_bets c s bets to) /\ seated (collect_multiple_bets c s bets to).
Proof.
  intros D L. pose proof D as [L1 L2 L3 L4 L5 L6 L7 (a & Ea & Ha)]. unfold collect_multiple_bets.
  assert (E : act_idx c s = a) by (unfold act_idx; now rewrite Ea).
  assert (E' : act_idx c (T s) = sg a) by (unfold act_idx; cbn [t_state action]; now rewrite Ea).
  assert (Lr : List.length (roll a bets) = n) by (rewrite roll_length; lia).
  rewrite E, E', t_roll, forced_t by assumption.
  pose proof (forced_bets_length s (roll a bets) n L3 L1 Lr) as Lf. set (f := forced_bets s (roll a bets)) in *.
  split.
  - unfold t_state. cbn [action active button community_cards the_deck history hole_cards largest_raise pot pot_commits stacks street
      street_commits street_option street_raises]. rewrite !t_add_lists, t_sub_lists, <- (sumZ_perm _ _ (t_perm f)) by assumption.
    destruct to; reflexivity.
  - split; cbn [active pot_commits stacks street_commits street_option hole_cards button action]; try assumption.
    + now apply add_lists_length.
    + now apply sub_lists_length.
    + destruct to; [now apply add_lists_length|assumption].
    + now exists a.
Qed.
Lemma sizes_t s : seated s -> bet_sizes c (T s) = bet_sizes c s.
Proof.
  intros [L1 L2 L3 L4 L5 L6 L7 (a & Ea & Ha)]. unfold bet_sizes.
  assert (E : act_idx c s = a) by (unfold act_idx; now rewrite Ea).
  assert (E' : act_idx c (T s) = sg a) by (unfold act_idx; cbn [t_state action]; now rewrite Ea).
  rewrite E, E'. cbn [t_state stacks street_commits street street_raises largest_raise pot].
  rewrite !t_nth, <- (maxZ_perm _ _ (t_perm (street_commits s))) by assumption. reflexivity.
Qed.
Lemma place_t s a fold bet folds call : seated s -> action s = Some a -> (a < n)%nat ->
  place_bet c (T s) (sg a) fold bet folds call = T (place_bet c s a fold bet folds call) /\ seated (place_bet c s a fold bet folds call).
Proof.
  intros [L1 L2 L3 L4 L5 L6 L7 L8] Ea Ha. unfold place_bet. cbv zeta.
  set (s1 := mkState (Some a) _ _ _ _ _ _ _ _ _ _ _ _ _ _).
  assert (D : seated s1).
  { unfold s1. split; cbn [active pot_commits stacks street_commits street_option hole_cards button action]; rewrite ?add_at_length, ?upd_length; try assumption.
    - destruct folds; rewrite ?upd_length; assumption.
    - now exists a. }
  destruct (move_t s1 D) as [<- D']. split; [|exact D']. f_equal. unfold s1, t_state.
  cbn [action active button community_cards the_deck history hole_cards largest_raise pot pot_commits stacks street
       street_commits street_option street_raises option_map].
  rewrite t_nth, !t_add_at, !t_upd, map_app by assumption. cbn [map t_entry]. f_equal. now destruct folds.
Qed.
Lemma agreed_t s : seated s -> all_agreed (T s) = all_agreed s.
Proof.
  intros [L1 L2 L3 L4 L5 L6 L7 L8]. unfold all_agreed. cbn [t_state street_option street_commits stacks active].
  rewrite <- (all_true_perm _ _ (t_perm (street_option s))), <- (maxZ_perm _ _ (t_perm (street_commits s))). f_equal.
  rewrite t_combine by assumption. rewrite t_combine by (rewrite ?combine_length; lia). rewrite t_map. symmetry. apply all_true_perm, t_perm.
Qed.
Lemma done_t s : seated s -> done_list c (T s) = tl (done_list c s).
Proof.
  intros [L1 L2 L3 L4 L5 L6 L7 L8]. unfold done_list. cbn [t_state street active stacks]. rewrite <- (count_perm _ _ (t_perm (active s))).
  destruct (Nat.leb (num_streets c) (street s) || (count_true (active s) <=? 1)); [now rewrite t_repeat|].
  rewrite t_combine by assumption. apply t_map.
Qed.
Lemma done_length s : seated s -> List.length (done_list c s) = n.
Proof.
  intros [L1 L2 L3 L4 L5 L6 L7 L8]. unfold done_list. destruct (_ || _); [now rewrite repeat_length|]. rewrite map_length, combine_length. lia.
Qed.
Lemma street_loop_t f : forall s, seated s -> street_loop c f (T s) = T (street_loop c f s) /\ seated (street_loop c f s).
Proof.
  induction f as [|f IH]; intros s D; [split; [reflexivity|exact D]|]. cbn [street_loop].
  assert (D' : forall cm d st, seated (mkState (action s) (active s) (button s) cm d (history s) (hole_cards s) (largest_raise s) (pot s)
     (pot_commits s) (stacks s) st (street_commits s) (street_option s) (street_raises s))) by (intros; destruct D; split; assumption).
  pose proof D as [L1 L2 L3 L4 L5 L6 L7 L8].
  cbn [t_state street active stacks the_deck]. rewrite t_combine, t_map by assumption.
  rewrite <- (count_perm _ _ (t_perm (active s))), <- (count_perm _ _ (t_perm (map _ (combine (active s) (stacks s))))).
  destruct (Nat.leb (num_streets c) (S (street s))); [split; [reflexivity|apply D']|].
  destruct (deck_draw (nth (S (street s)) (num_community_cards c) 0) (the_deck s)) as [cards d].
  destruct (count_true (active s) - _ <=? 1); [|split; [reflexivity|apply D']]. rewrite <- (proj1 (IH _ (D' _ _ _))). split; [reflexivity|]. apply IH, D'.
Qed.
Lemma next_t s : seated s -> next_street c (T s) = T (next_street c s) /\ seated (next_street c s).
Proof.
  intros D. pose proof D as [L1 L2 L3 L4 L5 L6 L7 L8]. unfold next_street.
  change (set_action (T s) (Some (button (T s)))) with (T (set_action s (Some (button s)))).
  assert (D0 : seated (set_action s (Some (button s)))) by (split; cbn; try assumption; now exists (button s)).
  destruct (move_t _ D0) as [-> D1]. destruct (street_loop_t (S (num_streets c)) _ D1) as [-> D2].
  set (z := street_loop _ _ _) in *. rewrite Hn. split.
  - unfold t_state. cbn [t_state action active button community_cards the_deck history hole_cards largest_raise pot pot_commits stacks street
      street_commits street_option street_raises]. rewrite t_repeat, t_map. reflexivity.
  - destruct D2 as [M1 M2 M3 M4 M5 M6 M7 M8]. split; cbn [active pot_commits stacks street_commits street_option hole_cards button action]; try assumption.
    + apply repeat_length.
    + now rewrite map_length.
Qed.
Lemma settle_t s : seated s -> settle c (T s) = T (settle c s) /\ seated (settle c s).
Proof. intros D. unfold settle. rewrite agreed_t by exact D. destruct (all_agreed s); [now apply next_t|split; [reflexivity|exact D]]. Qed.

(** ** The showdown *)
Lemma map_res_all {A B} (f : A -> result B) l : forall st, map_res f l = Ok st <-> map f l = map Ok st.
Proof.
  induction l as [|x l IH]; intros st; cbn [map_res map].
  - split; [intros H; injection H as <-; reflexivity|]. destruct st; [reflexivity|intros H; discriminate H].
  - destruct (f x) as [y|e]; cbn [bind].
    + destruct (map_res f l) as [q|e] eqn:E; cbn [bind]; (split; [intros H|]).
      * injection H as <-. cbn [map]. f_equal. now apply IH.
      * destruct st as [|z st]; [intros H; discriminate H|]. cbn [map]. intros H. injection H as -> H. apply IH in H. injection H as ->. reflexivity.
      * discriminate H.
      * destruct st as [|z st]; [intros H; discriminate H|]. cbn [map]. intros H. injection H as -> H. apply IH in H. discriminate H.
    + split; [intros H; discriminate H|]. destruct st; intros H; discriminate H.
Qed.
Lemma map_t {A} (f f' : nat -> A) : (forall i, (i < n)%nat -> f' (sg i) = f i) -> map f' (seq 0 n) = tl (map f (seq 0 n)).
Proof.
  intros H. apply t_ext with (d := f 0%nat); rewrite ?map_length, ?seq_length; try reflexivity. intros i Hi. pose proof (sg_lt i Hi).
  rewrite !(map_nth_lt _ _ _ _ 0%nat) by (rewrite seq_length; lia). rewrite !seq_nth by lia. now apply H.
Qed.
Lemma map_res_t {A} (f f' : nat -> result A) : (forall i, (i < n)%nat -> f' (sg i) = f i) ->
  match map_res f (seq 0 n) with
  | Ok st => map_res f' (seq 0 n) = Ok (tl st)
  | Err _ => exists e, map_res f' (seq 0 n) = Err e
  end.
Proof.
  intros H. apply map_t in H. destruct (map_res f (seq 0 n)) as [st|e] eqn:E.
  - apply map_res_all in E. apply map_res_all. rewrite H, E. symmetry. apply t_map.
  - destruct (map_res f' (seq 0 n)) as [st'|e'] eqn:E'; [|eauto]. exfalso. apply map_res_all in E'. rewrite E' in H.
    assert (P : Permutation (map f (seq 0 n)) (map Ok st')) by (rewrite H; apply t_perm).
    assert (A1 : forall x, In x (map f (seq 0 n)) -> is_ok x = true).
    { intros x Hx. apply (Permutation_in _ P) in Hx. apply in_map_iff in Hx. destruct Hx as (y & <- & _). reflexivity. }
    revert E A1. clear. generalize (seq 0 n). induction l as [|x l IH]; intros E A1; cbn [map_res] in E; [discriminate E|].
    pose proof (A1 (f x) (or_introl eq_refl)) as B. destruct (f x) as [y|e0]; [|discriminate B]. cbn [bind] in E.
    destruct (map_res f l) as [q|e1]; [discriminate E|]. apply IH; [exact E|]. intros z Hz. apply A1. now right.
Qed.
Lemma eval_t act hole cm : List.length act = n -> List.length hole = n ->
  match eval_hands c act hole cm with
  | Ok st => eval_hands c (tl act) (tl hole) cm = Ok (tl st)
  | Err _ => exists e, eval_hands c (tl act) (tl hole) cm = Err e
  end.
Proof.
  intros La Lh. unfold eval_hands. rewrite Hn.
  apply (map_res_t (fun p => if nth p act false then let* h := get hole p in evaluate (the_evaluator c) h cm else Ok (worst_hand c))).
  intros i Hi. now rewrite t_nth, t_get by assumption.
Qed.

(** the showdown [d'] is the showdown [d] with the players moved *)
Record moved (d d' : showdown) : Prop := mkMoved {
  mv_n : sd_players d = n;
  mv_n' : sd_players d' = n;
  mv_in : forall i, (i < n)%nat -> sd_in d' (sg i) = sd_in d i;
  mv_rank : forall i, (i < n)%nat -> sd_rank d' (sg i) = sd_rank d i;
  mv_put : forall i, (i < n)%nat -> sd_put d' (sg i) = sd_put d i
}.
Definition t_pots (p : list (list nat * Z)) : list (list nat * Z) := map (fun q => (map sg (fst q), snd q)) p.
Lemma between_t d d' a b : moved d d' -> chips_between d' a b = chips_between d a b.
Proof.
  intros M. unfold chips_between. rewrite (mv_n _ _ M), (mv_n' _ _ M).
  rewrite (map_t (fun i => Z.min (sd_put d i) b - Z.min (sd_put d i) a)); [symmetry; apply sumZ_perm, t_perm|].
  intros i Hi. now rewrite (mv_put _ _ M) by exact Hi.
Qed.
Lemma contends_t d d' a i : moved d d' -> (i < n)%nat -> contends d' a (sg i) <-> contends d a i.
Proof.
  intros M Hi. unfold contends. rewrite (mv_n _ _ M), (mv_n' _ _ M), (mv_in _ _ M), (mv_put _ _ M) by exact Hi. pose proof (sg_lt i Hi). tauto.
Qed.
Lemma contends_lt d a i : contends d a i -> (i < sd_players d)%nat.
Proof. intros H. apply H. Qed.
Lemma winners_t d d' a w : moved d d' -> winners d a w -> winners d' a (map sg w).
Proof.
  intros M [Nd H].
  assert (Lt : forall i, In i w -> (i < n)%nat) by (intros i Hi; apply H in Hi; rewrite <- (mv_n _ _ M); eapply contends_lt; apply Hi).
  split.
  - clear H. induction w as [|x w IH]; [constructor|]. inversion Nd as [|? ? N1 N2]; subst. cbn [map]. constructor.
    + intros Hx. apply in_map_iff in Hx. destruct Hx as (y & E & Hy). apply N1. apply sg_inj in E; [now subst|apply Lt; now right|apply Lt; now left].
    + apply IH; [exact N2|]. intros i Hi. apply Lt. now right.
  - intros j. split.
    + intros Hj. apply in_map_iff in Hj. destruct Hj as (i & <- & Hi). pose proof (Lt i Hi) as Li. apply H in Hi. destruct Hi as [C B].
      split; [now apply (contends_t d d' a i M Li)|]. intros k Ck. pose proof (contends_lt _ _ _ Ck) as Lk. rewrite (mv_n' _ _ M) in Lk.
      destruct (sg_onto k Lk) as (k0 & Hk0 & <-). rewrite !(mv_rank _ _ M) by assumption. apply B. now apply (contends_t d d' a k0 M Hk0).
    + intros [C B]. pose proof (contends_lt _ _ _ C) as Lj. rewrite (mv_n' _ _ M) in Lj. destruct (sg_onto j Lj) as (i & Hi & <-).
      apply in_map. apply H. split; [now apply (contends_t d d' a i M Hi)|]. intros k Ck. pose proof (contends_lt _ _ _ Ck) as Lk. rewrite (mv_n _ _ M) in Lk.
      rewrite <- !(mv_rank _ _ M) by assumption. apply B. now apply (contends_t d d' a k M Lk).
Qed.
Lemma side_t d d' a p : moved d d' -> side_pots d a p -> side_pots d' a (t_pots p).
Proof.
  intros M. induction 1 as [a N|a w b q Hw (x & Hx & Ex) Hb Hq IH]; cbn [t_pots map fst snd].
  - apply side_pots_none. intros j C. pose proof (contends_lt _ _ _ C) as Lj. rewrite (mv_n' _ _ M) in Lj. destruct (sg_onto j Lj) as (i & Hi & <-).
    apply (N i). now apply (contends_t d d' a i M Hi).
  - assert (Lt : forall i, In i w -> (i < n)%nat) by (intros i Hi; apply (proj2 Hw) in Hi; rewrite <- (mv_n _ _ M); eapply contends_lt; apply Hi).
    rewrite <- (between_t d d' a b M). apply side_pots_next; [now apply winners_t with d| | |exact IH].
    + exists (sg x). split; [now apply in_map|]. now rewrite (mv_put _ _ M) by (now apply Lt).
    + intros j Hj. apply in_map_iff in Hj. destruct Hj as (i & <- & Hi). rewrite (mv_put _ _ M) by (now apply Lt). now apply Hb.
Qed.
Lemma share_t d a p i : sd_players d = n -> side_pots d a p -> (i < n)%nat -> share (t_pots p) (sg i) = share p i.
Proof.
  intros Hd H Hi. induction H as [a N|a w b q Hw Hx Hb Hq IH]; [reflexivity|].
  unfold share, t_pots in *. cbn [map fst snd]. unfold sumZ in *. cbn [fold_right]. rewrite IH. f_equal. rewrite map_length.
  assert (Lt : forall i, In i w -> (i < n)%nat) by (intros k Hk; apply (proj2 Hw) in Hk; rewrite <- Hd; eapply contends_lt; apply Hk).
  replace (existsb (Nat.eqb (sg i)) (map sg w)) with (existsb (Nat.eqb i) w); [reflexivity|].
  clear - Hi Lt Hr. induction w as [|x w IH]; [reflexivity|]. cbn [map existsb]. rewrite sg_eqb by (try assumption; apply Lt; now left). f_equal. apply IH. intros k Hk. apply Lt. now right.
Qed.
Lemma odd_t p : odd_chips (t_pots p) = odd_chips p.
Proof. unfold odd_chips, t_pots. rewrite map_map. f_equal. apply map_ext. intros [w x]. cbn [fst snd]. now rewrite map_length. Qed.
Lemma covered_t d d' : moved d d' -> covered_folds d -> covered_folds d'.
Proof.
  intros M H j. rewrite (mv_n' _ _ M). intros Lj. destruct (sg_onto j Lj) as (i & Hi & <-). rewrite (mv_in _ _ M), (mv_put _ _ M) by exact Hi. intros F.
  destruct (H i) as (k & Lk & Ik & Pk); [now rewrite (mv_n _ _ M)|exact F|]. rewrite (mv_n _ _ M) in Lk.
  exists (sg k). rewrite (mv_in _ _ M), (mv_put _ _ M) by exact Lk. splits; [now apply sg_lt|exact Ik|exact Pk].
Qed.
Lemma ties_t d d' : moved d d' -> regular_ties d -> regular_ties d'.
Proof.
  intros M H j k. rewrite (mv_n' _ _ M). intros Lj Lk. destruct (sg_onto j Lj) as (j0 & Hj & <-). destruct (sg_onto k Lk) as (k0 & Hk & <-).
  rewrite !(mv_in _ _ M), !(mv_rank _ _ M), !(mv_put _ _ M) by assumption. intros Ij Ik E L.
  destruct (H j0 k0) as [P Q]; rewrite ?(mv_n _ _ M); try assumption. split; [exact P|].
  intros i Li. destruct (sg_onto i Li) as (i0 & Hi & <-). rewrite (mv_in _ _ M), (mv_rank _ _ M), (mv_put _ _ M) by assumption. intros Ii Ne.
  apply Q; rewrite ?(mv_n _ _ M); try assumption. intros ->. now apply Ne.
Qed.

(** a settled table at its showdown *)
Definition fit (z : state) : Prop := (forall i, 0 <= committed z i) /\ pot z = sumZ (pot_commits z) /\ 1 <= count_true (active z).
Lemma fit_t z : seated z -> fit z -> fit (T z).
Proof.
  intros D (A & B & C). unfold fit. splits.
  - intros j. unfold committed in *. cbn [t_state pot_commits]. destruct (lt_dec j n) as [H|H].
    + destruct (sg_onto j H) as (i & Hi & <-). rewrite t_nth by (try exact Hi; apply D). apply A.
    + rewrite nth_overflow; [lia|]. rewrite t_length, (st_commits _ D). lia.
  - cbn [t_state pot pot_commits]. now rewrite <- (sumZ_perm _ _ (t_perm (pot_commits z))).
  - cbn [t_state active]. now rewrite <- (count_perm _ _ (t_perm (active z))).
Qed.
Lemma seated_t z : seated z -> seated (T z).
Proof.
  intros [L1 L2 L3 L4 L5 L6 L7 (a & Ea & Ha)].
  split; cbn [t_state active pot_commits stacks street_commits street_option hole_cards button action]; rewrite ?t_length; try assumption.
  - now apply sg_lt.
  - exists (sg a). rewrite Ea. split; [reflexivity|now apply sg_lt].
Qed.
Lemma show_moved z : seated z -> moved (show_of c z) (show_of c (T z)).
Proof.
  intros D. split; cbn [show_of sd_players sd_in sd_rank sd_put]; try exact Hn; intros i Hi; unfold committed;
    cbn [t_state active hole_cards pot_commits community_cards]; rewrite t_nth by (try exact Hi; apply D); reflexivity.
Qed.
Lemma show_pay z : seated z -> fit z -> count_true (active z) <> 1 -> (num_streets c <= street z)%nat -> level_showdown c z ->
  (exists e, eval_hands c (active z) (hole_cards z) (community_cards z) = Err e /\ payouts c z = Err e) \/
  (is_ok (eval_hands c (active z) (hole_cards z) (community_cards z)) = true /\
   exists pots, side_pots (show_of c z) 0 pots /\ payouts c z = Ok (sub_lists (map (share pots) (seq 0 n)) (pot_commits z))).
Proof.
  intros D (A & B & C) H1 Hs Lv. destruct (Lv ltac:(lia) Hs) as (Cov & Reg & Odd).
  destruct (show_payouts c z H1 Hs) as [E|(st & E & G & _ & P)]; rewrite ?Hn; try apply D; try exact A; [now left|now left|right].
  cbv zeta in *. split; [now rewrite E|]. exists (pots_of c z st).
  assert (SP : side_pots (show_of c z) 0 (pots_of c z st)).
  { destruct (eval_hands_spec c z st) as [Ls Hst]; [rewrite Hn; apply D|exact E|].
    apply show_side with (n := num_players c); try assumption; try reflexivity; [rewrite Hn; apply D| |].
    + intros i Hi Ai. destruct (Hst i Hi) as [H _]. destruct (H Ai) as (H2 & H3 & _). auto.
    + intros i Hi Ai. destruct (Hst i Hi) as [_ H]. now apply H. }
  split; [exact SP|]. rewrite (Odd _ SP) in P. cbn [Z.eqb] in P. rewrite P, Hn. reflexivity.
Qed.
Lemma level_t z : seated z -> level_showdown c z -> level_showdown c (T z).
Proof.
  intros D Lv. unfold level_showdown. cbn [t_state active street]. rewrite <- (count_perm _ _ (t_perm (active z))). intros H1 H2.
  destruct (Lv H1 H2) as (A & B & C). pose proof (show_moved z D) as M. splits.
  - now apply covered_t with (show_of c z).
  - now apply ties_t with (show_of c z).
  - intros pots SP. destruct (side_pots_exist (show_of c z) 0) as (p & Hp). pose proof (C p Hp) as Od.
    pose proof (side_t _ _ _ _ M Hp) as SP'. destruct (side_pots_unique _ _ _ SP _ SP') as [U1 _]. now rewrite U1, odd_t.
Qed.
Lemma payouts_t z : seated z -> fit z -> level_showdown c z ->
  match payouts c z with
  | Ok pay => payouts c (T z) = Ok (tl pay) /\ List.length pay = n
  | Err _ => exists e, payouts c (T z) = Err e
  end.
Proof.
  intros D F Lv. pose proof D as [L1 L2 L3 L4 L5 L6 L7 L8].
  assert (PL : forall pay, payouts c z = Ok pay -> List.length pay = n).
  { intros pay Hpay. rewrite <- Hn. apply (payouts_length c z pay); rewrite ?Hn; assumption. }
  destruct (Z.eq_dec (count_true (active z)) 1) as [E1|N1]; [|destruct (le_lt_dec (num_streets c) (street z)) as [Es|Es]].
  - destruct (payouts c z) as [pay|e] eqn:P.
    2:{ unfold payouts in P. replace (count_true (active z) =? 1) with true in P by lia. discriminate P. }
    split; [|now apply PL]. clear PL. revert P. unfold payouts. cbn [t_state active pot_commits pot street].
    rewrite <- (count_perm _ _ (t_perm (active z))). replace (count_true (active z) =? 1) with true by lia. intros P. injection P as <-. f_equal.
    rewrite (t_combine (pot_commits z)), t_map by assumption.
    rewrite t_combine by (rewrite ?map_length, ?combine_length; lia). rewrite t_combine by (rewrite ?combine_length, ?map_length, ?combine_length; lia). apply t_map.
  - assert (Lv' := level_t z D Lv). pose proof (seated_t z D) as D'. pose proof (fit_t z D F) as F'.
    assert (N1' : count_true (active (T z)) <> 1) by (cbn [t_state active]; now rewrite <- (count_perm _ _ (t_perm (active z)))).
    pose proof (eval_t (active z) (hole_cards z) (community_cards z) L1 L6) as Ev.
    destruct (show_pay z D F N1 Es Lv) as [(e & E & P)|(E & pots & SP & P)]; destruct (show_pay (T z) D' F' N1' Es Lv') as [(e' & E' & P')|(E' & pots' & SP' & P')];
      rewrite P; cbn [t_state active hole_cards community_cards] in E'.
    + eauto.
    + exfalso. rewrite E in Ev. destruct Ev as (x & Ev). rewrite Ev in E'. discriminate E'.
    + exfalso. destruct (eval_hands c (active z) (hole_cards z) (community_cards z)); [|discriminate E]. rewrite Ev in E'. discriminate E'.
    + split; [|now apply PL]. rewrite P'. f_equal. cbn [t_state pot_commits]. rewrite <- t_sub_lists; [|now rewrite map_length, seq_length|assumption].
      f_equal. pose proof (show_moved z D) as M. destruct (side_pots_unique _ _ _ SP' _ (side_t _ _ _ _ M SP)) as [_ U].
      apply map_t. intros i Hi. rewrite U. now apply (share_t (show_of c z) 0).
  - destruct (payouts c z) as [pay|e] eqn:P.
    2:{ unfold payouts in P. replace (count_true (active z) =? 1) with false in P by lia. replace (Nat.leb (num_streets c) (street z)) with false in P by lia. discriminate P. }
    split; [|now apply PL]. clear PL. revert P. unfold payouts. cbn [t_state active pot_commits pot street].
    rewrite <- (count_perm _ _ (t_perm (active z))). replace (count_true (active z) =? 1) with false by lia.
    replace (Nat.leb (num_streets c) (street z)) with false by lia. intros P. injection P as <-. f_equal.
    rewrite (t_combine (pot_commits z)) by assumption. apply t_map.
Qed.

(** ** Observations, steps and resets *)
Lemma observation_t z d last : seated z ->
  observation c (T z) d = match observation c z d with Ok o => Ok (t_obs n r last o) | Err e => Err e end.
Proof.
  intros D. pose proof D as [L1 L2 L3 L4 L5 L6 L7 (a & Ea & Ha)]. unfold observation. rewrite sizes_t by exact D.
  cbn [t_state action hole_cards]. rewrite Ea. cbn [option_map]. rewrite t_get by assumption.
  destruct (if d then Ok (0, 0, 0) else bet_sizes c z) as [[[x y] w]|e]; [|reflexivity]. cbn [bind].
  destruct (get (hole_cards z) a) as [h|e]; reflexivity.
Qed.
Lemma last_nth {A} (l : list A) d : (0 < List.length l)%nat -> get_last l = Ok (nth (List.length l - 1) l d).
Proof.
  intros H. unfold get_last. destruct (rev l) as [|x q] eqn:E.
  - apply (f_equal (@List.length _)) in E. rewrite rev_length in E. cbn in E. lia.
  - f_equal. rewrite <- (rev_involutive l), E. cbn [rev]. rewrite app_length, rev_length. cbn [List.length].
    rewrite app_nth2 by (rewrite rev_length; lia). rewrite rev_length. replace (List.length q + 1 - 1 - List.length q)%nat with 0%nat by lia. reflexivity.
Qed.
Lemma step_end_t z : seated z -> fit z -> level_showdown c z ->
  fst (step_end c (T z)) = T (fst (step_end c z)) /\
  match snd (step_end c z) with
  | Ok out => snd (step_end c (T z)) = Ok (t_out n r (nth (n - 1) (tl (hole_cards (fst (step_end c z)))) []) out)
  | Err _ => exists e, snd (step_end c (T z)) = Err e
  end.
Proof.
  intros D F Lv. pose proof (payouts_t z D F Lv) as P. pose proof D as [L1 L2 L3 L4 L5 L6 L7 L8]. unfold step_end. cbv zeta. rewrite done_t by exact D.
  rewrite <- (all_true_perm _ _ (t_perm (done_list c z))).
  destruct (payouts c z) as [pay|e]; [destruct P as [P Lp]|destruct P as (e' & P)]; rewrite P; cbn [fst snd]; [|split; [reflexivity|eauto]].
  destruct (all_true (done_list c z)).
  - assert (E : finish_hand (T z) (tl pay) = T (finish_hand z pay)).
    { unfold finish_hand, t_state. cbn [action active button community_cards the_deck history hole_cards largest_raise pot pot_commits stacks street
        street_commits street_option street_raises option_map]. rewrite !t_add_lists; try assumption; [reflexivity|now apply add_lists_length]. }
    rewrite E. split; [reflexivity|]. unfold observation. cbn [bind t_state finish_hand action hole_cards option_map].
    rewrite !(last_nth _ []) by (rewrite ?t_length; lia). rewrite t_length, L6. cbn [bind]. reflexivity.
  - split; [reflexivity|]. rewrite (observation_t z false (nth (n - 1) (tl (hole_cards z)) []) D).
    destruct (observation c z false) as [o|e]; cbn [bind]; [reflexivity|eauto].
Qed.
Lemma step_t s b : fair c s -> in_progress s -> level_showdown c (fst (step c s b)) ->
  fst (step c (T s) b) = T (fst (step c s b)) /\
  match snd (step c s b) with
  | Ok out => snd (step c (T s) b) = Ok (t_out n r (nth (n - 1) (tl (hole_cards (fst (step c s b)))) []) out)
  | Err _ => exists e, snd (step c (T s) b) = Err e
  end.
Proof.
  intros F Hp Lv. pose proof (fair_money c s F) as M. pose proof (mo_wf _ _ M) as I. unfold in_progress in Hp.
  destruct (action s) as [a|] eqn:Ea; [|now destruct Hp]. destruct (wf_turn _ _ I a Ea) as [Ha _]. rewrite Hn in Ha.
  assert (D : seated s).
  { destruct I as [I1 I2 I3 I4 I5 I6 I7 I8 I9 I10]. rewrite Hn in *. split; try assumption; [|now exists a]. apply I8. rewrite Ea. discriminate. }
  assert (St : step c s b = match py_round b with Err e => (s, Err e) | Ok bet0 => match bet_sizes c s with Err e => (s, Err e) | Ok (call, mi, ma) =>
     let '(bet, folds) := settle_bet (pynum_neg b) bet0 call mi ma in let s1 := place_bet c s a (pynum_neg b) bet folds call in
     step_end c (if all_agreed s1 then next_street c s1 else s1) end end) by (unfold step; rewrite Ea; reflexivity).
  assert (St' : step c (T s) b = match py_round b with Err e => (T s, Err e) | Ok bet0 => match bet_sizes c (T s) with Err e => (T s, Err e) | Ok (call, mi, ma) =>
     let '(bet, folds) := settle_bet (pynum_neg b) bet0 call mi ma in let s1 := place_bet c (T s) (sg a) (pynum_neg b) bet folds call in
     step_end c (if all_agreed s1 then next_street c s1 else s1) end end) by (unfold step; cbn [t_state action]; rewrite Ea; reflexivity).
  rewrite sizes_t in St' by exact D.
  destruct (py_round b) as [bet0|e] eqn:Er; [|rewrite St, St'; split; [reflexivity|cbn; eauto]].
  destruct (bet_sizes c s) as [[[call mi] ma]|e] eqn:Eb; [|rewrite St, St'; split; [reflexivity|cbn; eauto]].
  destruct (settle_bet (pynum_neg b) bet0 call mi ma) as [bet folds] eqn:Es. cbv zeta in *.
  destruct (place_t s a (pynum_neg b) bet folds call D Ea Ha) as [Pt D1]. rewrite Pt in St'.
  set (s1 := place_bet c s a (pynum_neg b) bet folds call) in *. fold (settle c s1) in St. fold (settle c (T s1)) in St'.
  destruct (settle_t s1 D1) as [Se D2]. rewrite Se in St'.
  assert (H1 : after_bet c s b = Some s1) by (unfold after_bet; rewrite Ea, Er, Eb, Es; reflexivity).
  destruct (after_bet_wf c s b s1 W I H1) as (A1 & A2 & A3 & A4 & A5 & A6 & A7 & A8 & A9 & A10 & A11).
  destruct (after_bet_money c s b s1 M H1) as (C1 & C2 & C3). pose proof (settle_keep c s1 W) as Kp.
  rewrite St in Lv |- *. rewrite St'. apply step_end_t; [exact D2| |].
  - unfold fit. splits.
    + intros i. unfold committed. rewrite (sk_commits _ _ Kp). apply C1.
    + rewrite (sk_pot _ _ Kp), (sk_commits _ _ Kp). exact A8.
    + rewrite (sk_active _ _ Kp). exact A9.
  - destruct (step_end_cases c (settle c s1)) as [(e & _ & X)|[(pay & _ & _ & X)|(pay & _ & _ & X)]]; rewrite X in Lv; cbn [fst] in Lv; exact Lv.
Qed.

Lemma take_app {A} (x y : list A) : firstn (List.length x) (x ++ y) = x.
Proof. rewrite firstn_app, firstn_all, Nat.sub_diag, firstn_O. apply app_nil_r. Qed.
Lemma drop_app {A} (x y : list A) : skipn (List.length x) (x ++ y) = y.
Proof. rewrite skipn_app, skipn_all, Nat.sub_diag. reflexivity. Qed.
Lemma deal_blocks num rest : forall m hands d, List.length hands = m -> Forall (fun h => List.length h = Z.to_nat num) hands ->
  d_cards d = List.concat hands ++ rest -> deal_hands m num d = (hands, set_cards d rest).
Proof.
  induction m as [|m IH]; intros hands d L Fh E.
  - destruct hands; [|discriminate L]. cbn [deal_hands]. cbn in E. rewrite <- E. now destruct d.
  - destruct hands as [|h hands]; [discriminate L|]. inversion Fh as [|? ? F1 F2]; subst. cbn [deal_hands]. rewrite deck_draw_spec, E.
    cbn [List.concat]. rewrite <- app_assoc, <- F1, take_app, drop_app. rewrite (IH hands) by (try exact F2; cbn [List.length] in L; try lia; reflexivity). reflexivity.
Qed.
Lemma reset_t s rnd rnd' rs d' : wf c s ->
  t_deal r n (nth 0 (num_community_cards c) 0) (num_hole_cards c) (deck_shuffle rnd (the_deck s)) (deck_shuffle rnd' d') ->
  match snd (reset c s rnd false rs) with
  | Ok o => fst (reset c (set_deck (T s) d') rnd' false rs) = T (fst (reset c s rnd false rs)) /\
            snd (reset c (set_deck (T s) d') rnd' false rs) = Ok (t_obs n r [] o)
  | Err e => snd (reset c (set_deck (T s) d') rnd' false rs) = Err e
  end.
Proof.
  intros I (first & hands & rest & Lf & Lh & Fh & E & E'). unfold reset.
  assert (A : reset_active c (set_deck (T s) d') rs = (tl (fst (reset_active c s rs)), tl (snd (reset_active c s rs)))).
  { unfold reset_active. cbn [set_deck t_state stacks]. destruct rs; cbn [fst snd]; [now rewrite !t_repeat|]. now rewrite t_map. }
  assert (La : List.length (fst (reset_active c s rs)) = n /\ List.length (snd (reset_active c s rs)) = n).
  { unfold reset_active. destruct rs; cbn [fst snd]; [now rewrite !repeat_length|]. rewrite map_length, (wf_stacks _ _ I). auto. }
  rewrite A. destruct (reset_active c s rs) as [act stk]. cbn [fst snd] in *. destruct La as [La Ls].
  rewrite <- (count_perm _ _ (t_perm act)). destruct (negb rs && (count_true act <=? 1)); [reflexivity|].
  cbn [set_deck t_state the_deck button]. destruct (num_community_cards c) as [|cc0 ccs] eqn:Ec; [reflexivity|]. cbn [nth] in Lf, E, E'.
  set (d0 := deck_shuffle rnd (the_deck s)) in *. set (d0' := deck_shuffle rnd' d') in *. rewrite !deck_draw_spec, E.
  assert (Ed : d_cards d0' = first ++ List.concat (tl hands) ++ rest) by (now rewrite E'). rewrite Ed.
  rewrite <- Lf, !take_app, !drop_app, Hn, (deal_blocks (num_hole_cards c) rest n hands) by (try assumption; reflexivity).
  rewrite (deal_blocks (num_hole_cards c) rest n (tl hands)); [|now rewrite t_length|eapply Permutation_Forall; [apply t_perm|exact Fh]|reflexivity].
  cbv zeta. assert (Es : set_cards (set_cards d0' (List.concat (tl hands) ++ rest)) rest = set_cards (set_cards d0 (List.concat hands ++ rest)) rest).
  { rewrite E'. reflexivity. }
  rewrite Es. set (dk := set_cards (set_cards d0 (List.concat hands ++ rest)) rest).
  replace (Nat.modulo (sg (button s) + 1) n) with (sg (Nat.modulo (button s + 1) n)) by apply sg_add.
  set (b := Nat.modulo (button s + 1) n). assert (Hb : (b < n)%nat) by (apply Nat.mod_upper_bound; lia).
  set (s1 := mkState (Some b) act b first dk [] hands (big_blind c) 0 (repeat 0 n) stk 0 (repeat 0 n) (repeat false n) 0).
  assert (S1 : mkState (Some (sg b)) (tl act) (sg b) first dk [] (tl hands) (big_blind c) 0 (repeat 0 n) (tl stk) 0 (repeat 0 n) (repeat false n) 0 = T s1).
  { unfold s1, t_state. cbn [action active button community_cards the_deck history hole_cards largest_raise pot pot_commits stacks street street_commits street_option street_raises option_map map]. now rewrite !t_repeat. }
  rewrite S1. assert (D1 : seated s1).
  { unfold s1. split; cbn; rewrite ?repeat_length; try assumption; try reflexivity. now exists b. }
  assert (X2 : (if (2 <? n)%nat then move_action c (T s1) else T s1) = T (if (2 <? n)%nat then move_action c s1 else s1) /\ seated (if (2 <? n)%nat then move_action c s1 else s1)).
  { destruct (2 <? n)%nat; [now apply move_t|now split]. }
  destruct X2 as [-> D2]. set (s2 := if (2 <? n)%nat then _ else _) in *.
  destruct (collect_t s2 (antes c) false D2) as [-> D3]; [rewrite (cw_antes _ W); exact Hn|].
  destruct (collect_t _ (blinds c) true D3) as [-> D4]; [rewrite (cw_blinds _ W); exact Hn|].
  destruct (move_t _ D4) as [-> D5]. destruct (move_t _ D5) as [-> D6]. cbn [fst snd].
  rewrite (observation_t _ false [] D6). destruct (observation c _ false); [split; reflexivity|reflexivity].
Qed.

(** ** Winning probabilities *)
Lemma win_counts_t s : List.length (active s) = n -> List.length (hole_cards s) = n ->
  match win_counts c s with
  | Ok won => win_counts c (T s) = Ok (tl won)
  | Err _ => exists e, win_counts c (T s) = Err e
  end.
Proof.
  intros La Lh. unfold win_counts. cbn [t_state community_cards the_deck active hole_cards].
  destruct (combinations _ _) as [combos|e]; cbn [bind]; [|eauto]. rewrite Hn.
  enough (G : forall w, List.length w = n ->
    match fold_res (fun won extra => let* hs := eval_hands c (active s) (hole_cards s) (community_cards s ++ extra) in
                      Ok (add_lists won (map (fun h => b2z (h =? minZ hs)) hs))) combos w with
    | Ok won => fold_res (fun won extra => let* hs := eval_hands c (tl (active s)) (tl (hole_cards s)) (community_cards s ++ extra) in
                      Ok (add_lists won (map (fun h => b2z (h =? minZ hs)) hs))) combos (tl w) = Ok (tl won)
    | Err _ => exists e, fold_res (fun won extra => let* hs := eval_hands c (tl (active s)) (tl (hole_cards s)) (community_cards s ++ extra) in
                      Ok (add_lists won (map (fun h => b2z (h =? minZ hs)) hs))) combos (tl w) = Err e
    end).
  { specialize (G (repeat 0 n) (repeat_length _ _)). rewrite t_repeat in G. exact G. }
  induction combos as [|x combos IH]; intros won Lw; cbn [fold_res]; [reflexivity|].
  pose proof (eval_t (active s) (hole_cards s) (community_cards s ++ x) La Lh) as Ev.
  destruct (eval_hands c (active s) (hole_cards s) (community_cards s ++ x)) as [hs|e] eqn:E; cbn [bind].
  - rewrite Ev. cbn [bind]. assert (Lhs : List.length hs = n) by (unfold eval_hands in E; apply map_res_length in E; now rewrite E, seq_length).
    rewrite <- (minZ_perm _ _ (t_perm hs)), t_map, t_add_lists by (rewrite ?map_length; assumption).
    apply IH. apply add_lists_length; [exact Lw|now rewrite map_length].
  - destruct Ev as (e' & ->). cbn [bind]. eauto.
Qed.
Lemma win_t s : List.length (active s) = n -> List.length (hole_cards s) = n ->
  match win_probabilities c s with
  | Ok p => win_probabilities c (T s) = Ok (tl p)
  | Err _ => exists e, win_probabilities c (T s) = Err e
  end.
Proof.
  intros La Lh. pose proof (win_counts_t s La Lh) as H. unfold win_probabilities. destruct (win_counts c s) as [won|e]; cbn [bind].
  - rewrite H. cbn [bind]. rewrite <- (sumZ_perm _ _ (t_perm won)). destruct (sumZ won =? 0); [eauto|]. now rewrite t_map.
  - destruct H as (e' & ->). cbn [bind]. eauto.
Qed.
End Seats.

(** ** Theorems *)
(** the move: whatever a list says about seat [i] it says about seat [i + r], counted round the table, afterwards *)
Theorem C83_seats : forall A r (l : list A) i d, (r < List.length l)%nat -> (i < List.length l)%nat ->
  List.length (t_list r l) = List.length l /\ nth (Nat.modulo (i + r) (List.length l)) (t_list r l) d = nth i l d.
Proof. intros A r l i d Hr Hi. split; [apply t_length with (n := List.length l); exact Hr|]. now apply (t_nth (List.length l) r Hr l i d). Qed.
Print Assumptions C83_seats.

(** a bet *)
Theorem C83_step : forall c s b r, fair c s -> in_progress s -> (r < num_players c)%nat -> level_showdown c (fst (step c s b)) ->
  let n := num_players c in
  let s' := fst (step c s b) in
  fst (step c (t_state n r s) b) = t_state n r s' /\
  match snd (step c s b) with
  | Ok out => snd (step c (t_state n r s) b) = Ok (t_out n r (nth (n - 1) (t_list r (hole_cards s')) []) out)
  | Err _ => exists e, snd (step c (t_state n r s) b) = Err e
  end.
Proof.
  intros c s b r F Hp Hr Lv. cbv zeta. apply step_t; try assumption; [reflexivity|]. apply (mo_cfg _ _ (fair_money c s F)).
Qed.
Print Assumptions C83_step.

(** any number of bets *)
Theorem C83_hand : forall c bs s r, fair c s -> (r < num_players c)%nat -> level_hand c s bs ->
  run_steps c (t_state (num_players c) r s) bs = t_state (num_players c) r (run_steps c s bs).
Proof.
  intros c. induction bs as [|b bs IH]; intros s r F Hr Lv; [reflexivity|]. destruct Lv as (Hp & Lv & Lr).
  unfold run_steps. cbn [fold_left]. fold (run_steps c (fst (step c (t_state (num_players c) r s) b)) bs). fold (run_steps c (fst (step c s b)) bs).
  destruct (C83_step c s b r F Hp Hr Lv) as [E _]. cbv zeta in E. rewrite E. apply IH; [|exact Hr|exact Lr].
  exact (fair_op c s (OStep b) F I I).
Qed.
Print Assumptions C83_hand.

(** a new hand, the button moving on: the moved players are dealt the cards they would have had *)
Theorem C83_reset : forall c s rnd rnd' rs r d', reachable c s -> (r < num_players c)%nat ->
  let n := num_players c in
  t_deal r n (nth 0 (num_community_cards c) 0) (num_hole_cards c) (deck_shuffle rnd (the_deck s)) (deck_shuffle rnd' d') ->
  match snd (reset c s rnd false rs) with
  | Ok o => fst (reset c (set_deck (t_state n r s) d') rnd' false rs) = t_state n r (fst (reset c s rnd false rs)) /\
            snd (reset c (set_deck (t_state n r s) d') rnd' false rs) = Ok (t_obs n r [] o)
  | Err e => snd (reset c (set_deck (t_state n r s) d') rnd' false rs) = Err e
  end.
Proof.
  intros c s rnd rnd' rs r d' R Hr. cbv zeta. intros H. apply reset_t; try assumption; [reflexivity| |now apply reachable_wf].
  now apply reachable_cfg with s.
Qed.
Print Assumptions C83_reset.

(** the winning probabilities of the players *)
Theorem C83_win : forall c s r, reachable c s -> in_progress s -> (r < num_players c)%nat ->
  match win_probabilities c s with
  | Ok p => win_probabilities c (t_state (num_players c) r s) = Ok (t_list r p)
  | Err _ => exists e, win_probabilities c (t_state (num_players c) r s) = Err e
  end.
Proof.
  intros c s r R Hp Hr. pose proof (reachable_wf c s R) as I. apply win_t; try assumption; [reflexivity|apply I|apply I; exact Hp].
Qed.
Print Assumptions C83_win.

(** for every order of a deck with enough cards there is such an order for the moved players *)
Theorem C83_deal : forall c s rnd r, d_tricked (the_deck s) = false -> (r < num_players c)%nat ->
  let cc := nth 0 (num_community_cards c) 0 in
  (Z.to_nat cc + num_players c * Z.to_nat (num_hole_cards c) <= List.length (d_full (the_deck s)))%nat ->
  exists rnd', t_deal r (num_players c) cc (num_hole_cards c) (deck_shuffle rnd (the_deck s)) (deck_shuffle rnd' (the_deck s)).
Proof.
  intros c s rnd r U Hr. cbv zeta. intros L. set (cc := nth 0 (num_community_cards c) 0) in *. set (n := num_players c) in *.
  set (d := the_deck s) in *. set (num := num_hole_cards c) in *.
  assert (Sh : forall q, deck_shuffle q d = set_cards d (shuf q (d_full d))) by (intros q; unfold deck_shuffle, set_cards; rewrite U; reflexivity).
  set (cs := shuf rnd (d_full d)). assert (P : Permutation (d_full d) cs) by apply shuf_perm.
  assert (Lc : List.length cs = List.length (d_full d)) by (symmetry; now apply Permutation_length).
  destruct (deal_hands_spec n num (set_cards d (skipn (Z.to_nat cc) cs))) as (hands & d2 & _ & Lh & Nh & Ch & _). cbn [set_cards d_cards] in Nh, Ch.
  set (first := firstn (Z.to_nat cc) cs) in *. set (rest := skipn (n * Z.to_nat num) (skipn (Z.to_nat cc) cs)).
  assert (E : cs = first ++ List.concat hands ++ rest) by (unfold first, rest; rewrite Ch, !firstn_skipn; reflexivity).
  assert (Pt : Permutation (List.concat hands) (List.concat (t_list r hands))).
  { assert (X : forall a b : list (list card), Permutation a b -> Permutation (List.concat a) (List.concat b)).
    { clear. induction 1 as [|x a b H IH|x y a|a b b' H1 IH1 H2 IH2]; cbn [List.concat]; [constructor|now apply Permutation_app_head| |now transitivity (List.concat b)].
      rewrite !app_assoc. apply Permutation_app_tail, Permutation_app_comm. }
    apply X, t_perm. }
  destruct (shuf_complete (d_full d) (first ++ List.concat (t_list r hands) ++ rest)) as (rnd' & Er).
  { transitivity cs; [exact P|]. rewrite E at 1. apply Permutation_app_head, Permutation_app_tail. exact Pt. }
  exists rnd', first, hands, rest. splits.
  - unfold first. rewrite firstn_length. lia.
  - exact Lh.
  - apply Forall_forall. intros h Hh. destruct (In_nth _ _ [] Hh) as (i & Hi & <-). rewrite Nh by lia. rewrite firstn_length, !skipn_length. nia.
  - rewrite Sh. exact E.
  - rewrite !Sh, Er. reflexivity.
Qed.
Print Assumptions C83_deal.

(** without the condition on showdowns the numbers of the seats matter.  Seats 0 to 2 tie, seat 3 loses; the
    odd chip goes to seat 1, the next one to the left of the first winner, or to the loser when the players have
    moved on by two seats; when they have moved on by three it goes nowhere and the hand does not end. *)
Theorem C83_odd_chips : exists c s, fair c s /\ in_progress s /\ num_players c = 4%nat /\
  let pays r := match snd (step c (t_state 4 r s) (PyInt 20)) with Ok out => Ok (out_payouts out) | Err e => Err e end in
  pays 0%nat = Ok [3; 14; 3; -20] /\ pays 1%nat = Ok [-20; 4; 13; 3] /\
  pays 2%nat = Ok [3; -19; 3; 13] /\ pays 3%nat = Err IndexError.
Proof.
  assert (G : exists c s, fair c s /\ action s = Some 2%nat /\ num_players c = 4%nat /\
    let pays r := match snd (step c (t_state 4 r s) (PyInt 20)) with Ok out => Ok (out_payouts out) | Err e => Err e end in
    pays 0%nat = Ok [3; 14; 3; -20] /\ pays 1%nat = Ok [-20; 4; 13; 3] /\ pays 2%nat = Ok [3; -19; 3; 13] /\ pays 3%nat = Err IndexError).
  { play side_game side_ops c s E. split; [exact (played_fair _ _ _ _ E)|]. cbv zeta. plays E. }
  destruct G as (c & s & F & A & G). exists c, s. split; [exact F|]. split; [unfold in_progress; rewrite A; discriminate|exact G].
Qed.
Print Assumptions C83_odd_chips.

(** seats 0 and 1 tie, with 10 and 20 chips; seats 2 and 3 lose 20 chips each *)
Definition level_ops := [OTrick [demo_card 48; demo_card 49; demo_card 0; demo_card 4]; OSetStacks [10; 20; 20; 20]; OReset [] true false] ++ bets [20; 20; 20].
Definition pays (x : state * result step_out) : list Z := match snd x with Ok out => out_payouts out | Err _ => [] end.
Example C83_example : exists c s, fair c s /\ in_progress s /\ num_players c = 4%nat /\ level_showdown c (fst (step c s (PyInt 20))) /\
  level_hand c s [PyInt 20] /\
  2 <= count_true (active (fst (step c s (PyInt 20)))) /\ (num_streets c <= street (fst (step c s (PyInt 20))))%nat /\
  pays (step c s (PyInt 20)) = [10; 30; -20; -20] /\
  pays (step c (t_state 4 1 s) (PyInt 20)) = [-20; 10; 30; -20] /\
  pays (step c (t_state 4 3 s) (PyInt 20)) = [30; -20; -20; 10] /\
  d_tricked (the_deck s) = true /\ d_tricked (deck_untrick (the_deck s)) = false /\
  (Z.to_nat (nth 0 (num_community_cards c) 0%Z) + 4 * Z.to_nat (num_hole_cards c) <= List.length (d_full (the_deck s)))%nat.
Proof.
  assert (G : exists c s, fair c s /\ action s = Some 2%nat /\ num_players c = 4%nat /\
    active (fst (step c s (PyInt 20))) = [true; true; true; true] /\ num_streets c = 1%nat /\ street (fst (step c s (PyInt 20))) = 1%nat /\
    covered_foldsb (show_of c (fst (step c s (PyInt 20)))) = true /\ regular_tiesb (show_of c (fst (step c s (PyInt 20)))) = true /\
    odd_chips (pots_fun 5 (show_of c (fst (step c s (PyInt 20)))) 0) = 0 /\
    pays (step c s (PyInt 20)) = [10; 30; -20; -20] /\
    pays (step c (t_state 4 1 s) (PyInt 20)) = [-20; 10; 30; -20] /\
    pays (step c (t_state 4 3 s) (PyInt 20)) = [30; -20; -20; 10] /\
    d_tricked (the_deck s) = true /\ d_tricked (deck_untrick (the_deck s)) = false /\
    Nat.leb (Z.to_nat (nth 0 (num_community_cards c) 0%Z) + 4 * Z.to_nat (num_hole_cards c)) (List.length (d_full (the_deck s))) = true).
  { play side_game level_ops c s E. split; [exact (played_fair _ _ _ _ E)|]. plays E. }
  destruct G as (c & s & F & G1 & G2 & G3 & G4 & G5 & G6 & G7 & G8 & G9 & G10 & G11 & G12 & G13 & G14). exists c, s.
  assert (Hp : in_progress s) by (unfold in_progress; rewrite G1; discriminate).
  assert (Lv : level_showdown c (fst (step c s (PyInt 20)))).
  { intros _ _. split; [now apply covered_foldsb_ok|]. split; [now apply regular_tiesb_ok|].
    intros pots H. pose proof (pots_fun_players (show_of c (fst (step c s (PyInt 20))))) as P. change (sd_players (show_of c (fst (step c s (PyInt 20))))) with (num_players c) in P. rewrite G2 in P.
    destruct (side_pots_unique _ _ _ H _ P) as [-> _]. exact G8. }
  split; [exact F|]. split; [exact Hp|]. split; [exact G2|]. split; [exact Lv|]. split; [cbn [level_hand]; auto|].
  split; [rewrite G3; cbn; lia|]. split; [lia|]. splits; try assumption. lia.
Qed.
