(** * EngineFacts: invariants of the dealer *)
From Coq Require Import Permutation ZifyBool ZifyNat Arith.
From Verif Require Import PyBase PyFacts CardModel CardSpec CardProofs DeckProofs EvalModel EngineModel EngineSpec.

(** ** Lists *)
Lemma nth_repeat_lt {A} (x d : A) n i : (i < n)%nat -> nth i (repeat x n) d = x.
Proof. revert i; induction n as [|n IH]; intros [|i] H; cbn; try lia; auto. apply IH. lia. Qed.
Lemma add_at_length l i v : List.length (add_at l i v) = List.length l.
Proof. apply upd_length. Qed.
Lemma add_at_nth l i j v : (i < List.length l)%nat ->
  nth j (add_at l i v) 0 = nth j l 0 + if Nat.eqb j i then v else 0.
Proof. intros H. unfold add_at. rewrite upd_nth by exact H. destruct (Nat.eqb_spec j i) as [->|]; lia. Qed.
Lemma add_at_sum l i v : (i < List.length l)%nat -> sumZ (add_at l i v) = sumZ l + v.
Proof. intros H. unfold add_at. rewrite sumZ_upd by exact H. lia. Qed.
Lemma combine_nth_lt {A B} (a : list A) (b : list B) i x y :
  (i < List.length a)%nat -> (i < List.length b)%nat -> nth i (combine a b) (x, y) = (nth i a x, nth i b y).
Proof. revert b i; induction a as [|u a IH]; intros [|v b] [|i] Ha Hb; cbn in *; try lia; auto. apply IH; lia. Qed.
Lemma map_combine_length {A B C} (f : A * B -> C) a b n : List.length a = n -> List.length b = n ->
  List.length (map f (combine a b)) = n.
Proof. intros Ha Hb. rewrite map_length, combine_length. lia. Qed.
Lemma map_nth_lt {A B} (f : A -> B) l i d x : (i < List.length l)%nat -> nth i (map f l) d = f (nth i l x).
Proof. intros H. rewrite (nth_indep _ d (f x)) by (rewrite map_length; exact H). apply map_nth. Qed.
Lemma map_combine_nth {A B C} (f : A * B -> C) a b i d x y : (i < List.length a)%nat -> (i < List.length b)%nat ->
  nth i (map f (combine a b)) d = f (nth i a x, nth i b y).
Proof.
  intros Ha Hb. rewrite (map_nth_lt f _ i d (x, y)) by (rewrite combine_length; lia).
  now rewrite combine_nth_lt.
Qed.
Lemma add_lists_length a b n : List.length a = n -> List.length b = n -> List.length (add_lists a b) = n.
Proof. apply map_combine_length. Qed.
Lemma sub_lists_length a b n : List.length a = n -> List.length b = n -> List.length (sub_lists a b) = n.
Proof. apply map_combine_length. Qed.
Lemma add_lists_cons x a y b : add_lists (x :: a) (y :: b) = (x + y) :: add_lists a b.
Proof. reflexivity. Qed.
Lemma sub_lists_cons x a y b : sub_lists (x :: a) (y :: b) = (x - y) :: sub_lists a b.
Proof. reflexivity. Qed.
Lemma add_lists_nth a : forall b i, List.length a = List.length b ->
  nth i (add_lists a b) 0 = nth i a 0 + nth i b 0.
Proof. induction a as [|x a IH]; intros [|y b] [|i] H; try discriminate; try reflexivity.
  rewrite add_lists_cons. cbn [nth]. apply IH. now injection H. Qed.
Lemma sub_lists_nth a : forall b i, List.length a = List.length b ->
  nth i (sub_lists a b) 0 = nth i a 0 - nth i b 0.
Proof. induction a as [|x a IH]; intros [|y b] [|i] H; try discriminate; try reflexivity.
  rewrite sub_lists_cons. cbn [nth]. apply IH. now injection H. Qed.
Lemma add_lists_sum a : forall b, List.length a = List.length b -> sumZ (add_lists a b) = sumZ a + sumZ b.
Proof. induction a as [|x a IH]; intros [|y b] H; try discriminate; try reflexivity.
  rewrite add_lists_cons, !sumZ_cons, IH by now injection H. lia. Qed.
Lemma sub_lists_sum a : forall b, List.length a = List.length b -> sumZ (sub_lists a b) = sumZ a - sumZ b.
Proof. induction a as [|x a IH]; intros [|y b] H; try discriminate; try reflexivity.
  rewrite sub_lists_cons, !sumZ_cons, IH by now injection H. lia. Qed.
Lemma upd_self {A} (l : list A) i d : upd l i (nth i l d) = l.
Proof. revert i; induction l as [|x l IH]; intros [|i]; cbn; auto. now rewrite IH. Qed.
Lemma nth_ext_Z (a b : list Z) : List.length a = List.length b ->
  (forall i, (i < List.length a)%nat -> nth i a 0 = nth i b 0) -> a = b.
Proof. intros H1 H2. exact (nth_ext a b 0 0 H1 H2). Qed.

Lemma count_true_cons b l : count_true (b :: l) = b2z b + count_true l.
Proof. reflexivity. Qed.
Lemma count_true_nonneg l : 0 <= count_true l.
Proof. induction l as [|b l IH]; [cbn; lia|]. rewrite count_true_cons. destruct b; cbn [b2z]; lia. Qed.
Lemma count_true_le l : count_true l <= Z.of_nat (List.length l).
Proof. induction l as [|b l IH]; [cbn; lia|]. rewrite count_true_cons. cbn [List.length]. destruct b; cbn [b2z]; lia. Qed.
Lemma count_true_repeat n : count_true (repeat true n) = Z.of_nat n.
Proof. induction n as [|n IH]; [reflexivity|]. cbn [repeat]. rewrite count_true_cons, IH. cbn [b2z]. lia. Qed.
Lemma count_true_upd_false l i : nth i l false = true ->
  count_true (upd l i false) = count_true l - 1.
Proof.
  revert i; induction l as [|b l IH]; intros [|i] H; cbn [nth upd] in *; try discriminate; rewrite !count_true_cons.
  - subst b. cbn [b2z]. lia.
  - rewrite IH by exact H. lia.
Qed.
Lemma count_true_pos l : 0 < count_true l -> exists i, (i < List.length l)%nat /\ nth i l false = true.
Proof.
  induction l as [|b l IH]; [cbn; lia|]. rewrite count_true_cons. destruct b; cbn [b2z].
  - intros _. exists O. cbn. split; [lia|reflexivity].
  - intros H. destruct IH as (i & Hi & E); [lia|]. exists (S i). cbn. split; [lia|exact E].
Qed.
Lemma count_true_any l i : nth i l false = true -> 1 <= count_true l.
Proof.
  revert i; induction l as [|b l IH]; intros [|i] H; cbn [nth] in H; try discriminate; rewrite count_true_cons.
  - subst b. cbn [b2z]. pose proof (count_true_nonneg l). lia.
  - specialize (IH i H). destruct b; cbn [b2z]; lia.
Qed.
Lemma count_true_two l i j : i <> j -> nth i l false = true -> nth j l false = true -> 2 <= count_true l.
Proof.
  revert i j; induction l as [|b l IH]; intros [|i] [|j] Hn Hi Hj; cbn [nth] in *; try discriminate; try congruence;
    rewrite count_true_cons.
  - subst b. cbn [b2z]. pose proof (count_true_any l j Hj). lia.
  - subst b. cbn [b2z]. pose proof (count_true_any l i Hi). lia.
  - assert (i <> j) by congruence. specialize (IH i j H Hi Hj). destruct b; cbn [b2z]; lia.
Qed.
Lemma count_true_one l i j : count_true l = 1 -> nth i l false = true -> nth j l false = true -> i = j.
Proof. intros H Hi Hj. destruct (Nat.eq_dec i j) as [|Hn]; [assumption|]. pose proof (count_true_two l i j Hn Hi Hj). lia. Qed.
Lemma all_true_spec l : all_true l = true <-> forall i, (i < List.length l)%nat -> nth i l false = true.
Proof.
  unfold all_true. rewrite forallb_forall. split.
  - intros H i Hi. apply H, nth_In, Hi.
  - intros H b Hb. apply (In_nth _ _ false) in Hb. destruct Hb as (i & Hi & <-). now apply H.
Qed.
Lemma all_true_false l : all_true l = false -> exists i, (i < List.length l)%nat /\ nth i l false = false.
Proof.
  induction l as [|b l IH]; [discriminate|]. unfold all_true. cbn [forallb]. intros H. destruct b.
  - cbn in H. destruct (IH H) as (i & Hi & E). exists (S i). cbn. split; [lia|exact E].
  - exists O. cbn. split; [lia|reflexivity].
Qed.
Lemma any_true_spec l : any_true l = true <-> exists i, nth i l false = true.
Proof.
  unfold any_true. rewrite existsb_exists. split.
  - intros (b & Hb & E). apply (In_nth _ _ false) in Hb. destruct Hb as (i & Hi & Eb). exists i. congruence.
  - intros (i & E). destruct (lt_dec i (List.length l)) as [H|H].
    + exists (nth i l false). split; [now apply nth_In|exact E].
    + rewrite nth_overflow in E by lia. discriminate.
Qed.

Lemma fold_max_ge l : forall m, m <= fold_left Z.max l m /\ forall x, In x l -> x <= fold_left Z.max l m.
Proof.
  induction l as [|y l IH]; intros m; cbn [fold_left].
  - split; [lia|intros x []].
  - destruct (IH (Z.max m y)) as [H1 H2]. split; [lia|]. intros x [->|Hx]; [lia|now apply H2].
Qed.
Lemma fold_max_in l : forall m, fold_left Z.max l m = m \/ In (fold_left Z.max l m) l.
Proof.
  induction l as [|y l IH]; intros m; cbn [fold_left]; [now left|].
  destruct (IH (Z.max m y)) as [H|H]; [|right; now right]. rewrite H.
  destruct (Z.max_spec m y) as [[_ ->]|[_ ->]]; [right; now left|now left].
Qed.
Lemma maxZ_ge l x : In x l -> x <= maxZ l.
Proof. destruct l as [|y l]; [intros []|]. cbn [maxZ]. destruct (fold_max_ge l y) as [H1 H2].
  intros [<-|H]; [exact H1|now apply H2]. Qed.
Lemma maxZ_in l : l <> [] -> In (maxZ l) l.
Proof. destruct l as [|y l]; [congruence|]. intros _. cbn [maxZ]. destruct (fold_max_in l y) as [->|H]; [now left|now right]. Qed.
Lemma maxZ_nth_ge l i : (i < List.length l)%nat -> nth i l 0 <= maxZ l.
Proof. intros H. apply maxZ_ge, nth_In, H. Qed.
Lemma maxZ_nth_in l : (0 < List.length l)%nat -> exists i, (i < List.length l)%nat /\ nth i l 0 = maxZ l.
Proof.
  intros H. assert (N : l <> []) by (intros ->; cbn in H; lia). pose proof (maxZ_in l N) as I.
  apply (In_nth _ _ 0) in I. destruct I as (i & Hi & E). now exists i.
Qed.
Lemma maxZ_repeat v n : (0 < n)%nat -> maxZ (repeat v n) = v.
Proof.
  intros H. assert (N : repeat v n <> []) by (destruct n; [lia|discriminate]).
  pose proof (maxZ_in _ N) as I. now apply repeat_spec in I.
Qed.

(** ** Moving the action *)
Lemma move_loop_opt_length n a0 act k : forall i a opt,
  List.length (snd (move_loop n a0 act k i a opt)) = List.length opt.
Proof.
  induction k as [|k IH]; intros i a opt; cbn [move_loop]; [reflexivity|].
  destruct (nth _ act false); [reflexivity|]. rewrite IH. apply upd_length.
Qed.
Lemma move_loop_fst n a0 act k : forall i a opt, (0 < n)%nat ->
  (exists d, (i <= d < i + k)%nat /\ nth ((a0 + d) mod n) act false = true) ->
  exists d, (i <= d < i + k)%nat /\ fst (move_loop n a0 act k i a opt) = ((a0 + d) mod n)%nat /\
    nth ((a0 + d) mod n) act false = true /\
    forall j, (i <= j < d)%nat -> nth ((a0 + j) mod n) act false = false.
Proof.
  induction k as [|k IH]; intros i a opt Hn (d & Hd & E); [lia|]. cbn [move_loop].
  destruct (nth ((a0 + i) mod n) act false) eqn:Ei.
  - exists i. cbn [fst]. repeat split; try lia. exact Ei.
  - assert (d <> i) by (intros ->; congruence).
    destruct (IH (S i) ((a0 + i) mod n)%nat (upd opt ((a0 + i) mod n) true) Hn) as (d' & Hd' & F & A & B).
    { exists d. split; [lia|exact E]. }
    exists d'. repeat split; try lia; try assumption. intros j Hj. destruct (Nat.eq_dec j i) as [->|]; [exact Ei|].
    apply B. lia.
Qed.
(** only seats out of the hand get their option set *)
Lemma move_loop_opt n a0 act k : forall i a opt j,
  nth j (snd (move_loop n a0 act k i a opt)) false = true ->
  nth j opt false = true \/ nth j act false = false.
Proof.
  induction k as [|k IH]; intros i a opt j H; cbn [move_loop] in H; [now left|].
  destruct (nth _ act false) eqn:E; [now left|].
  apply IH in H. destruct H as [H|H]; [|now right].
  destruct (Nat.eq_dec j ((a0 + i) mod n)) as [->|Hn]; [now right|].
  left. now rewrite upd_nth_other in H by congruence.
Qed.
Lemma move_loop_opt_mono n a0 act k : forall i a opt j,
  nth j opt false = true -> nth j (snd (move_loop n a0 act k i a opt)) false = true.
Proof.
  induction k as [|k IH]; intros i a opt j H; cbn [move_loop]; [exact H|].
  destruct (nth _ act false) eqn:E; [exact H|].
  apply IH. destruct (lt_dec ((a0 + i) mod n) (List.length opt)) as [L|L]; [|rewrite upd_out by lia; exact H].
  rewrite upd_nth by exact L. now destruct (Nat.eqb _ _).
Qed.

(** some active player exists => the loop finds the next one *)
Lemma active_offset n a0 act j : (a0 < n)%nat -> (j < n)%nat -> nth j act false = true ->
  exists d, (1 <= d < 1 + n)%nat /\ nth ((a0 + d) mod n) act false = true.
Proof.
  intros Ha Hj E. destruct (le_lt_dec j a0) as [H|H].
  - exists (n + j - a0)%nat. split; [lia|]. replace (a0 + (n + j - a0))%nat with (j + 1 * n)%nat by lia.
    rewrite Nat.mod_add by lia. now rewrite Nat.mod_small.
  - exists (j - a0)%nat. split; [lia|]. replace (a0 + (j - a0))%nat with j by lia. now rewrite Nat.mod_small.
Qed.

(** ** Well-formed configurations and states *)
Record cfg_wf (c : config) : Prop := mkCfgWf {
  cw_two : (2 <= num_players c)%nat;
  cw_ten : (num_players c <= 10)%nat;
  cw_blinds : List.length (blinds c) = num_players c;
  cw_antes : List.length (antes c) = num_players c;
  cw_raises : List.length (raise_sizes c) = num_streets c;
  cw_counts : List.length (num_raises c) = num_streets c;
  cw_comm : List.length (num_community_cards c) = num_streets c;
  cw_bb : nth_error (blinds c) 1 = Some (big_blind c)
}.

Record wf (c : config) (s : state) : Prop := mkWf {
  wf_active : List.length (active s) = num_players c;
  wf_commits : List.length (pot_commits s) = num_players c;
  wf_stacks : List.length (stacks s) = num_players c;
  wf_street : List.length (street_commits s) = num_players c;
  wf_option : List.length (street_option s) = num_players c;
  wf_button : (button s < num_players c)%nat;
  wf_turn : forall a, action s = Some a -> (a < num_players c)%nat /\ nth a (active s) false = true;
  wf_hole : action s <> None -> List.length (hole_cards s) = num_players c;
  wf_pot : action s <> None -> pot s = sumZ (pot_commits s);
  wf_count : action s <> None -> 2 <= count_true (active s)
}.

Lemma map_res_length {A B} (f : A -> result B) l : forall r, map_res f l = Ok r -> List.length r = List.length l.
Proof.
  induction l as [|x l IH]; intros r H; cbn [map_res] in H; [now injection H as <-|].
  destruct (f x); [|discriminate]. cbn [bind] in H. destruct (map_res f l); [|discriminate].
  injection H as <-. cbn. f_equal. now apply IH.
Qed.
Lemma check_inp_length {A} (v : inp A) n l : check_inp v n = Ok l -> List.length l = Z.to_nat n.
Proof.
  unfold check_inp. destruct v as [x|x]; [intros H; injection H as <-; apply repeat_length|].
  destruct (Z.eqb_spec (Z.of_nat (List.length x)) n); [|discriminate]. intros H; injection H as <-. lia.
Qed.

(** everything the constructor does when it succeeds *)
Record built_dealer (rnd : list nat) (w : raw_config) (c : config) (s : state) : Prop := mkBuiltDealer {
  bd_np : 2 <= rw_num_players w <= 10;
  bd_n : num_players c = Z.to_nat (rw_num_players w);
  bd_st : num_streets c = Z.to_nat (rw_num_streets w);
  bd_blinds : check_inp (rw_blinds w) (rw_num_players w) = Ok (blinds c);
  bd_antes : check_inp (rw_antes w) (rw_num_players w) = Ok (antes c);
  bd_raises : exists rs, check_inp (rw_raise_sizes w) (rw_num_streets w) = Ok rs /\ map_res clean_rs rs = Ok (raise_sizes c);
  bd_counts : exists nr, check_inp (rw_num_raises w) (rw_num_streets w) = Ok nr /\ map_res clean_count nr = Ok (num_raises c);
  bd_comm : check_inp (rw_num_community_cards w) (rw_num_streets w) = Ok (num_community_cards c);
  bd_bb : nth_error (blinds c) 1 = Some (big_blind c);
  bd_hole : num_hole_cards c = rw_num_hole_cards w;
  bd_stack : start_stack c = rw_start_stack w;
  bd_deck : Deck rnd (rw_num_suits w) (rw_num_ranks w) = Ok (the_deck s);
  bd_eval : Evaluator (rw_num_suits w) (rw_num_ranks w) (rw_num_cards_for_hand w)
              (rw_mandatory_num_hole_cards w) (rw_low_end_straight w) (rw_order w) = Ok (the_evaluator c);
  bd_state : s = mkState None (repeat false (num_players c)) 0 [] (the_deck s) [] [] 0 0 (repeat 0 (num_players c))
                (repeat (rw_start_stack w) (num_players c)) 0 (repeat 0 (num_players c))
                (repeat false (num_players c)) 0
}.
Lemma Dealer_inv rnd w c s : Dealer rnd w = Ok (c, s) -> built_dealer rnd w c s.
Proof.
  unfold Dealer. intros H.
  destruct (check_inp (rw_blinds w) _) as [bl|] eqn:E1; [|discriminate]. cbn [bind] in H.
  destruct (check_inp (rw_antes w) _) as [an|] eqn:E2; [|discriminate]. cbn [bind] in H.
  destruct (check_inp (rw_raise_sizes w) _) as [rs|] eqn:E3; [|discriminate]. cbn [bind] in H.
  destruct (check_inp (rw_num_raises w) _) as [nr|] eqn:E4; [|discriminate]. cbn [bind] in H.
  destruct (check_inp (rw_num_community_cards w) _) as [cc|] eqn:E5; [|discriminate]. cbn [bind] in H.
  unfold get in H. destruct (nth_error bl 1) as [bb|] eqn:E6; [|discriminate]. cbn [bind] in H.
  destruct (map_res clean_rs rs) as [crs|] eqn:E7; [|discriminate]. cbn [bind] in H.
  destruct (map_res clean_count nr) as [cnr|] eqn:E8; [|discriminate]. cbn [bind] in H.
  destruct (Deck rnd _ _) as [dk|] eqn:E9; [|discriminate]. cbn [bind] in H.
  destruct (Evaluator _ _ _ _ _ _) as [ev|] eqn:E10; [|discriminate]. cbn [bind] in H.
  destruct ((rw_num_players w <? 2) || (10 <? rw_num_players w)) eqn:E11; [discriminate|].
  injection H as <- <-. split; cbn; try reflexivity; try assumption; try lia.
  - now exists rs.
  - now exists nr.
Qed.
Lemma built_cfg_wf rnd w c s : Dealer rnd w = Ok (c, s) -> cfg_wf c.
Proof.
  intros H. apply Dealer_inv in H. destruct H as [Hn En Es Hb Ha (rs & Hr1 & Hr2) (nr & Hc1 & Hc2) Hcc Hbb _ _ _ _ _].
  apply check_inp_length in Hb, Ha, Hr1, Hc1, Hcc. apply map_res_length in Hr2, Hc2.
  split; try lia. exact Hbb.
Qed.
Lemma built_wf rnd w c s : Dealer rnd w = Ok (c, s) -> wf c s.
Proof.
  intros H. pose proof (built_cfg_wf _ _ _ _ H) as W. apply Dealer_inv in H. destruct H as [_ _ _ _ _ _ _ _ _ _ _ _ _ ->].
  destruct W. split; cbn; try (now rewrite repeat_length); try lia; try congruence.
Qed.

(** *** move_action *)
Lemma act_idx_lt c s : cfg_wf c -> wf c s -> (act_idx c s < num_players c)%nat.
Proof.
  intros W I. unfold act_idx. pose proof (cw_two _ W). destruct (action s) as [a|] eqn:E; [|lia].
  now apply (wf_turn _ _ I) in E.
Qed.
Definition same_but_turn (s s' : state) : Prop :=
  active s' = active s /\ button s' = button s /\ community_cards s' = community_cards s /\
  the_deck s' = the_deck s /\ history s' = history s /\ hole_cards s' = hole_cards s /\
  largest_raise s' = largest_raise s /\ pot s' = pot s /\ pot_commits s' = pot_commits s /\
  stacks s' = stacks s /\ street s' = street s /\ street_commits s' = street_commits s /\
  street_raises s' = street_raises s.
Lemma move_action_same c s : same_but_turn s (move_action c s).
Proof. unfold move_action. destruct (move_loop _ _ _ _ _ _ _) as [a o]. repeat split. Qed.
Lemma move_action_turn c s a0 j : act_idx c s = a0 -> (a0 < num_players c)%nat -> (j < num_players c)%nat ->
  nth j (active s) false = true ->
  exists a, action (move_action c s) = Some a /\ (a < num_players c)%nat /\
    nth a (active s) false = true /\ next_in_hand (num_players c) (active s) a0 a.
Proof.
  intros E0 Ha Hj Ej. unfold move_action. rewrite E0.
  destruct (active_offset _ a0 (active s) j Ha Hj Ej) as (d & Hd & Ed).
  destruct (move_loop_fst (num_players c) a0 (active s) (num_players c) 1 a0 (street_option s) ltac:(lia)) as (d' & Hd' & F & A & B).
  { exists d. split; [lia|exact Ed]. }
  destruct (move_loop _ _ _ _ _ _ _) as [a o]. cbn [fst action] in *. exists a.
  split; [reflexivity|]. subst a. split; [apply Nat.mod_upper_bound; lia|]. split; [exact A|].
  exists d'. repeat split; try lia; try assumption.
Qed.
Lemma move_action_option_length c s : List.length (street_option (move_action c s)) = List.length (street_option s).
Proof.
  unfold move_action. pose proof (move_loop_opt_length (num_players c) (act_idx c s) (active s) (num_players c) 1 (act_idx c s) (street_option s)) as H.
  destruct (move_loop _ _ _ _ _ _ _) as [a o]. exact H.
Qed.
Lemma move_action_option c s j : nth j (street_option (move_action c s)) false = true ->
  nth j (street_option s) false = true \/ nth j (active s) false = false.
Proof.
  unfold move_action. pose proof (move_loop_opt (num_players c) (act_idx c s) (active s) (num_players c) 1 (act_idx c s) (street_option s) j) as H.
  destruct (move_loop _ _ _ _ _ _ _) as [a o]. exact H.
Qed.
Lemma move_action_option_mono c s j : nth j (street_option s) false = true ->
  nth j (street_option (move_action c s)) false = true.
Proof.
  unfold move_action. pose proof (move_loop_opt_mono (num_players c) (act_idx c s) (active s) (num_players c) 1 (act_idx c s) (street_option s) j) as H.
  destruct (move_loop _ _ _ _ _ _ _) as [a o]. exact H.
Qed.

(** *** bets *)
Lemma bet_sizes_err c s e : cfg_wf c -> bet_sizes c s = Err e -> (num_streets c <= street s)%nat.
Proof.
  intros W H. unfold bet_sizes, get in H. destruct (nth_error (raise_sizes c) (street s)) eqn:E.
  - assert (L : (street s < num_streets c)%nat) by (rewrite <- (cw_raises _ W); apply nth_error_Some; congruence).
    cbn [bind] in H. destruct (nth_error (num_raises c) (street s)) eqn:E2.
    + cbn [bind] in H. destruct r; destruct o; repeat (match type of H with context [if ?b then _ else _] => destruct b end); discriminate.
    + apply nth_error_None in E2. rewrite (cw_counts _ W) in E2. lia.
  - apply nth_error_None in E. rewrite (cw_raises _ W) in E. lia.
Qed.
Lemma bet_sizes_street c s p : cfg_wf c -> bet_sizes c s = Ok p -> (street s < num_streets c)%nat.
Proof.
  intros W H. unfold bet_sizes, get in H. destruct (nth_error (raise_sizes c) (street s)) eqn:E; [|discriminate].
  rewrite <- (cw_raises _ W). apply nth_error_Some. congruence.
Qed.
Lemma bet_sizes_ok c s : cfg_wf c -> (street s < num_streets c)%nat -> exists p, bet_sizes c s = Ok p.
Proof. intros W H. destruct (bet_sizes c s) as [p|e] eqn:E; [now exists p|]. apply bet_sizes_err in E; [lia|exact W]. Qed.

(** ** Anatomy of a step: [after_bet] is the state after the bet, [mid] the one before the end of
    the hand is tested *)
Definition after_bet (c : config) (s : state) (b : pynum) : option state :=
  match action s, py_round b, bet_sizes c s with
  | Some a, Ok bet0, Ok (call, min_raise, max_raise) =>
    let '(bet, folds) := settle_bet (pynum_neg b) bet0 call min_raise max_raise in
    Some (place_bet c s a (pynum_neg b) bet folds call)
  | _, _, _ => None
  end.
Definition settle (c : config) (s : state) : state := if all_agreed s then next_street c s else s.
Lemma step_anatomy c s b : action s <> None ->
  (after_bet c s b = None /\ fst (step c s b) = s /\ is_ok (snd (step c s b)) = false) \/
  (exists s1, after_bet c s b = Some s1 /\ step c s b = step_end c (settle c s1)).
Proof.
  intros Ha. unfold after_bet, step. destruct (action s) as [a|]; [|congruence].
  destruct (py_round b) as [bet0|]; [|left; auto]. destruct (bet_sizes c s) as [[[call mi] ma]|]; [|left; auto].
  destruct (settle_bet _ _ _ _ _) as [bet folds]. right. eexists. split; reflexivity.
Qed.

(** the fields after a bet *)
Record bet_effect (c : config) (s : state) (b : pynum) (a : nat) (call mi ma : Z) (bet : Z) (folds : bool) (s1 : state) : Prop := mkBetEffect {
  be_turn : action s = Some a;
  be_round : exists z, py_round b = Ok z /\ settle_bet (pynum_neg b) z call mi ma = (bet, folds);
  be_sizes : bet_sizes c s = Ok (call, mi, ma);
  be_active : active s1 = if folds then upd (active s) a false else active s;
  be_button : button s1 = button s;
  be_comm : community_cards s1 = community_cards s;
  be_deck : the_deck s1 = the_deck s;
  be_history : history s1 = history s ++ [(a, bet, pynum_neg b)];
  be_hole : hole_cards s1 = hole_cards s;
  be_largest : largest_raise s1 = if negb (bet =? 0) && (largest_raise s <=? bet - call) then bet - call else largest_raise s;
  be_raises : street_raises s1 = if negb (bet =? 0) && (largest_raise s <=? bet - call) then street_raises s + 1 else street_raises s;
  be_pot : pot s1 = pot s + Z.min (nth a (stacks s) 0) bet;
  be_commits : pot_commits s1 = add_at (pot_commits s) a (Z.min (nth a (stacks s) 0) bet);
  be_stacks : stacks s1 = add_at (stacks s) a (- Z.min (nth a (stacks s) 0) bet);
  be_street : street s1 = street s;
  be_street_commits : street_commits s1 = add_at (street_commits s) a (Z.min (nth a (stacks s) 0) bet);
  be_opt1 : forall j, nth j (street_option s1) false = true -> nth j (upd (street_option s) a true) false = true \/ nth j (active s1) false = false;
  be_opt2 : forall j, nth j (upd (street_option s) a true) false = true -> nth j (street_option s1) false = true;
  be_optlen : List.length (street_option s1) = List.length (street_option s);
  be_next : forall j, (a < num_players c)%nat -> (j < num_players c)%nat -> nth j (active s1) false = true ->
    exists a', action s1 = Some a' /\ (a' < num_players c)%nat /\ nth a' (active s1) false = true /\
      next_in_hand (num_players c) (active s1) a a'
}.
Lemma after_bet_effect c s b s1 : after_bet c s b = Some s1 ->
  exists a call mi ma bet folds, bet_effect c s b a call mi ma bet folds s1.
Proof.
  unfold after_bet. destruct (action s) as [a|] eqn:Ea; [|discriminate].
  destruct (py_round b) as [z|] eqn:Er; [|discriminate].
  destruct (bet_sizes c s) as [[[call mi] ma]|] eqn:Eb; [|discriminate].
  destruct (settle_bet (pynum_neg b) z call mi ma) as [bet folds] eqn:Es. intros H. injection H as <-.
  exists a, call, mi, ma, bet, folds. unfold place_bet.
  match goal with |- bet_effect _ _ _ _ _ _ _ _ _ (move_action c ?x) => set (x0 := x) end.
  destruct (move_action_same c x0) as (M1 & M2 & M3 & M4 & M5 & M6 & M7 & M8 & M9 & M10 & M11 & M12 & M13).
  split; try (first [rewrite M1|rewrite M2|rewrite M3|rewrite M4|rewrite M5|rewrite M6|rewrite M7|rewrite M8|rewrite M9|rewrite M10|rewrite M11|rewrite M12|rewrite M13]; reflexivity);
    try assumption.
  - exists z. auto.
  - intros j H. rewrite M1. apply move_action_option in H. exact H.
  - intros j H. apply move_action_option_mono. exact H.
  - rewrite move_action_option_length. cbn. apply upd_length.
  - intros j Ha Hj H. rewrite M1 in *. exact (move_action_turn c x0 a j eq_refl Ha Hj H).
Qed.

(** *** the next street *)
(** community cards to be on the table on street [k] *)
Definition comm_total (c : config) (k : nat) : nat :=
  list_sum (map Z.to_nat (firstn (S k) (num_community_cards c))).
Definition all_all_in (s : state) : bool :=
  count_true (active s) - count_true (map (fun p => fst p && (snd p =? 0)) (combine (active s) (stacks s))) <=? 1.

Lemma comm_total_S c k : comm_total c (S k) = (comm_total c k + Z.to_nat (nth (S k) (num_community_cards c) 0%Z))%nat.
Proof.
  unfold comm_total. generalize (num_community_cards c) as l. intros l.
  revert k. induction l as [|x l IH]; intros k; [now destruct k|].
  destruct k as [|k].
  - destruct l as [|y l]; cbn [firstn map nth list_sum fold_right]; rewrite ?list_sum_cons; cbn; lia.
  - change (firstn (S (S (S k))) (x :: l)) with (x :: firstn (S (S k)) l).
    change (firstn (S (S k)) (x :: l)) with (x :: firstn (S k) l). cbn [map nth]. cbn [list_sum fold_right].
    fold (list_sum (map Z.to_nat (firstn (S (S k)) l))). fold (list_sum (map Z.to_nat (firstn (S k) l))).
    rewrite IH. lia.
Qed.
Lemma comm_total_mono c k k' : (k <= k')%nat -> (comm_total c k <= comm_total c k')%nat.
Proof. induction 1; [lia|]. rewrite comm_total_S. lia. Qed.
Lemma comm_total_end c k : (List.length (num_community_cards c) <= S k)%nat -> comm_total c (S k) = comm_total c k.
Proof. intros H. rewrite comm_total_S, nth_overflow by lia. cbn. lia. Qed.

Record street_effect (c : config) (s s' : state) : Prop := mkStreetEffect {
  se_active : active s' = active s;
  se_button : button s' = button s;
  se_history : history s' = history s;
  se_hole : hole_cards s' = hole_cards s;
  se_largest : largest_raise s' = largest_raise s;
  se_pot : pot s' = pot s;
  se_commits : pot_commits s' = pot_commits s;
  se_stacks : stacks s' = stacks s;
  se_street : street s' = if all_all_in s then Nat.max (num_streets c) (S (street s)) else S (street s);
  se_comm : community_cards s' = community_cards s ++
    firstn (comm_total c (street s') - comm_total c (street s)) (d_cards (the_deck s));
  se_deck : the_deck s' = set_cards (the_deck s)
    (skipn (comm_total c (street s') - comm_total c (street s)) (d_cards (the_deck s)))
}.
Lemma firstn_skipn_comp {A} a b (l : list A) : firstn a l ++ firstn b (skipn a l) = firstn (a + b) l.
Proof. revert l; induction a as [|a IH]; intros l; [reflexivity|]. destruct l as [|x l]; cbn [firstn skipn app plus]; [now rewrite firstn_nil|]. now rewrite IH. Qed.
Lemma skipn_skipn_comp {A} a b (l : list A) : skipn b (skipn a l) = skipn (a + b) l.
Proof. revert l; induction a as [|a IH]; intros l; [reflexivity|]. destruct l as [|x l]; cbn [skipn plus]; [now rewrite skipn_nil|]. apply IH. Qed.

Lemma street_loop_enough c : cfg_wf c -> forall fuel s, (num_streets c - street s < fuel)%nat ->
  let s' := street_loop c fuel s in
  street_effect c s s' /\ action s' = action s /\ street_commits s' = street_commits s /\
  street_option s' = street_option s /\ street_raises s' = street_raises s.
Proof.
  intros W. induction fuel as [|f IH]; intros s Hf; [lia|]. cbn [street_loop].
  fold (all_all_in s).
  destruct (Nat.leb (num_streets c) (S (street s))) eqn:El; [apply Nat.leb_le in El|apply Nat.leb_gt in El].
  - cbv zeta. split; [|repeat split]. split; try reflexivity; cbn [street community_cards the_deck].
    + destruct (all_all_in s); lia.
    + rewrite comm_total_end by (rewrite (cw_comm _ W); lia). rewrite Nat.sub_diag. cbn [firstn]. now rewrite app_nil_r.
    + rewrite comm_total_end by (rewrite (cw_comm _ W); lia). rewrite Nat.sub_diag. cbn [skipn]. now destruct (the_deck s).
  - rewrite deck_draw_spec.
    set (k := Z.to_nat (nth (S (street s)) (num_community_cards c) 0)).
    assert (Hk : (comm_total c (S (street s)) - comm_total c (street s))%nat = k) by (rewrite comm_total_S; unfold k; lia).
    match goal with |- context [street_loop c f ?x] => set (s2 := x) end.
    destruct (all_all_in s) eqn:Ea.
    + specialize (IH s2). cbn [street s2] in IH. specialize (IH ltac:(lia)). cbv zeta in *.
      destruct IH as ([A1 A2 A3 A4 A5 A6 A7 A8 A9 A10 A11] & B1 & B2 & B3 & B4).
      split; [|repeat split; assumption].
      assert (Eq2 : all_all_in s2 = all_all_in s) by reflexivity. rewrite Eq2, Ea in A9. cbn [street s2] in A9.
      assert (Hm : (comm_total c (S (street s)) <= comm_total c (street (street_loop c f s2)))%nat)
        by (apply comm_total_mono; rewrite A9; lia).
      cbn [street s2 community_cards the_deck d_cards set_cards] in A10, A11.
      pose proof (comm_total_mono c (street s) (S (street s)) ltac:(lia)) as Hm2.
      assert (Hs : (comm_total c (street (street_loop c f s2)) - comm_total c (street s)
               = k + (comm_total c (street (street_loop c f s2)) - comm_total c (S (street s))))%nat) by lia.
      split; try assumption.
      * rewrite Ea. rewrite A9. lia.
      * rewrite A10, Hs, <- firstn_skipn_comp. now rewrite app_assoc.
      * rewrite A11, Hs, <- skipn_skipn_comp. reflexivity.
    + cbv zeta. split; [|repeat split]. split; try reflexivity; unfold s2; cbn [street community_cards the_deck].
      * now rewrite Ea.
      * now rewrite Hk.
      * now rewrite Hk.
Qed.

Record next_effect (c : config) (s s' : state) : Prop := mkNextEffect {
  ne_street : street_effect c s s';
  ne_street_commits : street_commits s' = repeat 0 (num_players c);
  ne_option : street_option s' = map negb (active s);
  ne_raises : street_raises s' = 0;
  ne_turn : forall j, (j < num_players c)%nat -> nth j (active s) false = true -> (button s < num_players c)%nat ->
    exists a', action s' = Some a' /\ (a' < num_players c)%nat /\ nth a' (active s) false = true /\
      next_in_hand (num_players c) (active s) (button s) a'
}.
Lemma next_street_effect c s : cfg_wf c -> next_effect c s (next_street c s).
Proof.
  intros W. unfold next_street.
  set (s0 := set_action s (Some (button s))).
  set (s1 := move_action c s0).
  destruct (move_action_same c s0) as (M1 & M2 & M3 & M4 & M5 & M6 & M7 & M8 & M9 & M10 & M11 & M12 & M13).
  fold s1 in M1, M2, M3, M4, M5, M6, M7, M8, M9, M10, M11, M12, M13.
  destruct (street_loop_enough c W (S (num_streets c)) s1 ltac:(lia)) as ([A1 A2 A3 A4 A5 A6 A7 A8 A9 A10 A11] & B1 & B2 & B3 & B4).
  cbv zeta in *. set (s2 := street_loop c (S (num_streets c)) s1) in *.
  assert (Ea : all_all_in s1 = all_all_in s) by (unfold all_all_in; now rewrite M1, M10).
  split.
  - split; cbn [active button history hole_cards largest_raise pot pot_commits stacks street community_cards the_deck].
    + now rewrite A1, M1.
    + now rewrite A2, M2.
    + now rewrite A3, M5.
    + now rewrite A4, M6.
    + now rewrite A5, M7.
    + now rewrite A6, M8.
    + now rewrite A7, M9.
    + now rewrite A8, M10.
    + now rewrite A9, Ea, M11.
    + now rewrite A10, M3, M4, M11.
    + now rewrite A11, M4, M11.
  - reflexivity.
  - cbn [street_option]. now rewrite A1, M1.
  - reflexivity.
  - intros j Hj Ej Hb. cbn [action]. rewrite B1.
    destruct (move_action_turn c s0 (button s) j eq_refl Hb Hj Ej) as (a' & T1 & T2 & T3 & T4).
    exists a'. auto.
Qed.

(** *** settling, and the end of the step *)
Lemma settle_cases c s : cfg_wf c ->
  (all_agreed s = false /\ settle c s = s) \/ (all_agreed s = true /\ next_effect c s (settle c s)).
Proof.
  intros W. unfold settle. destruct (all_agreed s); [right|left; auto].
  split; [reflexivity|now apply next_street_effect].
Qed.
(** what settling never changes *)
Record settle_keeps (s s' : state) : Prop := mkSettleKeeps {
  sk_active : active s' = active s;
  sk_button : button s' = button s;
  sk_history : history s' = history s;
  sk_hole : hole_cards s' = hole_cards s;
  sk_largest : largest_raise s' = largest_raise s;
  sk_pot : pot s' = pot s;
  sk_commits : pot_commits s' = pot_commits s;
  sk_stacks : stacks s' = stacks s
}.
Lemma settle_keep c s : cfg_wf c -> settle_keeps s (settle c s).
Proof.
  intros W. destruct (settle_cases c s W) as [[_ ->]|[_ [[? ? ? ? ? ? ? ? ? ? ?] _ _ _ _]]]; split; try reflexivity; assumption.
Qed.

Lemma done_all c s : cfg_wf c -> List.length (active s) = num_players c -> List.length (stacks s) = num_players c ->
  all_true (done_list c s) = true <->
  (num_streets c <= street s)%nat \/ count_true (active s) <= 1 \/
  (forall i, (i < num_players c)%nat -> nth i (active s) false = true -> nth i (stacks s) 0 = 0).
Proof.
  intros W La Ls. unfold done_list. destruct (Nat.leb (num_streets c) (street s) || (count_true (active s) <=? 1)) eqn:E.
  - split; [|intros _; rewrite all_true_spec, repeat_length; intros i Hi; now apply nth_repeat_lt].
    intros _. apply orb_true_iff in E. destruct E as [E|E]; [apply Nat.leb_le in E; now left|right; left; lia].
  - apply orb_false_iff in E. destruct E as [E1 E2]. apply Nat.leb_gt in E1.
    rewrite all_true_spec, (map_combine_length _ _ _ _ La Ls).
    assert (N : forall i, (i < num_players c)%nat ->
      nth i (map (fun p : bool * Z => negb (fst p) || (snd p =? 0)) (combine (active s) (stacks s))) false
      = negb (nth i (active s) false) || (nth i (stacks s) 0 =? 0)).
    { intros i Hi. rewrite (map_combine_nth _ _ _ _ _ false 0) by lia. reflexivity. }
    split.
    + intros H. right; right. intros i Hi Ha. specialize (H i Hi). rewrite N in H by exact Hi. rewrite Ha in H. cbn in H. lia.
    + intros [H|[H|H]]; [lia|lia|]. intros i Hi. rewrite N by exact Hi.
      destruct (nth i (active s) false) eqn:Ea; [|reflexivity]. cbn. rewrite (H i Hi Ea). reflexivity.
Qed.

Lemma step_end_cases c s : 
  (exists e, payouts c s = Err e /\ step_end c s = (s, Err e)) \/
  (exists pay, payouts c s = Ok pay /\ all_true (done_list c s) = true /\
     fst (step_end c s) = finish_hand s pay) \/
  (exists pay, payouts c s = Ok pay /\ all_true (done_list c s) = false /\
     fst (step_end c s) = s).
Proof.
  unfold step_end. destruct (payouts c s) as [pay|e]; [|left; exists e; auto].
  right. destruct (all_true (done_list c s)); [left|right]; exists pay; auto.
Qed.

(** *** lengths of payouts *)
Lemma pot_step_payouts worst p i : List.length (p_payouts (fst (pot_step worst p i))) = List.length (p_payouts p).
Proof.
  unfold pot_step. destruct (nth_error (p_hands p) i); [|reflexivity].
  destruct (sumZ _ =? 0); [reflexivity|]. cbn [fst p_payouts].
  match goal with |- context [add_at _ _ ?x] => generalize x as v end. intros v.
  generalize (map h_idx (filter (fun o => h_strength o =? h_strength h) (p_hands p))) as l.
  intros l. generalize (p_payouts p) as q. induction l as [|x l IH]; intros q; [reflexivity|].
  cbn [fold_left]. rewrite IH. apply add_at_length.
Qed.
Lemma pot_loop_payouts worst l : forall p, List.length (p_payouts (pot_loop worst l p)) = List.length (p_payouts p).
Proof.
  induction l as [|i l IH]; intros p; [reflexivity|]. cbn [pot_loop].
  pose proof (pot_step_payouts worst p i) as H. destruct (pot_step worst p i) as [p' b]. cbn [fst] in H.
  destruct b; [exact H|]. now rewrite IH.
Qed.
Lemma remainder_loop_length n b k : forall i r pay pay', remainder_loop n b k i r pay = Ok pay' -> List.length pay' = List.length pay.
Proof.
  induction k as [|k IH]; intros i r pay pay' H; cbn [remainder_loop] in H; [now injection H as <-|].
  destruct (get pay _) as [v|]; [|discriminate]. cbn [bind] in H. destruct (negb (v =? 0)); [|now apply IH in H].
  destruct (get pay i); [|discriminate]. cbn [bind] in H. injection H as <-. apply add_at_length.
Qed.
Lemma split_pots_length n b worst pt st cm pay : split_pots n b worst pt st cm = Ok pay -> List.length pay = n.
Proof.
  unfold split_pots. match goal with |- context [pot_loop worst ?l ?p] => pose proof (pot_loop_payouts worst l p) as H end.
  cbn [p_payouts] in H. rewrite repeat_length in H. destruct (_ =? 0).
  - intros E. injection E as <-. exact H.
  - intros E. apply remainder_loop_length in E. congruence.
Qed.
Lemma payouts_length c s pay : List.length (active s) = num_players c -> List.length (pot_commits s) = num_players c ->
  payouts c s = Ok pay -> List.length pay = num_players c.
Proof.
  intros La Lc. unfold payouts. destruct (count_true (active s) =? 1).
  - intros H. injection H as <-. rewrite map_length, !combine_length, map_length, combine_length. lia.
  - destruct (Nat.leb _ _).
    + unfold eval_round. destruct (eval_hands _ _ _ _) as [st|]; [|discriminate]. cbn [bind].
      destruct (split_pots _ _ _ _ _ _) as [w|] eqn:E; [|discriminate]. cbn [bind]. intros H. injection H as <-.
      apply sub_lists_length; [now apply split_pots_length in E|exact Lc].
    + intros H. injection H as <-. rewrite map_length, combine_length. lia.
Qed.

(** ** Invariance of [wf] *)
Lemma after_bet_wf c s b s1 : cfg_wf c -> wf c s -> after_bet c s b = Some s1 ->
  List.length (active s1) = num_players c /\ List.length (pot_commits s1) = num_players c /\
  List.length (stacks s1) = num_players c /\ List.length (street_commits s1) = num_players c /\
  List.length (street_option s1) = num_players c /\ (button s1 < num_players c)%nat /\
  List.length (hole_cards s1) = num_players c /\ pot s1 = sumZ (pot_commits s1) /\ 1 <= count_true (active s1) /\
  (exists a, action s1 = Some a /\ (a < num_players c)%nat /\ nth a (active s1) false = true) /\
  all_chips s1 = all_chips s.
Proof.
  intros W I H. apply after_bet_effect in H. destruct H as (a & call & mi & ma & bet & folds & B).
  destruct I as [I1 I2 I3 I4 I5 I6 I7 I8 I9 I10]. destruct (I7 a (be_turn _ _ _ _ _ _ _ _ _ _ B)) as [Ha Ea].
  assert (Hn : action s <> None) by (rewrite (be_turn _ _ _ _ _ _ _ _ _ _ B); discriminate).
  specialize (I8 Hn). specialize (I9 Hn). specialize (I10 Hn).
  assert (La : List.length (active s1) = num_players c).
  { rewrite (be_active _ _ _ _ _ _ _ _ _ _ B). destruct folds; [rewrite upd_length|]; exact I1. }
  assert (Hc : 1 <= count_true (active s1)).
  { rewrite (be_active _ _ _ _ _ _ _ _ _ _ B). destruct folds; [|lia]. rewrite count_true_upd_false by exact Ea. lia. }
  split; [exact La|]. split; [rewrite (be_commits _ _ _ _ _ _ _ _ _ _ B), add_at_length; exact I2|].
  split; [rewrite (be_stacks _ _ _ _ _ _ _ _ _ _ B), add_at_length; exact I3|].
  split; [rewrite (be_street_commits _ _ _ _ _ _ _ _ _ _ B), add_at_length; exact I4|].
  split; [rewrite (be_optlen _ _ _ _ _ _ _ _ _ _ B); exact I5|].
  split; [rewrite (be_button _ _ _ _ _ _ _ _ _ _ B); exact I6|].
  split; [rewrite (be_hole _ _ _ _ _ _ _ _ _ _ B); exact I8|].
  split; [rewrite (be_pot _ _ _ _ _ _ _ _ _ _ B), (be_commits _ _ _ _ _ _ _ _ _ _ B), add_at_sum by lia; lia|].
  split; [exact Hc|]. split.
  - destruct (count_true_pos (active s1) ltac:(lia)) as (j & Hj & Ej).
    destruct (be_next _ _ _ _ _ _ _ _ _ _ B j Ha ltac:(lia) Ej) as (a' & T1 & T2 & T3 & _). exists a'. auto.
  - unfold all_chips. rewrite (be_pot _ _ _ _ _ _ _ _ _ _ B), (be_stacks _ _ _ _ _ _ _ _ _ _ B), add_at_sum by lia. lia.
Qed.

Lemma settle_wf c s : cfg_wf c ->
  List.length (active s) = num_players c -> List.length (pot_commits s) = num_players c ->
  List.length (stacks s) = num_players c -> List.length (street_commits s) = num_players c ->
  List.length (street_option s) = num_players c -> (button s < num_players c)%nat ->
  List.length (hole_cards s) = num_players c -> pot s = sumZ (pot_commits s) -> 1 <= count_true (active s) ->
  (exists a, action s = Some a /\ (a < num_players c)%nat /\ nth a (active s) false = true) ->
  let s' := settle c s in
  (2 <= count_true (active s) -> wf c s') /\
  List.length (active s') = num_players c /\ List.length (pot_commits s') = num_players c /\
  List.length (stacks s') = num_players c /\ List.length (street_commits s') = num_players c /\
  List.length (street_option s') = num_players c /\ (button s' < num_players c)%nat /\
  List.length (hole_cards s') = num_players c /\ all_chips s' = all_chips s /\
  (exists a, action s' = Some a /\ (a < num_players c)%nat /\ nth a (active s') false = true).
Proof.
  intros W La Lc Ls Lt Lo Hb Lh Hp Hc (a & Ta & Ha & Ea). cbv zeta.
  pose proof (settle_keep c s W) as [K1 K2 K3 K4 K5 K6 K7 K8].
  assert (Lt' : List.length (street_commits (settle c s)) = num_players c).
  { destruct (settle_cases c s W) as [[_ ->]|[_ E]]; [exact Lt|]. rewrite (ne_street_commits _ _ _ E). apply repeat_length. }
  assert (Lo' : List.length (street_option (settle c s)) = num_players c).
  { destruct (settle_cases c s W) as [[_ ->]|[_ E]]; [exact Lo|]. rewrite (ne_option _ _ _ E), map_length. exact La. }
  assert (T : exists a, action (settle c s) = Some a /\ (a < num_players c)%nat /\ nth a (active (settle c s)) false = true).
  { rewrite K1. destruct (settle_cases c s W) as [[_ ->]|[_ E]]; [now exists a|].
    destruct (ne_turn _ _ _ E a Ha Ea Hb) as (a' & T1 & T2 & T3 & _). now exists a'. }
  unfold all_chips. rewrite K1, K2, K4, K6, K7, K8 in *.
  split; [|repeat split; try assumption; try reflexivity].
  intros H2. split; rewrite ?K1, ?K2, ?K4, ?K6, ?K7, ?K8; try assumption; auto.
  intros x Hx. destruct T as (a' & T1 & T2 & T3). rewrite T1 in Hx. injection Hx as <-. auto.
Qed.

Lemma finish_wf c s pay : List.length (active s) = num_players c -> List.length (pot_commits s) = num_players c ->
  List.length (stacks s) = num_players c -> List.length (street_commits s) = num_players c ->
  List.length (street_option s) = num_players c -> (button s < num_players c)%nat ->
  List.length pay = num_players c -> wf c (finish_hand s pay).
Proof.
  intros La Lc Ls Lt Lo Hb Lp. split; cbn; try assumption; try congruence.
  apply add_lists_length; [now apply add_lists_length|exact Lc].
Qed.

Lemma step_wf c s b : cfg_wf c -> wf c s -> wf c (fst (step c s b)).
Proof.
  intros W I. destruct (action s) as [a|] eqn:Ea.
  2:{ unfold step. now rewrite Ea. }
  destruct (step_anatomy c s b ltac:(congruence)) as [(_ & -> & _)|(s1 & H1 & E)]; [exact I|].
  destruct (after_bet_wf c s b s1 W I H1) as (A1 & A2 & A3 & A4 & A5 & A6 & A7 & A8 & A9 & A10 & A11).
  destruct (settle_wf c s1 W A1 A2 A3 A4 A5 A6 A7 A8 A9 A10) as (B0 & B1 & B2 & B3 & B4 & B5 & B6 & B7 & B8 & B9).
  rewrite E. pose proof (settle_keep c s1 W) as K.
  destruct (Z_le_dec 2 (count_true (active s1))) as [H2|H2].
  - destruct (step_end_cases c (settle c s1)) as [(e & _ & ->)|[(pay & P & _ & ->)|(pay & _ & _ & ->)]]; try (now apply B0).
    apply finish_wf; try assumption. now apply payouts_length in P.
  - assert (D : all_true (done_list c (settle c s1)) = true).
    { apply done_all; try assumption. right; left. rewrite (sk_active _ _ K). lia. }
    assert (P : exists pay, payouts c (settle c s1) = Ok pay).
    { unfold payouts. replace (count_true (active (settle c s1)) =? 1) with true by (rewrite (sk_active _ _ K); lia). eauto. }
    destruct P as [pay0 P0].
    destruct (step_end_cases c (settle c s1)) as [(e & P & _)|[(pay & P & _ & ->)|(pay & _ & D' & _)]]; try congruence.
    apply finish_wf; try assumption. now apply payouts_length in P.
Qed.

(** ** Reset *)
Lemma roll_length a bets : (a <= List.length bets)%nat -> List.length (roll a bets) = List.length bets.
Proof. intros H. destruct a as [|a]; [reflexivity|]. unfold roll. rewrite app_length, skipn_length, firstn_length. lia. Qed.
Lemma nth_firstn_lt {A} (l : list A) k i d : (i < k)%nat -> nth i (firstn k l) d = nth i l d.
Proof. revert l i; induction k as [|k IH]; intros l i H; [lia|]. destruct l as [|x l]; [now destruct i|]. destruct i as [|i]; [reflexivity|]. cbn. apply IH. lia. Qed.
Lemma nth_skipn_add {A} (l : list A) k i d : nth i (skipn k l) d = nth (k + i) l d.
Proof. revert l; induction k as [|k IH]; intros l; [reflexivity|]. destruct l as [|x l]; [now destruct i|]. cbn. apply IH. Qed.
Lemma roll_nth a bets i : (a < List.length bets)%nat -> (i < List.length bets)%nat ->
  nth i (roll a bets) 0 = nth ((i + List.length bets - a) mod List.length bets) bets 0.
Proof.
  intros Ha Hi. set (n := List.length bets) in *. destruct a as [|a].
  - unfold roll. replace (i + n - 0)%nat with (i + 1 * n)%nat by lia. rewrite Nat.mod_add by lia. now rewrite Nat.mod_small.
  - unfold roll. fold n. destruct (lt_dec i (S a)) as [H|H].
    + rewrite app_nth1 by (rewrite skipn_length; fold n; lia). rewrite nth_skipn_add.
      rewrite Nat.mod_small by lia. f_equal. lia.
    + rewrite app_nth2 by (rewrite skipn_length; fold n; lia). rewrite skipn_length. fold n.
      rewrite nth_firstn_lt by lia. replace (i + n - S a)%nat with ((i - S a) + 1 * n)%nat by lia.
      rewrite Nat.mod_add by lia. rewrite Nat.mod_small by lia. f_equal. lia.
Qed.

(** the forced bet of seat [i] out of [bets], when seat [start] posts the first entry *)
Definition due (n start i : nat) (bets : list Z) : Z := nth ((i + n - start) mod n) bets 0.
Lemma forced_bets_length s bets n : List.length (stacks s) = n -> List.length (active s) = n -> List.length bets = n ->
  List.length (forced_bets s bets) = n.
Proof. intros H1 H2 H3. unfold forced_bets. rewrite map_length, !combine_length. lia. Qed.
Lemma forced_bets_nth s bets n i : List.length (stacks s) = n -> List.length (active s) = n -> List.length bets = n -> (i < n)%nat ->
  nth i (forced_bets s bets) 0 = if (0 <? nth i (stacks s) 0) && nth i (active s) false then nth i bets 0 else 0.
Proof.
  intros H1 H2 H3 Hi. unfold forced_bets.
  rewrite (map_combine_nth _ _ _ _ _ (0, false) 0) by (rewrite ?combine_length; lia).
  rewrite combine_nth_lt by lia. reflexivity.
Qed.

Record collect_effect (c : config) (s : state) (start : nat) (bets : list Z) (ts : bool) (s' : state) (b : list Z) : Prop := mkCollect {
  ce_len : List.length b = num_players c;
  ce_nth : forall i, (i < num_players c)%nat -> nth i b 0 =
    if (0 <? nth i (stacks s) 0) && nth i (active s) false then due (num_players c) start i bets else 0;
  ce_active : active s' = active s;
  ce_pot : pot s' = pot s + sumZ b;
  ce_commits : pot_commits s' = add_lists (pot_commits s) b;
  ce_stacks : stacks s' = sub_lists (stacks s) b;
  ce_street_commits : street_commits s' = if ts then add_lists (street_commits s) b else street_commits s;
  ce_rest : action s' = action s /\ button s' = button s /\ community_cards s' = community_cards s /\
    the_deck s' = the_deck s /\ history s' = history s /\ hole_cards s' = hole_cards s /\
    largest_raise s' = largest_raise s /\ street s' = street s /\ street_option s' = street_option s /\
    street_raises s' = street_raises s
}.
Lemma collect_spec c s bets ts start : act_idx c s = start -> (start < num_players c)%nat ->
  List.length (stacks s) = num_players c -> List.length (active s) = num_players c -> List.length bets = num_players c ->
  exists b, collect_effect c s start bets ts (collect_multiple_bets c s bets ts) b.
Proof.
  intros Es Hs L1 L2 L3. exists (forced_bets s (roll start bets)).
  assert (L4 : List.length (roll start bets) = num_players c) by (rewrite roll_length; lia).
  split; unfold collect_multiple_bets; rewrite ?Es; try reflexivity.
  - now apply forced_bets_length.
  - intros i Hi. rewrite (forced_bets_nth _ _ (num_players c)) by assumption.
    destruct (_ && _); [|reflexivity]. rewrite roll_nth by lia. unfold due. now rewrite L3.
  - repeat split.
Qed.

Lemma deal_hands_spec k : forall num d, exists holes d', deal_hands k num d = (holes, d') /\
  List.length holes = k /\
  (forall i, (i < k)%nat -> nth i holes [] = firstn (Z.to_nat num) (skipn (i * Z.to_nat num) (d_cards d))) /\
  List.concat holes = firstn (k * Z.to_nat num) (d_cards d) /\
  d' = set_cards d (skipn (k * Z.to_nat num) (d_cards d)).
Proof.
  induction k as [|k IH]; intros num d; cbn [deal_hands].
  - exists [], d. repeat split; [intros i Hi; lia|]. cbn. now destruct d.
  - rewrite deck_draw_spec. destruct (IH num (set_cards d (skipn (Z.to_nat num) (d_cards d)))) as (hs & d2 & E & L & N & C & D).
    rewrite E. eexists. eexists. split; [reflexivity|]. cbn [List.length]. split; [now rewrite L|]. cbn [set_cards d_cards] in N, C, D.
    split.
    { intros [|i] Hi; [reflexivity|]. cbn [nth]. rewrite N by lia. rewrite skipn_skipn_comp. f_equal. }
    split.
    { cbn [List.concat]. rewrite C, firstn_skipn_comp. reflexivity. }
    rewrite D, skipn_skipn_comp. reflexivity.
Qed.

(** everything a successful reset does *)
Record reset_effect (c : config) (s : state) (rnd : list nat) (rb rs : bool) (s' : state) : Prop := mkResetEffect {
  re_active : active s' = if rs then repeat true (num_players c) else map (fun x => 0 <? x) (stacks s);
  re_two : 2 <= count_true (active s');
  re_button : button s' = if rb then O else ((button s + 1) mod num_players c)%nat;
  re_comm : community_cards s' = firstn (comm_total c 0) (d_cards (deck_shuffle rnd (the_deck s)));
  re_hole_len : List.length (hole_cards s') = num_players c;
  re_hole : List.concat (hole_cards s') = firstn (num_players c * Z.to_nat (num_hole_cards c))
              (skipn (comm_total c 0) (d_cards (deck_shuffle rnd (the_deck s))));
  re_hole_nth : forall i, (i < num_players c)%nat -> nth i (hole_cards s') [] =
     firstn (Z.to_nat (num_hole_cards c)) (skipn (comm_total c 0 + i * Z.to_nat (num_hole_cards c))
       (d_cards (deck_shuffle rnd (the_deck s))));
  re_deck : the_deck s' = set_cards (deck_shuffle rnd (the_deck s))
     (skipn (comm_total c 0 + num_players c * Z.to_nat (num_hole_cards c)) (d_cards (deck_shuffle rnd (the_deck s))));
  re_history : history s' = [];
  re_largest : largest_raise s' = big_blind c;
  re_street : street s' = O;
  re_raises : street_raises s' = 0;
  re_option_len : List.length (street_option s') = num_players c;
  re_option : forall j, nth j (street_option s') false = true -> nth j (active s') false = false;
  re_turn : exists a, action s' = Some a /\ (a < num_players c)%nat /\ nth a (active s') false = true;
  re_money : exists start ante blind,
     (start < num_players c)%nat /\ nth start (active s') false = true /\
     (if Nat.ltb 2 (num_players c) then next_in_hand (num_players c) (active s') (button s') start else start = button s') /\
     (exists s1, next_in_hand (num_players c) (active s') start s1 /\ (s1 < num_players c)%nat /\
        exists a, action s' = Some a /\ next_in_hand (num_players c) (active s') s1 a) /\
     List.length ante = num_players c /\ List.length blind = num_players c /\
     (forall i, (i < num_players c)%nat ->
        let stk := if rs then start_stack c else nth i (stacks s) 0 in
        nth i ante 0 = (if (0 <? stk) && nth i (active s') false then due (num_players c) start i (antes c) else 0) /\
        nth i blind 0 = (if (0 <? stk - nth i ante 0) && nth i (active s') false then due (num_players c) start i (blinds c) else 0) /\
        nth i (stacks s') 0 = stk - nth i ante 0 - nth i blind 0) /\
     pot_commits s' = add_lists ante blind /\ street_commits s' = blind /\ pot s' = sumZ ante + sumZ blind;
  re_stacks_len : List.length (stacks s') = num_players c
}.

Lemma count_true_two_seats l : List.length l = 2%nat -> 2 <= count_true l -> forall i, (i < 2)%nat -> nth i l false = true.
Proof.
  destruct l as [|x [|y [|z l]]]; try discriminate. intros _ H. rewrite !count_true_cons in H.
  destruct x, y; cbn [b2z count_true map sumZ fold_right] in H; try lia. intros [|[|i]] Hi; try reflexivity; lia.
Qed.
Lemma comm_total_0 c cc rest : num_community_cards c = cc :: rest -> comm_total c 0 = Z.to_nat cc.
Proof. intros E. unfold comm_total. rewrite E. cbn. lia. Qed.

Lemma reset_spec c s rnd rb rs : cfg_wf c -> wf c s ->
  let act := fst (reset_active c s rs) in
  (rs = false /\ count_true act <= 1 /\ snd (reset c s rnd rb rs) = Err TooFewActivePlayersError) \/
  (num_streets c = O /\ snd (reset c s rnd rb rs) = Err IndexError) \/
  (num_streets c <> O /\ 2 <= count_true act /\ is_ok (snd (reset c s rnd rb rs)) = true /\
   reset_effect c s rnd rb rs (fst (reset c s rnd rb rs))).
Proof.
  intros W I. cbv zeta. unfold reset.
  destruct (reset_active c s rs) as [act stk] eqn:ER. cbn [fst].
  assert (La : List.length act = num_players c /\ List.length stk = num_players c).
  { unfold reset_active in ER. destruct rs; injection ER as <- <-; rewrite ?repeat_length, ?map_length; split; try reflexivity; apply I. }
  destruct La as [La Ls].
  destruct (negb rs && (count_true act <=? 1)) eqn:E1.
  { left. destruct rs; [discriminate|]. cbn in E1. split; [reflexivity|]. split; [lia|reflexivity]. }
  assert (H2 : 2 <= count_true act).
  { destruct rs; [|cbn in E1; lia]. unfold reset_active in ER. injection ER as <- <-. rewrite count_true_repeat.
    pose proof (cw_two _ W). lia. }
  destruct (num_community_cards c) as [|cc rest] eqn:Ecc.
  { right; left. pose proof (cw_comm _ W) as E. rewrite Ecc in E. cbn in E. auto. }
  right; right.
  assert (Hns : num_streets c <> O) by (rewrite <- (cw_comm _ W), Ecc; discriminate).
  split; [exact Hns|]. split; [exact H2|].
  set (b := if rb then O else ((button s + 1) mod num_players c)%nat).
  assert (Hb : (b < num_players c)%nat).
  { pose proof (cw_two _ W). unfold b. destruct rb; [lia|]. apply Nat.mod_upper_bound. lia. }
  set (d0 := deck_shuffle rnd (the_deck s)). rewrite deck_draw_spec.
  destruct (deal_hands_spec (num_players c) (num_hole_cards c) (set_cards d0 (skipn (Z.to_nat cc) (d_cards d0))))
    as (holes & d2 & Ed & Lh & Nh & Ch & Dh).
  rewrite Ed. cbn [set_cards d_cards] in Nh, Ch, Dh.
  match goal with |- context [if Nat.ltb 2 (num_players c) then move_action c ?x else ?x] => set (s1 := x) end.
  set (s2 := if Nat.ltb 2 (num_players c) then move_action c s1 else s1).
  destruct (count_true_pos act ltac:(lia)) as (j & Hj & Ej). rewrite La in Hj.
  assert (S2 : same_but_turn s1 s2).
  { unfold s2. destruct (Nat.ltb 2 (num_players c)); [apply move_action_same|repeat split]. }
  assert (O2 : forall j, nth j (street_option s2) false = true -> nth j act false = false).
  { intros k Hk. unfold s2 in Hk. destruct (Nat.ltb 2 (num_players c)).
    - apply move_action_option in Hk. destruct Hk as [Hk|Hk]; [|exact Hk]. cbn in Hk.
      rewrite nth_repeat in Hk. discriminate.
    - cbn in Hk. rewrite nth_repeat in Hk. discriminate. }
  assert (OL2 : List.length (street_option s2) = num_players c).
  { unfold s2. destruct (Nat.ltb 2 (num_players c)); [rewrite move_action_option_length|]; apply repeat_length. }
  assert (T2 : exists start, action s2 = Some start /\ (start < num_players c)%nat /\ nth start act false = true /\
     (if Nat.ltb 2 (num_players c) then next_in_hand (num_players c) act b start else start = b)).
  { unfold s2. destruct (Nat.ltb 2 (num_players c)) eqn:E2; [apply Nat.ltb_lt in E2|apply Nat.ltb_ge in E2].
    - destruct (move_action_turn c s1 b j eq_refl Hb Hj Ej) as (a & A1 & A2 & A3 & A4). exists a. auto.
    - exists b. split; [reflexivity|]. split; [exact Hb|]. split; [|reflexivity].
      pose proof (cw_two _ W). apply (count_true_two_seats act); lia. }
  destruct T2 as (start & T2 & Hst & Est & Nst).
  destruct S2 as (P1 & P2 & P3 & P4 & P5 & P6 & P7 & P8 & P9 & P10 & P11 & P12 & P13).
  destruct (collect_spec c s2 (antes c) false start) as (ante & CA).
  { unfold act_idx. now rewrite T2. } { exact Hst. } { rewrite P10; exact Ls. } { rewrite P1; exact La. } { apply W. }
  set (s3 := collect_multiple_bets c s2 (antes c) false) in *.
  destruct CA as [CA1 CA2 CA3 CA4 CA5 CA6 CA7 (CA8 & CA9 & CA10 & CA11 & CA12 & CA13 & CA14 & CA15 & CA16 & CA17)].
  assert (Ls3 : List.length (stacks s3) = num_players c).
  { rewrite CA6, P10. apply sub_lists_length; [exact Ls|exact CA1]. }
  destruct (collect_spec c s3 (blinds c) true start) as (blind & CB).
  { unfold act_idx. now rewrite CA8, T2. } { exact Hst. } { exact Ls3. } { rewrite CA3, P1; exact La. } { apply W. }
  set (s4 := collect_multiple_bets c s3 (blinds c) true) in *.
  destruct CB as [CB1 CB2 CB3 CB4 CB5 CB6 CB7 (CB8 & CB9 & CB10 & CB11 & CB12 & CB13 & CB14 & CB15 & CB16 & CB17)].
  assert (A4 : active s4 = act) by (rewrite CB3, CA3, P1; reflexivity).
  destruct (move_action_turn c s4 start j) as (t1 & U1 & U2 & U3 & U4).
  { unfold act_idx. now rewrite CB8, CA8, T2. } { exact Hst. } { exact Hj. } { rewrite A4; exact Ej. }
  destruct (move_action_same c s4) as (Q1 & Q2 & Q3 & Q4 & Q5 & Q6 & Q7 & Q8 & Q9 & Q10 & Q11 & Q12 & Q13).
  set (s5 := move_action c s4) in *.
  destruct (move_action_turn c s5 t1 j) as (t2 & V1 & V2 & V3 & V4).
  { unfold act_idx. now rewrite U1. } { exact U2. } { exact Hj. } { rewrite Q1, A4; exact Ej. }
  destruct (move_action_same c s5) as (R1 & R2 & R3 & R4 & R5 & R6 & R7 & R8 & R9 & R10 & R11 & R12 & R13).
  set (s6 := move_action c s5) in *.
  assert (A6 : active s6 = act) by (rewrite R1, Q1; exact A4).
  assert (Hst6 : street s6 = O) by (rewrite R11, Q11, CB15, CA15, P11; reflexivity).
  assert (Hh6 : hole_cards s6 = holes) by (rewrite R6, Q6, CB13, CA13, P6; reflexivity).
  cbn [snd fst].
  split.
  { unfold observation. destruct (bet_sizes_ok c s6 W ltac:(lia)) as (((x & y) & z) & ->). cbn [bind].
    rewrite V1. unfold get. rewrite Hh6.
    destruct (nth_error holes t2) eqn:En; [reflexivity|]. apply nth_error_None in En. lia. }
  assert (Hstk : forall i, (i < num_players c)%nat -> nth i stk 0 = if rs then start_stack c else nth i (stacks s) 0).
  { intros i Hi. unfold reset_active in ER. destruct rs; injection ER as <- <-; [now apply nth_repeat_lt|reflexivity]. }
  split.
  - rewrite A6. unfold reset_active in ER. destruct rs; now injection ER as <- <-.
  - now rewrite A6.
  - now rewrite R2, Q2, CB9, CA9, P2.
  - rewrite R3, Q3, CB10, CA10, P3. unfold s1; cbn [community_cards]. now rewrite (comm_total_0 c cc rest Ecc).
  - now rewrite Hh6.
  - rewrite Hh6, Ch. now rewrite (comm_total_0 c cc rest Ecc).
  - intros i Hi. rewrite Hh6, Nh by exact Hi. rewrite (comm_total_0 c cc rest Ecc), skipn_skipn_comp. reflexivity.
  - rewrite R4, Q4, CB11, CA11, P4. unfold s1. cbn [the_deck]. rewrite Dh, skipn_skipn_comp.
    now rewrite (comm_total_0 c cc rest Ecc).
  - now rewrite R5, Q5, CB12, CA12, P5.
  - now rewrite R7, Q7, CB14, CA14, P7.
  - exact Hst6.
  - now rewrite R13, Q13, CB17, CA17, P13.
  - unfold s6, s5. rewrite !move_action_option_length, CB16, CA16. exact OL2.
  - intros k Hk. rewrite A6. apply move_action_option in Hk. rewrite Q1, A4 in Hk. destruct Hk as [Hk|Hk]; [|exact Hk].
    apply move_action_option in Hk. rewrite A4 in Hk. destruct Hk as [Hk|Hk]; [|exact Hk].
    rewrite CB16, CA16 in Hk. now apply O2.
  - exists t2. rewrite A6. rewrite Q1, A4 in V3. auto.
  - exists start, ante, blind. rewrite A6.
    assert (B6 : button s6 = b) by (now rewrite R2, Q2, CB9, CA9, P2).
    rewrite B6. rewrite A4 in U4. rewrite Q1, A4 in V4.
    split; [exact Hst|]. split; [exact Est|]. split; [exact Nst|].
    split; [exists t1; split; [exact U4|]; split; [exact U2|]; exists t2; auto|].
    split; [exact CA1|]. split; [exact CB1|]. split.
    { intros i Hi. rewrite <- Hstk by exact Hi. 
      pose proof (CA2 i Hi) as Ea. pose proof (CB2 i Hi) as Eb. rewrite P10, P1 in Ea. cbn [stacks active s1] in Ea.
      rewrite CA3, P1, CA6, P10 in Eb. cbn [stacks active s1] in Eb. rewrite sub_lists_nth in Eb by lia.
      split; [exact Ea|]. split; [exact Eb|].
      rewrite R10, Q10, CB6, sub_lists_nth by lia. rewrite CA6, P10. cbn [stacks s1]. rewrite sub_lists_nth by lia. lia. }
    split.
    { rewrite R9, Q9, CB5, CA5, P9. cbn [pot_commits s1]. apply nth_ext_Z.
      - rewrite (add_lists_length _ _ (num_players c)); [|apply add_lists_length; [apply repeat_length|exact CA1]|exact CB1].
        now rewrite (add_lists_length _ _ (num_players c)).
      - intros i Hi. rewrite add_lists_nth by (rewrite (add_lists_length _ _ (num_players c)); [lia|apply repeat_length|exact CA1]).
        rewrite !add_lists_nth by (rewrite ?repeat_length; lia). rewrite nth_repeat. lia. }
    split.
    { rewrite R12, Q12, CB7, CA7, P12. cbn [street_commits s1]. apply nth_ext_Z.
      - rewrite (add_lists_length _ _ (num_players c)); [now rewrite CB1|apply repeat_length|exact CB1].
      - intros i Hi. rewrite add_lists_nth by (rewrite repeat_length; lia). rewrite nth_repeat. lia. }
    rewrite R8, Q8, CB4, CA4, P8. cbn [pot s1]. lia.
  - rewrite R10, Q10, CB6. apply sub_lists_length; [exact Ls3|exact CB1].
Qed.

Lemma reset_wf c s rnd rb rs : cfg_wf c -> wf c s ->
  action s = None \/ is_ok (snd (reset c s rnd rb rs)) = true -> wf c (fst (reset c s rnd rb rs)).
Proof.
  intros W I H.
  destruct (reset_spec c s rnd rb rs W I) as [(E1 & E2 & E3)|[(E1 & E2)|(E1 & E2 & E3 & E)]].
  - destruct H as [H|H]; [|rewrite E3 in H; discriminate]. unfold reset in *. subst rs. cbn [reset_active fst] in *.
    replace (negb false && (count_true (map (fun x => 0 <? x) (stacks s)) <=? 1)) with true by (cbn [negb andb]; lia).
    destruct I. split; cbn; try assumption; try congruence. now rewrite map_length.
  - destruct H as [H|H]; [|rewrite E2 in H; discriminate]. unfold reset in *.
    assert (Ecc : num_community_cards c = []) by (apply length_zero_iff_nil; rewrite (cw_comm _ W); exact E1).
    destruct (reset_active c s rs) as [act stk] eqn:ER.
    assert (La : List.length act = num_players c /\ List.length stk = num_players c).
    { unfold reset_active in ER. destruct rs; injection ER as <- <-; rewrite ?repeat_length, ?map_length; split; try reflexivity; apply I. }
    destruct La as [La Ls]. destruct (negb rs && _).
    + destruct I. split; cbn; try assumption; try congruence.
    + rewrite Ecc. destruct I. split; cbn; try assumption; try congruence.
      destruct rb; [lia|]. apply Nat.mod_upper_bound. lia.
  - destruct E. set (s' := fst (reset c s rnd rb rs)) in *.
    destruct re_money0 as (start & ante & blind & M1 & M2 & M3 & M4 & M5 & M6 & M7 & M8 & M9 & M10).
    assert (La : List.length (active s') = num_players c).
    { rewrite re_active0. destruct rs; rewrite ?repeat_length, ?map_length; [reflexivity|apply I]. }
    split; try assumption.
    + rewrite M8. now apply add_lists_length.
    + now rewrite M9.
    + rewrite re_button0. pose proof (cw_two _ W). destruct rb; [lia|]. apply Nat.mod_upper_bound. lia.
    + intros a Ha. destruct re_turn0 as (a' & T1 & T2 & T3). rewrite T1 in Ha. injection Ha as <-. auto.
    + intros _. exact re_hole_len0.
    + intros _. rewrite M8, M10, add_lists_sum by congruence. reflexivity.
    + intros _. exact re_two0.
Qed.

Lemma reachable_cfg c s : reachable c s -> cfg_wf c.
Proof. induction 1; [eapply built_cfg_wf; eauto|assumption]. Qed.
Lemma reachable_wf c s : reachable c s -> wf c s.
Proof.
  intros R. pose proof (reachable_cfg c s R) as W. induction R as [w rnd s H|s o R IH Ho]; [eapply built_wf; eauto|].
  destruct o as [rnd rb rs|b|cs| |l]; cbn [apply_op allowed] in *.
  - now apply reset_wf.
  - now apply step_wf.
  - destruct (deck_trick cs (the_deck s)); [|exact IH]. destruct IH; split; assumption.
  - destruct IH; split; assumption.
  - destruct IH; split; try assumption.
Qed.
