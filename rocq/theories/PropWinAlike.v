(** * PropWinAlike: C103, win probabilities tell nothing about the order of the deck *)
From Coq Require Import ZifyBool ZifyNat Arith Permutation.
From Verif Require Import PyBase PyFacts CardModel CardSpec CardProofs EvalModel EvalSpec PropEval EngineModel EngineSpec EngineFacts BetFacts MoneyFacts EngineDemo HandEnd PropBetting PropRound PropHidden
  NumpyModel NumpySpec NumpyFacts PropNumpy PropNumpyHidden PropAlike EvalCount PropWin.

(** ** Specification *)
(** two tables with the same players in the hand and corresponding cards: in the hands, on the table and
    in the deck, in any order *)
Record same_chances (p : nat -> nat) (s t : state) : Prop := mkChances {
  sc_active : active t = active s;
  sc_board : hand_like p (community_cards s) (community_cards t);
  sc_hands : Forall2 (hand_like p) (hole_cards s) (hole_cards t);
  sc_deck : hand_like p (d_cards (the_deck s)) (d_cards (the_deck t))
}.

(** ** Choosing cards from a deck *)
Lemma combs_perm {A B} : forall (l m : list A), Permutation l m -> forall k (f : list A -> B), (forall x y, Permutation x y -> f x = f y) ->
  Permutation (map f (combs k l)) (map f (combs k m)).
Proof.
  intros l m P. induction P as [|x l m P IH|x y l|l m n P1 IH1 P2 IH2]; intros k f F.
  - reflexivity.
  - destruct k as [|k]; [reflexivity|]. cbn [combs]. rewrite !map_app, !map_map. apply Permutation_app; [|now apply IH].
    apply (IH k (fun z => f (x :: z))). intros u v H. apply F. now constructor.
  - destruct k as [|[|k]]; [reflexivity| |].
    + cbn [combs]. rewrite combs_0. destruct l; cbn [map app combs]; apply perm_swap.
    + cbn [combs]. rewrite !map_app, !map_map. rewrite (map_ext (fun z => f (y :: x :: z)) (fun z => f (x :: y :: z))) by (intros z; apply F; constructor).
      rewrite !app_assoc. apply Permutation_app_tail. rewrite <- !app_assoc. apply Permutation_app_head. apply Permutation_app_comm.
  - exact (Permutation_trans (IH1 k f F) (IH2 k f F)).
Qed.
Lemma combs_forall2 {A B} (R : A -> B -> Prop) : forall l m, Forall2 R l m -> forall k, Forall2 (Forall2 R) (combs k l) (combs k m).
Proof.
  induction 1 as [|x y l m Hx H IH]; intros [|k]; cbn [combs]; [repeat constructor|constructor|repeat constructor|].
  apply Forall2_app; [|apply IH]. specialize (IH k). clear - Hx IH. induction IH; cbn [map]; constructor; [now constructor|assumption].
Qed.
Lemma forall2_map {A B C} (R : A -> B -> Prop) (f : A -> C) (g : B -> C) l m : (forall x y, R x y -> f x = g y) -> Forall2 R l m -> map f l = map g m.
Proof. intros H. induction 1; cbn [map]; [reflexivity|]. f_equal; auto. Qed.

(** ** Counting *)
Definition count_one (won : list Z) (r : result (list Z)) : result (list Z) := let* hs := r in Ok (add_lists won (map (fun h => b2z (h =? minZ hs)) hs)).
Lemma add_lists_swap : forall a u v, add_lists (add_lists a u) v = add_lists (add_lists a v) u.
Proof.
  unfold add_lists. induction a as [|x a IH]; intros [|y u] [|z v]; cbn [combine map fst snd]; try reflexivity. f_equal; [lia|apply IH].
Qed.
Lemma fold_count {X} (f : X -> result (list Z)) l : forall won, fold_res (fun won extra => let* hs := f extra in Ok (add_lists won (map (fun h => b2z (h =? minZ hs)) hs))) l won = fold_res count_one (map f l) won.
Proof. induction l as [|x l IH]; intros won; [reflexivity|]. cbn [fold_res map]. unfold count_one at 1. destruct (f x); cbn [bind]; [apply IH|reflexivity]. Qed.
Lemma count_perm l m : Permutation l m -> forall won r, fold_res count_one l won = Ok r -> fold_res count_one m won = Ok r.
Proof.
  induction 1 as [|x l m P IH|x y l|l m n P1 IH1 P2 IH2]; intros won r H.
  - exact H.
  - cbn [fold_res] in *. destruct (count_one won x); [cbn [bind] in *; now apply IH|discriminate H].
  - cbn [fold_res] in *. unfold count_one at 1 2 in H. unfold count_one at 1 2. destruct y as [u|]; [|discriminate H]. cbn [bind] in *. destruct x as [v|]; [|discriminate H]. cbn [bind] in *.
    rewrite add_lists_swap. exact H.
  - apply IH2. now apply IH1.
Qed.
Lemma same_eval c p s t x y : rules_of c -> suit_renaming p -> same_chances p s t -> hand_like p x y ->
  eval_hands c (active t) (hole_cards t) (community_cards t ++ y) = eval_hands c (active s) (hole_cards s) (community_cards s ++ x).
Proof.
  intros (ns & nr & nc & m & low & order & E) Hp [A1 A2 A3 _] H. rewrite A1. pose proof (hand_like_app p _ _ _ _ A2 H) as B.
  unfold eval_hands. induction (seq 0 (num_players c)) as [|j l IH]; [reflexivity|]. cbn [map_res]. rewrite IH. clear IH.
  destruct (nth j (active s) false); [|reflexivity]. unfold get. pose proof (Forall2_nth_error _ _ _ A3 j) as X.
  destruct (nth_error (hole_cards s) j); destruct (nth_error (hole_cards t) j); [|destruct X|destruct X|reflexivity]. cbn [bind]. now rewrite (like_evaluate _ _ _ _ _ _ _ p _ _ _ _ E Hp X B).
Qed.
Lemma eval_perm c act h b x y : rules_of c -> Permutation x y -> eval_hands c act h (b ++ x) = eval_hands c act h (b ++ y).
Proof.
  intros (ns & nr & nc & m & low & order & E) P. unfold eval_hands. induction (seq 0 (num_players c)) as [|j l IH]; [reflexivity|]. cbn [map_res]. rewrite IH. clear IH.
  destruct (nth j act false); [|reflexivity]. unfold get. destruct (nth_error h j) as [u|]; [|reflexivity]. cbn [bind].
  now rewrite (C12_order_irrelevant _ _ _ _ _ _ _ u u (b ++ x) (b ++ y) E (Permutation_refl u) (Permutation_app_head b P)).
Qed.
Lemma hand_like_length p x y : hand_like p x y -> List.length y = List.length x.
Proof. intros (h & H & P). rewrite <- (Permutation_length P). clear P. induction H; cbn [List.length]; congruence. Qed.
Lemma chances_perm c p s t k : rules_of c -> suit_renaming p -> same_chances p s t ->
  Permutation (map (fun x => eval_hands c (active s) (hole_cards s) (community_cards s ++ x)) (combs k (d_cards (the_deck s))))
              (map (fun x => eval_hands c (active t) (hole_cards t) (community_cards t ++ x)) (combs k (d_cards (the_deck t)))).
Proof.
  intros E Hp S. destruct (sc_deck _ _ _ S) as (h & H & P).
  rewrite (forall2_map (Forall2 (recoloured p)) _ (fun x => eval_hands c (active t) (hole_cards t) (community_cards t ++ x)) (combs k (d_cards (the_deck s))) (combs k h)).
  - apply (combs_perm _ _ P). intros x y Q. now apply eval_perm.
  - intros x y Q. symmetry. apply (same_eval c p); try assumption. now apply like_same.
  - now apply combs_forall2.
Qed.

(** ** C103 Win probabilities depend only on which cards are where *)
Theorem C103_list : forall c s t p ps, reachable c s -> suit_renaming p -> same_chances p s t ->
  win_probabilities c s = Ok ps -> win_probabilities c t = Ok ps.
Proof.
  intros c s t p ps R Hp S. pose proof (reachable_evaluator c s R) as E. clear R. unfold win_probabilities, win_counts. rewrite (hand_like_length p _ _ (sc_board _ _ _ S)).
  unfold combinations. destruct (_ <? 0); [intros H; discriminate H|]. cbn [bind]. set (k := Z.to_nat _). clearbody k.
  rewrite !(fold_count (fun x => eval_hands c _ _ (_ ++ x))). pose proof (chances_perm c p s t k E Hp S) as P.
  destruct (fold_res count_one (map _ (combs k (d_cards (the_deck s)))) (repeat 0 (num_players c))) as [won|] eqn:W; [|intros H; discriminate H].
  rewrite (count_perm _ _ P _ _ W). intros H. exact H.
Qed.
Print Assumptions C103_list.

(** *** The array engine, whose random completions of the board, if it needs them, correspond *)
Lemma map_res_perm {X Y} (f : X -> result (list Z)) (g : Y -> result (list Z)) l m hs : Permutation (map f l) (map g m) -> map_res f l = Ok hs ->
  exists hs', map_res g m = Ok hs' /\ Permutation hs hs'.
Proof.
  intros P H.
  assert (F : map f l = map (@Ok (list Z)) hs).
  { clear P. revert hs H. induction l as [|x l IH]; intros hs H; cbn [map_res] in H.
    - injection H as <-. reflexivity.
    - destruct (f x) eqn:Ex; [|discriminate H]. cbn [bind] in H. destruct (map_res f l) as [r|]; [|discriminate H]. cbn [bind] in H. injection H as <-. cbn [map]. now rewrite Ex, (IH r eq_refl). }
  rewrite F in P. symmetry in P. destruct (Permutation_map_inv _ _ P) as (hs' & G & Q). exists hs'. split; [|exact Q].
  clear - G. revert hs' G. induction m as [|y m IH]; intros [|a hs'] G; cbn [map] in G; try discriminate G; [reflexivity|].
  injection G as G1 G2. cbn [map_res]. now rewrite G1, (IH _ G2).
Qed.
Lemma count_fold_perm l m : Permutation l m -> forall won, fold_left (fun won hs => add_lists won (map (fun h => b2z (h =? minZ hs)) hs)) l won = fold_left (fun won hs => add_lists won (map (fun h => b2z (h =? minZ hs)) hs)) m won.
Proof.
  induction 1 as [|x l m P IH|x y l|l m n P1 IH1 P2 IH2]; intros won; cbn [fold_left]; [reflexivity|apply IH|now rewrite add_lists_swap|now rewrite IH1].
Qed.
Lemma Forall2_firstn' {A B} (R : A -> B -> Prop) l m : Forall2 R l m -> forall n, Forall2 R (firstn n l) (firstn n m).
Proof. induction 1; intros [|n]; cbn [firstn]; constructor; auto. Qed.
Theorem C103_array : forall c s t p n samples samples' ps, np_fair c s -> suit_renaming p -> same_chances p s t -> Forall2 (hand_like p) samples samples' ->
  np_win_probabilities c s n samples = Ok ps -> np_win_probabilities c t n samples' = Ok ps.
Proof.
  intros c s t p n samples samples' ps R Hp S F. assert (E : rules_of c).
  { clear S. induction R as [w rnd s H|]; [|assumption]. pose proof (bd_eval _ _ _ _ (Dealer_inv _ _ _ _ H)) as E. do 6 eexists. exact E. }
  clear R. unfold np_win_probabilities.
  rewrite (hand_like_length p _ _ (sc_board _ _ _ S)), (hand_like_length p _ _ (sc_deck _ _ _ S)).
  set (missing := sumZ _ - _). clearbody missing. set (num := ncr _ missing). clearbody num.
  set (m := if num <? 1000 then num else n). clearbody m.
  set (L := if num <? 1000 then combinations (d_cards (the_deck s)) missing else _). set (L' := if num <? 1000 then combinations (d_cards (the_deck t)) missing else _).
  assert (P : match L, L' with
              | Ok l, Ok l' => Permutation (map (fun x => eval_hands c (active s) (hole_cards s) (community_cards s ++ x)) l) (map (fun x => eval_hands c (active t) (hole_cards t) (community_cards t ++ x)) l')
              | Err _, _ => True | _, _ => False end).
  { subst L L'. destruct (num <? 1000).
    - unfold combinations. destruct (missing <? 0); [exact I|]. now apply (chances_perm c p).
    - rewrite (forall2_map (hand_like p) _ (fun x => eval_hands c (active t) (hole_cards t) (community_cards t ++ x)) (firstn (Z.to_nat n) samples) (firstn (Z.to_nat n) samples')); [reflexivity| |now apply Forall2_firstn'].
      intros x y Q. symmetry. now apply (same_eval c p). }
  destruct L as [l|]; [|intros H; discriminate H]. destruct L' as [l'|]; [|destruct P]. cbn [bind].
  destruct (map_res _ l) as [hs|] eqn:H; [|intros X; discriminate X]. destruct (map_res_perm _ _ _ _ _ P H) as (hs' & H' & Q). rewrite H'. cbn [bind].
  rewrite (Permutation_length Q), (count_fold_perm _ _ Q). intros X. exact X.
Qed.
Print Assumptions C103_array.

(** *** Two shuffles that deal the same hands and leave the next two cards of the deck in different order *)
Definition swap_two (l : list card) : list card := match l with x :: y :: r => y :: x :: r | _ => l end.
Lemma swap_two_perm l : Permutation (swap_two l) l.
Proof. destruct l as [|x [|y r]]; [reflexivity|reflexivity|constructor]. Qed.
Definition same_suit (j : nat) : nat := j.
Lemma same_suit_renaming : suit_renaming same_suit.
Proof. split; unfold same_suit; lia. Qed.
Definition same_chancesb (s t : state) : bool := hand_likeb same_suit (community_cards s) (community_cards t) &&
  forall2b (hand_likeb same_suit) (hole_cards s) (hole_cards t) && forall2b (recolouredb same_suit) (d_cards (the_deck s)) (swap_two (d_cards (the_deck t))).
Lemma chances_check s t : active t = active s -> same_chancesb s t = true -> same_chances same_suit s t.
Proof.
  intros A H. apply andb_prop in H. destruct H as [H H3]. apply andb_prop in H. destruct H as [H1 H2]. split; [exact A|now apply hand_likeb_spec|exact (forall2b_spec _ _ (hand_likeb_spec _) _ _ H2)|].
  exists (swap_two (d_cards (the_deck t))). split; [exact (forall2b_spec _ _ (recolouredb_spec _) _ _ H3)|apply swap_two_perm].
Qed.
Definition shuffle_1 := OReset [4; 4; 3; 2; 0; 1; 0]%nat true true :: bets [-1].
Definition shuffle_2 := OReset [3; 4; 3; 2; 0; 1; 0]%nat true true :: bets [-1].
Example C103_example : exists c s t, reachable c s /\ reachable c t /\ suit_renaming same_suit /\ same_chances same_suit s t /\
  d_cards (the_deck s) <> d_cards (the_deck t) /\ win_probabilities c s = Ok [(0, 10); (7, 10); (3, 10)].
Proof.
  assert (K : exists c s0, fair c s0 /\
    let s := run c s0 shuffle_1 in let t := run c s0 shuffle_2 in
    (all_allowed c s0 shuffle_1 = true /\ all_allowed c s0 shuffle_2 = true) /\
    (active s = [false; true; true] /\ active t = [false; true; true] /\ same_chancesb s t = true) /\
    (list_card_eqb (d_cards (the_deck s)) (d_cards (the_deck s)) = true /\ list_card_eqb (d_cards (the_deck s)) (d_cards (the_deck t)) = false /\ win_probabilities c s = Ok [(0, 10); (7, 10); (3, 10)])).
  { play win_game (@nil op) c s0 E. split; [exact (played_fair _ _ _ _ E)|]. cbv zeta. plays E. }
  destruct K as (c & s0 & F & (A1 & A2) & (B1 & B2 & B3) & (C0 & C1 & C2)). cbv zeta in *.
  exists c, (run c s0 shuffle_1), (run c s0 shuffle_2).
  split; [apply fair_reachable, fair_run; [exact F|exact A1|reflexivity]|]. split; [apply fair_reachable, fair_run; [exact F|exact A2|reflexivity]|].
  split; [exact same_suit_renaming|]. split; [apply chances_check; [now rewrite B1, B2|exact B3]|]. split; [|exact C2].
  intros D. rewrite <- D, C0 in C1. discriminate C1.
Qed.
Example C103_array_example : exists c s t, np_fair c s /\ np_fair c t /\ suit_renaming same_suit /\ same_chances same_suit s t /\
  d_cards (the_deck s) <> d_cards (the_deck t) /\ np_win_probabilities c s 10000 [] = Ok [(0, 10); (7, 10); (3, 10)].
Proof.
  assert (K : exists c s0, np_fair c s0 /\
    let s := np_run c s0 shuffle_1 in let t := np_run c s0 shuffle_2 in
    (np_all_allowed c s0 shuffle_1 = true /\ np_all_allowed c s0 shuffle_2 = true) /\
    (active s = [false; true; true] /\ active t = [false; true; true] /\ same_chancesb s t = true) /\
    (list_card_eqb (d_cards (the_deck s)) (d_cards (the_deck s)) = true /\ list_card_eqb (d_cards (the_deck s)) (d_cards (the_deck t)) = false /\ np_win_probabilities c s 10000 [] = Ok [(0, 10); (7, 10); (3, 10)])).
  { np_play win_game (@nil op) c s0 E. split; [exact (np_played_fair _ _ _ _ E)|]. cbv zeta. np_plays E. }
  destruct K as (c & s0 & F & (A1 & A2) & (B1 & B2 & B3) & (C0 & C1 & C2)). cbv zeta in *.
  exists c, (np_run c s0 shuffle_1), (np_run c s0 shuffle_2).
  split; [apply np_fair_run; [exact F|exact A1]|]. split; [apply np_fair_run; [exact F|exact A2]|].
  split; [exact same_suit_renaming|]. split; [apply chances_check; [now rewrite B1, B2|exact B3]|]. split; [|exact C2].
  intros D. rewrite <- D, C0 in C1. discriminate C1.
Qed.
