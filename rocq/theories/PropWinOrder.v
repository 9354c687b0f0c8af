(** * PropWinOrder: C104, a better hand has the better chances *)
From Coq Require Import ZifyBool ZifyNat Arith.
From Verif Require Import PyBase PyFacts CardModel EvalModel EvalSpec EvalCount EvalFinal EngineModel EngineSpec EngineFacts BetFacts EngineDemo MoneyFacts PropBetting PropRound ShowSpec HandEnd PropWin
  NumpyModel NumpySpec NumpyFacts PropNumpy PropNumpyWin.

(** ** Specification *)
(** undealt cards that complete the board *)
Definition completes (c : config) (s : state) (x : list card) : Prop :=
  sublist x (d_cards (the_deck s)) /\ Z.of_nat (List.length (community_cards s) + List.length x) = sumZ (num_community_cards c).
(** with the board completed by [x], the hand of seat [i] is at least as good as, or better than, that of seat [j] *)
Definition as_good (c : config) (s : state) (x : list card) (i j : nat) : Prop :=
  exists v w, evaluate (the_evaluator c) (nth i (hole_cards s) []) (community_cards s ++ x) = Ok v /\
              evaluate (the_evaluator c) (nth j (hole_cards s) []) (community_cards s ++ x) = Ok w /\ v <= w.
Definition better (c : config) (s : state) (x : list card) (i j : nat) : Prop :=
  exists v w, evaluate (the_evaluator c) (nth i (hole_cards s) []) (community_cards s ++ x) = Ok v /\
              evaluate (the_evaluator c) (nth j (hole_cards s) []) (community_cards s ++ x) = Ok w /\ v < w.

(** ** Counting *)
Lemma filter_length_le {A} (f g : A -> bool) l : (forall x, In x l -> f x = true -> g x = true) -> (List.length (filter f l) <= List.length (filter g l))%nat.
Proof.
  induction l as [|x l IH]; intros H; [cbn; lia|]. cbn [filter]. assert (IH' := IH (fun y Hy => H y (or_intror Hy))). specialize (H x (or_introl eq_refl)).
  destruct (f x), (g x); cbn [List.length]; lia.
Qed.
Lemma filter_none {A} (f : A -> bool) l : (forall x, In x l -> f x = false) -> filter f l = [].
Proof. induction l as [|x l IH]; intros H; [reflexivity|]. cbn [filter]. rewrite (H x (or_introl eq_refl)). apply IH. intros y Hy. apply H. now right. Qed.
Lemma sum_single : forall l i, (i < List.length l)%nat -> (forall j, (j < List.length l)%nat -> j <> i -> nth j l 0 = 0) -> sumZ l = nth i l 0.
Proof.
  induction l as [|x l IH]; intros i Hi H; [cbn in Hi; lia|]. cbn [List.length] in *. destruct i as [|i].
  - cbn [nth]. assert (Z : sumZ l = 0).
    { clear IH Hi. assert (G : forall j, (j < List.length l)%nat -> nth j l 0 = 0) by (intros j Hj; apply (H (S j)); lia). clear H. induction l as [|y l IH]; [reflexivity|].
      rewrite sumZ_cons. assert (y = 0) by (apply (G 0%nat); cbn; lia). rewrite IH; [lia|]. intros j Hj. apply (G (S j)). cbn. lia. }
    rewrite sumZ_cons. lia.
  - rewrite sumZ_cons. assert (x = 0) by (apply (H 0%nat); lia). cbn [nth]. rewrite (IH i); [lia|lia|]. intros j Hj Hn. apply (H (S j)); lia.
Qed.
Lemma as_good_best c s x i j : is_active s i -> as_good c s x i j -> among_best c s (community_cards s ++ x) j = true -> among_best c s (community_cards s ++ x) i = true.
Proof.
  intros Ai (v & w & Ev & Ew & H). unfold among_best. intros B. apply andb_prop in B. destruct B as [_ B]. unfold is_active in Ai. rewrite Ai. cbn [andb].
  rewrite forallb_forall in B. apply forallb_forall. intros k Hk. specialize (B k Hk). destruct (nth k (active s) false); [|reflexivity]. cbn [negb orb] in *.
  unfold rank_with in *. rewrite Ev. rewrite Ew in B. lia.
Qed.
Lemma better_not_best c s x i k : (k < num_players c)%nat -> is_active s k -> better c s x k i -> among_best c s (community_cards s ++ x) i = false.
Proof.
  intros Hk Ak (v & w & Ev & Ew & H). destruct (among_best c s (community_cards s ++ x) i) eqn:B; [|reflexivity]. unfold among_best in B. apply andb_prop in B. destruct B as [_ B].
  rewrite forallb_forall in B. specialize (B k ltac:(apply in_seq; lia)). unfold is_active in Ak. rewrite Ak in B. cbn [negb orb] in B. unfold rank_with in B. rewrite Ev, Ew in B. lia.
Qed.
(** what both dealers' numbers have in common *)
Definition counted (c : config) (s : state) (l : list (list card)) (total : Z) (ps : list (Z * Z)) : Prop :=
  0 < total /\ List.length ps = num_players c /\ sumZ (map fst ps) = total /\
  forall i, (i < num_players c)%nat ->
    nth i ps (0, 0) = (Z.of_nat (List.length (filter (fun x => among_best c s (community_cards s ++ x) i) l)), total) /\
    (~ is_active s i -> fst (nth i ps (0, 0)) = 0).
Lemma counted_order c s l total ps i j : counted c s l total ps -> (i < num_players c)%nat -> (j < num_players c)%nat -> is_active s i ->
  (forall x, In x l -> as_good c s x i j) -> fst (nth j ps (0, 0)) <= fst (nth i ps (0, 0)) /\ snd (nth j ps (0, 0)) = snd (nth i ps (0, 0)).
Proof.
  intros (_ & _ & _ & N) Hi Hj Ai H. destruct (N i Hi) as [-> _]. destruct (N j Hj) as [-> _]. cbn [fst snd]. split; [|reflexivity]. apply inj_le. apply filter_length_le.
  intros x Hx. exact (as_good_best c s x i j Ai (H x Hx)).
Qed.
Lemma counted_dead c s l total ps i : counted c s l total ps -> (i < num_players c)%nat ->
  (forall x, In x l -> exists k, (k < num_players c)%nat /\ is_active s k /\ better c s x k i) -> fst (nth i ps (0, 0)) = 0.
Proof.
  intros (_ & _ & _ & N) Hi H. destruct (N i Hi) as [-> _]. cbn [fst]. rewrite filter_none; [reflexivity|]. intros x Hx. destruct (H x Hx) as (k & Hk & Ak & B). exact (better_not_best c s x i k Hk Ak B).
Qed.
Lemma counted_sure c s l total ps i : counted c s l total ps -> (i < num_players c)%nat -> is_active s i ->
  (forall x j, In x l -> (j < num_players c)%nat -> is_active s j -> j <> i -> better c s x i j) ->
  0 < total /\ nth i ps (0, 0) = (total, total) /\ forall j, (j < num_players c)%nat -> j <> i -> fst (nth j ps (0, 0)) = 0.
Proof.
  intros K Hi Ai H. pose proof K as (T & L & Sm & N).
  assert (Z : forall j, (j < num_players c)%nat -> j <> i -> fst (nth j ps (0, 0)) = 0).
  { intros j Hj Hn. destruct (N j Hj) as [_ N2]. destruct (nth j (active s) false) eqn:Aj; [|apply N2; unfold is_active; rewrite Aj; discriminate].
    apply (counted_dead c s l total ps j K Hj). intros x Hx. exists i. split; [exact Hi|]. split; [exact Ai|]. exact (H x j Hx Hj Aj Hn). }
  split; [exact T|]. split; [|exact Z]. pose proof (sum_single (map fst ps) i ltac:(rewrite map_length; lia)) as Q.
  assert (F : forall j, nth j (map fst ps) 0 = fst (nth j ps (0, 0))) by (intros j; exact (map_nth fst ps (0, 0) j)).
  rewrite Sm, F in Q. destruct (N i Hi) as [E _]. rewrite E in Q |- *. cbn [fst] in Q. rewrite <- Q; [reflexivity|].
  intros j Hj Hn. rewrite F. rewrite map_length in Hj. apply Z; lia.
Qed.

(** ** C104 A better hand has the better chances *)
Theorem C104_order : forall c s ps i j, reachable c s -> List.length (hole_cards s) = num_players c -> (i < num_players c)%nat -> (j < num_players c)%nat -> is_active s i ->
  (forall x, completes c s x -> as_good c s x i j) -> win_probabilities c s = Ok ps ->
  fst (nth j ps (0, 0)) <= fst (nth i ps (0, 0)) /\ snd (nth j ps (0, 0)) = snd (nth i ps (0, 0)).
Proof.
  intros c s ps i j R Lh Hi Hj Ai H E. destruct (C45_probabilities c s ps R Lh (ex_intro _ i (conj Hi Ai)) E) as (l & total & [Cl _] & K).
  apply (counted_order c s l total ps i j K Hi Hj Ai). intros x Hx. apply H. now apply Cl.
Qed.
Print Assumptions C104_order.
(** nobody wins who is beaten on every board *)
Theorem C104_dead : forall c s ps i, reachable c s -> List.length (hole_cards s) = num_players c -> (i < num_players c)%nat -> is_active s i ->
  (forall x, completes c s x -> exists k, (k < num_players c)%nat /\ is_active s k /\ better c s x k i) -> win_probabilities c s = Ok ps ->
  fst (nth i ps (0, 0)) = 0.
Proof.
  intros c s ps i R Lh Hi Ai H E. destruct (C45_probabilities c s ps R Lh (ex_intro _ i (conj Hi Ai)) E) as (l & total & [Cl _] & K).
  apply (counted_dead c s l total ps i K Hi). intros x Hx. apply H. now apply Cl.
Qed.
Print Assumptions C104_dead.
(** a player who beats all others in the hand on every board, or is the only one left, is sure to win *)
Theorem C104_sure : forall c s ps i, reachable c s -> List.length (hole_cards s) = num_players c -> (i < num_players c)%nat -> is_active s i ->
  (forall x j, completes c s x -> (j < num_players c)%nat -> is_active s j -> j <> i -> better c s x i j) -> win_probabilities c s = Ok ps ->
  exists total, 0 < total /\ nth i ps (0, 0) = (total, total) /\ forall j, (j < num_players c)%nat -> j <> i -> fst (nth j ps (0, 0)) = 0.
Proof.
  intros c s ps i R Lh Hi Ai H E. destruct (C45_probabilities c s ps R Lh (ex_intro _ i (conj Hi Ai)) E) as (l & total & [Cl _] & K).
  exists total. apply (counted_sure c s l total ps i K Hi Ai). intros x j Hx. apply H. now apply Cl.
Qed.
Print Assumptions C104_sure.

(** *** The array engine: boards it may look at are the completions and its random boards *)
Definition looked_at (c : config) (s : state) (samples : list (list card)) (x : list card) : Prop := completes c s x \/ In x samples.
Lemma np_counted c s n samples ps i : np_fair c s -> List.length (hole_cards s) = num_players c -> (i < num_players c)%nat -> is_active s i ->
  np_win_probabilities c s n samples = Ok ps -> exists l total, (forall x, In x l -> looked_at c s samples x) /\ counted c s l total ps.
Proof.
  intros R Lh Hi Ai E. destruct (C70_probabilities c s n samples ps R Lh (ex_intro _ i (conj Hi Ai)) E) as (l & total & T & L & Sm & B & N).
  exists l, total. split; [|exact (conj T (conj L (conj Sm N)))]. intros x Hx. destruct B as [(al & [Cl _] & _ & ->)|(al & _ & _ & -> & _)]; [left; now apply Cl|right].
  rewrite <- (firstn_skipn (Z.to_nat n) samples). apply in_or_app. now left.
Qed.
Theorem C104_array_order : forall c s n samples ps i j, np_fair c s -> List.length (hole_cards s) = num_players c -> (i < num_players c)%nat -> (j < num_players c)%nat -> is_active s i ->
  (forall x, looked_at c s samples x -> as_good c s x i j) -> np_win_probabilities c s n samples = Ok ps ->
  fst (nth j ps (0, 0)) <= fst (nth i ps (0, 0)) /\ snd (nth j ps (0, 0)) = snd (nth i ps (0, 0)).
Proof.
  intros c s n samples ps i j R Lh Hi Hj Ai H E. destruct (np_counted c s n samples ps i R Lh Hi Ai E) as (l & total & Cl & K).
  apply (counted_order c s l total ps i j K Hi Hj Ai). intros x Hx. apply H. now apply Cl.
Qed.
Print Assumptions C104_array_order.
Theorem C104_array_dead : forall c s n samples ps i, np_fair c s -> List.length (hole_cards s) = num_players c -> (i < num_players c)%nat -> is_active s i ->
  (forall x, looked_at c s samples x -> exists k, (k < num_players c)%nat /\ is_active s k /\ better c s x k i) -> np_win_probabilities c s n samples = Ok ps ->
  fst (nth i ps (0, 0)) = 0.
Proof.
  intros c s n samples ps i R Lh Hi Ai H E. destruct (np_counted c s n samples ps i R Lh Hi Ai E) as (l & total & Cl & K).
  apply (counted_dead c s l total ps i K Hi). intros x Hx. apply H. now apply Cl.
Qed.
Print Assumptions C104_array_dead.
Theorem C104_array_sure : forall c s n samples ps i, np_fair c s -> List.length (hole_cards s) = num_players c -> (i < num_players c)%nat -> is_active s i ->
  (forall x j, looked_at c s samples x -> (j < num_players c)%nat -> is_active s j -> j <> i -> better c s x i j) -> np_win_probabilities c s n samples = Ok ps ->
  exists total, 0 < total /\ nth i ps (0, 0) = (total, total) /\ forall j, (j < num_players c)%nat -> j <> i -> fst (nth j ps (0, 0)) = 0.
Proof.
  intros c s n samples ps i R Lh Hi Ai H E. destruct (np_counted c s n samples ps i R Lh Hi Ai E) as (l & total & Cl & K).
  exists total. apply (counted_sure c s l total ps i K Hi Ai). intros x j Hx. apply H. now apply Cl.
Qed.
Print Assumptions C104_array_sure.

(** *** In the game of C45 with seat 0 out, seat 1 is as good as seat 2 on all boards; where the one card that counts must
    come from the hand, it is better on all *)
Definition hole_game := mkRaw 3 2 (Listed [1; 2; 0]) (Listed [0; 0; 0]) (Listed [RawInf; RawInf]) (Listed [RawCountInf; RawCountInf])
                              2 5 1 (Listed [0; 1]) 1 1 10 true None.
Definition seat_0_folds := OReset [4; 4; 3; 2; 0; 1; 0]%nat true true :: bets [-1].
Definition comparedb (strict : bool) (c : config) (s : state) (i j : nat) (x : list card) : bool :=
  match evaluate (the_evaluator c) (nth i (hole_cards s) []) (community_cards s ++ x), evaluate (the_evaluator c) (nth j (hole_cards s) []) (community_cards s ++ x) with
  | Ok v, Ok w => if strict then v <? w else v <=? w | _, _ => false end.
Definition all_boards (c : config) (s : state) : list (list card) := combs (Z.to_nat (sumZ (num_community_cards c) - Z.of_nat (List.length (community_cards s)))) (d_cards (the_deck s)).
Lemma completes_in c s x : completes c s x -> In x (all_boards c s).
Proof. intros [H1 H2]. apply combs_sublist. split; [lia|exact H1]. Qed.
Lemma compared_good c s i j : forallb (comparedb false c s i j) (all_boards c s) = true -> forall x, completes c s x -> as_good c s x i j.
Proof.
  intros H x Hx. rewrite forallb_forall in H. specialize (H x (completes_in c s x Hx)). unfold comparedb in H. unfold as_good.
  destruct (evaluate _ (nth i _ _) _) as [v|]; [|discriminate H]. destruct (evaluate _ (nth j _ _) _) as [w|]; [|discriminate H]. exists v, w. splits; [reflexivity|reflexivity|lia].
Qed.
Lemma compared_better c s i j : forallb (comparedb true c s i j) (all_boards c s) = true -> forall x, completes c s x -> better c s x i j.
Proof.
  intros H x Hx. rewrite forallb_forall in H. specialize (H x (completes_in c s x Hx)). unfold comparedb in H. unfold better.
  destruct (evaluate _ (nth i _ _) _) as [v|]; [|discriminate H]. destruct (evaluate _ (nth j _ _) _) as [w|]; [|discriminate H]. exists v, w. splits; [reflexivity|reflexivity|lia].
Qed.
Example C104_example : exists c s, reachable c s /\ List.length (hole_cards s) = num_players c /\ is_active s 1 /\ is_active s 2 /\ num_players c = 3%nat /\
  (forall x, completes c s x -> as_good c s x 1 2) /\ win_probabilities c s = Ok [(0, 10); (7, 10); (3, 10)].
Proof.
  assert (K : exists c s, reachable c s /\ (List.length (hole_cards s) = 3%nat /\ num_players c = 3%nat) /\ active s = [false; true; true] /\
    forallb (comparedb false c s 1 2) (all_boards c s) = true /\ win_probabilities c s = Ok [(0, 10); (7, 10); (3, 10)]).
  { play win_game seat_0_folds c s E. split; [exact (played_reachable _ _ _ _ E)|]. plays E. }
  destruct K as (c & s & R & (K1 & K2) & K3 & K4 & K5). exists c, s. split; [exact R|]. split; [now rewrite K1, K2|]. split; [unfold is_active; now rewrite K3|]. split; [unfold is_active; now rewrite K3|].
  split; [exact K2|]. split; [now apply compared_good|exact K5].
Qed.
Example C104_sure_example : exists c s, reachable c s /\ List.length (hole_cards s) = num_players c /\ is_active s 1 /\ is_active s 2 /\ num_players c = 3%nat /\
  (forall x j, completes c s x -> (j < num_players c)%nat -> is_active s j -> j <> 1%nat -> better c s x 1 j) /\ win_probabilities c s = Ok [(0, 7); (7, 7); (0, 7)].
Proof.
  assert (K : exists c s, reachable c s /\ (List.length (hole_cards s) = 3%nat /\ num_players c = 3%nat) /\ active s = [false; true; true] /\
    forallb (comparedb true c s 1 2) (all_boards c s) = true /\ win_probabilities c s = Ok [(0, 7); (7, 7); (0, 7)]).
  { play hole_game seat_0_folds c s E. split; [exact (played_reachable _ _ _ _ E)|]. plays E. }
  destruct K as (c & s & R & (K1 & K2) & K3 & K4 & K5). exists c, s. split; [exact R|]. split; [now rewrite K1, K2|]. split; [unfold is_active; now rewrite K3|]. split; [unfold is_active; now rewrite K3|].
  split; [exact K2|]. split; [|exact K5]. intros x j Hx Hj Aj Hn. rewrite K2 in Hj. unfold is_active in Aj. rewrite K3 in Aj.
  destruct j as [|[|[|j]]]; [discriminate Aj|lia| |lia]. exact (compared_better c s 1 2 K4 x Hx).
Qed.
Example C104_array_example : exists c s, np_fair c s /\ List.length (hole_cards s) = num_players c /\ is_active s 1 /\ is_active s 2 /\ num_players c = 3%nat /\
  (forall x j, looked_at c s [] x -> (j < num_players c)%nat -> is_active s j -> j <> 1%nat -> better c s x 1 j) /\ np_win_probabilities c s 10000 [] = Ok [(0, 7); (7, 7); (0, 7)].
Proof.
  assert (K : exists c s, np_fair c s /\ (List.length (hole_cards s) = 3%nat /\ num_players c = 3%nat) /\ active s = [false; true; true] /\
    forallb (comparedb true c s 1 2) (all_boards c s) = true /\ np_win_probabilities c s 10000 [] = Ok [(0, 7); (7, 7); (0, 7)]).
  { np_play hole_game seat_0_folds c s E. split; [exact (np_played_fair _ _ _ _ E)|]. np_plays E. }
  destruct K as (c & s & R & (K1 & K2) & K3 & K4 & K5). exists c, s. split; [exact R|]. split; [now rewrite K1, K2|]. split; [unfold is_active; now rewrite K3|]. split; [unfold is_active; now rewrite K3|].
  split; [exact K2|]. split; [|exact K5]. intros x j [Hx|[]] Hj Aj Hn. rewrite K2 in Hj. unfold is_active in Aj. rewrite K3 in Aj.
  destruct j as [|[|[|j]]]; [discriminate Aj|lia| |lia]. exact (compared_better c s 1 2 K4 x Hx).
Qed.
Example C104_dead_example : exists c s, reachable c s /\ List.length (hole_cards s) = num_players c /\ (2 < num_players c)%nat /\ is_active s 2 /\
  (forall x, completes c s x -> exists k, (k < num_players c)%nat /\ is_active s k /\ better c s x k 2) /\ is_ok (win_probabilities c s) = true.
Proof.
  destruct C104_sure_example as (c & s & R & L & A1 & A2 & N & B & W). exists c, s. split; [exact R|]. split; [exact L|]. rewrite N. split; [lia|]. split; [exact A2|]. split; [|now rewrite W].
  intros x Hx. exists 1%nat. split; [lia|]. split; [exact A1|]. apply B; [exact Hx|lia|exact A2|lia].
Qed.
