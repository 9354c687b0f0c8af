(** * PropWin: C45, win probabilities *)
From Coq Require Import ZifyBool ZifyNat Arith.
From Verif Require Import PyBase PyFacts CardModel EvalModel EvalSpec EvalCount EvalFinal EngineModel EngineSpec EngineFacts BetFacts EngineDemo MoneyFacts PropRound ShowSpec HandEnd.

(** the rank of a player's hand with a given board *)
Definition rank_with (c : config) (s : state) (board : list card) (i : nat) : Z :=
  match evaluate (the_evaluator c) (nth i (hole_cards s) []) board with Ok v => v | Err _ => 0 end.
(** the player is in the hand and nobody in the hand has a better (smaller) rank *)
Definition among_best (c : config) (s : state) (board : list card) (i : nat) : bool :=
  nth i (active s) false &&
  forallb (fun j => negb (nth j (active s) false) || (rank_with c s board i <=? rank_with c s board j)) (seq 0 (num_players c)).
(** [l] lists the ways to complete the board with undealt cards *)
Definition completions_of (c : config) (s : state) (l : list (list card)) : Prop :=
  (forall x, In x l <-> sublist x (d_cards (the_deck s)) /\
     Z.of_nat (List.length (community_cards s) + List.length x) = sumZ (num_community_cards c)) /\
  (NoDup (d_cards (the_deck s)) -> NoDup l).

Lemma fold_min_le l : forall m, fold_left Z.min l m <= m /\ forall x, In x l -> fold_left Z.min l m <= x.
Proof.
  induction l as [|y l IH]; intros m; cbn [fold_left]; [split; [lia|intros x []]|]. destruct (IH (Z.min m y)) as [H1 H2].
  split; [lia|]. intros x [<-|Hx]; [lia|now apply H2].
Qed.
Lemma fold_min_in l : forall m, fold_left Z.min l m = m \/ In (fold_left Z.min l m) l.
Proof.
  induction l as [|y l IH]; intros m; cbn [fold_left]; [now left|]. destruct (IH (Z.min m y)) as [H|H]; [|right; now right].
  destruct (Z.min_spec m y) as [[_ E]|[_ E]]; rewrite E in *; [now left|right; left; now symmetry].
Qed.
Lemma minZ_le l i : (i < List.length l)%nat -> minZ l <= nth i l 0.
Proof.
  destruct l as [|x l]; [cbn; lia|]. intros H. unfold minZ. destruct (fold_min_le l x) as [H1 H2].
  destruct i as [|i]; [exact H1|]. apply H2. cbn [nth]. apply nth_In. cbn in H. lia.
Qed.
Lemma minZ_reached l : (0 < List.length l)%nat -> exists i, (i < List.length l)%nat /\ nth i l 0 = minZ l.
Proof.
  destruct l as [|x l]; [cbn; lia|]. intros _. unfold minZ. destruct (fold_min_in l x) as [->|H]; [exists O; cbn; split; [lia|reflexivity]|].
  apply In_nth with (d := 0) in H. destruct H as (i & Hi & E). exists (S i). cbn. split; [lia|exact E].
Qed.
(** among the best, read off the list of strengths *)
Lemma best_strength c s extra hs i : cfg_wf c -> List.length (hole_cards s) = num_players c -> (exists j, (j < num_players c)%nat /\ is_active s j) ->
  eval_hands c (active s) (hole_cards s) (community_cards s ++ extra) = Ok hs -> (i < num_players c)%nat ->
  List.length hs = num_players c /\ (nth i hs 0 =? minZ hs) = among_best c s (community_cards s ++ extra) i.
Proof.
  intros W Lh (j0 & Hj0 & Aj0) H Hi.
  set (z := mkState (action s) (active s) (button s) (community_cards s ++ extra) (the_deck s) (history s) (hole_cards s) (largest_raise s) (pot s)
                    (pot_commits s) (stacks s) (street s) (street_commits s) (street_option s) (street_raises s)).
  destruct (eval_hands_spec c z hs Lh H) as [L S]. split; [exact L|].
  assert (A : forall j, (j < num_players c)%nat -> nth j (active s) false = true -> nth j hs 0 = rank_with c s (community_cards s ++ extra) j /\ nth j hs 0 < worst_hand c).
  { intros j Hj Aj. destruct (S j Hj) as [S1 _]. destruct (S1 Aj) as (S2 & S3 & _). split; [exact S2|exact S3]. }
  assert (B : forall j, (j < num_players c)%nat -> nth j (active s) false = false -> nth j hs 0 = worst_hand c).
  { intros j Hj Aj. destruct (S j Hj) as [_ S2]. now apply S2. }
  pose proof (minZ_le hs j0 ltac:(lia)) as M0. destruct (A j0 Hj0 Aj0) as [_ A0].
  unfold among_best. destruct (nth i (active s) false) eqn:Ai; cbn [andb].
  - destruct (A i Hi Ai) as [E1 E2]. destruct (forallb _ _) eqn:Ef.
    + rewrite forallb_forall in Ef. apply Z.eqb_eq. apply Z.le_antisymm; [|apply minZ_le; lia].
      destruct (minZ_reached hs ltac:(lia)) as (m & Hm & <-). rewrite L in Hm.
      destruct (nth m (active s) false) eqn:Am; [|rewrite (B m Hm Am); lia]. destruct (A m Hm Am) as [-> _]. rewrite E1.
      specialize (Ef m ltac:(apply in_seq; lia)). rewrite Am in Ef. cbn [negb orb] in Ef. lia.
    + apply Z.eqb_neq. intros E. enough (true = false) by discriminate. rewrite <- Ef. symmetry. apply forallb_forall.
      intros m Hm. apply in_seq in Hm. destruct (nth m (active s) false) eqn:Am; [|reflexivity]. cbn [negb orb].
      destruct (A m ltac:(lia) Am) as [Em _]. pose proof (minZ_le hs m ltac:(lia)). lia.
  - apply Z.eqb_neq. rewrite (B i Hi Ai). lia.
Qed.
Lemma win_fold c s l : cfg_wf c -> List.length (hole_cards s) = num_players c -> (exists j, (j < num_players c)%nat /\ is_active s j) ->
  forall won won', List.length won = num_players c ->
  fold_res (fun won extra => let* hs := eval_hands c (active s) (hole_cards s) (community_cards s ++ extra) in
              Ok (add_lists won (map (fun h => b2z (h =? minZ hs)) hs))) l won = Ok won' ->
  List.length won' = num_players c /\ forall i, (i < num_players c)%nat ->
    nth i won' 0 = nth i won 0 + Z.of_nat (List.length (filter (fun x => among_best c s (community_cards s ++ x) i) l)).
Proof.
  intros W Lh A. induction l as [|x l IH]; intros won won' L H; cbn [fold_res] in H.
  - injection H as <-. split; [exact L|]. intros i _. cbn. lia.
  - destruct (eval_hands c (active s) (hole_cards s) (community_cards s ++ x)) as [hs|] eqn:E; [|discriminate]. cbn [bind] in H.
    pose proof (cw_two _ W) as H2. destruct (best_strength c s x hs O W Lh A E ltac:(lia)) as [Ls _].
    assert (Lm : List.length (map (fun h => b2z (h =? minZ hs)) hs) = num_players c) by (rewrite map_length; exact Ls).
    destruct (IH _ won' (add_lists_length _ _ _ L Lm) H) as [L' N]. split; [exact L'|]. intros i Hi. rewrite (N i Hi).
    rewrite add_lists_nth by lia. rewrite (map_nth_lt _ _ _ _ 0) by lia.
    destruct (best_strength c s x hs i W Lh A E Hi) as [_ ->]. cbn [filter].
    destruct (among_best c s (community_cards s ++ x) i); cbn [b2z List.length]; lia.
Qed.
Lemma combs_nodup {A} (l : list A) : NoDup l -> forall n, NoDup (combs n l).
Proof.
  induction 1 as [|x l Hx ND IH]; intros n; [destruct n; cbn; repeat constructor; intros []|].
  destruct n as [|n]; [repeat constructor; intros []|]. cbn [combs].
  assert (G : forall h, In h (map (cons x) (combs n l)) -> ~ In h (combs (S n) l)).
  { intros h H1 H2. apply in_map_iff in H1. destruct H1 as (h' & <- & _). apply combs_sublist in H2. destruct H2 as [_ H2].
    apply Hx. apply (sublist_incl _ _ H2). now left. }
  assert (N1 : NoDup (map (cons x) (combs n l))).
  { apply FinFun.Injective_map_NoDup; [|apply IH]. intros a b E. now injection E. }
  revert G N1. generalize (map (cons x) (combs n l)). intros m G N1. induction m as [|y m IHm]; [apply IH|]. cbn.
  inversion N1; subst. constructor; [|apply IHm; [intros h Hh; apply G; now right|assumption]].
  intros Hy. apply in_app_or in Hy. destruct Hy as [Hy|Hy]; [contradiction|]. exact (G y (or_introl eq_refl) Hy).
Qed.
Lemma combs_length {A} (l : list A) : forall n, List.length (combs n l) = binom (List.length l) n.
Proof.
  induction l as [|x l IH]; intros [|n]; try reflexivity. cbn [combs List.length binom]. rewrite app_length, map_length, !IH. reflexivity.
Qed.

(** ** C45 Win probabilities *)
(** Cards have been dealt and somebody is in the hand.  The probabilities are [won / total], where
    [won] counts the completions of the board on which the player is among the best, and [total] is
    the sum of these counts. *)
Theorem C45_probabilities : forall c s ps, reachable c s ->
  List.length (hole_cards s) = num_players c -> (exists j, (j < num_players c)%nat /\ is_active s j) ->
  win_probabilities c s = Ok ps ->
  exists l total, completions_of c s l /\ 0 < total /\ List.length ps = num_players c /\
    sumZ (map fst ps) = total /\
    forall i, (i < num_players c)%nat ->
      nth i ps (0, 0) = (Z.of_nat (List.length (filter (fun x => among_best c s (community_cards s ++ x) i) l)), total) /\
      (~ is_active s i -> fst (nth i ps (0, 0)) = 0).
Proof.
  intros c s ps R Lh A H. pose proof (reachable_cfg c s R) as W. unfold win_probabilities in H.
  destruct (win_counts c s) as [won|] eqn:E; [|discriminate]. cbn [bind] in H. destruct (sumZ won =? 0) eqn:E0; [discriminate|]. injection H as <-.
  unfold win_counts, combinations in E. set (k := sumZ (num_community_cards c) - Z.of_nat (List.length (community_cards s))) in *.
  destruct (k <? 0) eqn:Ek; [discriminate|]. cbn [bind] in E.
  destruct (win_fold c s _ W Lh A (repeat 0 (num_players c)) won (repeat_length _ _) E) as [L N].
  assert (N' : forall i, (i < num_players c)%nat -> nth i won 0 = Z.of_nat (List.length (filter (fun x => among_best c s (community_cards s ++ x) i) (combs (Z.to_nat k) (d_cards (the_deck s)))))).
  { intros i Hi. rewrite (N i Hi), nth_repeat_lt by exact Hi. lia. }
  exists (combs (Z.to_nat k) (d_cards (the_deck s))), (sumZ won). split.
  { split; [|intros ND; now apply combs_nodup]. intros x. rewrite combs_sublist. split; intros [X Y]; split; try assumption; subst k; lia. }
  split; [pose proof (sumZ_nonneg won ltac:(intros i Hi; rewrite N' by lia; lia)); lia|]. split; [now rewrite map_length|]. split; [now rewrite map_map, map_id|].
  intros i Hi. rewrite (map_nth_lt _ _ _ _ 0) by lia. rewrite (N' i Hi). split; [reflexivity|]. cbn [fst].
  intros X. unfold is_active in X. apply not_true_is_false in X. unfold among_best. rewrite X. cbn [andb].
  clear. induction (combs _ _) as [|y l IH]; [reflexivity|]. cbn [filter]. exact IH.
Qed.
Print Assumptions C45_probabilities.

(** it returns whenever the board can be completed and the hands can be ranked *)
Lemma map_res_all {A B} (f : A -> result B) l : (forall x, In x l -> is_ok (f x) = true) -> exists r, map_res f l = Ok r.
Proof.
  induction l as [|x l IH]; intros H; [eexists; reflexivity|]. cbn [map_res].
  destruct (f x) as [y|] eqn:E; [|specialize (H x (or_introl eq_refl)); rewrite E in H; discriminate]. cbn [bind].
  destruct IH as [r ->]; [intros z Hz; apply H; now right|]. eexists; reflexivity.
Qed.
Lemma sumZ_nth_le l i : (forall j, (j < List.length l)%nat -> 0 <= nth j l 0) -> (i < List.length l)%nat -> nth i l 0 <= sumZ l.
Proof.
  revert i; induction l as [|x l IH]; intros i H Hi; [cbn in Hi; lia|]. rewrite sumZ_cons.
  assert (P : 0 <= sumZ l) by (apply sumZ_nonneg; intros j Hj; exact (H (S j) ltac:(cbn; lia))).
  pose proof (H O ltac:(cbn; lia)) as H0. cbn [nth] in H0. destruct i as [|i]; cbn [nth]; [lia|].
  specialize (IH i ltac:(intros j Hj; exact (H (S j) ltac:(cbn; lia))) ltac:(cbn in Hi; lia)). lia.
Qed.
Lemma binom_pos n : forall k, (k <= n)%nat -> (0 < binom n k)%nat.
Proof.
  induction n as [|n IH]; intros [|k] H; cbn [binom]; try lia. specialize (IH k ltac:(lia)). lia.
Qed.
Theorem C45_returns : forall c s, reachable c s ->
  List.length (hole_cards s) = num_players c -> (exists j, (j < num_players c)%nat /\ is_active s j) ->
  Z.of_nat (List.length (community_cards s)) <= sumZ (num_community_cards c) <= Z.of_nat (List.length (community_cards s) + List.length (d_cards (the_deck s))) ->
  (forall x i, sublist x (d_cards (the_deck s)) -> is_active s i -> is_ok (evaluate (the_evaluator c) (nth i (hole_cards s) []) (community_cards s ++ x)) = true) ->
  exists ps, win_probabilities c s = Ok ps.
Proof.
  intros c s R Lh A Hk He. pose proof (reachable_cfg c s R) as W. pose proof (cw_two _ W) as H2.
  set (k := sumZ (num_community_cards c) - Z.of_nat (List.length (community_cards s))).
  set (L := combs (Z.to_nat k) (d_cards (the_deck s))).
  assert (Q : forall l, incl l L -> forall won, exists won', fold_res (fun won extra => let* hs := eval_hands c (active s) (hole_cards s) (community_cards s ++ extra) in
              Ok (add_lists won (map (fun h => b2z (h =? minZ hs)) hs))) l won = Ok won').
  { induction l as [|x l IH]; intros Hl won; [eexists; reflexivity|]. cbn [fold_res].
    destruct (map_res_all (fun p => if nth p (active s) false then let* h := get (hole_cards s) p in evaluate (the_evaluator c) h (community_cards s ++ x)
                    else Ok (worst_hand c)) (seq 0 (num_players c))) as [hs E].
    - intros p Hp. apply in_seq in Hp. destruct (nth p (active s) false) eqn:Ap; [|reflexivity]. unfold get.
      rewrite (nth_error_nth' _ []) by lia. cbn [bind]. apply He; [|exact Ap].
      assert (X : In x L) by (apply Hl; now left). apply combs_sublist in X. apply X.
    - unfold eval_hands. rewrite E. cbn [bind]. apply IH. intros y Hy. apply Hl. now right. }
  destruct (Q L (incl_refl L) (repeat 0 (num_players c))) as [won E].
  assert (Ew : win_counts c s = Ok won).
  { unfold win_counts, combinations. fold k. replace (k <? 0) with false by lia. cbn [bind]. exact E. }
  unfold win_probabilities. rewrite Ew. cbn [bind].
  destruct (win_fold c s L W Lh A (repeat 0 (num_players c)) won (repeat_length _ _) E) as [Lw N].
  assert (N' : forall i, (i < num_players c)%nat -> nth i won 0 = Z.of_nat (List.length (filter (fun x => among_best c s (community_cards s ++ x) i) L))).
  { intros i Hi. rewrite (N i Hi), nth_repeat_lt by exact Hi. lia. }
  enough (0 < sumZ won) by (replace (sumZ won =? 0) with false by lia; eexists; reflexivity).
  assert (Ln : (0 < List.length L)%nat).
  { unfold L. rewrite combs_length. apply binom_pos. lia. }
  destruct L as [|x L0] eqn:EL; [cbn in Ln; lia|]. rewrite <- EL in *.
  assert (B : exists i, (i < num_players c)%nat /\ among_best c s (community_cards s ++ x) i = true).
  { cbn [fold_res] in E. rewrite EL in E. cbn [fold_res] in E.
    destruct (eval_hands c (active s) (hole_cards s) (community_cards s ++ x)) as [hs|] eqn:Eh; [|discriminate].
    destruct (best_strength c s x hs O W Lh A Eh ltac:(lia)) as [Ls _]. destruct (minZ_reached hs ltac:(lia)) as (i & Hi & Em). rewrite Ls in Hi.
    exists i. split; [exact Hi|]. destruct (best_strength c s x hs i W Lh A Eh Hi) as [_ <-]. lia. }
  destruct B as (i & Hi & Bi).
  assert (1 <= nth i won 0).
  { rewrite (N' i Hi), EL. cbn [filter]. rewrite Bi. cbn [List.length]. lia. }
  pose proof (sumZ_nth_le won i ltac:(intros j Hj; rewrite (N' j) by lia; lia) ltac:(lia)). lia.
Qed.
Print Assumptions C45_returns.

(** too few undealt cards: nothing can be counted, and the call raises *)
Theorem C45_too_few_cards : forall c s,
  Z.of_nat (List.length (community_cards s) + List.length (d_cards (the_deck s))) < sumZ (num_community_cards c) ->
  win_probabilities c s = Err ZeroDivisionError.
Proof.
  intros c s H. unfold win_probabilities, win_counts, combinations.
  set (k := sumZ (num_community_cards c) - Z.of_nat (List.length (community_cards s))). replace (k <? 0) with false by lia. cbn [bind].
  assert (E : combs (Z.to_nat k) (d_cards (the_deck s)) = []).
  { destruct (combs (Z.to_nat k) (d_cards (the_deck s))) as [|x l] eqn:E; [reflexivity|].
    assert (X : In x (combs (Z.to_nat k) (d_cards (the_deck s)))) by (rewrite E; now left).
    apply combs_sublist in X. destruct X as [X1 X2].
    assert (G : forall a b : list card, sublist a b -> (List.length a <= List.length b)%nat) by (induction 1; cbn [List.length]; lia).
    apply G in X2. lia. }
  rewrite E. cbn [fold_res bind].
  assert (Z : sumZ (repeat 0 (num_players c)) = 0) by (induction (num_players c); [reflexivity|cbn [repeat]; rewrite sumZ_cons; lia]).
  rewrite Z. reflexivity.
Qed.
Print Assumptions C45_too_few_cards.

(** a deck of ten cards, one hole card each, a board of one card; seat 0 has folded, seat 1 holds an
    ace and is among the best on all seven boards, seat 2 on the three boards where the board plays *)
Definition win_game := mkRaw 3 2 (Listed [1; 2; 0]) (Listed [0; 0; 0]) (Listed [RawInf; RawInf]) (Listed [RawCountInf; RawCountInf])
                             2 5 1 (Listed [0; 1]) 1 0 10 true None.
Example C45_example : exists c s, reachable c s /\ List.length (hole_cards s) = num_players c /\
  (exists j, (j < num_players c)%nat /\ is_active s j) /\
  win_probabilities c s = Ok [(0, 10); (7, 10); (3, 10)] /\ active s = [false; true; true].
Proof.
  assert (K : exists c s, reachable c s /\ List.length (hole_cards s) = 3%nat /\ num_players c = 3%nat /\
    win_probabilities c s = Ok [(0, 10); (7, 10); (3, 10)] /\ active s = [false; true; true]).
  { play win_game (OReset [4; 4; 3; 2; 0; 1; 0]%nat true true :: bets [-1]) c s E. split; [exact (played_reachable _ _ _ _ E)|]. plays E. }
  destruct K as (c & s & R & K1 & K2 & K3 & K4). exists c, s. split; [exact R|]. rewrite K1, K2. split; [reflexivity|].
  split; [exists 1%nat; split; [lia|unfold is_active; now rewrite K4]|]. auto.
Qed.
(** the deck has four cards, three are dealt, and the board needs two *)
Definition scarce_game := mkRaw 3 2 (Listed [1; 2; 0]) (Listed [0; 0; 0]) (Listed [RawInf; RawInf]) (Listed [RawCountInf; RawCountInf])
                                2 2 1 (Listed [0; 2]) 1 0 10 true None.
Example C45_too_few_cards_example : exists c s, reachable c s /\ action s = Some 0%nat /\
  Z.of_nat (List.length (community_cards s) + List.length (d_cards (the_deck s))) < sumZ (num_community_cards c).
Proof.
  assert (K : exists c s, reachable c s /\ action s = Some 0%nat /\
    (Z.of_nat (List.length (community_cards s) + List.length (d_cards (the_deck s))) <? sumZ (num_community_cards c)) = true).
  { play scarce_game [new_hand] c s E. split; [exact (played_reachable _ _ _ _ E)|]. plays E. }
  destruct K as (c & s & R & K1 & K2). exists c, s. split; [exact R|]. split; [exact K1|]. lia.
Qed.
