(** * EvalTable: the structure of every successfully built lookup table, for every
    order of the classes *)
From Coq Require Import FMapPositive Permutation ZifyBool ZifyNat Arith.
From Verif Require Import PyBase PyFacts CardModel EvalModel PokerSpec EvalSpec EvalCheck CardProofs
  EvalRank.

(** ** Orders *)
Lemma order_index_ok x k : order_index x ORDER_STRINGS all_classes = Ok k <-> x = class_string k.
Proof.
  split.
  - unfold ORDER_STRINGS, all_classes. cbn [order_index].
    repeat match goal with
           | |- context [if String.eqb ?a ?b then _ else _] =>
             destruct (String.eqb_spec a b) as [->|?]; [intros H; injection H as <-; reflexivity|]
           end. discriminate.
  - intros ->. destruct k; reflexivity.
Qed.
Lemma order_index_err x e : order_index x ORDER_STRINGS all_classes = Err e ->
  e = ValueError /\ ~ In x ORDER_STRINGS.
Proof.
  unfold ORDER_STRINGS, all_classes. cbn [order_index].
  repeat match goal with
         | |- context [if String.eqb ?a ?b then _ else _] =>
           destruct (String.eqb_spec a b) as [->|?]; [discriminate|]
         end. intros H. injection H as <-. split; [reflexivity|].
  cbn. intuition congruence.
Qed.

Lemma class_string_inj a b : class_string a = class_string b -> a = b.
Proof. destruct a, b; cbn; congruence. Qed.
Lemma ORDER_STRINGS_eq : ORDER_STRINGS = map class_string all_classes.
Proof. reflexivity. Qed.

Lemma map_order_index o hs :
  map_res (fun s => order_index s ORDER_STRINGS all_classes) o = Ok hs <->
  o = map class_string hs.
Proof.
  split.
  - intros H. apply map_res_ok in H. induction H as [|x k o hs Hx _ IH]; [reflexivity|].
    apply order_index_ok in Hx. cbn. now rewrite Hx, IH.
  - intros ->. apply map_res_forall2. induction hs as [|k hs IH]; [constructor|].
    cbn. constructor; [now apply order_index_ok|exact IH].
Qed.

Lemma order_valid_spec o : order_valid o = true <-> incl ORDER_STRINGS o.
Proof.
  unfold order_valid. rewrite forallb_forall. split; intros H x Hx.
  - specialize (H x Hx). apply existsb_exists in H. destruct H as [y [Hy E]].
    apply String.eqb_eq in E. now subst.
  - apply existsb_exists. exists x. split; [now apply H|apply String.eqb_refl].
Qed.

Lemma NoDup_incl_perm {A} (l l' : list A) :
  NoDup l -> NoDup l' -> incl l l' -> incl l' l -> Permutation l l'.
Proof. intros N N' I I'. apply NoDup_Permutation; [assumption..|]. intros x. split; auto. Qed.

Lemma ranked_classes_perm cnt order hs : order_perm order ->
  match order with Some o => order_valid o = true | None => True end ->
  ranked_classes cnt order = Ok hs -> Permutation all_classes hs.
Proof.
  intros P V H. destruct order as [o|]; cbn [ranked_classes] in H.
  - apply map_order_index in H. subst o. cbn in P.
    apply NoDup_map_inv in P. apply NoDup_incl_perm; [apply all_classes_nodup|exact P| |].
    + intros k _. rewrite order_valid_spec, ORDER_STRINGS_eq in V.
      specialize (V (class_string k) (in_map class_string _ _ (all_classes_in k))).
      apply in_map_iff in V. destruct V as [k' [E Hk']]. apply class_string_inj in E. now subst.
    + intros k _. apply all_classes_in.
  - match type of H with Ok ?x = Ok ?y => assert (E : x = y) by congruence end.
    rewrite <- E. apply sort_by_perm.
Qed.

(** ** Inversion of the builders *)
Lemma flushes_add_inv cnt r h bits d d' : flushes_add cnt r h bits d = Ok d' ->
  (r_cum r h = 0 /\ d' = d) \/
  (r_cum r h <> 0 /\ Z.of_nat (List.length bits) = snd (cnt h) /\
   exists v, get_rank r h = Ok v /\ d' = dict_add_all (map prime_product_from_rank_bits bits) v d).
Proof.
  unfold flushes_add. destruct (r_cum r h =? 0) eqn:E.
  - intros H. injection H as <-. left. split; [lia|reflexivity].
  - destruct (negb (Z.of_nat (List.length bits) =? snd (cnt h))) eqn:E2; [discriminate|].
    destruct (get_rank r h) as [v|] eqn:E3; cbn; [|discriminate]. intros H. injection H as <-.
    right. split; [lia|]. split; [lia|]. eauto.
Qed.

Lemma multiples_add_inv cnt r ranks cfh h m d d' :
  multiples_add cnt r ranks cfh h m d = Ok d' ->
  (r_cum r h = 0 /\ d' = d) \/
  (r_cum r h <> 0 /\ exists keys v, multiple_keys ranks cfh m = Ok keys /\
   Z.of_nat (List.length keys) = snd (cnt h) /\
   get_rank r h = Ok v /\ d' = dict_add_all keys v d).
Proof.
  unfold multiples_add. destruct (r_cum r h =? 0) eqn:E.
  - intros H. injection H as <-. left. split; [lia|reflexivity].
  - destruct (get_rank r h) as [v|] eqn:E3; cbn; [|discriminate].
    destruct (multiple_keys ranks cfh m) as [keys|] eqn:E4; cbn; [|discriminate].
    destruct (negb (Z.of_nat (List.length keys) =? snd (cnt h))) eqn:E2; [discriminate|].
    intros H. injection H as <-. right. split; [lia|]. exists keys, v. repeat split; lia.
Qed.

(** all intermediate results of a successful construction *)
Record built (cnt : hclass -> Z * Z) (ranks cfh : Z) (low : bool) (hs : list hclass)
       (t : lookup_table) (s1 s2 u1 u2 l1 l2 l3 l4 l5 : dict) : Prop := {
  b_counts : t_counts t = cnt;
  b_ranking : t_ranking t = compute_ranking cnt hs;
  b_s1 : flushes_add cnt (t_ranking t) SF (straight_bits (t_ranking t) ranks cfh low) dict_empty = Ok s1;
  b_s2 : flushes_add cnt (t_ranking t) FL (flush_bits (t_ranking t) ranks cfh low) s1 = Ok s2;
  b_u1 : flushes_add cnt (t_ranking t) ST (straight_bits (t_ranking t) ranks cfh low) dict_empty = Ok u1;
  b_u2 : flushes_add cnt (t_ranking t) HC (flush_bits (t_ranking t) ranks cfh low) u1 = Ok u2;
  b_l1 : multiples_add cnt (t_ranking t) ranks cfh FK [4%nat] u2 = Ok l1;
  b_l2 : multiples_add cnt (t_ranking t) ranks cfh FH [3%nat; 2%nat] l1 = Ok l2;
  b_l3 : multiples_add cnt (t_ranking t) ranks cfh TK [3%nat] l2 = Ok l3;
  b_l4 : multiples_add cnt (t_ranking t) ranks cfh TP [2%nat; 2%nat] l3 = Ok l4;
  b_l5 : multiples_add cnt (t_ranking t) ranks cfh PA [2%nat] l4 = Ok l5;
  b_unsuited : t_unsuited t = l5;
  b_suited : t_suited t = if r_cum (t_ranking t) FL =? 0 then l5 else s2
}.

Lemma LookupTable_built s r c low order t : LookupTable s r c low order = Ok t ->
  match order with Some o => order_valid o = true | None => True end /\
  exists hs s1 s2 u1 u2 l1 l2 l3 l4 l5,
    ranked_classes (hand_counts s r c low) order = Ok hs /\
    built (hand_counts s r c low) r c low hs t s1 s2 u1 u2 l1 l2 l3 l4 l5.
Proof.
  unfold LookupTable.
  destruct (match order with Some o => negb (order_valid o) | None => false end) eqn:V; [discriminate|].
  intros H. split; [destruct order; [now apply negb_false_iff in V|exact I]|].
  destruct (ranked_classes (hand_counts s r c low) order) as [hs|]; [|discriminate].
  cbn [bind] in H. set (R := compute_ranking (hand_counts s r c low) hs) in *.
  unfold table_flushes in H.
  destruct (flushes_add (hand_counts s r c low) R SF (straight_bits R r c low) dict_empty) as [s1|] eqn:E1; [|discriminate].
  cbn [bind] in H.
  destruct (flushes_add (hand_counts s r c low) R FL (flush_bits R r c low) s1) as [s2|] eqn:E2; [|discriminate].
  cbn [bind] in H.
  destruct (flushes_add (hand_counts s r c low) R ST (straight_bits R r c low) dict_empty) as [u1|] eqn:E3; [|discriminate].
  cbn [bind] in H.
  destruct (flushes_add (hand_counts s r c low) R HC (flush_bits R r c low) u1) as [u2|] eqn:E4; [|discriminate].
  cbn [bind fst snd] in H. unfold table_multiples in H.
  destruct (multiples_add (hand_counts s r c low) R r c FK [4%nat] u2) as [l1|] eqn:M1; [|discriminate]. cbn [bind] in H.
  destruct (multiples_add (hand_counts s r c low) R r c FH [3%nat; 2%nat] l1) as [l2|] eqn:M2; [|discriminate]. cbn [bind] in H.
  destruct (multiples_add (hand_counts s r c low) R r c TK [3%nat] l2) as [l3|] eqn:M3; [|discriminate]. cbn [bind] in H.
  destruct (multiples_add (hand_counts s r c low) R r c TP [2%nat; 2%nat] l3) as [l4|] eqn:M4; [|discriminate]. cbn [bind] in H.
  destruct (multiples_add (hand_counts s r c low) R r c PA [2%nat] l4) as [l5|] eqn:M5; [|discriminate]. cbn [bind] in H.
  injection H as <-.
  exists hs, s1, s2, u1, u2, l1, l2, l3, l4, l5. split; [reflexivity|].
  split; try assumption; reflexivity.
Qed.

(** ** Unbuildable decks *)
Lemma item_eqb_eq a b : item_eqb a b = true <-> a = b.
Proof.
  destruct a as [p u], b as [q v]. unfold item_eqb. cbn [fst snd].
  rewrite andb_true_iff, eqb_true_iff, Z.eqb_eq. split; [intros [-> ->]; reflexivity|].
  intros E. injection E as -> ->. auto.
Qed.
Lemma in_upicks x l : forall before, In x (before ++ l) -> ~ In x before ->
  exists rest, In (x, rest) (upicks before l) /\ Permutation (before ++ l) (x :: rest).
Proof.
  induction l as [|y l IH]; intros before H N; [rewrite app_nil_r in H; contradiction|].
  cbn [upicks].
  destruct (item_eqb y x) eqn:E.
  - apply item_eqb_eq in E. subst y.
    replace (existsb (item_eqb x) before) with false.
    + exists (before ++ l). split; [now left|]. apply Permutation_sym, Permutation_middle.
    + symmetry. apply not_true_is_false. intros X. apply existsb_exists in X.
      destruct X as [z [Hz X]]. apply item_eqb_eq in X. now subst.
  - assert (Hn : y <> x) by (intros ->; rewrite (proj2 (item_eqb_eq x x) eq_refl) in E; discriminate).
    destruct (IH (before ++ [y])) as (rest & H1 & H2).
    + now rewrite <- app_assoc.
    + intros X. apply in_app_or in X. destruct X as [X|[X|[]]]; [contradiction|congruence].
    + rewrite <- app_assoc in H2. exists rest. split; [|exact H2].
      destruct (existsb (item_eqb y) before); [exact H1|now right].
Qed.

Lemma can_build_order (item : hclass -> bool * Z) fuel : forall hs rem cum,
  Permutation (map item hs) rem ->
  (forall l1 k l2, hs = l1 ++ k :: l2 ->
     cum + sumZ (map (fun k => snd (item k)) l1) + snd (item k) = 0 \/ fst (item k) = true) ->
  can_build fuel rem cum = true.
Proof.
  induction fuel as [|f IH]; intros hs rem cum P H; [reflexivity|]. cbn [can_build].
  destruct hs as [|k hs].
  { apply Permutation_nil in P. now subst. }
  assert (Hne : rem <> []).
  { intros ->. apply Permutation_sym, Permutation_nil in P. discriminate. }
  destruct rem as [|p0 rem'] eqn:Er; [reflexivity|]. rewrite <- Er in *. clear p0 rem' Er.
  assert (Hk : In (item k) rem) by (eapply Permutation_in; [exact P|now left]).
  destruct (in_upicks (item k) rem [] Hk (fun H => H)) as (rest & Hin & Hp). cbn [app] in Hp.
  apply existsb_exists. exists (item k, rest). split; [exact Hin|].
  cbn [map] in P. pose proof (perm_trans P Hp) as P'. apply Permutation_cons_inv in P'. clear P. rename P' into P.
  pose proof (H [] k hs eq_refl) as H0. cbn [map sumZ fold_right] in H0.
  destruct (item k) as [pass u] eqn:Ei. cbn [fst snd] in H0.
  apply andb_true_iff. split; [apply orb_true_iff; destruct H0; [left; lia|now right]|].
  apply (IH hs); [exact P|].
  intros l1 k' l2 ->. specialize (H (k :: l1) k' l2 eq_refl). cbn [map] in H.
  rewrite Ei in H. cbn [snd] in H. rewrite sumZ_cons in H.
  destruct H as [H|H]; [left; lia|now right].
Qed.

Lemma built_passes s r c low hs t s1 s2 u1 u2 l1 l2 l3 l4 l5 :
  built (hand_counts s r c low) r c low hs t s1 s2 u1 u2 l1 l2 l3 l4 l5 ->
  forall k, r_cum (t_ranking t) k = 0 \/ may_pass s r c low k = true.
Proof.
  intros B k. destruct (Z.eq_dec (r_cum (t_ranking t) k) 0) as [H0|Hn]; [now left|right].
  assert (Hsb : forall x, (x = SF \/ x = ST) -> r_cum (t_ranking t) x <> 0 ->
                straight_bits (t_ranking t) r c low = gen_straight_flush c r low).
  { intros x Hx Hc. unfold straight_bits.
    destruct (r_cum (t_ranking t) SF =? 0) eqn:E1; destruct (r_cum (t_ranking t) ST =? 0) eqn:E2;
      try reflexivity. destruct Hx as [-> | ->]; lia. }
  assert (Hfb : forall x, (x = FL \/ x = HC) -> r_cum (t_ranking t) x <> 0 ->
                flush_bits (t_ranking t) r c low = gen_flush c r (gen_straight_flush c r low)
                \/ flush_bits (t_ranking t) r c low = gen_flush c r []).
  { intros x Hx Hc. unfold flush_bits.
    destruct (r_cum (t_ranking t) FL =? 0) eqn:E1; destruct (r_cum (t_ranking t) HC =? 0) eqn:E2;
      cbn; try (unfold straight_bits; destruct (_ || _); auto; fail).
    destruct Hx as [-> | ->]; lia. }
  destruct k; cbn [may_pass]; unfold ucount.
  - pose proof (b_s1 _ _ _ _ _ _ _ _ _ _ _ _ _ _ _ B) as X. apply flushes_add_inv in X.
    destruct X as [[X _]|(_ & X & _)]; [lia|]. rewrite (Hsb SF) in X by auto. lia.
  - pose proof (b_l1 _ _ _ _ _ _ _ _ _ _ _ _ _ _ _ B) as X. apply multiples_add_inv in X.
    destruct X as [[X _]|(_ & keys & v & Xk & Xl & _)]; [lia|]. cbn [class_multiples]. rewrite Xk. lia.
  - pose proof (b_l2 _ _ _ _ _ _ _ _ _ _ _ _ _ _ _ B) as X. apply multiples_add_inv in X.
    destruct X as [[X _]|(_ & keys & v & Xk & Xl & _)]; [lia|]. cbn [class_multiples]. rewrite Xk. lia.
  - pose proof (b_s2 _ _ _ _ _ _ _ _ _ _ _ _ _ _ _ B) as X. apply flushes_add_inv in X.
    destruct X as [[X _]|(_ & X & _)]; [lia|].
    destruct (Hfb FL (or_introl eq_refl) Hn) as [E|E]; rewrite E in X;
      apply orb_true_iff; [left|right]; lia.
  - pose proof (b_u1 _ _ _ _ _ _ _ _ _ _ _ _ _ _ _ B) as X. apply flushes_add_inv in X.
    destruct X as [[X _]|(_ & X & _)]; [lia|]. rewrite (Hsb ST) in X by auto. lia.
  - pose proof (b_l3 _ _ _ _ _ _ _ _ _ _ _ _ _ _ _ B) as X. apply multiples_add_inv in X.
    destruct X as [[X _]|(_ & keys & v & Xk & Xl & _)]; [lia|]. cbn [class_multiples]. rewrite Xk. lia.
  - pose proof (b_l4 _ _ _ _ _ _ _ _ _ _ _ _ _ _ _ B) as X. apply multiples_add_inv in X.
    destruct X as [[X _]|(_ & keys & v & Xk & Xl & _)]; [lia|]. cbn [class_multiples]. rewrite Xk. lia.
  - pose proof (b_l5 _ _ _ _ _ _ _ _ _ _ _ _ _ _ _ B) as X. apply multiples_add_inv in X.
    destruct X as [[X _]|(_ & keys & v & Xk & Xl & _)]; [lia|]. cbn [class_multiples]. rewrite Xk. lia.
  - pose proof (b_u2 _ _ _ _ _ _ _ _ _ _ _ _ _ _ _ B) as X. apply flushes_add_inv in X.
    destruct X as [[X _]|(_ & X & _)]; [lia|].
    destruct (Hfb HC (or_intror eq_refl) Hn) as [E|E]; rewrite E in X;
      apply orb_true_iff; [left|right]; lia.
Qed.

Lemma built_buildable s r c low hs t s1 s2 u1 u2 l1 l2 l3 l4 l5 :
  Permutation all_classes hs ->
  built (hand_counts s r c low) r c low hs t s1 s2 u1 u2 l1 l2 l3 l4 l5 ->
  buildable s r c low = true.
Proof.
  intros P B. unfold buildable.
  apply (can_build_order (fun k => (may_pass s r c low k, ucount s r c low k)) 9 hs).
  - apply Permutation_map, Permutation_sym. exact P.
  - intros a k b E. cbn [fst snd].
    destruct (built_passes _ _ _ _ _ _ _ _ _ _ _ _ _ _ _ B k) as [H|H]; [|now right].
    left. rewrite (b_ranking _ _ _ _ _ _ _ _ _ _ _ _ _ _ _ B), E, cum_at in H.
    + unfold sumU in H. unfold ucount. lia.
    + rewrite <- E. eapply Permutation_NoDup; [exact P|apply all_classes_nodup].
Qed.

(** ** Structure of regular tables *)

Definition pre (s r c : Z) (low : bool) (hs : list hclass) (k : hclass) : Z :=
  sumU (hand_counts s r c low) (firstn (class_pos k hs) hs).
Definition base (s r c : Z) (low : bool) (hs : list hclass) (k : hclass) : Z :=
  let p := pre s r c low hs k in if p =? 0 then 0 else p + 1.

Lemma class_pos_split k hs : In k hs ->
  hs = firstn (class_pos k hs) hs ++ k :: skipn (S (class_pos k hs)) hs.
Proof.
  induction hs as [|x hs IH]; intros H; [destruct H|]. cbn [class_pos].
  destruct (hclass_eqb x k) eqn:E.
  - apply hclass_eqb_eq in E. subst. reflexivity.
  - cbn [firstn skipn app]. f_equal. apply IH. destruct H as [->|H]; [|exact H].
    rewrite hclass_eqb_refl in E. discriminate.
Qed.

Section Regular.
  Variables (s r c : Z) (low : bool).
  Hypothesis Hshape : check_shape s r c low = true.
  Variables (hs : list hclass) (t : lookup_table).
  Variables (s1 s2 u1 u2 l1 l2 l3 l4 l5 : dict).
  Hypothesis Hperm : Permutation all_classes hs.
  Hypothesis B : built (hand_counts s r c low) r c low hs t s1 s2 u1 u2 l1 l2 l3 l4 l5.

  Let U := ucount s r c low.

  Lemma U_nonneg k : 0 <= U k.
  Proof.
    unfold check_shape in Hshape. rewrite !andb_true_iff in Hshape.
    destruct Hshape as [H _]. rewrite forallb_forall in H.
    specialize (H k (all_classes_in k)). unfold U. lia.
  Qed.

  Lemma hs_nodup : NoDup hs.
  Proof. eapply Permutation_NoDup; [exact Hperm|apply all_classes_nodup]. Qed.
  Lemma hs_in k : In k hs.
  Proof. eapply Permutation_in; [exact Hperm|apply all_classes_in]. Qed.

  Lemma cum_k k : r_cum (t_ranking t) k = pre s r c low hs k + U k.
  Proof.
    rewrite (b_ranking _ _ _ _ _ _ _ _ _ _ _ _ _ _ _ B).
    pose proof (class_pos_split k hs (hs_in k)) as E.
    pose proof hs_nodup as N. rewrite E in N.
    rewrite E at 1. rewrite (cum_at _ _ _ _ N). reflexivity.
  Qed.

  Lemma pre_nonneg k : 0 <= pre s r c low hs k.
  Proof. apply sumU_nonneg. intros x. apply U_nonneg. Qed.

  Lemma rank_k k : 0 < U k -> get_rank (t_ranking t) k = Ok (base s r c low hs k).
  Proof.
    intros H. rewrite (b_ranking _ _ _ _ _ _ _ _ _ _ _ _ _ _ _ B).
    pose proof (class_pos_split k hs (hs_in k)) as E.
    pose proof hs_nodup as N. rewrite E in N.
    rewrite E at 1. apply get_rank_at; [intros x; apply U_nonneg|exact N|exact H].
  Qed.

  Lemma straight_bits_static : straight_bits (t_ranking t) r c low = S_bits r c low.
  Proof.
    assert (Hsh : if c <? 3
      then (ucount s r c low SF =? 0) && (ucount s r c low ST =? 0) = true
      else (ucount s r c low ST =? Z.of_nat (List.length (S_bits r c low))) = true).
    { unfold check_shape in Hshape. rewrite !andb_true_iff in Hshape.
      destruct Hshape as [_ H]. destruct (c <? 3); exact H. }
    pose proof (b_s1 _ _ _ _ _ _ _ _ _ _ _ _ _ _ _ B) as X. apply flushes_add_inv in X.
    pose proof (b_u1 _ _ _ _ _ _ _ _ _ _ _ _ _ _ _ B) as Y. apply flushes_add_inv in Y.
    unfold S_bits in *. unfold straight_bits in *.
    destruct (c <? 3) eqn:Ec.
    - change (snd (hand_counts s r c low SF)) with (ucount s r c low SF) in X.
      change (snd (hand_counts s r c low ST)) with (ucount s r c low ST) in Y.
      assert (G : forall l : list Z, Z.of_nat (List.length l) = 0 -> l = [])
        by (intros [|? ?] ?; [reflexivity|cbn in *; lia]).
      destruct (r_cum (t_ranking t) SF =? 0) eqn:E1; destruct (r_cum (t_ranking t) ST =? 0) eqn:E2;
        cbn [negb orb] in *; try reflexivity; apply G;
        destruct X as [[X _]|(_ & X & _)]; destruct Y as [[Y _]|(_ & Y & _)]; lia.
    - destruct (r_cum (t_ranking t) SF =? 0) eqn:E1; destruct (r_cum (t_ranking t) ST =? 0) eqn:E2;
        cbn [negb orb] in *; try reflexivity.
      pose proof (cum_k ST) as C. pose proof (pre_nonneg ST). pose proof (U_nonneg ST).
      unfold U in *. destruct (gen_straight_flush c r low) as [|? ?]; [reflexivity|].
      cbn [List.length] in Hsh. lia.
  Qed.

  Lemma flush_bits_static k : (k = FL \/ k = HC) -> r_cum (t_ranking t) k <> 0 ->
    flush_bits (t_ranking t) r c low = F_bits r c low.
  Proof.
    intros Hk Hn. unfold flush_bits, F_bits. rewrite straight_bits_static.
    destruct (r_cum (t_ranking t) FL =? 0) eqn:E1; destruct (r_cum (t_ranking t) HC =? 0) eqn:E2;
      cbn [negb orb]; try reflexivity. destruct Hk as [-> | ->]; lia.
  Qed.

  Definition chain (ks : list hclass) : dict :=
    fold_left (fun d k => dict_add_all (used_keys s r c low k) (base s r c low hs k) d)
              ks dict_empty.

  (** the common shape of every insertion *)
  Lemma add_static k (keys : list Z) d d' v :
    (r_cum (t_ranking t) k = 0 /\ d' = d) \/
    (r_cum (t_ranking t) k <> 0 /\ Z.of_nat (List.length keys) = U k /\
     get_rank (t_ranking t) k = Ok v /\ d' = dict_add_all keys v d /\
     keys = class_keys r c low k) ->
    d' = dict_add_all (used_keys s r c low k) (base s r c low hs k) d.
  Proof.
    unfold used_keys. fold U. pose proof (cum_k k) as C. pose proof (pre_nonneg k) as P.
    pose proof (U_nonneg k) as N.
    intros [[H ->]|(H & Hl & Hg & -> & Hk)].
    - replace (0 <? U k) with false by lia. reflexivity.
    - destruct (0 <? U k) eqn:E.
      + rewrite rank_k in Hg by lia. injection Hg as <-. now rewrite Hk.
      + destruct keys as [|? ?]; [reflexivity|cbn in Hl; lia].
  Qed.

  Lemma add_flush k bits d d' : flushes_add (hand_counts s r c low) (t_ranking t) k bits d = Ok d' ->
    (r_cum (t_ranking t) k <> 0 -> map prime_product_from_rank_bits bits = class_keys r c low k) ->
    d' = dict_add_all (used_keys s r c low k) (base s r c low hs k) d.
  Proof.
    intros H Hk. apply flushes_add_inv in H.
    destruct H as [[H H']|(Hn & Hl & v & Hg & Hd)].
    - apply (add_static k [] d d' 0). left. split; assumption.
    - apply (add_static k (map prime_product_from_rank_bits bits) d d' v). right.
      rewrite map_length. repeat split; try assumption. now apply Hk.
  Qed.

  Lemma add_multiple k d d' : class_keys r c low k = mkeys r c (class_multiples k) ->
    multiples_add (hand_counts s r c low) (t_ranking t) r c k (class_multiples k) d = Ok d' ->
    d' = dict_add_all (used_keys s r c low k) (base s r c low hs k) d.
  Proof.
    intros Hm H. apply multiples_add_inv in H.
    destruct H as [[H H']|(Hn & keys & v & Hk & Hl & Hg & Hd)].
    - apply (add_static k [] d d' 0). left. split; assumption.
    - apply (add_static k keys d d' v). right. repeat split; try assumption.
      rewrite Hm. unfold mkeys. now rewrite Hk.
  Qed.

  Lemma unsuited_chain : t_unsuited t = chain unsuited_classes.
  Proof.
    rewrite (b_unsuited _ _ _ _ _ _ _ _ _ _ _ _ _ _ _ B). unfold chain, unsuited_classes.
    cbn [fold_left].
    rewrite <- (add_flush ST _ _ _ (b_u1 _ _ _ _ _ _ _ _ _ _ _ _ _ _ _ B)).
    2:{ intros _. now rewrite straight_bits_static. }
    rewrite <- (add_flush HC _ _ _ (b_u2 _ _ _ _ _ _ _ _ _ _ _ _ _ _ _ B)).
    2:{ intros Hn. now rewrite (flush_bits_static HC (or_intror eq_refl) Hn). }
    rewrite <- (add_multiple FK _ _ eq_refl (b_l1 _ _ _ _ _ _ _ _ _ _ _ _ _ _ _ B)).
    rewrite <- (add_multiple FH _ _ eq_refl (b_l2 _ _ _ _ _ _ _ _ _ _ _ _ _ _ _ B)).
    rewrite <- (add_multiple TK _ _ eq_refl (b_l3 _ _ _ _ _ _ _ _ _ _ _ _ _ _ _ B)).
    rewrite <- (add_multiple TP _ _ eq_refl (b_l4 _ _ _ _ _ _ _ _ _ _ _ _ _ _ _ B)).
    rewrite <- (add_multiple PA _ _ eq_refl (b_l5 _ _ _ _ _ _ _ _ _ _ _ _ _ _ _ B)).
    reflexivity.
  Qed.

  Lemma suited_chain : t_suited t =
    if r_cum (t_ranking t) FL =? 0 then chain unsuited_classes else chain suited_classes.
  Proof.
    rewrite (b_suited _ _ _ _ _ _ _ _ _ _ _ _ _ _ _ B).
    rewrite <- (b_unsuited _ _ _ _ _ _ _ _ _ _ _ _ _ _ _ B), unsuited_chain.
    destruct (r_cum (t_ranking t) FL =? 0) eqn:E; [reflexivity|].
    unfold chain at 1, suited_classes. cbn [fold_left].
    rewrite <- (add_flush SF _ _ _ (b_s1 _ _ _ _ _ _ _ _ _ _ _ _ _ _ _ B)).
    2:{ intros _. now rewrite straight_bits_static. }
    rewrite <- (add_flush FL _ _ _ (b_s2 _ _ _ _ _ _ _ _ _ _ _ _ _ _ _ B)).
    2:{ intros Hn. now rewrite (flush_bits_static FL (or_introl eq_refl) Hn). }
    reflexivity.
  Qed.

  (** flushes are a separate table exactly when they matter *)
  Lemma cum_FL : check_flush s r c low = true -> c <= r ->
    (r_cum (t_ranking t) FL =? 0) = negb ((2 <=? s) && (3 <=? c)).
  Proof.
    intros H Hrc. unfold check_flush in H.
    pose proof (cum_k FL) as C. pose proof (pre_nonneg FL). pose proof (U_nonneg FL).
    destruct ((2 <=? s) && (3 <=? c)) eqn:E.
    - unfold U in *. cbn [negb]. lia.
    - cbn [negb]. apply andb_true_iff in H. destruct H as [HU HF].
      destruct (r_cum (t_ranking t) FL =? 0) eqn:E0; [reflexivity|exfalso].
      pose proof (b_s2 _ _ _ _ _ _ _ _ _ _ _ _ _ _ _ B) as X. apply flushes_add_inv in X.
      destruct X as [[X _]|(Hn & X & _)]; [lia|].
      rewrite (flush_bits_static FL (or_introl eq_refl) Hn) in X.
      destruct (F_bits r c low) as [|? ?]; [discriminate|].
      cbn [List.length] in X. unfold ucount in HU. lia.
  Qed.

End Regular.

Lemma chain_find s r c low hs ks : forall d,
  Forall (fun k => 0 < k) (flat_map (used_keys s r c low) ks) ->
  NoDup (flat_map (used_keys s r c low) ks) ->
  forall k x i, In k ks -> nth_error (used_keys s r c low k) i = Some x ->
  dict_find (fold_left (fun d k => dict_add_all (used_keys s r c low k) (base s r c low hs k) d) ks d) x
  = Some (base s r c low hs k + Z.of_nat i).
Proof.
  assert (Out : forall qs d x, Forall (fun k => 0 < k) (flat_map (used_keys s r c low) qs) ->
     ~ In x (flat_map (used_keys s r c low) qs) ->
     dict_find (fold_left (fun d k => dict_add_all (used_keys s r c low k) (base s r c low hs k) d) qs d) x
     = dict_find d x).
  { induction qs as [|k0 qs IH]; intros d x F N; [reflexivity|]. cbn [fold_left flat_map] in *.
    apply Forall_app in F. rewrite in_app_iff in N.
    rewrite IH by tauto. apply dict_find_add_notin; tauto. }
  induction ks as [|k0 ks IH]; intros d F N k x i Hk Hx; [destruct Hk|].
  cbn [fold_left flat_map] in *. apply Forall_app in F. destruct F as [F1 F2].
  pose proof (nth_error_In _ _ Hx) as Hin.
  assert (D : forall y, In y (used_keys s r c low k0) -> ~ In y (flat_map (used_keys s r c low) ks)).
  { intros y Hy Hy'. apply in_split in Hy. destruct Hy as (a & b & E). rewrite E in N.
    rewrite <- app_assoc in N. cbn in N. apply NoDup_remove_2 in N. apply N.
    apply in_or_app. right. apply in_or_app. now right. }
  assert (N1 : NoDup (used_keys s r c low k0)).
  { clear -N. induction (used_keys s r c low k0) as [|y l IHl]; [constructor|].
    cbn in N. inversion N as [|? ? Hy N']; subst. constructor; [|now apply IHl].
    intros H. apply Hy, in_or_app. now left. }
  assert (N2 : NoDup (flat_map (used_keys s r c low) ks)).
  { clear -N. induction (used_keys s r c low k0) as [|y l IHl]; [exact N|].
    cbn in N. inversion N; subst. now apply IHl. }
  destruct Hk as [->|Hk].
  - rewrite Out by (try assumption; now apply D). now apply dict_find_add_nth.
  - apply IH; assumption.
Qed.
