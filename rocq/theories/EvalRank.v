(** * EvalRank: facts about the cumulative ranking and about lookup dictionaries *)
From Coq Require Import FMapPositive Permutation ZifyBool ZifyNat Arith.
From Verif Require Import PyBase PyFacts CardModel EvalModel PokerSpec EvalSpec EvalCheck CardProofs.

Lemma hclass_eqb_eq a b : hclass_eqb a b = true <-> a = b.
Proof. split; [destruct a, b; cbn; congruence|intros ->; destruct b; reflexivity]. Qed.
Lemma hclass_eqb_refl a : hclass_eqb a a = true.
Proof. now apply hclass_eqb_eq. Qed.
Lemma hclass_eqb_neq a b : hclass_eqb a b = false <-> a <> b.
Proof. rewrite <- hclass_eqb_eq. destruct (hclass_eqb a b); split; congruence. Qed.
Lemma all_classes_in k : In k all_classes.
Proof. destruct k; cbn; tauto. Qed.
Lemma all_classes_nodup : NoDup all_classes.
Proof. repeat constructor; cbn; intuition discriminate. Qed.

(** ** Ranking *)
Section Ranking.
  Variable cnt : hclass -> Z * Z.
  Let u (k : hclass) : Z := snd (cnt k).
  Definition sumU (l : list hclass) : Z := sumZ (map (fun k => snd (cnt k)) l).

  Definition rfold (l : list hclass) (st : ranking) : ranking := fold_left (rank_step cnt) l st.

  Lemma rfold_total l : forall st, r_total (rfold l st) = r_total st + sumU l.
  Proof.
    induction l as [|k l IH]; intros st; [cbn; lia|].
    unfold rfold in *. cbn [fold_left]. rewrite IH. unfold rank_step, sumU. cbn [map sumZ fold_right].
    unfold sumZ. destruct (0 <? r_total st + snd (cnt k)); cbn [r_total]; lia.
  Qed.

  Lemma set_fun_same {V} (f : hclass -> V) k v : set_fun f k v k = v.
  Proof. unfold set_fun. now rewrite hclass_eqb_refl. Qed.
  Lemma set_fun_other {V} (f : hclass -> V) k v x : x <> k -> set_fun f k v x = f x.
  Proof. intros H. unfold set_fun. apply hclass_eqb_neq in H. now rewrite H. Qed.

  Lemma rfold_cum_notin l k : ~ In k l -> forall st, r_cum (rfold l st) k = r_cum st k.
  Proof.
    induction l as [|x l IH]; intros H st; [reflexivity|].
    unfold rfold in *. cbn [fold_left]. rewrite IH by (intros Hx; apply H; now right).
    unfold rank_step. destruct (0 <? r_total st + snd (cnt x)); cbn [r_cum];
      (rewrite set_fun_other; [reflexivity|intros ->; apply H; now left]).
  Qed.

  Lemma rfold_rank_notin l k : ~ In k l -> forall st, r_rank (rfold l st) k = r_rank st k.
  Proof.
    induction l as [|x l IH]; intros H st; [reflexivity|].
    unfold rfold in *. cbn [fold_left]. rewrite IH by (intros Hx; apply H; now right).
    unfold rank_step. destruct (0 <? r_total st + snd (cnt x)); cbn [r_rank]; [|reflexivity].
    rewrite set_fun_other; [reflexivity|intros ->; apply H; now left].
  Qed.

  Lemma rfold_ranked_prefix l : forall st, exists more,
    r_ranked (rfold l st) = r_ranked st ++ more.
  Proof.
    induction l as [|x l IH]; intros st; [exists []; now rewrite app_nil_r|].
    unfold rfold in *. cbn [fold_left]. destruct (IH (rank_step cnt st x)) as [m Hm].
    rewrite Hm. unfold rank_step. destruct (0 <? r_total st + snd (cnt x)); cbn [r_ranked].
    - exists (x :: m). now rewrite <- app_assoc.
    - now exists m.
  Qed.

  Definition init_ranking : ranking := mkRanking (fun _ => 0) (fun _ => None) [] 0.

  Lemma rfold_app l1 l2 st : rfold (l1 ++ l2) st = rfold l2 (rfold l1 st).
  Proof. apply fold_left_app. Qed.

  Lemma sumU_app a b : sumU (a ++ b) = sumU a + sumU b.
  Proof. unfold sumU. rewrite map_app. apply sumZ_app. Qed.
  Lemma sumU_cons k l : sumU (k :: l) = u k + sumU l.
  Proof. reflexivity. Qed.

  (** cumulative count, whatever the signs *)
  Lemma cum_at l1 k l2 : NoDup (l1 ++ k :: l2) ->
    r_cum (compute_ranking cnt (l1 ++ k :: l2)) k = sumU l1 + u k.
  Proof.
    intros N. apply NoDup_remove_2 in N.
    change (compute_ranking cnt (l1 ++ k :: l2)) with (rfold (l1 ++ k :: l2) init_ranking).
    rewrite rfold_app. change (k :: l2) with ([k] ++ l2). rewrite rfold_app.
    rewrite rfold_cum_notin by (intros H; apply N, in_or_app; now right).
    unfold rfold at 1. cbn [fold_left]. unfold rank_step at 1.
    destruct (0 <? r_total (rfold l1 init_ranking) + snd (cnt k)); cbn [r_cum];
      rewrite set_fun_same, rfold_total; cbn; unfold u; lia.
  Qed.

  Hypothesis Hpos : forall k, 0 <= snd (cnt k).

  Lemma sumU_nonneg l : 0 <= sumU l.
  Proof.
    induction l as [|k l IH]; [cbn; lia|]. rewrite sumU_cons. unfold u. specialize (Hpos k). lia.
  Qed.

  Definition rinv (l : list hclass) (st : ranking) : Prop :=
    (r_total st = 0 /\ r_ranked st = []) \/
    (0 < r_total st /\ exists p x, r_ranked st = p ++ [x] /\ r_cum st x = r_total st /\ In x l).

  Lemma rinv_fold l : rinv l (rfold l init_ranking).
  Proof.
    induction l as [|k l IH] using rev_ind; [left; split; reflexivity|].
    rewrite rfold_app. unfold rfold at 1. cbn [fold_left].
    set (st := rfold l init_ranking) in *. unfold rank_step.
    specialize (Hpos k).
    destruct (0 <? r_total st + snd (cnt k)) eqn:E.
    - right. cbn. split; [lia|]. exists (r_ranked st), k. rewrite set_fun_same.
      repeat split. apply in_or_app. right. now left.
    - left. cbn. destruct IH as [[H1 H2]|[H1 _]]; [|lia]. split; [lia|exact H2].
  Qed.

  Lemma get_rank_at l1 k l2 : NoDup (l1 ++ k :: l2) -> 0 < u k ->
    get_rank (compute_ranking cnt (l1 ++ k :: l2)) k
    = Ok (if sumU l1 =? 0 then 0 else sumU l1 + 1).
  Proof.
    intros N Hu.
    change (compute_ranking cnt (l1 ++ k :: l2)) with (rfold (l1 ++ k :: l2) init_ranking).
    assert (N2 : ~ In k l2).
    { apply NoDup_remove_2 in N. intros H. apply N, in_or_app. now right. }
    set (st1 := rfold l1 init_ranking).
    assert (T1 : r_total st1 = sumU l1) by (unfold st1; rewrite rfold_total; cbn; lia).
    pose proof (sumU_nonneg l1) as Hs1.
    set (st2 := rank_step cnt st1 k).
    assert (E2 : rfold (l1 ++ k :: l2) init_ranking = rfold l2 st2) by (rewrite rfold_app; reflexivity).
    rewrite E2. unfold get_rank. rewrite rfold_rank_notin by exact N2.
    assert (R2 : r_rank st2 k = Some (List.length (r_ranked st1))
                 /\ r_ranked st2 = r_ranked st1 ++ [k]).
    { unfold st2, rank_step. destruct (0 <? r_total st1 + snd (cnt k)) eqn:E; [|unfold u in Hu; lia].
      cbn. now rewrite set_fun_same. }
    destruct R2 as [R2 R3]. rewrite R2.
    destruct (rinv_fold l1) as [[A B]|(A & p & x & B & C & D)]; fold st1 in A, B.
    - rewrite B. cbn. replace (sumU l1 =? 0) with true by lia. reflexivity.
    - fold st1 in C. rewrite B, app_length. cbn [List.length]. rewrite Nat.add_1_r.
      destruct (rfold_ranked_prefix l2 st2) as [more Hm]. rewrite Hm, R3, B.
      unfold get. rewrite <- !app_assoc. rewrite nth_error_app2 by lia. rewrite Nat.sub_diag.
      cbn [app nth_error bind].
      assert (Hx : ~ In x (k :: l2)).
      { intros H. apply in_split in D. destruct D as (d1 & d2 & ->).
        rewrite <- app_assoc in N. cbn in N. apply NoDup_remove_2 in N.
        apply N. apply in_or_app. right. apply in_or_app. now right. }
      assert (Cx : r_cum (rfold l2 st2) x = r_cum st1 x).
      { change (rfold l2 st2) with (rfold (k :: l2) st1). now apply rfold_cum_notin. }
      rewrite Cx, C, T1. replace (sumU l1 =? 0) with false by lia. reflexivity.
  Qed.

  (** the ranked classes are those with a positive cumulative count, i.e. a suffix *)
  Lemma ranked_suffix hs : exists z,
    hs = z ++ r_ranked (compute_ranking cnt hs) /\ sumU z = 0.
  Proof.
    change (compute_ranking cnt hs) with (rfold hs init_ranking).
    induction hs as [|k hs IH] using rev_ind; [now exists []|].
    destruct IH as [z [E Z0]].
    rewrite rfold_app. unfold rfold at 1. cbn [fold_left].
    set (st := rfold hs init_ranking) in *.
    assert (T : r_total st = sumU hs) by (unfold st; rewrite rfold_total; cbn; lia).
    unfold rank_step. specialize (Hpos k) as Hk.
    destruct (0 <? r_total st + snd (cnt k)) eqn:EE; cbn [r_ranked].
    - exists z. rewrite app_assoc, <- E. split; [reflexivity|exact Z0].
    - destruct (rinv_fold hs) as [[A B]|[A _]]; fold st in A; [|lia]. fold st in B.
      rewrite B in *. rewrite app_nil_r in E. subst z. exists (hs ++ [k]). rewrite app_nil_r.
      split; [reflexivity|]. rewrite sumU_app, Z0. unfold sumU. cbn. lia.
  Qed.

  (** a ranked class has a positive cumulative count *)
  Lemma ranked_cum_pos hs : NoDup hs -> forall k,
    In k (r_ranked (compute_ranking cnt hs)) -> 0 < r_cum (compute_ranking cnt hs) k.
  Proof.
    change (compute_ranking cnt hs) with (rfold hs init_ranking).
    induction hs as [|x hs IH] using rev_ind; intros N k H; [destruct H|].
    rewrite rfold_app in *. unfold rfold at 1 in H. unfold rfold at 1. cbn [fold_left] in *.
    set (st := rfold hs init_ranking) in *.
    assert (N' : NoDup hs /\ ~ In x hs).
    { apply NoDup_remove in N. now rewrite app_nil_r in N. }
    unfold rank_step in *. destruct (0 <? r_total st + snd (cnt x)) eqn:E; cbn [r_cum r_ranked] in *.
    - apply in_app_or in H. destruct H as [H|[->|[]]]; [|rewrite set_fun_same; lia].
      destruct (hclass_eqb k x) eqn:Ek.
      + apply hclass_eqb_eq in Ek. subst. rewrite set_fun_same. lia.
      + apply hclass_eqb_neq in Ek. rewrite set_fun_other by exact Ek. apply IH; tauto.
    - destruct (hclass_eqb k x) eqn:Ek.
      + apply hclass_eqb_eq in Ek. subst. exfalso.
        destruct (ranked_suffix hs) as [z [Ez _]]. apply N'. rewrite Ez. apply in_or_app. now right.
      + apply hclass_eqb_neq in Ek. rewrite set_fun_other by exact Ek. apply IH; tauto.
  Qed.

  Lemma ranked_iff_cum hs : NoDup hs -> forall k, In k hs ->
    (In k (r_ranked (compute_ranking cnt hs)) <-> 0 < r_cum (compute_ranking cnt hs) k).
  Proof.
    intros N k Hk. split; [apply ranked_cum_pos, N|]. intros Hc.
    destruct (ranked_suffix hs) as (z & E & Z0).
    pose proof Hk as Hk'. rewrite E in Hk'. apply in_app_or in Hk'. destruct Hk' as [Hz|Hk']; [|exact Hk'].
    exfalso. apply in_split in Hz. destruct Hz as (z1 & z2 & Ez).
    assert (Eh : hs = z1 ++ k :: (z2 ++ r_ranked (compute_ranking cnt hs)))
      by (rewrite E at 1; rewrite Ez, <- app_assoc; reflexivity).
    remember (r_ranked (compute_ranking cnt hs)) as rest.
    rewrite Eh in Hc, N. rewrite (cum_at _ _ _ N) in Hc.
    rewrite Ez, sumU_app, sumU_cons in Z0. unfold u in *.
    pose proof (sumU_nonneg z2). lia.
  Qed.
End Ranking.

(** ** Dictionaries *)
Lemma dict_find_set d k v x : 0 < k -> 0 < x ->
  dict_find (dict_set d k v) x = if x =? k then Some v else dict_find d x.
Proof.
  intros Hk Hx. unfold dict_find, dict_set. replace (x <=? 0) with false by lia.
  destruct (x =? k) eqn:E.
  - apply Z.eqb_eq in E. subst. apply PositiveMap.gss.
  - apply PositiveMap.gso. intros H. apply Z2Pos.inj in H; lia.
Qed.

Lemma dict_find_nonpos d x : x <= 0 -> dict_find d x = None.
Proof. intros H. unfold dict_find. now replace (x <=? 0) with true by lia. Qed.

Lemma dict_find_add_notin keys : forall v d x,
  Forall (fun k => 0 < k) keys -> ~ In x keys ->
  dict_find (dict_add_all keys v d) x = dict_find d x.
Proof.
  induction keys as [|k keys IH]; intros v d x F N; [reflexivity|].
  inversion F as [|? ? Hk F']; subst. cbn [dict_add_all].
  rewrite IH by (try assumption; intros H; apply N; now right).
  destruct (Z_lt_dec 0 x) as [Hx|Hx].
  - rewrite dict_find_set by assumption.
    destruct (x =? k) eqn:E; [|reflexivity]. exfalso. apply N. left. lia.
  - now rewrite !dict_find_nonpos by lia.
Qed.

Lemma dict_find_add_nth keys : forall v d x i,
  Forall (fun k => 0 < k) keys -> NoDup keys -> nth_error keys i = Some x ->
  dict_find (dict_add_all keys v d) x = Some (v + Z.of_nat i).
Proof.
  induction keys as [|k keys IH]; intros v d x i F N H; [destruct i; discriminate|].
  inversion F as [|? ? Hk F']; subst. inversion N as [|? ? Hn N']; subst.
  cbn [dict_add_all]. destruct i as [|i]; cbn in H.
  - injection H as ->. rewrite dict_find_add_notin by assumption.
    rewrite dict_find_set by assumption. rewrite Z.eqb_refl. f_equal. lia.
  - rewrite (IH _ _ _ i F' N' H). f_equal. lia.
Qed.

(** ** Key sets *)
Lemma kset_mem_add m k x : 0 < k -> kset_mem (kset_add m k) x = (x =? k) || kset_mem m x.
Proof.
  intros Hk. unfold kset_mem, kset_add.
  destruct (0 <? x) eqn:Ex; cbn; [|destruct (x =? k) eqn:E; [lia|reflexivity]].
  rewrite !PositiveMap.mem_find.
  destruct (x =? k) eqn:E.
  - apply Z.eqb_eq in E. subst. now rewrite PositiveMap.gss.
  - rewrite PositiveMap.gso; [reflexivity|]. intros H. apply Z2Pos.inj in H; lia.
Qed.

Lemma nodup_keys_spec l : forall m, nodup_keys l m = true ->
  Forall (fun k => 0 < k) l /\ NoDup l /\ (forall x, In x l -> kset_mem m x = false).
Proof.
  induction l as [|k l IH]; intros m H; cbn in H.
  - repeat split; [constructor|constructor|intros x []].
  - apply andb_true_iff in H. destruct H as [H H3]. apply andb_true_iff in H. destruct H as [H1 H2].
    assert (Hk : 0 < k) by lia. apply negb_true_iff in H2.
    destruct (IH _ H3) as (F & N & M). split; [now constructor|]. split.
    + constructor; [|exact N]. intros Hin. specialize (M k Hin).
      rewrite kset_mem_add, Z.eqb_refl in M by exact Hk. discriminate.
    + intros x [<-|Hx]; [exact H2|]. specialize (M x Hx).
      rewrite kset_mem_add in M by exact Hk. now apply orb_false_iff in M.
Qed.

Lemma kset_of_mem l x : Forall (fun k => 0 < k) l -> kset_mem (kset_of l) x = true -> In x l.
Proof.
  intros F. unfold kset_of.
  assert (G : forall m, kset_mem (fold_left kset_add l m) x = true -> In x l \/ kset_mem m x = true).
  { induction F as [|k l Hk F IH]; intros m H; [now right|]. cbn in H.
    destruct (IH _ H) as [H'|H']; [left; now right|].
    rewrite kset_mem_add in H' by exact Hk. apply orb_true_iff in H'.
    destruct H' as [H'|H']; [left; left; lia|now right]. }
  intros H. destruct (G _ H) as [H'|H']; [exact H'|].
  unfold kset_mem in H'. rewrite PositiveMap.mem_find, PositiveMap.gempty in H'.
  rewrite andb_false_r in H'. discriminate.
Qed.

(** ** Sorting *)
Lemma insert_sorted_perm {A} le (x : A) l : Permutation (x :: l) (insert_sorted le x l).
Proof.
  induction l as [|y l IH]; [apply Permutation_refl|]. cbn.
  destruct (le x y); [apply Permutation_refl|].
  eapply perm_trans; [apply perm_swap|]. now constructor.
Qed.
Lemma sort_by_perm {A} le (l : list A) : Permutation l (sort_by le l).
Proof.
  induction l as [|x l IH]; [constructor|]. cbn.
  eapply perm_trans; [|apply insert_sorted_perm]. now constructor.
Qed.

(** ** Lexicographic order *)
Lemma lex_gt_irrefl a : lex_gt a a = false.
Proof.
  induction a as [|x a IH]; [reflexivity|]. cbn [lex_gt].
  now rewrite IH, Nat.ltb_irrefl, andb_false_r.
Qed.
Lemma lex_gt_trans a : forall b c, lex_gt a b = true -> lex_gt b c = true -> lex_gt a c = true.
Proof.
  induction a as [|x a IH]; intros [|y b] [|z c]; cbn [lex_gt]; try discriminate.
  intros H1 H2. apply orb_true_iff in H1, H2. apply orb_true_iff.
  destruct H1 as [H1|H1], H2 as [H2|H2]; try (apply andb_true_iff in H1; destruct H1 as [H1 H1']);
    try (apply andb_true_iff in H2; destruct H2 as [H2 H2']); try (left; lia).
  right. apply andb_true_iff. split; [lia|]. now apply (IH b).
Qed.
Lemma lex_gt_asym a b : lex_gt a b = true -> lex_gt b a = false.
Proof.
  intros H. destruct (lex_gt b a) eqn:E; [|reflexivity].
  rewrite <- (lex_gt_irrefl a). symmetry. now apply (lex_gt_trans a b a).
Qed.

Lemma desc_lex_nth l : desc_lex l = true -> forall i j a b, (i < j)%nat ->
  nth_error l i = Some a -> nth_error l j = Some b -> lex_gt a b = true.
Proof.
  induction l as [|x l IH]; intros H i j a b Hij Ha Hb; [destruct i; discriminate|].
  destruct j as [|j]; [lia|]. cbn in Hb.
  destruct l as [|y l]; [destruct j; discriminate|].
  cbn [desc_lex] in H. apply andb_true_iff in H. destruct H as [H1 H2].
  destruct i as [|i]; cbn in Ha.
  - injection Ha as ->. destruct j as [|j].
    + cbn in Hb. now injection Hb as ->.
    + apply (lex_gt_trans a y b H1). apply (IH H2 O (S j)); [lia|reflexivity|exact Hb].
  - apply (IH H2 i j); [lia|exact Ha|exact Hb].
Qed.

Lemma list_nat_eqb_eq a : forall b, list_nat_eqb a b = true -> a = b.
Proof.
  induction a as [|x a IH]; intros [|y b] H; cbn in H; try discriminate; [reflexivity|].
  apply andb_true_iff in H. destruct H as [H1 H2]. apply Nat.eqb_eq in H1. subst.
  f_equal. now apply IH.
Qed.
