(** * SideExists: every showdown has side pots; a way to compute them *)
From Coq Require Import ZifyBool ZifyNat Arith Permutation.
From Verif Require Import PyBase PyFacts ShowSpec.

Fixpoint least (l : list Z) : Z := match l with [] => 0 | [x] => x | x :: r => Z.min x (least r) end.
Lemma least_cons x y l : least (x :: y :: l) = Z.min x (least (y :: l)).
Proof. reflexivity. Qed.
Lemma least_le l x : In x l -> least l <= x.
Proof.
  induction l as [|y l IH]; intros H; [destruct H|]. destruct l as [|z l]; [destruct H as [->|[]]; cbn; lia|]. rewrite least_cons.
  destruct H as [->|H]; [lia|]. specialize (IH H). lia.
Qed.
Lemma least_in l : l <> [] -> In (least l) l.
Proof.
  induction l as [|y l IH]; intros H; [congruence|]. destruct l as [|z l]; [now left|]. rewrite least_cons.
  specialize (IH ltac:(discriminate)). destruct (Z.min_spec y (least (z :: l))) as [[_ ->]|[_ ->]]; [now left|now right].
Qed.
Definition contenders (d : showdown) (a : Z) : list nat :=
  filter (fun i => sd_in d i && (a <? sd_put d i)) (seq 0 (sd_players d)).
Definition winners_fun (d : showdown) (a : Z) : list nat :=
  filter (fun i => sd_rank d i =? least (map (sd_rank d) (contenders d a))) (contenders d a).
Fixpoint pots_fun (fuel : nat) (d : showdown) (a : Z) : list (list nat * Z) :=
  match fuel with
  | O => []
  | S f => match winners_fun d a with
           | [] => []
           | w => let b := least (map (sd_put d) w) in (w, chips_between d a b) :: pots_fun f d b
           end
  end.
Lemma contenders_in d a i : In i (contenders d a) <-> contends d a i.
Proof. unfold contenders, contends. rewrite filter_In, in_seq. split; intros H; (split; [lia|]); [split; lia|]. destruct H as (_ & -> & H). lia. Qed.
Lemma winners_fun_ok d a : winners d a (winners_fun d a).
Proof.
  split; [apply NoDup_filter, NoDup_filter, seq_NoDup|]. intros i. unfold winners_fun. rewrite filter_In, contenders_in. split.
  - intros [H E]. split; [exact H|]. intros j Hj. apply contenders_in in Hj. pose proof (least_le _ _ (in_map (sd_rank d) _ _ Hj)). lia.
  - intros [H E]. split; [exact H|]. pose proof H as H'. apply contenders_in in H'. pose proof (least_le _ _ (in_map (sd_rank d) _ _ H')).
    assert (N : map (sd_rank d) (contenders d a) <> []) by (intros X; apply map_eq_nil in X; rewrite X in H'; destruct H').
    pose proof (least_in _ N) as L. apply in_map_iff in L. destruct L as (j & Ej & Hj). apply contenders_in in Hj. specialize (E j Hj). lia.
Qed.
Lemma winners_fun_none d a : winners_fun d a = [] -> forall i, ~ contends d a i.
Proof.
  intros H i Hi. apply contenders_in in Hi.
  assert (N : map (sd_rank d) (contenders d a) <> []) by (intros X; apply map_eq_nil in X; rewrite X in Hi; destruct Hi).
  pose proof (least_in _ N) as L. apply in_map_iff in L. destruct L as (j & Ej & Hj).
  assert (X : In j (winners_fun d a)) by (apply filter_In; split; [exact Hj|lia]). rewrite H in X. destruct X.
Qed.
Lemma filter_shrink {A} (f g : A -> bool) l : (forall x, g x = true -> f x = true) -> (exists x, In x l /\ f x = true /\ g x = false) ->
  (List.length (filter g l) < List.length (filter f l))%nat.
Proof.
  intros H. assert (X : forall l, (List.length (filter g l) <= List.length (filter f l))%nat).
  { clear l. induction l as [|y l IH]; [reflexivity|]. cbn [filter]. specialize (H y). destruct (g y) eqn:G; [rewrite (H eq_refl); cbn; lia|].
    destruct (f y); cbn; lia. }
  induction l as [|y l IH]; intros (x & Hx & Fx & Gx); [destruct Hx|]. cbn [filter]. destruct Hx as [->|Hx].
  - rewrite Fx, Gx. cbn. specialize (X l). lia.
  - specialize (IH (ex_intro _ x (conj Hx (conj Fx Gx)))). specialize (H y). destruct (g y) eqn:G; [rewrite (H eq_refl); cbn; lia|].
    destruct (f y); cbn; lia.
Qed.
Lemma pots_fun_ok d : forall fuel a, (List.length (contenders d a) < fuel)%nat -> side_pots d a (pots_fun fuel d a).
Proof.
  induction fuel as [|f IH]; intros a H; [lia|]. cbn [pots_fun]. pose proof (winners_fun_ok d a) as W. pose proof (winners_fun_none d a) as N.
  destruct (winners_fun d a) as [|i w]; [apply side_pots_none; now apply N|].
  set (b := least (map (sd_put d) (i :: w))).
  assert (M : In b (map (sd_put d) (i :: w))) by (apply least_in; discriminate).
  apply in_map_iff in M. destruct M as (k & Ek & Hk). pose proof (proj2 W k) as Wk.
  assert (Ck : contends d a k) by now apply Wk. destruct Ck as (C1 & C2 & C3).
  apply side_pots_next; [exact W|exists k; auto|intros j Hj; apply least_le; now apply in_map|].
  apply IH. enough (List.length (contenders d b) < List.length (contenders d a))%nat by lia.
  apply filter_shrink; [intros x; lia|]. exists k. split; [apply in_seq; lia|]. split; [rewrite C2; lia|]. rewrite C2, Ek. lia.
Qed.
Lemma side_pots_exist d a : exists p, side_pots d a p.
Proof. eexists. apply pots_fun_ok. apply Nat.lt_succ_diag_r. Qed.
(** the fuel needed is at most the number of players *)
Lemma pots_fun_players d : side_pots d 0 (pots_fun (S (sd_players d)) d 0).
Proof.
  apply pots_fun_ok. unfold contenders.
  assert (X : forall l : list nat, forall f : nat -> bool, (List.length (filter f l) <= List.length l)%nat).
  { induction l as [|x l IH]; intros f; [reflexivity|]. cbn. specialize (IH f). destruct (f x); cbn; lia. }
  specialize (X (seq 0 (sd_players d)) (fun i => sd_in d i && (0 <? sd_put d i))). rewrite seq_length in X. lia.
Qed.

(** ** deciding the conditions of ShowSpec *)
Definition seats (d : showdown) : list nat := seq 0 (sd_players d).
Definition covered_foldsb (d : showdown) : bool :=
  forallb (fun i => sd_in d i || existsb (fun j => sd_in d j && (sd_put d i <=? sd_put d j)) (seats d)) (seats d).
Definition regular_tiesb (d : showdown) : bool :=
  forallb (fun j => forallb (fun k =>
    negb (sd_in d j && sd_in d k && (sd_rank d j =? sd_rank d k) && (sd_put d j <? sd_put d k)) ||
    ((0 <? sd_put d j) && forallb (fun i =>
      negb (sd_in d i) || Nat.eqb i j ||
      ((negb (sd_rank d i <? sd_rank d j) || (sd_put d i <? sd_put d j)) &&
       (negb (sd_rank d i =? sd_rank d j) || negb (sd_put d i =? sd_put d j)))) (seats d))) (seats d)) (seats d).
Lemma in_seats d i : In i (seats d) <-> (i < sd_players d)%nat.
Proof. unfold seats. rewrite in_seq. lia. Qed.
Lemma covered_foldsb_ok d : covered_foldsb d = true -> covered_folds d.
Proof.
  unfold covered_foldsb. rewrite forallb_forall. intros H i Hi Ii. apply in_seats in Hi. specialize (H i Hi). rewrite Ii in H. cbn [orb] in H.
  apply existsb_exists in H. destruct H as (j & Hj & E). apply in_seats in Hj. exists j. split; [exact Hj|]. destruct (sd_in d j); [split; [reflexivity|lia]|discriminate].
Qed.
Lemma regular_tiesb_ok d : regular_tiesb d = true -> regular_ties d.
Proof.
  unfold regular_tiesb. rewrite forallb_forall. intros H j k Hj Hk Ij Ik E L.
  specialize (H j (proj2 (in_seats d j) Hj)). rewrite forallb_forall in H. specialize (H k (proj2 (in_seats d k) Hk)).
  rewrite Ij, Ik in H. replace (sd_rank d j =? sd_rank d k) with true in H by lia. replace (sd_put d j <? sd_put d k) with true in H by lia. cbn [andb negb orb] in H.
  apply andb_true_iff in H. destruct H as [H1 H2]. split; [lia|]. intros i Hi Ii Ni. rewrite forallb_forall in H2.
  specialize (H2 i (proj2 (in_seats d i) Hi)). rewrite Ii in H2. destruct (Nat.eqb_spec i j); [congruence|]. cbn [negb orb] in H2. lia.
Qed.
