(** * EvalLists: the key lists of evaluator.py are, class by class, the prime products of
    all rank patterns of the class, best first *)
From Coq Require Import FMapPositive Permutation ZifyBool ZifyNat Arith Sorted Znumtheory.
From Verif Require Import PyBase PyFacts CardModel EvalModel PokerSpec EvalSpec EvalCheck CardProofs
  EvalRank EvalTable EvalHands.

(** ** Strictly descending lists *)
Definition sdesc : list nat -> Prop := StronglySorted (fun a b => (b < a)%nat).

Lemma sdesc_unique a : forall b, sdesc a -> sdesc b -> (forall i, In i a <-> In i b) -> a = b.
Proof.
  induction a as [|x a IH]; intros b Ha Hb H.
  - destruct b as [|y b]; [reflexivity|]. exfalso. apply (H y). now left.
  - destruct b as [|y b]; [exfalso; apply (H x); now left|].
    inversion Ha as [|? ? Ha' Fa]; subst. inversion Hb as [|? ? Hb' Fb]; subst.
    rewrite Forall_forall in Fa, Fb.
    assert (x = y).
    { assert (Hx : In x (y :: b)) by (apply H; now left).
      assert (Hy : In y (x :: a)) by (apply H; now left).
      destruct Hx as [->|Hx]; [reflexivity|]. destruct Hy as [->|Hy]; [reflexivity|].
      apply Fb in Hx. apply Fa in Hy. lia. }
    subst y. f_equal. apply IH; try assumption. intros i. split; intros Hi.
    + assert (Hi' : In i (x :: b)) by (apply H; now right). destruct Hi' as [->|]; [|assumption].
      apply Fa in Hi. lia.
    + assert (Hi' : In i (x :: a)) by (apply H; now right). destruct Hi' as [->|]; [|assumption].
      apply Fb in Hi. lia.
Qed.
Lemma sdesc_nodup l : sdesc l -> NoDup l.
Proof.
  induction 1 as [|x l _ IH F]; constructor; [|exact IH]. intros H. rewrite Forall_forall in F.
  apply F in H. lia.
Qed.
Lemma SS_filter {A} (R : A -> A -> Prop) f l : StronglySorted R l -> StronglySorted R (filter f l).
Proof.
  induction 1 as [|x l _ IH F]; [constructor|]. cbn [filter]. destruct (f x); [|exact IH].
  constructor; [exact IH|]. rewrite Forall_forall in F |- *. intros y Hy. apply filter_In in Hy.
  now apply F.
Qed.
Lemma sdesc_seq n a : sdesc (rev (seq a n)).
Proof.
  induction n as [|n IH]; [constructor|]. rewrite seq_S, rev_app_distr. cbn [rev app].
  constructor; [exact IH|]. apply Forall_forall. intros x Hx. apply in_rev, in_seq in Hx. lia.
Qed.
Lemma SS_app {A} (R : A -> A -> Prop) a b : StronglySorted R a -> StronglySorted R b ->
  (forall x y, In x a -> In y b -> R x y) -> StronglySorted R (a ++ b).
Proof.
  induction 1 as [|x a _ IH F]; intros Hb H; [exact Hb|]. cbn [app]. constructor.
  - apply IH; [exact Hb|]. intros. apply H; [now right|assumption].
  - apply Forall_app. split; [exact F|]. apply Forall_forall. intros y Hy. apply H; [now left|exact Hy].
Qed.
Lemma SS_map {A B} (R : A -> A -> Prop) (Q : B -> B -> Prop) (f : A -> B) l :
  (forall x y, In x l -> In y l -> R x y -> Q (f x) (f y)) -> StronglySorted R l -> StronglySorted Q (map f l).
Proof.
  intros H S. induction S as [|x l _ IH F]; [constructor|]. cbn [map]. constructor.
  - apply IH. intros. apply H; [now right|now right|assumption].
  - apply Forall_map. rewrite Forall_forall in F |- *. intros y Hy. apply H; [now left|now right|].
    now apply F.
Qed.

(** ** Multiplicities *)
Lemma of_mult_in m l i : In i (of_multiplicity m l) <-> (i < 13)%nat /\ copies i l = m.
Proof.
  unfold of_multiplicity. rewrite filter_In, <- in_rev, in_seq, Nat.eqb_eq. lia.
Qed.
Lemma of_mult_sdesc m l : sdesc (of_multiplicity m l).
Proof. apply SS_filter, sdesc_seq. Qed.
Lemma of_mult_eq m l x : sdesc x -> (forall i, In i x <-> (i < 13)%nat /\ copies i l = m) ->
  of_multiplicity m l = x.
Proof.
  intros S H. apply sdesc_unique; [apply of_mult_sdesc|exact S|]. intros i. rewrite of_mult_in.
  symmetry. apply H.
Qed.
Lemma copies_app i a b : copies i (a ++ b) = (copies i a + copies i b)%nat.
Proof. apply count_occ_app. Qed.
Lemma copies_repeat i x n : copies i (repeat x n) = if Nat.eqb x i then n else O.
Proof. apply count_repeat. Qed.
Lemma copies_nodup i l : NoDup l -> copies i l = if in_dec Nat.eq_dec i l then 1%nat else O.
Proof.
  intros N. unfold copies. destruct (in_dec Nat.eq_dec i l) as [H|H].
  - apply (NoDup_count_occ' Nat.eq_dec); assumption.
  - now apply count_occ_not_In.
Qed.
Lemma copies_sdesc i l : sdesc l -> copies i l = if in_dec Nat.eq_dec i l then 1%nat else O.
Proof. intros H. now apply copies_nodup, sdesc_nodup. Qed.

(** ** Combinations of a descending list *)
Lemma combs_sdesc l : sdesc l -> forall n x, In x (combs n l) ->
  sdesc x /\ incl x l /\ List.length x = n.
Proof.
  induction 1 as [|y l Sl IH F]; intros [|n] x Hx; cbn [combs] in Hx.
  - destruct Hx as [<-|[]]. repeat split; [constructor|intros ? []].
  - destruct Hx.
  - destruct Hx as [<-|[]]. repeat split; [constructor|intros ? []].
  - apply in_app_or in Hx. destruct Hx as [Hx|Hx].
    + apply in_map_iff in Hx. destruct Hx as (z & <- & Hz). destruct (IH n z Hz) as (S1 & I & L).
      repeat split; [|intros w [<-|Hw]; [now left|right; now apply I]|cbn; now rewrite L].
      constructor; [exact S1|]. rewrite Forall_forall in F |- *. intros w Hw. now apply F, I.
    + destruct (IH (S n) x Hx) as (S1 & I & L). repeat split; try assumption.
      intros w Hw. right. now apply I.
Qed.
Lemma combs_complete l x : sdesc l -> sdesc x -> incl x l -> In x (combs (List.length x) l).
Proof.
  intros Sl Sx I.
  assert (E : filter (fun i => if in_dec Nat.eq_dec i x then true else false) l = x).
  { apply sdesc_unique; [now apply SS_filter|exact Sx|]. intros i. rewrite filter_In.
    destruct (in_dec Nat.eq_dec i x); split; try tauto; try (intros [? ?]; discriminate).
    intros H. split; [now apply I|reflexivity]. }
  rewrite <- E. apply combs_filter.
Qed.

Definition lgt (a b : list nat) : Prop := lex_gt a b = true.
Lemma combs_desc l : sdesc l -> forall n, StronglySorted lgt (combs n l).
Proof.
  induction 1 as [|y l Sl IH F]; intros [|n]; cbn [combs]; try (repeat constructor; fail).
  apply SS_app; [|apply IH|].
  - apply (SS_map lgt); [|apply IH]. intros a b _ _ H. unfold lgt in *. cbn [lex_gt].
    rewrite H, Nat.eqb_refl. lia.
  - intros a b Ha Hb. apply in_map_iff in Ha. destruct Ha as (a' & <- & Ha).
    destruct (combs_sdesc l Sl _ _ Hb) as (_ & I & L). destruct b as [|z b]; [discriminate|].
    unfold lgt. cbn [lex_gt]. rewrite Forall_forall in F. specialize (F z (I z (or_introl eq_refl))).
    assert (E : (z <? y)%nat = true) by lia. now rewrite E.
Qed.
Lemma SS_desc_lex l : StronglySorted lgt l -> desc_lex l = true.
Proof.
  induction 1 as [|a l _ IH F]; [reflexivity|]. destruct l as [|b l]; [reflexivity|].
  cbn [desc_lex]. inversion F as [|? ? H _]; subst. unfold lgt in H. rewrite H. exact IH.
Qed.
Lemma lex_gt_app a b x y : List.length a = List.length b -> lex_gt a b = true ->
  lex_gt (a ++ x) (b ++ y) = true.
Proof.
  revert b. induction a as [|i a IH]; intros [|j b] L H; try discriminate. cbn [app lex_gt] in *.
  apply orb_true_iff in H. apply orb_true_iff. destruct H as [H|H]; [now left|right].
  apply andb_true_iff in H. destruct H as [H1 H2]. rewrite H1. cbn [andb]. apply IH; [cbn in L; lia|exact H2].
Qed.
Lemma lex_gt_same a x y : lex_gt x y = true -> lex_gt (a ++ x) (a ++ y) = true.
Proof.
  intros H. induction a as [|i a IH]; [exact H|]. cbn [app lex_gt]. rewrite IH, Nat.eqb_refl. lia.
Qed.

(** ** Unique factorisation over the 13 primes *)
Lemma primes_sweep : forallb (fun i => (1 <? prime i)
   && forallb (fun n => Z.gcd n (prime i) =? 1) (zrange 1 (prime i))
   && forallb (fun j => Nat.eqb i j || negb (prime i =? prime j)) (seq 0 13)) (seq 0 13) = true.
Proof. vm_compute. reflexivity. Qed.
Lemma prime_pos i : (i < 13)%nat -> 1 < prime i.
Proof.
  intros Hi. pose proof primes_sweep as H. rewrite forallb_forall in H. specialize (H i).
  rewrite in_seq in H. specialize (H ltac:(lia)). rewrite !andb_true_iff in H. lia.
Qed.
Lemma prime_is_prime i : (i < 13)%nat -> Znumtheory.prime (prime i).
Proof.
  intros Hi. pose proof primes_sweep as H. rewrite forallb_forall in H. specialize (H i).
  rewrite in_seq in H. specialize (H ltac:(lia)). rewrite !andb_true_iff in H.
  destruct H as [[H1 H2] _]. rewrite forallb_forall in H2. constructor; [lia|].
  intros n Hn. specialize (H2 n). rewrite in_zrange in H2. specialize (H2 ltac:(lia)).
  apply Zgcd_1_rel_prime. lia.
Qed.
Lemma prime_inj i j : (i < 13)%nat -> (j < 13)%nat -> prime i = prime j -> i = j.
Proof.
  intros Hi Hj E. pose proof primes_sweep as H. rewrite forallb_forall in H. specialize (H i).
  rewrite in_seq in H. specialize (H ltac:(lia)). rewrite !andb_true_iff in H.
  destruct H as [_ H]. rewrite forallb_forall in H. specialize (H j). rewrite in_seq in H.
  specialize (H ltac:(lia)). lia.
Qed.
Definition below (l : list nat) : Prop := Forall (fun i => (i < 13)%nat) l.
Lemma prime_prod_cons i l : prime_prod (i :: l) = prime i * prime_prod l.
Proof. unfold prime_prod. cbn [map]. apply prodZ_cons. Qed.
Lemma prime_prod_app a b : prime_prod (a ++ b) = prime_prod a * prime_prod b.
Proof.
  induction a as [|i a IH]; [cbn [app]; change (prime_prod []) with 1; lia|].
  cbn [app]. rewrite !prime_prod_cons, IH. lia.
Qed.
Lemma prime_prod_pos l : below l -> 0 < prime_prod l.
Proof.
  induction 1 as [|i l Hi _ IH]; [reflexivity|]. rewrite prime_prod_cons.
  pose proof (prime_pos i Hi). nia.
Qed.
Lemma prime_divides i l : (i < 13)%nat -> below l -> (prime i | prime_prod l) -> In i l.
Proof.
  intros Hi. induction 1 as [|j l Hj _ IH]; intros D.
  - exfalso. change (prime_prod []) with 1 in D. pose proof (prime_pos i Hi).
    apply Z.divide_1_r_nonneg in D; lia.
  - rewrite prime_prod_cons in D. apply prime_mult in D; [|now apply prime_is_prime].
    destruct D as [D|D]; [left|right; now apply IH].
    symmetry. apply prime_inj; try assumption.
    apply prime_div_prime; [now apply prime_is_prime|now apply prime_is_prime|exact D].
Qed.
Lemma prime_prod_inj a : forall b, below a -> below b -> prime_prod a = prime_prod b -> Permutation a b.
Proof.
  induction a as [|i a IH]; intros b Ha Hb E.
  - destruct b as [|j b]; [constructor|exfalso]. rewrite prime_prod_cons in E.
    inversion Hb as [|? ? Hj Hb']; subst. pose proof (prime_pos j Hj).
    pose proof (prime_prod_pos b Hb'). change (prime_prod []) with 1 in E. nia.
  - inversion Ha as [|? ? Hi Ha']; subst.
    assert (Hin : In i b).
    { apply prime_divides; try assumption. rewrite <- E, prime_prod_cons. exists (prime_prod a). lia. }
    apply in_split in Hin. destruct Hin as (b1 & b2 & ->).
    etransitivity; [|apply Permutation_middle]. constructor. apply IH; [exact Ha'| |].
    + apply Forall_app in Hb. destruct Hb as [Hb1 Hb2]. inversion Hb2; subst. now apply Forall_app.
    + rewrite (prime_prod_perm (b1 ++ i :: b2) (i :: b1 ++ b2)) in E by (symmetry; apply Permutation_middle).
      rewrite !prime_prod_cons in E. pose proof (prime_pos i Hi). nia.
Qed.

(** ** Classes given by multiples *)
Definition spread (xm : list (nat * nat)) : list nat :=
  flat_map (fun p => repeat (fst p) (snd p)) xm.
Definition mpairs (r c : Z) (m : list nat) : list (list nat * list nat) :=
  flat_map (fun X => map (pair X)
     (combs (Z.to_nat (c - sumZ (map Z.of_nat m)))
            (fold_left (fun ks x => remove_first x ks) X (backwards_ranks r))))
    (multiple_choices r m).
Definition mlist (m : list nat) (p : list nat * list nat) : list nat :=
  spread (combine (fst p) m) ++ snd p.

Lemma prime_prod_repeat x n : prime_prod (repeat x n) = prime x ^ Z.of_nat n.
Proof.
  induction n as [|n IH]; [reflexivity|]. cbn [repeat]. rewrite prime_prod_cons, IH.
  rewrite Nat2Z.inj_succ, Z.pow_succ_r by lia. reflexivity.
Qed.
Lemma prime_prod_spread l : forall a,
  fold_left (fun p (cm : nat * nat) => p * prime (fst cm) ^ Z.of_nat (snd cm)) l a
  = a * prime_prod (spread l).
Proof.
  induction l as [|[x n] l IH]; intros a; cbn [fold_left]; [change (prime_prod (spread [])) with 1; lia|].
  rewrite IH. unfold spread. cbn [flat_map fst snd]. fold (spread l).
  rewrite prime_prod_app, prime_prod_repeat. lia.
Qed.
Lemma prime_prod_fold l : forall a, fold_left (fun p k => p * prime k) l a = a * prime_prod l.
Proof.
  induction l as [|x l IH]; intros a; cbn [fold_left]; [change (prime_prod []) with 1; lia|].
  rewrite IH, prime_prod_cons. lia.
Qed.
Lemma map_res_Ok {A B} (f : A -> result B) g l : (forall x, In x l -> f x = Ok (g x)) ->
  map_res f l = Ok (map g l).
Proof.
  induction l as [|x l IH]; intros H; [reflexivity|]. cbn [map_res map].
  rewrite (H x) by now left. cbn [bind]. rewrite IH by (intros; apply H; now right). reflexivity.
Qed.
Lemma mkeys_pairs r c m : 0 <= c - sumZ (map Z.of_nat m) ->
  mkeys r c m = map (fun p => prime_prod (mlist m p)) (mpairs r c m).
Proof.
  intros Hm. unfold mkeys, multiple_keys.
  set (nk := c - sumZ (map Z.of_nat m)) in *.
  rewrite (map_res_Ok _ (fun X => map (fun K => prime_prod (mlist m (X, K)))
     (combs (Z.to_nat nk) (fold_left (fun ks x => remove_first x ks) X (backwards_ranks r))))).
  - cbn [bind]. unfold mpairs. fold nk. clear. induction (multiple_choices r m) as [|X l IH]; [reflexivity|].
    cbn [map List.concat flat_map]. rewrite map_app, IH, map_map. reflexivity.
  - intros X _. destruct (nk =? 0) eqn:E.
    + apply Z.eqb_eq in E. rewrite E. cbn [Z.to_nat combs]. destruct (fold_left _ X _); cbn [combs map];
        rewrite prime_prod_spread; unfold mlist; cbn [fst snd]; rewrite app_nil_r; do 2 f_equal; lia.
    + unfold combinations. replace (nk <? 0) with false by lia. cbn [bind]. f_equal.
      apply map_ext. intros K. rewrite prime_prod_fold, prime_prod_spread. unfold mlist. cbn [fst snd].
      rewrite prime_prod_app. lia.
Qed.

Lemma backwards_sweep : forallb (fun r => list_nat_eqb (backwards_ranks r) (desc_ranks (Z.to_nat r)))
  (zrange 1 14) = true.
Proof. vm_compute. reflexivity. Qed.
Lemma backwards_desc r : 1 <= r <= 13 -> backwards_ranks r = desc_ranks (Z.to_nat r).
Proof.
  intros H. pose proof backwards_sweep as S0. rewrite forallb_forall in S0. specialize (S0 r).
  rewrite in_zrange in S0. apply list_nat_eqb_eq, S0. lia.
Qed.
Lemma desc_sdesc r : sdesc (desc_ranks r).
Proof. apply sdesc_seq. Qed.

Lemma remove_first_filter x l : NoDup l -> remove_first x l = filter (fun y => negb (Nat.eqb x y)) l.
Proof.
  induction 1 as [|y l Hy _ IH]; [reflexivity|]. cbn [remove_first filter].
  destruct (Nat.eqb x y) eqn:E; cbn [negb].
  - apply Nat.eqb_eq in E. subst y. clear IH. induction l as [|z l IH]; [reflexivity|]. cbn [filter].
    destruct (Nat.eqb x z) eqn:E; [apply Nat.eqb_eq in E; subst; exfalso; apply Hy; now left|].
    cbn [negb]. f_equal. apply IH. intros H. apply Hy. now right.
  - now rewrite IH.
Qed.
Lemma remove_fold X : forall l, sdesc l ->
  sdesc (fold_left (fun ks x => remove_first x ks) X l) /\
  forall i, In i (fold_left (fun ks x => remove_first x ks) X l) <-> In i l /\ ~ In i X.
Proof.
  induction X as [|x X IH]; intros l Hl; cbn [fold_left]; [split; [exact Hl|intros; cbn; tauto]|].
  rewrite (remove_first_filter x l) by now apply sdesc_nodup.
  destruct (IH (filter (fun y => negb (Nat.eqb x y)) l)) as [H1 H2]; [now apply SS_filter|].
  split; [exact H1|]. intros i. rewrite H2, filter_In. cbn [In].
  destruct (Nat.eqb x i) eqn:E; cbn [negb]; [apply Nat.eqb_eq in E|apply Nat.eqb_neq in E]; intuition congruence.
Qed.

Lemma SS_flat {A B} (R : A -> A -> Prop) (Q : B -> B -> Prop) (f : A -> list B) l :
  StronglySorted R l -> (forall x, In x l -> StronglySorted Q (f x)) ->
  (forall x y a b, In x l -> In y l -> R x y -> In a (f x) -> In b (f y) -> Q a b) ->
  StronglySorted Q (flat_map f l).
Proof.
  induction 1 as [|x l _ IH F]; intros H1 H2; [constructor|]. cbn [flat_map]. apply SS_app.
  - apply H1. now left.
  - apply IH; intros; [apply H1; now right|]. eapply H2; try eassumption; now right.
  - intros a b Ha Hb. apply in_flat_map in Hb. destruct Hb as (y & Hy & Hb).
    rewrite Forall_forall in F. apply (H2 x y); try assumption; [now left|now right|now apply F].
Qed.

Lemma picks_nodup {l : list nat} : NoDup l -> picks l = map (fun x => (x, remove_first x l)) l.
Proof.
  induction 1 as [|x l Hx N IH]; [reflexivity|]. cbn [picks map remove_first]. rewrite Nat.eqb_refl.
  f_equal. rewrite IH, map_map. apply map_ext_in. intros y Hy. cbn [fst snd].
  destruct (Nat.eqb y x) eqn:E; [apply Nat.eqb_eq in E; subst; contradiction|reflexivity].
Qed.
Lemma perms_2 l : NoDup l ->
  perms 2 l = flat_map (fun x => map (fun y => [x; y]) (remove_first x l)) l.
Proof.
  intros N. cbn [perms]. rewrite (picks_nodup N), flat_map_concat_map, map_map, <- flat_map_concat_map.
  apply flat_map_ext. intros x. cbn [fst snd].
  assert (N' : NoDup (remove_first x l)) by (rewrite remove_first_filter by assumption; now apply NoDup_filter).
  rewrite (picks_nodup N'). rewrite flat_map_concat_map, map_map, <- flat_map_concat_map. cbn [fst snd map].
  clear. induction (remove_first x l) as [|y m IH]; [reflexivity|]. cbn [flat_map map app]. now rewrite IH.
Qed.
Lemma combs_1 {A} (l : list A) : combs 1 l = map (fun x => [x]) l.
Proof.
  induction l as [|x l IH]; [reflexivity|]. cbn [combs map]. cbn [combs] in IH. rewrite IH.
  destruct l; reflexivity.
Qed.

Section Multiples.
  Variables (r c : Z).
  Hypothesis Hr : 1 <= r <= 13.
  Notation bw := (desc_ranks (Z.to_nat r)).

  Lemma choices_1 n X : In X (multiple_choices r [n]) <-> exists x, X = [x] /\ In x bw.
  Proof.
    unfold multiple_choices. rewrite backwards_desc by assumption. cbn [List.length]. rewrite combs_1, in_map_iff.
    split; intros (x & H1 & H2); exists x; auto.
  Qed.
  Lemma choices_2 n X : In X (multiple_choices r [n; n]) <->
    exists x y, X = [x; y] /\ (y < x)%nat /\ In x bw /\ In y bw.
  Proof.
    unfold multiple_choices. rewrite backwards_desc, Nat.eqb_refl by assumption. split.
    - intros H. destruct (combs_sdesc _ (desc_sdesc _) _ _ H) as (S1 & I & L).
      destruct X as [|x [|y [|? ?]]]; try discriminate. exists x, y. split; [reflexivity|].
      inversion S1 as [|? ? _ F]; subst. inversion F; subst.
      split; [assumption|]. split; apply I; cbn; auto.
    - intros (x & y & -> & Hxy & Hx & Hy). apply (combs_complete _ [x; y]); [apply desc_sdesc| |].
      + repeat constructor. exact Hxy.
      + intros z [<-|[<-|[]]]; assumption.
  Qed.
  Lemma choices_3 n m X : n <> m -> In X (multiple_choices r [n; m]) <->
    exists x y, X = [x; y] /\ x <> y /\ In x bw /\ In y bw.
  Proof.
    intros Hn. unfold multiple_choices. rewrite backwards_desc by assumption.
    apply Nat.eqb_neq in Hn. rewrite Hn. rewrite (perms_2 _ (desc_nodup _)), in_flat_map. split.
    - intros (x & Hx & H). rewrite remove_first_filter in H by apply desc_nodup.
      apply in_map_iff in H. destruct H as (y & <- & Hy). apply filter_In in Hy.
      destruct Hy as [Hy E]. exists x, y. repeat split; try assumption.
      intros ->. rewrite Nat.eqb_refl in E. discriminate.
    - intros (x & y & -> & Hxy & Hx & Hy). exists x. split; [exact Hx|].
      rewrite remove_first_filter by apply desc_nodup. apply in_map_iff. exists y. split; [reflexivity|].
      apply filter_In. split; [exact Hy|]. apply Nat.eqb_neq in Hxy. now rewrite Hxy.
  Qed.

  Lemma choices_sorted m : (List.length m <= 2)%nat -> StronglySorted lgt (multiple_choices r m) /\
    forall X, In X (multiple_choices r m) -> List.length X = List.length m.
  Proof.
    intros Hm.
    assert (G : forall n, StronglySorted lgt (combs n (backwards_ranks r)) /\
       forall X, In X (combs n (backwards_ranks r)) -> List.length X = n).
    { intros n. rewrite backwards_desc by assumption. split; [apply combs_desc, desc_sdesc|].
      intros X HX. apply (combs_sdesc _ (desc_sdesc _) _ _ HX). }
    destruct m as [|a [|b [|? ?]]]; [apply G|apply G| |cbn in Hm; lia].
    unfold multiple_choices. destruct (Nat.eqb a b); [apply G|].
    rewrite backwards_desc by assumption. rewrite (perms_2 _ (desc_nodup _)). split.
    - apply (SS_flat (fun a b => (b < a)%nat)); [apply desc_sdesc| |].
      + intros x Hx. apply (SS_map (fun a b => (b < a)%nat)).
        * intros y z _ _ Hyz. unfold lgt. cbn [lex_gt].
          assert (E : (z <? y)%nat = true) by lia. rewrite E, Nat.eqb_refl. lia.
        * rewrite remove_first_filter by apply desc_nodup. apply SS_filter, desc_sdesc.
      + intros x y a' b' _ _ Hxy Ha Hb. apply in_map_iff in Ha. apply in_map_iff in Hb.
        destruct Ha as (? & <- & _). destruct Hb as (? & <- & _). unfold lgt. cbn [lex_gt].
        assert (E : (y <? x)%nat = true) by lia. now rewrite E.
    - intros X HX. apply in_flat_map in HX. destruct HX as (? & _ & HX). apply in_map_iff in HX.
      destruct HX as (? & <- & _). reflexivity.
  Qed.

  Lemma mpairs_in m X K : In (X, K) (mpairs r c m) <->
    In X (multiple_choices r m) /\ sdesc K /\
    List.length K = Z.to_nat (c - sumZ (map Z.of_nat m)) /\
    (forall i, In i K -> In i bw /\ ~ In i X).
  Proof.
    unfold mpairs. rewrite in_flat_map. rewrite backwards_desc by assumption. split.
    - intros (X' & HX & H). apply in_map_iff in H. destruct H as (K' & E & H).
      injection E as -> ->. destruct (remove_fold X bw (desc_sdesc _)) as [S1 HI].
      destruct (combs_sdesc _ S1 _ _ H) as (S2 & I & L). repeat split; try assumption.
      + now apply HI, I.
      + now apply HI, I.
    - intros (HX & S1 & L & H). exists X. split; [exact HX|]. apply in_map_iff. exists K.
      split; [reflexivity|]. rewrite <- L. destruct (remove_fold X bw (desc_sdesc _)) as [S2 HI].
      apply combs_complete; try assumption. intros i Hi. now apply HI, H.
  Qed.

  Lemma mpairs_sorted m : (List.length m <= 2)%nat ->
    StronglySorted (fun p q => lgt (fst p ++ snd p) (fst q ++ snd q)) (mpairs r c m).
  Proof.
    intros Hm. destruct (choices_sorted m Hm) as [S1 L1]. unfold mpairs.
    apply (SS_flat lgt); [exact S1| |].
    - intros X HX. apply (SS_map lgt).
      + intros a b _ _ H. cbn [fst snd]. now apply lex_gt_same.
      + apply combs_desc. rewrite backwards_desc by assumption. apply remove_fold, desc_sdesc.
    - intros X Y a b HX HY H Ha Hb. apply in_map_iff in Ha. apply in_map_iff in Hb.
      destruct Ha as (? & <- & _). destruct Hb as (? & <- & _). cbn [fst snd].
      apply lex_gt_app; [|exact H]. rewrite (L1 X HX), (L1 Y HY). reflexivity.
  Qed.
End Multiples.

(** ** The groups of a hand *)
Definition rep_all (n : nat) (l : list nat) : list nat := flat_map (fun i => repeat i n) l.

Lemma of_mult_exists m l i : existsb (Nat.eqb i) (of_multiplicity m l) = (i <? 13)%nat && Nat.eqb (copies i l) m.
Proof.
  apply eq_true_iff_eq. rewrite existsb_exists, andb_true_iff, Nat.eqb_eq, Nat.ltb_lt, <- of_mult_in. split.
  - intros (j & H & E). apply Nat.eqb_eq in E. now subst.
  - intros H. exists i. split; [exact H|apply Nat.eqb_refl].
Qed.
Lemma of_mult_nodup m l : NoDup (of_multiplicity m l).
Proof. apply sdesc_nodup, of_mult_sdesc. Qed.

Lemma group_perm l : below l -> (forall i, (copies i l <= 4)%nat) ->
  Permutation l (rep_all 4 (quads l) ++ rep_all 3 (trips l) ++ rep_all 2 (pairs l) ++ singles l).
Proof.
  intros B H. apply (Permutation_count_occ Nat.eq_dec). intros i.
  rewrite !count_occ_app. unfold rep_all.
  rewrite !count_flat by apply of_mult_nodup.
  unfold quads, trips, pairs. rewrite !of_mult_exists.
  assert (E1 : count_occ Nat.eq_dec (singles l) i = if (i <? 13)%nat && Nat.eqb (copies i l) 1 then 1%nat else O).
  { change (copies i (singles l) = if (i <? 13)%nat && Nat.eqb (copies i l) 1 then 1%nat else O).
    rewrite copies_nodup by apply of_mult_nodup. unfold singles. rewrite <- of_mult_exists.
    destruct (in_dec Nat.eq_dec i (of_multiplicity 1 l)) as [Hi|Hi].
    - destruct (existsb _ _) eqn:E; [reflexivity|]. exfalso.
      assert (X : existsb (Nat.eqb i) (of_multiplicity 1 l) = true); [|congruence].
      apply existsb_exists. exists i. split; [exact Hi|apply Nat.eqb_refl].
    - destruct (existsb _ _) eqn:E; [|reflexivity]. exfalso. apply existsb_exists in E.
      destruct E as (j & Hj & E). apply Nat.eqb_eq in E. subst. contradiction. }
  rewrite E1. clear E1. fold (copies i l).
  assert (H13 : (i <? 13)%nat = true \/ copies i l = O).
  { destruct (i <? 13)%nat eqn:E; [now left|right]. apply count_occ_not_In. intros Hi.
    unfold below in B. rewrite Forall_forall in B. apply B in Hi. lia. }
  specialize (H i). remember (copies i l) as n eqn:En. clear En B.
  destruct H13 as [->| ->].
  - cbn [andb]. do 5 (destruct n as [|n]; [reflexivity|]). lia.
  - rewrite !andb_false_r. reflexivity.
Qed.

Lemma group_length l : below l -> (forall i, (copies i l <= 4)%nat) ->
  List.length l = (4 * List.length (quads l) + 3 * List.length (trips l)
                   + 2 * List.length (pairs l) + List.length (singles l))%nat.
Proof.
  intros B H. pose proof (Permutation_length (group_perm l B H)) as E.
  rewrite !app_length in E.
  assert (G : forall n x, List.length (rep_all n x) = (n * List.length x)%nat).
  { intros n x. unfold rep_all. induction x as [|y x IH]; [cbn; lia|]. cbn [flat_map List.length].
    rewrite app_length, repeat_length, IH. lia. }
  rewrite !G in E. lia.
Qed.

Definition multi_classes : list hclass := [FK; FH; TK; TP; PA].
Definition group_counts (k : hclass) : nat * nat * nat :=
  match k with
  | FK => (1, 0, 0) | FH => (0, 1, 1) | TK => (0, 1, 0) | TP => (0, 0, 2) | PA => (0, 0, 1)
  | _ => (0, 0, 0)
  end%nat.

Ltac mult_tac HK :=
  apply of_mult_eq; [repeat constructor; assumption|]; intros i;
  rewrite ?copies_app, ?copies_repeat; rewrite ?copies_sdesc by assumption;
  change (copies i []) with O; cbn [In];
  let Hi := fresh "Hi" in
  match goal with |- context [in_dec Nat.eq_dec i ?K] =>
    destruct (in_dec Nat.eq_dec i K) as [Hi|Hi]; [pose proof (HK i Hi)|] end;
  repeat match goal with |- context [Nat.eqb ?x i] =>
    let E := fresh "E" in destruct (Nat.eqb x i) eqn:E; [apply Nat.eqb_eq in E; subst|apply Nat.eqb_neq in E] end;
  intuition (first [lia|congruence]).

Section Groups.
  Variables (r c : Z).
  Hypothesis Hr : 1 <= r <= 13.
  Hypothesis Hc : c <= 5.
  Notation bw := (desc_ranks (Z.to_nat r)).

  Lemma mlist_groups k X K : In k multi_classes -> In (X, K) (mpairs r c (class_multiples k)) ->
    let l := mlist (class_multiples k) (X, K) in
    quads l ++ trips l ++ pairs l = X /\ singles l = K /\
    (List.length (quads l), List.length (trips l), List.length (pairs l)) = group_counts k.
  Proof.
    intros Hk H l. apply mpairs_in in H; [|exact Hr]. destruct H as (HX & SK & LK & HK0).
    assert (D : forall i, In i bw -> (i < 13)%nat) by (intros i Hi; apply in_desc in Hi; lia).
    assert (HK : forall i, In i K -> (i < 13)%nat /\ ~ In i X) by (intros i Hi; split; [apply D|]; apply HK0, Hi).
    unfold quads, trips, pairs, singles.
    destruct Hk as [<-|[<-|[<-|[<-|[<-|[]]]]]]; unfold class_multiples in *.
    - apply choices_1 in HX; [|exact Hr]. destruct HX as (x & -> & Hx). apply D in Hx.
      unfold l, mlist, spread. cbn [combine flat_map fst snd In] in *. rewrite app_nil_r.
      replace (of_multiplicity 4 (repeat x 4 ++ K)) with [x] by (symmetry; mult_tac HK).
      replace (of_multiplicity 3 (repeat x 4 ++ K)) with (@nil nat) by (symmetry; mult_tac HK).
      replace (of_multiplicity 2 (repeat x 4 ++ K)) with (@nil nat) by (symmetry; mult_tac HK).
      replace (of_multiplicity 1 (repeat x 4 ++ K)) with K by (symmetry; mult_tac HK).
      auto.
    - apply choices_3 in HX; [|exact Hr|discriminate]. destruct HX as (x & y & -> & Hxy & Hx & Hy).
      apply D in Hx. apply D in Hy.
      unfold l, mlist, spread. cbn [combine flat_map fst snd In] in *. rewrite app_nil_r, <- app_assoc.
      replace (of_multiplicity 4 (repeat x 3 ++ repeat y 2 ++ K)) with (@nil nat) by (symmetry; mult_tac HK).
      replace (of_multiplicity 3 (repeat x 3 ++ repeat y 2 ++ K)) with [x] by (symmetry; mult_tac HK).
      replace (of_multiplicity 2 (repeat x 3 ++ repeat y 2 ++ K)) with [y] by (symmetry; mult_tac HK).
      replace (of_multiplicity 1 (repeat x 3 ++ repeat y 2 ++ K)) with K by (symmetry; mult_tac HK).
      auto.
    - apply choices_1 in HX; [|exact Hr]. destruct HX as (x & -> & Hx). apply D in Hx.
      unfold l, mlist, spread. cbn [combine flat_map fst snd In] in *. rewrite app_nil_r.
      replace (of_multiplicity 4 (repeat x 3 ++ K)) with (@nil nat) by (symmetry; mult_tac HK).
      replace (of_multiplicity 3 (repeat x 3 ++ K)) with [x] by (symmetry; mult_tac HK).
      replace (of_multiplicity 2 (repeat x 3 ++ K)) with (@nil nat) by (symmetry; mult_tac HK).
      replace (of_multiplicity 1 (repeat x 3 ++ K)) with K by (symmetry; mult_tac HK).
      auto.
    - apply choices_2 in HX; [|exact Hr]. destruct HX as (x & y & -> & Hxy & Hx & Hy).
      apply D in Hx. apply D in Hy.
      unfold l, mlist, spread. cbn [combine flat_map fst snd In] in *. rewrite app_nil_r, <- app_assoc.
      replace (of_multiplicity 4 (repeat x 2 ++ repeat y 2 ++ K)) with (@nil nat) by (symmetry; mult_tac HK).
      replace (of_multiplicity 3 (repeat x 2 ++ repeat y 2 ++ K)) with (@nil nat) by (symmetry; mult_tac HK).
      replace (of_multiplicity 2 (repeat x 2 ++ repeat y 2 ++ K)) with [x; y] by (symmetry; mult_tac HK).
      replace (of_multiplicity 1 (repeat x 2 ++ repeat y 2 ++ K)) with K by (symmetry; mult_tac HK).
      auto.
    - apply choices_1 in HX; [|exact Hr]. destruct HX as (x & -> & Hx). apply D in Hx.
      unfold l, mlist, spread. cbn [combine flat_map fst snd In] in *. rewrite app_nil_r.
      replace (of_multiplicity 4 (repeat x 2 ++ K)) with (@nil nat) by (symmetry; mult_tac HK).
      replace (of_multiplicity 3 (repeat x 2 ++ K)) with (@nil nat) by (symmetry; mult_tac HK).
      replace (of_multiplicity 2 (repeat x 2 ++ K)) with [x] by (symmetry; mult_tac HK).
      replace (of_multiplicity 1 (repeat x 2 ++ K)) with K by (symmetry; mult_tac HK).
      auto.
  Qed.

  Definition msum (k : hclass) : Z := sumZ (map Z.of_nat (class_multiples k)).

  Lemma mlist_below k X K : In k multi_classes -> In (X, K) (mpairs r c (class_multiples k)) ->
    below (mlist (class_multiples k) (X, K)).
  Proof.
    intros Hk H. apply mpairs_in in H; [|exact Hr]. destruct H as (HX & SK & LK & HK0).
    assert (D : forall i, In i bw -> (i < 13)%nat) by (intros i Hi; apply in_desc in Hi; lia).
    assert (FX : Forall (fun i => (i < 13)%nat) X).
    { apply Forall_forall. intros i Hi. apply D.
      destruct Hk as [<-|[<-|[<-|[<-|[<-|[]]]]]]; unfold class_multiples in HX.
      - apply choices_1 in HX; [|exact Hr]. destruct HX as (x & -> & Hx). destruct Hi as [<-|[]]; assumption.
      - apply choices_3 in HX; [|exact Hr|discriminate]. destruct HX as (x & y & -> & _ & Hx & Hy).
        destruct Hi as [<-|[<-|[]]]; assumption.
      - apply choices_1 in HX; [|exact Hr]. destruct HX as (x & -> & Hx). destruct Hi as [<-|[]]; assumption.
      - apply choices_2 in HX; [|exact Hr]. destruct HX as (x & y & -> & _ & Hx & Hy).
        destruct Hi as [<-|[<-|[]]]; assumption.
      - apply choices_1 in HX; [|exact Hr]. destruct HX as (x & -> & Hx). destruct Hi as [<-|[]]; assumption. }
    unfold mlist. cbn [fst snd]. apply Forall_app. split.
    - apply Forall_forall. intros i Hi. unfold spread in Hi. apply in_flat_map in Hi.
      destruct Hi as ([x n] & Hp & Hi). apply repeat_spec in Hi. cbn [fst] in Hi. subst.
      apply in_combine_l in Hp. rewrite Forall_forall in FX. now apply FX.
    - apply Forall_forall. intros i Hi. apply D, HK0, Hi.
  Qed.

  (** class and tie-break of the hands behind the keys *)
  Lemma mlist_class s low k X K : In k multi_classes -> In (X, K) (mpairs r c (class_multiples k)) ->
    msum k <= c ->
    let l := mlist (class_multiples k) (X, K) in
    straight_top (Z.to_nat r) (Z.to_nat c) low l = None /\
    tie_break (Z.to_nat r) (Z.to_nat c) low l = X ++ K /\
    classify s (Z.to_nat r) (Z.to_nat c) low false l = k.
  Proof.
    intros Hk H Hm l. destruct (mlist_groups k X K Hk H) as (EX & EK & EG). fold l in EX, EK, EG.
    assert (LK : List.length K = Z.to_nat (c - msum k)).
    { apply mpairs_in in H; [|exact Hr]. apply H. }
    assert (Hms : 2 <= msum k).
    { destruct Hk as [<-|[<-|[<-|[<-|[<-|[]]]]]]; unfold msum; cbn; lia. }
    assert (St : straight_top (Z.to_nat r) (Z.to_nat c) low l = None).
    { unfold straight_top. rewrite EK.
      replace (Nat.eqb (Datatypes.length K) (Z.to_nat c)) with false by lia. cbn [negb].
      now rewrite orb_true_r. }
    split; [exact St|]. split.
    - unfold tie_break. rewrite St. unfold kick_order. rewrite EK.
      rewrite <- EX. now rewrite !app_assoc.
    - unfold classify, is_flush, is_straight. rewrite St, !andb_false_r. pose proof (f_equal (fun x => fst (fst x)) EG) as E1; pose proof (f_equal (fun x => snd (fst x)) EG) as E2; pose proof (f_equal (fun x => snd x) EG) as E3; cbn [fst snd] in E1, E2, E3.
      rewrite E1, E2, E3. destruct Hk as [<-|[<-|[<-|[<-|[<-|[]]]]]]; reflexivity.
  Qed.

  Lemma mlist_complete s low same k l : In k multi_classes ->
    List.length l = Z.to_nat c -> Forall (fun i => (13 - Z.to_nat r <= i < 13)%nat) l ->
    (forall i, (copies i l <= 4)%nat) ->
    classify s (Z.to_nat r) (Z.to_nat c) low same l = k ->
    msum k <= c /\
    exists X K, In (X, K) (mpairs r c (class_multiples k)) /\
                Permutation l (mlist (class_multiples k) (X, K)).
  Proof.
    intros Hk Ll Fl Hcp Hcl.
    assert (Bl : below l) by (eapply Forall_impl; [|exact Fl]; cbn; lia).
    pose proof (group_perm l Bl Hcp) as P. pose proof (group_length l Bl Hcp) as Lg.
    assert (InD : forall m i, (1 <= m)%nat -> In i (of_multiplicity m l) -> In i bw).
    { intros m i Hm Hi. apply of_mult_in in Hi. apply in_desc; [lia|].
      rewrite Forall_forall in Fl. apply Fl. apply (count_occ_In Nat.eq_dec).
      unfold copies in Hi. lia. }
    assert (Dis : forall m n i, In i (of_multiplicity m l) -> In i (of_multiplicity n l) -> m = n).
    { intros m n i H1 H2. apply of_mult_in in H1. apply of_mult_in in H2. lia. }
    assert (Hgr : (List.length (quads l), List.length (trips l), List.length (pairs l)) = group_counts k).
    { clear P InD Dis. unfold classify in Hcl.
      destruct (List.length (quads l)) as [|q]; destruct (List.length (trips l)) as [|t];
        destruct (List.length (pairs l)) as [|[|[|p]]]; cbn in Hcl;
        destruct (is_flush s (Z.to_nat c) same); destruct (is_straight (Z.to_nat r) (Z.to_nat c) low l);
        cbn in Hcl; subst k; cbn in Hk;
        try (exfalso; clear -Hk; intuition discriminate);
        try (exfalso; lia);
        cbn [group_counts]; f_equal; try (f_equal; lia); lia. }
    assert (SK : sdesc (singles l)) by apply of_mult_sdesc.
    assert (LK : msum k <= c /\ List.length (singles l) = Z.to_nat (c - msum k)).
    { clear -Hk Hgr Lg Ll Hc. pose proof (f_equal (fun x => fst (fst x)) Hgr) as E1; pose proof (f_equal (fun x => snd (fst x)) Hgr) as E2; pose proof (f_equal (fun x => snd x) Hgr) as E3; cbn [fst snd] in E1, E2, E3.
      destruct Hk as [<-|[<-|[<-|[<-|[<-|[]]]]]]; 
        cbn [group_counts fst snd] in E1, E2, E3;
        [change (msum FK) with 4|change (msum FH) with 5|change (msum TK) with 3|change (msum TP) with 4
        |change (msum PA) with 2]; lia. }
    split; [apply LK|]. destruct LK as [_ LK].
    exists (quads l ++ trips l ++ pairs l), (singles l).
    assert (HK : forall i, In i (singles l) -> In i bw /\ ~ In i (quads l ++ trips l ++ pairs l)).
    { intros i Hi. split; [apply (InD 1%nat); [lia|exact Hi]|].
      rewrite !in_app_iff. intros [H|[H|H]]; pose proof (Dis _ _ _ Hi H); lia. }
    rewrite mpairs_in by exact Hr. repeat split.
    - pose proof (f_equal (fun x => fst (fst x)) Hgr) as E1; pose proof (f_equal (fun x => snd (fst x)) Hgr) as E2; pose proof (f_equal (fun x => snd x) Hgr) as E3; cbn [fst snd] in E1, E2, E3.
      destruct (quads l) as [|x0 [|? ?]] eqn:Q0; destruct (trips l) as [|x1 [|? ?]] eqn:T0;
        destruct (pairs l) as [|x2 [|x3 [|? ?]]] eqn:P0;
        destruct Hk as [<-|[<-|[<-|[<-|[<-|[]]]]]]; cbn [group_counts fst snd List.length] in E1, E2, E3; try lia; cbn [app class_multiples].
      + apply choices_1; [exact Hr|]. exists x2. split; [reflexivity|]. apply (InD 2%nat); [lia|].
        fold (pairs l). rewrite P0. now left.
      + apply choices_2; [exact Hr|]. exists x2, x3. split; [reflexivity|].
        pose proof (of_mult_sdesc 2 l) as S2. fold (pairs l) in S2. rewrite P0 in S2.
        inversion S2 as [|? ? _ F2]; subst. inversion F2; subst. split; [assumption|].
        split; apply (InD 2%nat); try lia; fold (pairs l); rewrite P0; cbn; auto.
      + apply choices_1; [exact Hr|]. exists x1. split; [reflexivity|]. apply (InD 3%nat); [lia|].
        fold (trips l). rewrite T0. now left.
      + apply choices_3; [exact Hr|discriminate|]. exists x1, x2. split; [reflexivity|].
        assert (H1 : In x1 (trips l)) by (rewrite T0; now left).
        assert (H2 : In x2 (pairs l)) by (rewrite P0; now left).
        split; [intros <-; pose proof (Dis _ _ _ H1 H2); lia|].
        split; [apply (InD 3%nat)|apply (InD 2%nat)]; try lia; assumption.
      + apply choices_1; [exact Hr|]. exists x0. split; [reflexivity|]. apply (InD 4%nat); [lia|].
        fold (quads l). rewrite Q0. now left.
    - exact SK.
    - exact LK.
    - now apply HK.
    - now apply HK.
    - etransitivity; [exact P|]. unfold mlist. cbn [fst snd]. rewrite !app_assoc.
      apply Permutation_app_tail. pose proof (f_equal (fun x => fst (fst x)) Hgr) as E1; pose proof (f_equal (fun x => snd (fst x)) Hgr) as E2; pose proof (f_equal (fun x => snd x) Hgr) as E3; cbn [fst snd] in E1, E2, E3.
      destruct (quads l) as [|x0 [|? ?]] eqn:Q0; destruct (trips l) as [|x1 [|? ?]] eqn:T0;
        destruct (pairs l) as [|x2 [|x3 [|? ?]]] eqn:P0;
        destruct Hk as [<-|[<-|[<-|[<-|[<-|[]]]]]]; cbn [group_counts fst snd List.length] in E1, E2, E3; try lia; reflexivity.
  Qed.
End Groups.
