(** * EvalCount: how many hands of the deck belong to each class *)
From Coq Require Import Permutation ZifyBool ZifyNat Arith.
From Verif Require Import PyBase PyFacts EvalModel PokerSpec EvalSpec EvalCheck EvalRank EvalHands.

(** ** Counting through rank multisets *)
Fixpoint binom (n k : nat) : nat :=
  match n, k with
  | _, O => 1
  | O, S _ => 0
  | S n', S k' => binom n' k' + binom n' (S k')
  end.

(** rank lists (highest first) with the number of ways to choose their suits *)
Fixpoint weighted (s : nat) (ranks : list nat) (n : nat) : list (list nat * Z) :=
  match ranks with
  | [] => match n with O => [([], 1)] | _ => [] end
  | i :: rest =>
    flat_map (fun k => let w := Z.of_nat (binom s k) in
                       if w =? 0 then []
                       else map (fun p => (repeat i k ++ fst p, w * snd p)) (weighted s rest (n - k)))
             (seq 0 (S n))
  end.

(** the frequency of each class *)
Definition add_count (k : hclass) (w : Z) (f : list (hclass * Z)) : list (hclass * Z) :=
  map (fun p => if hclass_eqb (fst p) k then (fst p, snd p + w) else p) f.
Definition zero_counts : list (hclass * Z) := map (fun k => (k, 0)) all_classes.
Definition frequencies (s r c : nat) (low : bool) : list (hclass * Z) :=
  let m := fold_left (fun f p => add_count (classify s r c low false (fst p)) (snd p) f)
                     (weighted s (desc_ranks r) c) zero_counts in
  fold_left (fun f d => add_count (classify s r c low true d) (Z.of_nat s)
                          (add_count (classify s r c low false d) (- Z.of_nat s) f))
            (combs c (desc_ranks r)) m.
Definition freq (fs : list (hclass * Z)) (k : hclass) : Z :=
  match find (fun p => hclass_eqb (fst p) k) fs with Some p => snd p | None => 0 end.

(** ** The two ways of counting agree *)
Definition sumf {A} (f : A -> Z) (l : list A) : Z := sumZ (map f l).
Lemma sumf_app {A} (f : A -> Z) a b : sumf f (a ++ b) = sumf f a + sumf f b.
Proof. unfold sumf. rewrite map_app. apply sumZ_app. Qed.
Lemma sumf_cons {A} (f : A -> Z) x l : sumf f (x :: l) = f x + sumf f l.
Proof. reflexivity. Qed.
Lemma sumf_map {A B} (f : B -> Z) (g : A -> B) l : sumf f (map g l) = sumf (fun x => f (g x)) l.
Proof. unfold sumf. now rewrite map_map. Qed.
Lemma sumf_ext {A} (f g : A -> Z) l : (forall x, In x l -> f x = g x) -> sumf f l = sumf g l.
Proof. intros H. unfold sumf. f_equal. now apply map_ext_in. Qed.
Lemma sumf_flat {A B} (f : B -> Z) (g : A -> list B) l :
  sumf f (flat_map g l) = sumf (fun x => sumf f (g x)) l.
Proof.
  induction l as [|x l IH]; [reflexivity|]. cbn [flat_map]. rewrite sumf_app, sumf_cons. now rewrite IH.
Qed.
Lemma sumf_plus {A} (f g : A -> Z) l : sumf (fun x => f x + g x) l = sumf f l + sumf g l.
Proof. induction l as [|x l IH]; [reflexivity|]. rewrite !sumf_cons, IH. lia. Qed.
Lemma sumf_scale {A} (f : A -> Z) a l : sumf (fun x => a * f x) l = a * sumf f l.
Proof. induction l as [|x l IH]; [unfold sumf; cbn; lia|]. rewrite !sumf_cons, IH. lia. Qed.
Lemma sumf_const {A} (a : Z) (l : list A) : sumf (fun _ => a) l = Z.of_nat (List.length l) * a.
Proof.
  induction l as [|x l IH]; [reflexivity|]. rewrite sumf_cons, IH. cbn [List.length]. lia.
Qed.
Lemma sumf_swap {A B} (f : A -> B -> Z) la lb :
  sumf (fun a => sumf (f a) lb) la = sumf (fun b => sumf (fun a => f a b) la) lb.
Proof.
  induction la as [|a la IH].
  - symmetry. rewrite (sumf_ext _ (fun _ => 0)) by reflexivity. rewrite sumf_const. unfold sumf. cbn. lia.
  - rewrite sumf_cons, IH. rewrite <- sumf_plus. apply sumf_ext. intros b _. now rewrite sumf_cons.
Qed.
Lemma sumf_filter {A} (q : A -> bool) (l : list A) :
  Z.of_nat (List.length (filter q l)) = sumf (fun x => b2z (q x)) l.
Proof.
  induction l as [|x l IH]; [reflexivity|]. rewrite sumf_cons, <- IH. cbn [filter].
  destruct (q x); cbn [List.length b2z]; lia.
Qed.

Lemma combs_0 {A} (l : list A) : combs 0 l = [[]].
Proof. now destruct l. Qed.
Lemma sumf_nil {A} (f : A -> Z) : sumf f [] = 0.
Proof. reflexivity. Qed.
Lemma sumf_one {A} (f : A -> Z) x : sumf f [x] = f x.
Proof. rewrite sumf_cons, sumf_nil. lia. Qed.
Lemma sumf_seq_S (f : nat -> Z) n : sumf f (seq 0 (S n)) = f O + sumf (fun k => f (S k)) (seq 0 n).
Proof. cbn [seq]. rewrite sumf_cons, <- seq_shift, sumf_map. reflexivity. Qed.

Lemma sum_combs_app {A} (a : list A) : forall b n (g : list A -> Z),
  sumf g (combs n (a ++ b))
  = sumf (fun k => sumf (fun x => sumf (fun y => g (x ++ y)) (combs (n - k) b)) (combs k a))
         (seq 0 (S n)).
Proof.
  induction a as [|x a IH]; intros b n g.
  - rewrite sumf_seq_S. cbn [app]. rewrite combs_0, sumf_one, Nat.sub_0_r. cbn [app].
    rewrite (sumf_ext (fun k => sumf _ (combs (S k) [])) (fun _ => 0)) by reflexivity.
    rewrite sumf_const. change (fun y : list A => g y) with g. lia.
  - destruct n as [|n].
    + rewrite combs_0, sumf_seq_S. cbn [seq]. rewrite sumf_nil. cbn [Nat.sub]. rewrite !combs_0, !sumf_one.
      cbn [app]. lia.
    + cbn [app combs]. rewrite sumf_app, sumf_map, IH, IH.
      rewrite (sumf_seq_S _ (S n)), (sumf_seq_S _ (S n)).
      rewrite !combs_0, !sumf_one.
      set (G := fun k => sumf (fun z => sumf (fun y => g (x :: z ++ y)) (combs (n - k) b)) (combs k a)).
      set (H := fun k => sumf (fun z => sumf (fun y => g (z ++ y)) (combs (n - k) b)) (combs (S k) a)).
      rewrite (sumf_ext (fun k => sumf _ (combs (S k) (x :: a))) (fun k => G k + H k)).
      2:{ intros k _. cbn [combs Nat.sub]. rewrite sumf_app, sumf_map. reflexivity. }
      rewrite sumf_plus.
      unfold G, H. cbn [Nat.sub app]. lia.
Qed.

Lemma sum_block i (suits : list nat) : forall k (F : list nat -> Z),
  sumf (fun x => F (map fst x)) (combs k (map (pair i) suits))
  = Z.of_nat (binom (List.length suits) k) * F (repeat i k).
Proof.
  induction suits as [|j suits IH]; intros [|k] F.
  1, 3: rewrite combs_0, sumf_one; cbn [map List.length binom repeat]; lia.
  { cbn [map combs List.length binom]. rewrite sumf_nil. lia. }
  cbn [map combs List.length binom repeat]. rewrite sumf_app, sumf_map. cbn [map fst].
  rewrite (IH k (fun l => F (i :: l))), (IH (S k) F). cbn [repeat]. lia.
Qed.

Definition deck_of (s : nat) (ranks : list nat) : list (nat * nat) :=
  flat_map (fun i => map (pair i) (seq 0 s)) ranks.

Lemma sum_weighted s ranks : forall n (f : list nat -> Z),
  sumf (fun h => f (map fst h)) (combs n (deck_of s ranks))
  = sumf (fun p => snd p * f (fst p)) (weighted s ranks n).
Proof.
  induction ranks as [|i ranks IH]; intros n f.
  - destruct n; [|reflexivity]. cbn [deck_of flat_map weighted]. rewrite combs_0, !sumf_one.
    cbn [fst snd map]. lia.
  - cbn [deck_of flat_map]. fold (deck_of s ranks). rewrite sum_combs_app. cbn [weighted].
    rewrite sumf_flat. apply sumf_ext. intros k _. cbv zeta.
    rewrite (sumf_ext _ (fun x => (fun l => sumf (fun p => snd p * f (l ++ fst p)) (weighted s ranks (n - k)))
                                    (map fst x))).
    2:{ intros x _. cbv beta. rewrite <- (IH (n - k)%nat (fun l => f (map fst x ++ l))).
        apply sumf_ext. intros y _. now rewrite map_app. }
    rewrite (sum_block i (seq 0 s) k
               (fun l => sumf (fun p => snd p * f (l ++ fst p)) (weighted s ranks (n - k)))), seq_length.
    destruct (Z.of_nat (binom s k) =? 0) eqn:E; [rewrite (proj1 (Z.eqb_eq _ _) E); reflexivity|].
    rewrite sumf_map, <- sumf_scale. apply sumf_ext. intros p _. cbn [fst snd]. lia.
Qed.

Lemma combs_filter_sum {A} (q : A -> bool) l : forall n (g : list A -> Z),
  sumf (fun h => b2z (forallb q h) * g h) (combs n l) = sumf g (combs n (filter q l)).
Proof.
  induction l as [|x l IH]; intros [|n] g.
  1, 3: rewrite !combs_0, !sumf_one; cbn [forallb b2z]; lia.
  { reflexivity. }
  cbn [combs filter]. rewrite sumf_app, sumf_map. cbn [forallb].
  destruct (q x) eqn:E; cbn [andb combs].
  - rewrite sumf_app, sumf_map. rewrite (IH n (fun h => g (x :: h))), (IH (S n) g). reflexivity.
  - rewrite IH. rewrite (sumf_ext _ (fun _ => 0)); [|reflexivity]. rewrite sumf_const. lia.
Qed.

Lemma combs_map {A B} (f : A -> B) l : forall n, combs n (map f l) = map (map f) (combs n l).
Proof.
  induction l as [|x l IH]; intros [|n]; try reflexivity.
  cbn [map combs]. rewrite IH, IH, map_app, !map_map. reflexivity.
Qed.

Lemma deck_suit s ranks j : (j < s)%nat ->
  filter (fun p => Nat.eqb (snd p) j) (deck_of s ranks) = map (fun i => (i, j)) ranks.
Proof.
  intros Hj. induction ranks as [|i ranks IH]; [reflexivity|].
  cbn [deck_of flat_map map]. fold (deck_of s ranks). rewrite filter_app, IH.
  replace (filter _ (map (pair i) (seq 0 s))) with [(i, j)]; [reflexivity|].
  assert (G : forall m a, (a <= j < a + m)%nat ->
     filter (fun p : nat * nat => Nat.eqb (snd p) j) (map (pair i) (seq a m)) = [(i, j)]).
  { assert (Z0 : forall m a, (j < a)%nat ->
       filter (fun p : nat * nat => Nat.eqb (snd p) j) (map (pair i) (seq a m)) = []).
    { induction m as [|m IHm]; intros a Ha; [reflexivity|]. cbn [seq map filter snd].
      replace (Nat.eqb a j) with false by lia. apply IHm. lia. }
    induction m as [|m IHm]; intros a Ha; [lia|]. cbn [seq map filter snd].
    destruct (Nat.eqb a j) eqn:E; [apply Nat.eqb_eq in E; subst; rewrite Z0 by lia; reflexivity|].
    apply IHm. lia. }
  symmetry. apply G. lia.
Qed.

Lemma combs_in {A} (l : list A) : forall n h, In h (combs n l) ->
  List.length h = n /\ incl h l.
Proof.
  induction l as [|x l IH]; intros [|n] h H; cbn [combs] in H.
  - destruct H as [<-|[]]. split; [reflexivity|intros ? []].
  - destruct H.
  - destruct H as [<-|[]]. split; [reflexivity|intros ? []].
  - apply in_app_or in H. destruct H as [H|H].
    + apply in_map_iff in H. destruct H as (h' & <- & H). destruct (IH n h' H) as [L I].
      split; [cbn; now rewrite L|]. intros y [<-|Hy]; [now left|right; now apply I].
    + destruct (IH (S n) h H) as [L I]. split; [exact L|]. intros y Hy. right. now apply I.
Qed.

Lemma same_suit_sum s h : h <> [] -> Forall (fun p => (snd p < s)%nat) h ->
  b2z (same_suit h) = sumf (fun j => b2z (forallb (fun p => Nat.eqb (snd p) j) h)) (seq 0 s).
Proof.
  destruct h as [|[i j] h]; [congruence|]. intros _ F. inversion F as [|? ? Hj _]; subst.
  cbn [snd] in Hj. cbn [same_suit forallb snd].
  assert (G : forall m a, sumf (fun j' => b2z (Nat.eqb j j' && forallb (fun p => Nat.eqb (snd p) j') h)) (seq a m)
     = if (a <=? j)%nat && (j <? a + m)%nat then b2z (forallb (fun p => Nat.eqb (snd p) j) h) else 0).
  { induction m as [|m IHm]; intros a.
    - replace ((a <=? j)%nat && (j <? a + 0)%nat) with false by lia. reflexivity.
    - cbn [seq]. rewrite sumf_cons, IHm. destruct (Nat.eqb j a) eqn:E.
      + apply Nat.eqb_eq in E. subst a. cbn [andb].
        replace ((S j <=? j)%nat && (j <? S j + m)%nat) with false by lia.
        replace ((j <=? j)%nat && (j <? j + S m)%nat) with true by lia. lia.
      + cbn [andb b2z].
        replace ((a <=? j)%nat && (j <? a + S m)%nat) with ((S a <=? j)%nat && (j <? S a + m)%nat) by lia.
        lia. }
  rewrite G. replace ((0 <=? j)%nat && (j <? 0 + s)%nat) with true by lia. reflexivity.
Qed.

Lemma sum_suited s ranks n (f : list nat -> Z) : (1 <= n)%nat ->
  sumf (fun h => b2z (same_suit h) * f (map fst h)) (combs n (deck_of s ranks))
  = Z.of_nat s * sumf f (combs n ranks).
Proof.
  intros Hn.
  rewrite (sumf_ext _ (fun h => sumf (fun j => b2z (forallb (fun p => Nat.eqb (snd p) j) h) * f (map fst h)) (seq 0 s))).
  2:{ intros h Hh. destruct (combs_in _ _ _ Hh) as [L I].
      rewrite (same_suit_sum s).
      - rewrite Z.mul_comm, <- sumf_scale. apply sumf_ext. intros; lia.
      - destruct h; [cbn in L; lia|discriminate].
      - apply Forall_forall. intros p Hp. apply I in Hp. unfold deck_of in Hp.
        apply in_flat_map in Hp. destruct Hp as (i & _ & Hp). apply in_map_iff in Hp.
        destruct Hp as (j & <- & Hj). apply in_seq in Hj. cbn. lia. }
  rewrite sumf_swap.
  rewrite (sumf_ext _ (fun _ => sumf f (combs n ranks))).
  2:{ intros j Hj. apply in_seq in Hj. rewrite combs_filter_sum.
      rewrite deck_suit by lia. rewrite combs_map, sumf_map. apply sumf_ext. intros d _.
      rewrite map_map. cbn [fst]. now rewrite map_id. }
  rewrite sumf_const, seq_length. reflexivity.
Qed.

Lemma freq_add k w f k' : map fst f = all_classes ->
  freq (add_count k w f) k' = freq f k' + (if hclass_eqb k k' then w else 0).
Proof.
  intros H. unfold freq.
  assert (Hin : In k' (map fst f)) by (rewrite H; apply all_classes_in). clear H.
  induction f as [|[x v] f IH]; [destruct Hin|]. cbn [add_count map find fst snd].
  destruct (hclass_eqb x k') eqn:E.
  - apply hclass_eqb_eq in E. subst x. destruct (hclass_eqb k' k) eqn:E2; cbn [fst snd];
      rewrite hclass_eqb_refl; cbn [snd].
    + apply hclass_eqb_eq in E2. subst. now rewrite hclass_eqb_refl.
    + destruct (hclass_eqb k k') eqn:E3; [|lia]. apply hclass_eqb_eq in E3. subst.
      rewrite hclass_eqb_refl in E2. discriminate.
  - destruct Hin as [Hin|Hin]; [cbn in Hin; subst; rewrite hclass_eqb_refl in E; discriminate|].
    destruct (hclass_eqb x k); cbn [fst]; rewrite E; apply IH, Hin.
Qed.
Lemma add_count_keys k w f : map fst (add_count k w f) = map fst f.
Proof.
  induction f as [|[x v] f IH]; [reflexivity|]. cbn [add_count map fst].
  destruct (hclass_eqb x k); cbn [fst]; f_equal; exact IH.
Qed.

Lemma freq_fold1 {A} (cl : A -> hclass) (w : A -> Z) l : forall f k, map fst f = all_classes ->
  map fst (fold_left (fun f p => add_count (cl p) (w p) f) l f) = all_classes /\
  freq (fold_left (fun f p => add_count (cl p) (w p) f) l f) k
  = freq f k + sumf (fun p => w p * b2z (hclass_eqb (cl p) k)) l.
Proof.
  induction l as [|x l IH]; intros f k H; cbn [fold_left]; [split; [exact H|unfold sumf; cbn; lia]|].
  destruct (IH (add_count (cl x) (w x) f) k) as [H1 H2]; [now rewrite add_count_keys|].
  split; [exact H1|]. rewrite H2, freq_add by exact H. rewrite sumf_cons.
  destruct (hclass_eqb (cl x) k); cbn [b2z]; lia.
Qed.

Lemma freq_fold2 {A} (cl cl' : A -> hclass) (w : Z) l : forall f k, map fst f = all_classes ->
  freq (fold_left (fun f p => add_count (cl p) w (add_count (cl' p) (- w) f)) l f) k
  = freq f k + sumf (fun p => w * (b2z (hclass_eqb (cl p) k) - b2z (hclass_eqb (cl' p) k))) l.
Proof.
  induction l as [|x l IH]; intros f k H; cbn [fold_left]; [unfold sumf; cbn; lia|].
  rewrite IH by (now rewrite !add_count_keys).
  rewrite freq_add by (now rewrite add_count_keys). rewrite freq_add by exact H. rewrite sumf_cons.
  destruct (hclass_eqb (cl x) k), (hclass_eqb (cl' x) k); cbn [b2z]; lia.
Qed.

Lemma class_count_freq s r c low k : (1 <= c)%nat ->
  Z.of_nat (class_count s r c low k) = freq (frequencies s r c low) k.
Proof.
  intros Hc. unfold class_count, all_hands. rewrite sumf_filter.
  change (deck_pairs s r) with (deck_of s (desc_ranks r)).
  set (F := fun l => b2z (hclass_eqb (classify s r c low false l) k)).
  set (T := fun l => b2z (hclass_eqb (classify s r c low true l) k)).
  rewrite (sumf_ext _ (fun h => F (map fst h) + b2z (same_suit h) * (T (map fst h) - F (map fst h)))).
  2:{ intros h _. unfold class_of, F, T. destruct (same_suit h); cbn [b2z]; lia. }
  rewrite sumf_plus.
  etransitivity; [apply (f_equal2 Z.add);
    [exact (sum_weighted s (desc_ranks r) c F)
    |exact (sum_suited s (desc_ranks r) c (fun l => T l - F l) Hc)]|].
  unfold frequencies. cbv zeta.
  destruct (freq_fold1 (fun p => classify s r c low false (fst p)) snd
              (weighted s (desc_ranks r) c) zero_counts k eq_refl) as [H1 H2].
  rewrite (freq_fold2 (fun d => classify s r c low true d) (fun d => classify s r c low false d)
             (Z.of_nat s)) by exact H1.
  rewrite H2. rewrite (sumf_scale (fun p => b2z (hclass_eqb (classify s r c low true p) k)
                                  - b2z (hclass_eqb (classify s r c low false p) k))).
  replace (freq zero_counts k) with 0 by (destruct k; reflexivity).
  unfold F, T. lia.
Qed.
