(** * EvalHands: the lookup of a concrete hand *)
From Coq Require Import FMapPositive Permutation ZifyBool ZifyNat Arith.
From Verif Require Import PyBase PyFacts CardModel CardSpec EvalModel PokerSpec EvalSpec EvalCheck CardProofs
  EvalRank EvalTable.

Definition in_range (h : hand) : Prop := Forall (fun p => (fst p < 13 /\ snd p < 4)%nat) h.

(** ** Suits *)
Lemma suit_land_sweep :
  forallb (fun i => forallb (fun j => forallb (fun j' =>
    Z.land (4096 * 2 ^ Z.of_nat j') (layout i j)
    =? (if Nat.eqb j j' then 4096 * 2 ^ Z.of_nat j' else 0)) (seq 0 4)) (seq 0 4)) (seq 0 13) = true.
Proof. vm_compute. reflexivity. Qed.
Lemma suit_land i j j' : (i < 13)%nat -> (j < 4)%nat -> (j' < 4)%nat ->
  Z.land (4096 * 2 ^ Z.of_nat j') (layout i j)
  = if Nat.eqb j j' then 4096 * 2 ^ Z.of_nat j' else 0.
Proof.
  intros Hi Hj Hj'. pose proof suit_land_sweep as H.
  rewrite forallb_forall in H. specialize (H i). rewrite in_seq in H. specialize (H ltac:(lia)).
  rewrite forallb_forall in H. specialize (H j). rewrite in_seq in H. specialize (H ltac:(lia)).
  rewrite forallb_forall in H. specialize (H j'). rewrite in_seq in H. specialize (H ltac:(lia)).
  now apply Z.eqb_eq in H.
Qed.
Lemma suit_first_sweep :
  forallb (fun i => forallb (fun j =>
    Z.land 61440 (layout i j) =? 4096 * 2 ^ Z.of_nat j) (seq 0 4)) (seq 0 13) = true.
Proof. vm_compute. reflexivity. Qed.
Lemma suit_first i j : (i < 13)%nat -> (j < 4)%nat ->
  Z.land 61440 (layout i j) = 4096 * 2 ^ Z.of_nat j.
Proof.
  intros Hi Hj. pose proof suit_first_sweep as H.
  rewrite forallb_forall in H. specialize (H i). rewrite in_seq in H. specialize (H ltac:(lia)).
  rewrite forallb_forall in H. specialize (H j). rewrite in_seq in H. specialize (H ltac:(lia)).
  now apply Z.eqb_eq in H.
Qed.

Lemma land_zero l : fold_left Z.land l 0 = 0.
Proof. induction l as [|x l IH]; [reflexivity|]. cbn [fold_left]. now rewrite Z.land_0_l. Qed.

Lemma land_suit h : forall j, in_range h -> (j < 4)%nat ->
  fold_left Z.land (map c_int (cards_of h)) (4096 * 2 ^ Z.of_nat j)
  = if forallb (fun p => Nat.eqb (snd p) j) h then 4096 * 2 ^ Z.of_nat j else 0.
Proof.
  induction h as [|[i j'] h IH]; intros j R Hj; [reflexivity|].
  inversion R as [|? ? [Hi Hj'] R']; subst. cbn [fst snd] in *.
  cbn [cards_of map fold_left forallb the_card c_int fst snd].
  rewrite suit_land by assumption. fold (cards_of h).
  destruct (Nat.eqb j' j); cbn [andb]; [now apply IH|apply land_zero].
Qed.

Lemma suited_test h : in_range h -> h <> [] ->
  (fold_left Z.land (map c_int (cards_of h)) 61440 =? 0) = negb (same_suit h).
Proof.
  intros R N. destruct h as [|[i j] h]; [congruence|].
  inversion R as [|? ? [Hi Hj] R']; subst. cbn [fst snd] in *.
  cbn [cards_of map fold_left the_card c_int fst snd same_suit].
  rewrite suit_first by assumption. fold (cards_of h). rewrite land_suit by assumption.
  assert (0 < 2 ^ Z.of_nat j) by (apply Z.pow_pos_nonneg; lia).
  destruct (forallb (fun p => Nat.eqb (snd p) j) h); cbn [negb]; lia.
Qed.

(** ** Products of primes *)
Lemma fold_mul_acc l : forall a, fold_left Z.mul l a = a * fold_left Z.mul l 1.
Proof.
  induction l as [|x l IH]; intros a; cbn [fold_left]; [lia|].
  rewrite IH, (IH (1 * x)). lia.
Qed.
Lemma prodZ_cons x l : prodZ (x :: l) = x * prodZ l.
Proof. unfold prodZ. cbn [fold_left]. rewrite fold_mul_acc. lia. Qed.
Lemma prodZ_perm a b : Permutation a b -> prodZ a = prodZ b.
Proof. induction 1; rewrite ?prodZ_cons; lia. Qed.
Lemma prime_prod_perm a b : Permutation a b -> prime_prod a = prime_prod b.
Proof. intros P. apply prodZ_perm, Permutation_map, P. Qed.

Lemma layout_prime_sweep :
  forallb (fun i => forallb (fun j =>
    (Z.land (layout i j) 255 =? prime i) && (Z.shiftr (layout i j) 16 =? 2 ^ Z.of_nat i))
    (seq 0 4)) (seq 0 13) = true.
Proof. vm_compute. reflexivity. Qed.
Lemma layout_prime i j : (i < 13)%nat -> (j < 4)%nat ->
  Z.land (layout i j) 255 = prime i /\ Z.shiftr (layout i j) 16 = 2 ^ Z.of_nat i.
Proof.
  intros Hi Hj. pose proof layout_prime_sweep as H.
  rewrite forallb_forall in H. specialize (H i). rewrite in_seq in H. specialize (H ltac:(lia)).
  rewrite forallb_forall in H. specialize (H j). rewrite in_seq in H. specialize (H ltac:(lia)).
  lia.
Qed.

Lemma product_hand h : in_range h -> prime_product_from_hand (cards_of h) = prime_prod (map fst h).
Proof.
  intros R. unfold prime_product_from_hand, prime_prod, prodZ. generalize 1.
  induction R as [|[i j] h [Hi Hj] R IH]; intros a; [reflexivity|]. cbn [fst snd] in *.
  cbn [cards_of map fold_left the_card c_int fst snd]. fold (cards_of h).
  rewrite IH. now rewrite (proj1 (layout_prime i j Hi Hj)).
Qed.

Definition or_bits (l : list nat) (a : Z) : Z :=
  fold_left (fun acc i => Z.lor acc (2 ^ Z.of_nat i)) l a.

Lemma or_bits_test l : forall a k, 0 <= a ->
  Z.testbit (or_bits l a) (Z.of_nat k) = Z.testbit a (Z.of_nat k) || existsb (Nat.eqb k) l.
Proof.
  induction l as [|i l IH]; intros a k Ha; cbn [or_bits fold_left existsb]; [now rewrite orb_false_r|].
  fold (or_bits l (Z.lor a (2 ^ Z.of_nat i))).
  assert (0 < 2 ^ Z.of_nat i) by (apply Z.pow_pos_nonneg; lia).
  rewrite IH by (apply Z.lor_nonneg; lia).
  rewrite Z.lor_spec, Z.pow2_bits_eqb by lia.
  rewrite orb_assoc. f_equal. f_equal. lia.
Qed.

Lemma shiftr_or h : in_range h -> forall a, 
  Z.shiftr (fold_left Z.lor (map c_int (cards_of h)) a) 16 = or_bits (map fst h) (Z.shiftr a 16).
Proof.
  induction 1 as [|[i j] h [Hi Hj] R IH]; intros a; [reflexivity|]. cbn [fst snd] in *.
  cbn [cards_of map fold_left the_card c_int fst snd or_bits]. fold (cards_of h).
  rewrite IH, Z.shiftr_lor. now rewrite (proj2 (layout_prime i j Hi Hj)).
Qed.

Lemma bits_product b : 
  prime_product_from_rank_bits b
  = prime_prod (filter (fun k => Z.testbit b (Z.of_nat k)) (seq 0 13)).
Proof.
  unfold prime_product_from_rank_bits, prime_prod, prodZ.
  assert (E : combine INT_RANKS PRIMES = map (fun k => (Z.of_nat k, prime k)) (seq 0 13)) by reflexivity.
  rewrite E. clear E.
  assert (G : forall l a,
    fold_left (fun product (ip : Z * Z) =>
                 if Z.land b (Z.shiftl 1 (fst ip)) =? 0 then product else product * snd ip)
              (map (fun k => (Z.of_nat k, prime k)) l) a
    = fold_left Z.mul (map prime (filter (fun k => Z.testbit b (Z.of_nat k)) l)) a).
  2:{ apply G. }
  induction l as [|k l IH]; intros a; [reflexivity|].
  cbn [map fold_left filter fst snd].
  assert (T : (Z.land b (Z.shiftl 1 (Z.of_nat k)) =? 0) = negb (Z.testbit b (Z.of_nat k))).
  { rewrite Z.shiftl_1_l. destruct (Z.testbit b (Z.of_nat k)) eqn:E; cbn [negb].
    - apply Z.eqb_neq. intros H0. assert (X : Z.testbit (Z.land b (2 ^ Z.of_nat k)) (Z.of_nat k) = false)
        by (rewrite H0; apply Z.bits_0).
      rewrite Z.land_spec, E, Z.pow2_bits_true in X by lia. discriminate.
    - apply Z.eqb_eq, Z.bits_inj'. intros n Hn. rewrite Z.land_spec, Z.bits_0, Z.pow2_bits_eqb by lia.
      destruct (Z.of_nat k =? n) eqn:En; [|apply andb_false_r].
      apply Z.eqb_eq in En. subst n. now rewrite E. }
  rewrite T. destruct (Z.testbit b (Z.of_nat k)); cbn [negb map fold_left]; apply IH.
Qed.

Lemma product_bits h : in_range h -> h <> [] -> NoDup (map fst h) ->
  match map c_int (cards_of h) with
  | [] => True
  | i :: r => prime_product_from_rank_bits (Z.shiftr (fold_left Z.lor r i) 16) = prime_prod (map fst h)
  end.
Proof.
  intros R N D. destruct h as [|[i j] h]; [congruence|].
  cbn [cards_of map the_card c_int fst snd]. fold (cards_of h).
  inversion R as [|? ? [Hi Hj] R']; subst. cbn [fst snd] in *.
  rewrite shiftr_or by assumption. rewrite (proj2 (layout_prime i j Hi Hj)).
  rewrite bits_product. apply prime_prod_perm, NoDup_Permutation.
  - apply NoDup_filter, seq_NoDup.
  - exact D.
  - intros k. rewrite filter_In, in_seq.
    assert (0 < 2 ^ Z.of_nat i) by (apply Z.pow_pos_nonneg; lia).
    rewrite or_bits_test, Z.pow2_bits_eqb by lia.
    rewrite orb_true_iff, existsb_nat_in. split.
    + intros [_ [E|E]]; [left; lia|now right].
    + intros Hin. split.
      * assert (R2 : Forall (fun k => (k < 13)%nat) (map fst ((i, j) :: h))).
        { apply Forall_map. eapply Forall_impl; [|exact R]. cbn. tauto. }
        rewrite Forall_forall in R2. specialize (R2 k Hin). lia.
      * destruct Hin as [<-|Hin]; [left; lia|now right].
Qed.

(** ** Lookup in terms of ranks and suitedness *)
Lemma lookup_ranks t h : in_range h -> h <> [] ->
  (same_suit h = true -> NoDup (map fst h)) ->
  table_lookup t (cards_of h)
  = match dict_find (if same_suit h then t_suited t else t_unsuited t) (prime_prod (map fst h)) with
    | Some v => Ok v
    | None => Err KeyError
    end.
Proof.
  intros R N D. unfold table_lookup. rewrite suited_test by assumption. rewrite negb_involutive.
  destruct (same_suit h).
  - pose proof (product_bits h R N (D eq_refl)) as P.
    destruct (map c_int (cards_of h)) as [|x r] eqn:E.
    + apply (f_equal (@List.length Z)) in E. unfold cards_of in E. rewrite !map_length in E.
      destruct h; [congruence|discriminate].
    + now rewrite P.
  - now rewrite product_hand.
Qed.

(** ** The canonical rank list of a hand *)
Definition canon (r : nat) (ranks : list nat) : list nat :=
  flat_map (fun i => repeat i (copies i ranks)) (desc_ranks r).

Lemma count_repeat i n x : count_occ Nat.eq_dec (repeat i n) x = if Nat.eqb i x then n else O.
Proof.
  induction n as [|n IH]; cbn; [now destruct (Nat.eqb i x)|].
  destruct (Nat.eq_dec i x) as [->|Hn].
  - rewrite Nat.eqb_refl in *. now rewrite IH.
  - apply Nat.eqb_neq in Hn. rewrite Hn in *. exact IH.
Qed.

Lemma count_flat l x (f : nat -> nat) : NoDup l ->
  count_occ Nat.eq_dec (flat_map (fun i => repeat i (f i)) l) x
  = if existsb (Nat.eqb x) l then f x else O.
Proof.
  induction l as [|i l IH]; intros D; [reflexivity|]. inversion D as [|? ? Hi D']; subst.
  cbn [flat_map existsb]. rewrite count_occ_app, count_repeat, IH by assumption.
  rewrite (Nat.eqb_sym x i). destruct (Nat.eqb i x) eqn:E; cbn [orb]; [|lia].
  apply Nat.eqb_eq in E. subst i. destruct (existsb (Nat.eqb x) l) eqn:E; [|lia].
  apply existsb_nat_in in E. contradiction.
Qed.

Lemma in_desc r x : (r <= 13)%nat -> In x (desc_ranks r) <-> (13 - r <= x < 13)%nat.
Proof. intros H. unfold desc_ranks. rewrite <- in_rev, in_seq. lia. Qed.

Lemma desc_nodup r : NoDup (desc_ranks r).
Proof. unfold desc_ranks. apply NoDup_rev, seq_NoDup. Qed.

Lemma canon_perm r ranks : (r <= 13)%nat -> Forall (fun i => (13 - r <= i < 13)%nat) ranks ->
  Permutation ranks (canon r ranks).
Proof.
  intros Hr F. apply (Permutation_count_occ Nat.eq_dec). intros x.
  unfold canon. rewrite count_flat by apply desc_nodup.
  destruct (existsb (Nat.eqb x) (desc_ranks r)) eqn:E; [reflexivity|].
  apply count_occ_not_In. intros H. rewrite Forall_forall in F. specialize (F x H).
  apply in_desc in F; [|exact Hr]. apply existsb_nat_in in F. congruence.
Qed.

Lemma combs_filter {A} (f : A -> bool) l : In (filter f l) (combs (List.length (filter f l)) l).
Proof.
  induction l as [|x l IH]; [now left|]. cbn [filter]. destruct (f x) eqn:E; cbn [List.length combs].
  - apply in_or_app. left. now apply in_map.
  - destruct (List.length (filter f l)) eqn:El; cbn [combs].
    + destruct (filter f l); [now left|discriminate].
    + apply in_or_app. right. exact IH.
Qed.

Lemma flat_repeat_filter (f : nat -> nat) l : (forall i, In i l -> (f i <= 1)%nat) ->
  flat_map (fun i => repeat i (f i)) l = filter (fun i => Nat.eqb (f i) 1) l.
Proof.
  induction l as [|i l IH]; intros H; [reflexivity|]. cbn [flat_map filter].
  rewrite IH by (intros; apply H; now right). pose proof (H i (or_introl eq_refl)) as Hi.
  destruct (f i) as [|[|n]]; cbn; [reflexivity|reflexivity|lia].
Qed.

Lemma msets_skip n x l m : In m (msets n l) -> In m (msets n (x :: l)).
Proof.
  destruct n as [|n]; [tauto|]. intros H. cbn [msets]. apply in_or_app. right. exact H.
Qed.
Lemma msets_flat l (f : nat -> nat) :
  In (flat_map (fun i => repeat i (f i)) l)
     (msets (List.length (flat_map (fun i => repeat i (f i)) l)) l).
Proof.
  induction l as [|i l IH]; [now left|]. cbn [flat_map].
  induction (f i) as [|n IHn]; cbn [repeat app].
  - now apply msets_skip.
  - cbn [List.length msets]. apply in_or_app. left. apply in_map. exact IHn.
Qed.

(** ** Hands of the deck *)
Section Hand.
  Variables s r c : nat.
  Hypothesis Hs : (s <= 4)%nat.
  Hypothesis Hr : (r <= 13)%nat.
  Variable h : hand.
  Hypothesis Hh : hand_of_deck s r c h.

  Lemma hand_in_range : in_range h.
  Proof.
    destruct Hh as (_ & _ & F). eapply Forall_impl; [|exact F]. cbn. intros p [H1 H2]. lia.
  Qed.
  Lemma hand_ranks_range : Forall (fun i => (13 - r <= i < 13)%nat) (map fst h).
  Proof.
    destruct Hh as (_ & _ & F). apply Forall_map. eapply Forall_impl; [|exact F]. cbn. tauto.
  Qed.

  Lemma same_suit_nodup : same_suit h = true -> NoDup (map fst h).
  Proof.
    destruct Hh as (_ & N & _). destruct h as [|[i j] h']; [constructor|].
    cbn [same_suit]. intros F. rewrite forallb_forall in F.
    apply NoDup_map_on; [|exact N].
    assert (A : forall p, In p ((i, j) :: h') -> snd p = j).
    { intros p [<-|Hp]; [reflexivity|]. specialize (F p Hp). lia. }
    intros [a b] [a' b'] H1 H2 E. cbn in E. subst a'.
    pose proof (A _ H1). pose proof (A _ H2). cbn in *. now subst.
  Qed.

  Lemma copies_le_suits i : (copies i (map fst h) <= s)%nat.
  Proof.
    destruct Hh as (_ & N & F).
    assert (E : copies i (map fst h) = List.length (map snd (filter (fun p => Nat.eqb (fst p) i) h))).
    { rewrite map_length. clear. induction h as [|[a b] h' IH]; [reflexivity|].
      unfold copies in *. cbn [map count_occ filter fst].
      destruct (Nat.eq_dec a i) as [->|Hn].
      - rewrite Nat.eqb_refl. cbn [List.length]. now rewrite IH.
      - apply Nat.eqb_neq in Hn. now rewrite Hn. }
    rewrite E. rewrite <- (seq_length s 0). apply NoDup_incl_length.
    - apply NoDup_map_on; [|apply NoDup_filter; exact N].
      intros [a b] [a' b'] H1 H2. apply filter_In in H1, H2. cbn in *.
      destruct H1 as [_ H1], H2 as [_ H2]. apply Nat.eqb_eq in H1, H2. intros ->. now subst.
    - intros x Hx. apply in_map_iff in Hx. destruct Hx as [[a b] [<- Hp]]. apply filter_In in Hp.
      rewrite Forall_forall in F. specialize (F _ (proj1 Hp)). apply in_seq. cbn in *. lia.
  Qed.

  Lemma mixed_two : same_suit h = false -> (2 <= s)%nat /\ (2 <= c)%nat.
  Proof.
    destruct Hh as (L & _ & F). destruct h as [|[i j] h']; [discriminate|]. cbn [same_suit].
    intros E. assert (X : exists p, In p h' /\ snd p <> j).
    { clear -E. induction h' as [|p h' IH]; [discriminate|]. cbn [forallb] in E.
      destruct (Nat.eqb (snd p) j) eqn:Ep; [|exists p; split; [now left|lia]].
      cbn [andb] in E. destruct (IH E) as [q [Hq Hn]]. exists q. split; [now right|exact Hn]. }
    destruct X as [p [Hp Hn]]. inversion F as [|? ? F0 F']; subst. rewrite Forall_forall in F'.
    specialize (F' p Hp). cbn in *. split; [lia|]. destruct h'; [destruct Hp|cbn in *; lia].
  Qed.

  Lemma canon_length : List.length (canon r (map fst h)) = c.
  Proof.
    rewrite <- (Permutation_length (canon_perm r _ Hr hand_ranks_range)).
    rewrite map_length. apply Hh.
  Qed.

  Lemma canon_abstract : In (same_suit h, canon r (map fst h)) (abstract_hands s r c).
  Proof.
    unfold abstract_hands. apply in_or_app. destruct (same_suit h) eqn:E.
    - left. apply in_map. unfold suited_ranks. rewrite <- canon_length.
      assert (X : canon r (map fst h) = filter (fun i => Nat.eqb (copies i (map fst h)) 1) (desc_ranks r)).
      { apply flat_repeat_filter. intros i _. unfold copies.
        apply NoDup_count_occ, same_suit_nodup, E. }
      rewrite X. apply combs_filter.
    - right. apply in_map. unfold mixed_ranks. destruct (mixed_two E) as [H1 H2].
      replace ((2 <=? s)%nat && (2 <=? c)%nat) with true by lia.
      apply filter_In. split.
      + rewrite <- canon_length. apply msets_flat.
      + apply forallb_forall. intros i _. apply Nat.leb_le. unfold copies.
        rewrite <- (proj1 (Permutation_count_occ Nat.eq_dec _ _)
                      (canon_perm r _ Hr hand_ranks_range) i).
        apply copies_le_suits.
  Qed.
End Hand.

(** ** Class and tie-break depend on the multiset of ranks only *)
Section Inv.
  Variables a b : list nat.
  Hypothesis P : Permutation a b.
  Lemma copies_perm i : copies i a = copies i b.
  Proof. apply (Permutation_count_occ Nat.eq_dec). exact P. Qed.
  Lemma of_mult_perm m : of_multiplicity m a = of_multiplicity m b.
  Proof. unfold of_multiplicity. apply filter_ext. intros i. now rewrite copies_perm. Qed.
  Lemma has_run_perm lo k : has_run lo k a = has_run lo k b.
  Proof.
    unfold has_run. induction (seq lo k) as [|i l IH]; [reflexivity|]. cbn [forallb].
    now rewrite IH, copies_perm.
  Qed.
  Lemma straight_top_perm r c low : straight_top r c low a = straight_top r c low b.
  Proof.
    unfold straight_top, singles. rewrite of_mult_perm, copies_perm, has_run_perm.
    assert (E : forall l, find (fun t => has_run (t + 1 - c) c a) l
                          = find (fun t => has_run (t + 1 - c) c b) l).
    { induction l as [|t l IH]; [reflexivity|]. cbn [find]. now rewrite has_run_perm, IH. }
    now rewrite E.
  Qed.
  Lemma tie_break_perm r c low : tie_break r c low a = tie_break r c low b.
  Proof.
    unfold tie_break, kick_order, quads, trips, pairs, singles.
    now rewrite straight_top_perm, !of_mult_perm.
  Qed.
  Lemma classify_perm s r c low same : classify s r c low same a = classify s r c low same b.
  Proof.
    unfold classify, is_straight, quads, trips, pairs.
    now rewrite straight_top_perm, !of_mult_perm.
  Qed.
End Inv.

Lemma nodup_no_mult m l : (2 <= m)%nat -> NoDup l -> of_multiplicity m l = [].
Proof.
  intros Hm N. unfold of_multiplicity. induction (rev (seq 0 13)) as [|i q IH]; [reflexivity|].
  cbn [filter]. assert (H : (copies i l <= 1)%nat) by (apply NoDup_count_occ; exact N).
  destruct (Nat.eqb (copies i l) m) eqn:E; [|exact IH]. apply Nat.eqb_eq in E. lia.
Qed.

Lemma classify_suited s r c low l : NoDup l -> is_flush s c true = true ->
  In (classify s r c low true l) suited_classes.
Proof.
  intros N F. unfold classify. rewrite F. unfold quads, trips.
  rewrite !nodup_no_mult by (assumption || lia). cbn [List.length Nat.leb andb].
  destruct (is_straight r c low l); cbn; tauto.
Qed.
Lemma classify_unsuited s r c low same l : is_flush s c same = false ->
  In (classify s r c low same l) unsuited_classes.
Proof.
  intros F. unfold classify. rewrite F. cbn [andb].
  repeat match goal with |- context [if ?b then _ else _] => destruct b end; cbn; tauto.
Qed.
