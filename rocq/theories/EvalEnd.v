(** * EvalEnd: last lemmas for the evaluator properties of PropEval.v *)
From Coq Require Import FMapPositive Permutation ZifyBool ZifyNat Arith.
From Verif Require Import PyBase PyFacts CardModel CardSpec EvalModel PokerSpec EvalSpec EvalCheck CardProofs
  EvalRank EvalTable EvalHands EvalLists EvalRuns EvalCfg EvalMain EvalCount EvalRare EvalSweep1 EvalSweep2 EvalFinal.

Lemma Evaluator_inv s r c m low order e : Evaluator s r c m low order = Ok e ->
  1 <= c <= 5 /\ LookupTable s r c low order = Ok (e_table e) /\ e_cfh e = c /\ e_mandatory e = m.
Proof.
  unfold Evaluator. destruct ((c <? 1) || (5 <? c)) eqn:E; [discriminate|].
  destruct (LookupTable s r c low order) as [t|]; cbn [bind]; [|discriminate].
  destruct (_ && _); [discriminate|]. intros H. injection H as <-. cbn. repeat split; lia.
Qed.

(** *** Construction *)
Lemma Evaluator_mandatory s r c m m' low order :
  match Evaluator s r c m low order, Evaluator s r c m' low order with
  | Ok e, Ok e' => e_table e = e_table e'
  | Err x, Err x' => x = x'
  | _, _ => False
  end.
Proof.
  unfold Evaluator. destruct (_ || _); [reflexivity|]. destruct (LookupTable s r c low order); cbn [bind]; [|reflexivity].
  destruct (_ && _); reflexivity.
Qed.
Lemma built_default s r c low : 1 <= s <= 4 -> 1 <= r <= 13 -> 1 <= c <= 5 ->
  match Evaluator s r c 0 low None with
     | Ok _ => constructible s r c low
     | Err AssertionError => negb (constructible s r c low) && negb (key_error s r c low)
     | Err KeyError => key_error s r c low
     | Err _ => false
     end = true.
Proof.
  intros Hs Hr Hc. pose proof sweep_built as H. rewrite forallb_forall in H.
  specialize (H s). rewrite in_zrange in H. specialize (H ltac:(lia)). rewrite forallb_forall in H.
  specialize (H r). rewrite in_zrange in H. specialize (H ltac:(lia)). rewrite forallb_forall in H.
  specialize (H c). rewrite in_zrange in H. specialize (H ltac:(lia)). rewrite forallb_forall in H.
  apply (H low). destruct low; cbn; tauto.
Qed.
Lemma key_error_constructible s r c low : 1 <= r -> key_error s r c low = true -> constructible s r c low = false.
Proof. unfold key_error, constructible. destruct low; lia. Qed.

(** *** max_rank is positive *)
Lemma sumU_sumZ s r c low l : sumU (hand_counts s r c low) l = sumZ (map (ucount s r c low) l).
Proof. reflexivity. Qed.
Lemma sumZ_perm a b : Permutation a b -> sumZ a = sumZ b.
Proof. induction 1; cbn [sumZ fold_right] in *; unfold sumZ in *; cbn [fold_right] in *; lia. Qed.
Lemma max_rank_pos s r c low order t : 1 <= s <= 4 -> 1 <= r <= 13 -> 1 <= c <= 5 ->
  order_perm order -> LookupTable s r c low order = Ok t -> 0 < t_max_rank t.
Proof.
  intros Hs Hr Hc Hord Ht.
  destruct (LookupTable_built _ _ _ _ _ _ Ht) as
      (Hval & hs & s1 & s2 & u1 & u2 & l1 & l2 & l3 & l4 & l5 & Hhs & B).
  pose proof (ranked_classes_perm _ _ _ Hord Hval Hhs) as P.
  pose proof sweep_total as H. rewrite forallb_forall in H.
  specialize (H s). rewrite in_zrange in H. specialize (H ltac:(lia)). rewrite forallb_forall in H.
  specialize (H r). rewrite in_zrange in H. specialize (H ltac:(lia)). rewrite forallb_forall in H.
  specialize (H c). rewrite in_zrange in H. specialize (H ltac:(lia)). rewrite forallb_forall in H.
  specialize (H low ltac:(destruct low; cbn; tauto)).
  rewrite (built_buildable _ _ _ _ _ _ _ _ _ _ _ _ _ _ _ P B) in H.
  unfold t_max_rank. rewrite (b_ranking _ _ _ _ _ _ _ _ _ _ _ _ _ _ _ B).
  change (compute_ranking (hand_counts s r c low) hs)
        with (rfold (hand_counts s r c low) hs init_ranking).
  rewrite rfold_total. cbn [init_ranking r_total].
  rewrite sumU_sumZ, <- (sumZ_perm _ _ (Permutation_map (ucount s r c low) P)).
  destruct (0 <? sumZ (map (ucount s r c low) all_classes)) eqn:E; [lia|discriminate].
Qed.

(** *** Suited hands in decks with as many ranks as cards in a hand *)
Lemma same_suit_perm_ranks h h' : Permutation h h' -> same_suit h = same_suit h'.
Proof.
  assert (G : forall h, same_suit h = true <-> exists j, Forall (fun p => snd p = j) h).
  { intros [|[i j] l]; cbn [same_suit]; [split; [intros _; exists O; constructor|reflexivity]|].
    rewrite forallb_forall. split.
    - intros H. exists j. constructor; [reflexivity|]. apply Forall_forall. intros p Hp. apply H in Hp. now apply Nat.eqb_eq in Hp.
    - intros [j' H]. inversion H as [|? ? E F]; subst. cbn in F. rewrite Forall_forall in F. intros p Hp.
      apply Nat.eqb_eq. now apply F. }
  intros P. apply eq_true_iff_eq. rewrite !G. split; intros [j H]; exists j.
  - rewrite <- P. exact H.
  - rewrite P. exact H.
Qed.
Lemma class_of_perm s r c low h h' : Permutation h h' -> class_of s r c low h = class_of s r c low h'.
Proof.
  intros P. unfold class_of. rewrite (same_suit_perm_ranks _ _ P). apply classify_perm. now apply Permutation_map.
Qed.

(** another hand with the same ranks and mixed suits *)
Lemma unsuit s r c h : (2 <= s)%nat -> (2 <= c)%nat -> hand_of_deck s r c h -> same_suit h = true ->
  NoDup (map fst h) ->
  exists h', hand_of_deck s r c h' /\ same_suit h' = false /\ map fst h' = map fst h.
Proof.
  intros Hs Hc (L & N & F) E Nf. destruct h as [|[i j] [|[i2 j2] l]]; [cbn in L; lia|cbn in L; lia|].
  cbn [same_suit forallb snd] in E. apply andb_true_iff in E. destruct E as [E _]. apply Nat.eqb_eq in E. subst j2.
  set (j' := if Nat.eqb j 0 then 1%nat else 0%nat).
  exists ((i, j') :: (i2, j) :: l). split; [split; [exact L|split]|split].
  - apply (NoDup_map_inv fst). exact Nf.
  - inversion F as [|? ? H1 F1]; subst. constructor; [|exact F1]. cbn [fst snd] in *.
    unfold j'. destruct (Nat.eqb j 0); lia.
  - cbn [same_suit forallb snd]. replace (Nat.eqb j j') with false; [reflexivity|].
    unfold j'. destruct (Nat.eqb_spec j 0); symmetry; apply Nat.eqb_neq; lia.
  - reflexivity.
Qed.

Section Tight.
  Variables (s r c : Z) (low : bool) (order : option (list string)) (t : lookup_table).
  Hypothesis Hs : 1 <= s <= 4.
  Hypothesis Hr : 1 <= r <= 13.
  Hypothesis Hc : 1 <= c <= 5.
  Hypothesis Hord : order_perm order.
  Hypothesis Ht : LookupTable s r c low order = Ok t.
  Hypothesis Htight : tight r c = true.
  Hypothesis HFL : ~ In FL (r_ranked (t_ranking t)).
  Hypothesis Hs2 : 2 <= s.

  Lemma tight_same : t_suited t = t_unsuited t.
  Proof.
    destruct (built_nonneg _ _ _ _ _ _ Hs Hr Hc Hord Ht) as (hs' & P' & Er & Hnn).
    destruct (LookupTable_built _ _ _ _ _ _ Ht) as
        (Hval & hs & s1 & s2 & u1 & u2 & l1 & l2 & l3 & l4 & l5 & Hhs & B).
    rewrite (b_suited _ _ _ _ _ _ _ _ _ _ _ _ _ _ _ B), (b_unsuited _ _ _ _ _ _ _ _ _ _ _ _ _ _ _ B).
    rewrite Er in HFL |- *. rewrite (ranked_iff_cum _ Hnn hs') in HFL.
    - assert (E : r_cum (compute_ranking (hand_counts s r c low) hs') FL = 0).
      { assert (N : NoDup hs') by (eapply Permutation_NoDup; [exact P'|apply all_classes_nodup]).
        assert (I : In FL hs') by (eapply Permutation_in; [exact P'|apply all_classes_in]).
        pose proof (class_pos_split FL hs' I) as E. rewrite E in N.
        pose proof (cum_at (hand_counts s r c low) (firstn (class_pos FL hs') hs') FL
           (skipn (S (class_pos FL hs')) hs') N) as Q. rewrite <- E in Q.
        rewrite Q in HFL |- *.
        pose proof (sumU_nonneg _ Hnn (firstn (class_pos FL hs') hs')). specialize (Hnn FL). lia. }
      rewrite E. reflexivity.
    - eapply Permutation_NoDup; [exact P'|apply all_classes_nodup].
    - eapply Permutation_in; [exact P'|apply all_classes_in].
  Qed.

  (** a suited hand is looked up like the hand with the same ranks and mixed suits *)
  Lemma tight_suited h : zhand s r c h -> same_suit h = true ->
    exists h', zhand s r c h' /\ same_suit h' = false /\ map fst h' = map fst h /\
      table_lookup t (cards_of h) = table_lookup t (cards_of h').
  Proof.
    intros Hh E.
    assert (Nf : NoDup (map fst h)).
    { exact (same_suit_nodup (Z.to_nat s) (Z.to_nat r) (Z.to_nat c) ltac:(lia) ltac:(lia) h Hh E). }
    destruct (unsuit (Z.to_nat s) (Z.to_nat r) (Z.to_nat c) h ltac:(lia) ltac:(unfold tight in Htight; lia) Hh E Nf) as (h' & Hh' & E' & Ef).
    exists h'. split; [exact Hh'|]. split; [exact E'|]. split; [exact Ef|].
    assert (G : forall x, zhand s r c x -> map fst x = map fst h -> table_lookup t (cards_of x)
      = match dict_find (t_unsuited t) (prime_prod (map fst h)) with Some v => Ok v | None => Err KeyError end).
    { intros x Hx Ex.
      assert (Hrange : in_range x)
        by exact (hand_in_range (Z.to_nat s) (Z.to_nat r) (Z.to_nat c) ltac:(lia) ltac:(lia) x Hx).
      rewrite lookup_ranks; [|exact Hrange| |].
      - rewrite Ex, tight_same. destruct (same_suit x); reflexivity.
      - destruct Hx as (L & _). destruct x; [cbn in L; lia|discriminate].
      - intros E2. rewrite Ex. exact Nf. }
    rewrite (G h Hh eq_refl), (G h' Hh' Ef). reflexivity.
  Qed.
End Tight.

Definition hclass_eq_dec (a b : hclass) : {a = b} + {a <> b}.
Proof. decide equality. Defined.

(** *** Every hand has a rank *)
Lemma hand_has_rank s r c low order t h : 1 <= s <= 4 -> 1 <= r <= 13 -> 1 <= c <= 5 ->
  order_perm order -> LookupTable s r c low order = Ok t ->
  ~ (s = 1 /\ tight r c = true /\ In FL (r_ranked (t_ranking t))) ->
  zhand s r c h -> exists v, table_lookup t (cards_of h) = Ok v /\ 0 <= v <= t_max_rank t.
Proof.
  intros Hs Hr Hc Hord Ht Hx Hh.
  destruct (main_facts s r c low order t Hs Hr Hc Hord Ht h Hh) as [hs F].
  assert (G : forall x, okh s r c t x -> exists v, table_lookup t (cards_of x) = Ok v /\ 0 <= v <= t_max_rank t).
  { intros x Hx'. destruct (f_lookup _ _ _ _ _ _ _ F x Hx') as (_ & v & Hv & _). exists v. split; [exact Hv|].
    pose proof (value_bounds s r c low order t hs F x v Hx' Hv) as V. cbv zeta in V. lia. }
  destruct (tight r c) eqn:Et; [|apply G; split; [exact Hh|left; now left]].
  destruct (in_dec hclass_eq_dec FL (r_ranked (t_ranking t))) as [HF|HF].
  - apply G. split; [exact Hh|]. left. right. split; [intros _|intros _; exact HF].
    destruct (Z.eq_dec s 1) as [->|]; [|lia]. exfalso. apply Hx. auto.
  - destruct (Z.eq_dec s 1) as [->|Hs1].
    + apply G. split; [exact Hh|]. left. right. split; [tauto|lia].
    + destruct (same_suit h) eqn:E; [|apply G; split; [exact Hh|now right]].
      destruct (tight_suited s r c low order t Hs Hr Hc Hord Ht Et HF ltac:(lia) h Hh E) as (h' & Hh' & E' & _ & ->).
      apply G. split; [exact Hh'|now right].
Qed.

Lemma tight_default s r c low t : 1 <= s <= 4 -> 1 <= r <= 13 -> 1 <= c <= 5 ->
  LookupTable s r c low None = Ok t -> tight r c = true ->
  low = false /\ ~ In FL (r_ranked (t_ranking t)).
Proof.
  intros Hs Hr Hc Ht Et.
  assert (El : low = false).
  { destruct low; [|reflexivity]. exfalso. unfold tight in Et.
    destruct (LookupTable_built _ _ _ _ _ _ Ht) as
      (Hval & hs & s1 & s2 & u1 & u2 & l1 & l2 & l3 & l4 & l5 & Hhs & B).
    pose proof (built_default s r c true Hs Hr Hc) as H. unfold Evaluator in H.
    replace ((c <? 1) || (5 <? c)) with false in H by lia. rewrite Ht in H. cbn [bind] in H.
    destruct (_ && _) in H; [discriminate|]. unfold constructible in H. lia. }
  split; [exact El|]. subst low. unfold tight in Et. assert (r = c) by lia. subst r.
  destruct (LookupTable_built _ _ _ _ _ _ Ht) as
      (Hval & hs & s1 & s2 & u1 & u2 & l1 & l2 & l3 & l4 & l5 & Hhs & B).
  rewrite (b_ranking _ _ _ _ _ _ _ _ _ _ _ _ _ _ _ B).
  pose proof sweep_tight_flush as H. rewrite forallb_forall in H.
  specialize (H s). rewrite in_zrange in H. specialize (H ltac:(lia)). rewrite forallb_forall in H.
  specialize (H c). rewrite in_zrange in H. specialize (H ltac:(lia)). rewrite Hhs in H.
  intros HF. apply negb_true_iff in H. assert (X : existsb (hclass_eqb FL) (r_ranked (compute_ranking (hand_counts s c c false) hs)) = true); [|congruence].
  apply existsb_exists. exists FL. split; [exact HF|reflexivity].
Qed.

(** *** Hands counted *)
Lemma filter_sublist {A} (f : A -> bool) l : sublist (filter f l) l.
Proof. induction l as [|x l IH]; [constructor|]. cbn [filter]. destruct (f x); now constructor. Qed.
Lemma in_deck_pairs s r p : (r <= 13)%nat -> In p (deck_pairs s r) <-> (13 - r <= fst p < 13 /\ snd p < s)%nat.
Proof.
  intros Hr. destruct p as [i j]. unfold deck_pairs. rewrite in_flat_map. cbn [fst snd]. split.
  - intros (x & Hx & H). apply in_map_iff in H. destruct H as (y & E & Hy). injection E as -> ->.
    apply in_desc in Hx; [|exact Hr]. apply in_seq in Hy. lia.
  - intros [Hi Hj]. exists i. split; [apply in_desc; assumption|]. apply in_map. apply in_seq. lia.
Qed.
Lemma deck_pairs_nodup s r : NoDup (deck_pairs s r).
Proof.
  unfold deck_pairs. apply NoDup_flat_map; [apply EvalHands.desc_nodup| |].
  - intros x _. apply NoDup_map_on; [|apply seq_NoDup]. intros a b _ _ E. congruence.
  - intros x y a _ _ Hx Hy. apply in_map_iff in Hx, Hy. destruct Hx as (? & <- & _), Hy as (? & E & _). congruence.
Qed.
Definition pair_eq_dec (a b : nat * nat) : {a = b} + {a <> b}.
Proof. decide equality; apply Nat.eq_dec. Defined.
Lemma hand_counted s r c low h : (r <= 13)%nat -> hand_of_deck s r c h ->
  (0 < class_count s r c low (class_of s r c low h))%nat.
Proof.
  intros Hr (L & N & F).
  set (dec := fun p : nat * nat => if in_dec pair_eq_dec p h then true else false).
  set (h' := filter dec (deck_pairs s r)).
  assert (P : Permutation h h').
  { apply NoDup_Permutation; [exact N|apply NoDup_filter, deck_pairs_nodup|]. intros p. unfold h'.
    rewrite filter_In, in_deck_pairs by exact Hr. unfold dec.
    destruct (in_dec _ p h) as [H|H].
    - rewrite Forall_forall in F. specialize (F p H). tauto.
    - split; [contradiction|intros [_ X]; discriminate]. }
  unfold class_count. apply (Nat.lt_le_trans _ (List.length [h'])); [cbn; lia|].
  apply NoDup_incl_length; [repeat constructor; intros []|]. intros x [<-|[]]. apply filter_In. split.
  - unfold all_hands. apply combs_sublist. split; [|apply filter_sublist].
    rewrite <- (Permutation_length P). exact L.
  - rewrite (class_of_perm s r c low _ _ P). apply hclass_eqb_refl.
Qed.

(** *** Rarity *)
Lemma rare_first_spec fs l : rare_first fs l = true -> forall a b, In a l -> In b l ->
  (class_pos b l < class_pos a l)%nat -> freq fs a <> 0 -> freq fs b <= freq fs a.
Proof.
  induction l as [|k l IH]; intros H a b Ha Hb Hp Ha0; [destruct Ha|].
  cbn [rare_first] in H. apply andb_true_iff in H. destruct H as [H1 H2]. rewrite forallb_forall in H1.
  cbn [class_pos] in Hp. destruct (hclass_eqb k b) eqn:Eb.
  - apply hclass_eqb_eq in Eb. subst k. destruct (hclass_eqb b a) eqn:Ea; [lia|].
    destruct Ha as [->|Ha]; [rewrite hclass_eqb_refl in Ea; discriminate|]. specialize (H1 a Ha). lia.
  - destruct (hclass_eqb k a) eqn:Ea; [lia|].
    destruct Ha as [->|Ha]; [rewrite hclass_eqb_refl in Ea; discriminate|].
    destruct Hb as [->|Hb]; [rewrite hclass_eqb_refl in Eb; discriminate|].
    apply IH; try assumption. lia.
Qed.
Lemma rarity_all s r c low : 1 <= s <= 4 -> 1 <= r <= 13 -> 1 <= c <= 5 -> rarity_ok s r c low = true.
Proof.
  intros Hs Hr Hc. pose proof sweep_rarity as H. rewrite forallb_forall in H.
  specialize (H s). rewrite in_zrange in H. specialize (H ltac:(lia)). rewrite forallb_forall in H.
  specialize (H r). rewrite in_zrange in H. specialize (H ltac:(lia)). rewrite forallb_forall in H.
  specialize (H c). rewrite in_zrange in H. specialize (H ltac:(lia)). rewrite forallb_forall in H.
  apply H. destruct low; cbn; tauto.
Qed.
Lemma table_constructible s r c low t : 1 <= s <= 4 -> 1 <= r <= 13 -> 1 <= c <= 5 ->
  LookupTable s r c low None = Ok t -> constructible s r c low = true.
Proof.
  intros Hs Hr Hc Ht. pose proof (built_default s r c low Hs Hr Hc) as H. unfold Evaluator in H.
  replace ((c <? 1) || (5 <? c)) with false in H by lia. rewrite Ht in H. cbn [bind] in H.
  destruct (_ && _) in H; [discriminate|]. exact H.
Qed.
Lemma rarity s r c low t a b va vb : 1 <= s <= 4 -> 1 <= r <= 13 -> 1 <= c <= 5 ->
  LookupTable s r c low None = Ok t -> rarity_exception s r c = false ->
  zhand s r c a -> zhand s r c b ->
  table_lookup t (cards_of a) = Ok va -> table_lookup t (cards_of b) = Ok vb ->
  (class_count (Z.to_nat s) (Z.to_nat r) (Z.to_nat c) low (zclass s r c low a)
   < class_count (Z.to_nat s) (Z.to_nat r) (Z.to_nat c) low (zclass s r c low b))%nat ->
  va <= vb.
Proof.
  intros Hs Hr Hc Ht Hx Ha Hb Va Vb Hlt.
  pose proof (table_constructible _ _ _ _ _ Hs Hr Hc Ht) as Hcon.
  pose proof (hand_counted (Z.to_nat s) (Z.to_nat r) (Z.to_nat c) low a ltac:(lia) Ha) as Hpos.
  destruct (tight r c) eqn:Et.
  - destruct (tight_default s r c low t Hs Hr Hc Ht Et) as [-> _].
    assert (H3 : 3 <= c) by (unfold tight in Et; lia). assert (E : r = c) by (unfold tight in Et; lia). subst r.
    pose proof (tight_facts s c Hs ltac:(lia)) as H. unfold tight_ok in H. rewrite Ht in H. cbv zeta in H.
    rewrite !andb_true_iff in H. destruct H as [[_ _] H]. rewrite Hx in H. cbn [orb] in H.
    destruct (tight_hand s c t a Hs ltac:(lia) Ha) as (oa & Ia & La).
    destruct (tight_hand s c t b Hs ltac:(lia) Hb) as (ob & Ib & Lb).
    rewrite forallb_forall in H. specialize (H _ Ia). rewrite forallb_forall in H. specialize (H _ Ib).
    cbn [fst snd] in H. rewrite Va in La. rewrite Vb in Lb.
    destruct oa as [wa|]; [|discriminate]. destruct ob as [wb|]; [|discriminate].
    assert (wa = va) by congruence. assert (wb = vb) by congruence. subst.
    rewrite <- !class_count_freq in H by lia. lia.
  - destruct (main_facts s r c low None t Hs Hr Hc I Ht a Ha) as [hs F].
    assert (Oa : okh s r c t a) by (split; [exact Ha|left; now left]).
    assert (Ob : okh s r c t b) by (split; [exact Hb|left; now left]).
    pose proof (beats_ranked s r c low None t hs F b a vb va Ob Oa Vb Va) as Br.
    destruct (compare_hands s r c low None t Hs Hr Hc hs F b a vb va Ob Oa Vb Va) as [Hcmp _].
    destruct (Z_le_dec va vb) as [|Hgt]; [assumption|exfalso].
    assert (Hb2 : vb < va) by lia. apply Hcmp in Hb2. rewrite <- Br in Hb2. unfold beats in Hb2.
    fold (zclass s r c low a) (zclass s r c low b) in Hb2.
    apply orb_true_iff in Hb2. destruct Hb2 as [Hb2|Hb2].
    2:{ apply andb_true_iff in Hb2. destruct Hb2 as [Hb2 _]. apply hclass_eqb_eq in Hb2. rewrite Hb2 in Hlt. lia. }
    pose proof (rarity_all s r c low Hs Hr Hc) as R. unfold rarity_ok in R.
    rewrite Et, Hcon in R. cbn [negb] in R.
    destruct (LookupTable_built _ _ _ _ _ _ Ht) as
      (Hval & hs' & s1 & s2 & u1 & u2 & l1 & l2 & l3 & l4 & l5 & Hhs & B).
    rewrite Hhs in R. rewrite <- (b_ranking _ _ _ _ _ _ _ _ _ _ _ _ _ _ _ B) in R.
    rewrite Hx in R. cbn [negb] in R. apply eqb_prop in R.
    assert (Hh : hopeless r c low = false).
    { destruct (hopeless r c low) eqn:Eh; [|reflexivity]. exfalso.
      pose proof (hand_fits _ _ _ _ Ha ltac:(lia)) as Hf.
      assert (Hf' : c <= s * r) by nia.
      unfold hopeless in Eh. unfold constructible in Hcon. destruct low; nia. }
    pose proof (class_of_value s r c low None t Hs Hr Hc hs F a va Oa Va) as Fa.
    pose proof (class_of_value s r c low None t Hs Hr Hc hs F b vb Ob Vb) as Fb.
    apply find_some in Fa, Fb.
    pose proof (rare_first_spec _ _ R (zclass s r c low a) (zclass s r c low b) (proj1 Fa) (proj1 Fb)
                  ltac:(lia)) as Q.
    rewrite <- !class_counts_ok in Q by assumption. unfold zclass in *. lia.
Qed.

(** *** find picks earlier classes for smaller ranks *)
Lemma find_mono (f : hclass -> Z) l v v' k k' : v <= v' ->
  find (fun h => v <=? f h) l = Some k -> find (fun h => v' <=? f h) l = Some k' ->
  (class_pos k l <= class_pos k' l)%nat.
Proof.
  intros Hv. induction l as [|x l IH]; intros H H'; [discriminate|]. cbn [find] in *.
  cbn [class_pos]. destruct (v <=? f x) eqn:E.
  - injection H as ->. rewrite hclass_eqb_refl. lia.
  - replace (v' <=? f x) with false in H' by lia.
    specialize (IH H H'). apply find_some in H'. destruct H' as [_ H'].
    destruct (hclass_eqb x k) eqn:Ek; [lia|]. destruct (hclass_eqb x k') eqn:Ek'; [|lia].
    apply hclass_eqb_eq in Ek'. subst. lia.
Qed.
