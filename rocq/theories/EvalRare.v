(** * EvalRare: the number of hands of each class, and checks of the default order *)
From Coq Require Import Permutation ZifyBool ZifyNat Arith Sorted.
From Verif Require Import PyBase PyFacts EvalModel PokerSpec EvalSpec EvalCheck EvalRank EvalTable EvalHands
  EvalLists EvalRuns EvalCfg EvalCount.

(** ** Counting by multiplicities *)
Definition pattern : Type := (nat * nat * nat * nat)%type.
Definition pat (l : list nat) : pattern :=
  (List.length (quads l), List.length (trips l), List.length (pairs l), List.length (singles l)).
Definition bump (k : nat) (p : pattern) : pattern :=
  let '(q, t, d, u) := p in
  match k with
  | 1 => (q, t, d, S u) | 2 => (q, t, S d, u) | 3 => (q, S t, d, u) | 4 => (S q, t, d, u)
  | _ => p
  end%nat.

Lemma filter_one (f g : nat -> bool) i l : NoDup l -> In i l -> g i = false ->
  (forall j, j <> i -> f j = g j) ->
  List.length (filter f l) = (List.length (filter g l) + if f i then 1 else 0)%nat.
Proof.
  intros N. induction N as [|x l Hx N IH]; intros Hi Gi H; [destruct Hi|].
  cbn [filter]. destruct (Nat.eq_dec x i) as [->|Hn].
  - rewrite Gi. assert (E : filter f l = filter g l).
    { apply filter_ext_in. intros j Hj. apply H. intros ->. contradiction. }
    rewrite E. destruct (f i); cbn [List.length]; lia.
  - destruct Hi as [->|Hi]; [contradiction|]. rewrite (H x Hn).
    destruct (g x); cbn [List.length]; rewrite (IH Hi Gi H); lia.
Qed.
Lemma mult_bump m i k l : (1 <= m)%nat -> (i < 13)%nat -> ~ In i l ->
  List.length (of_multiplicity m (repeat i k ++ l))
  = (List.length (of_multiplicity m l) + if Nat.eqb k m then 1 else 0)%nat.
Proof.
  intros Hm Hi Hl. unfold of_multiplicity.
  assert (C0 : copies i l = O) by now apply count_occ_not_In.
  rewrite (filter_one (fun j => Nat.eqb (copies j (repeat i k ++ l)) m) (fun j => Nat.eqb (copies j l) m) i).
  - rewrite copies_app, copies_repeat, Nat.eqb_refl, C0, Nat.add_0_r. reflexivity.
  - apply NoDup_rev, seq_NoDup.
  - apply in_rev. rewrite rev_involutive. apply in_seq. lia.
  - rewrite C0. apply Nat.eqb_neq. lia.
  - intros j Hj. rewrite copies_app, copies_repeat. apply not_eq_sym, Nat.eqb_neq in Hj. rewrite Hj. reflexivity.
Qed.
Lemma pat_bump i k l : (k <= 4)%nat -> (i < 13)%nat -> ~ In i l -> pat (repeat i k ++ l) = bump k (pat l).
Proof.
  intros Hk Hi Hl. unfold pat, quads, trips, pairs, singles.
  rewrite !mult_bump by (assumption || lia). 
  do 5 (destruct k as [|k]; [cbn [Nat.eqb bump]; rewrite ?Nat.add_0_r, ?Nat.add_1_r; reflexivity|]). lia.
Qed.

Fixpoint pats (s nr n : nat) : list (pattern * Z) :=
  match nr with
  | O => match n with O => [((0, 0, 0, 0)%nat, 1)] | _ => [] end
  | S nr' =>
    flat_map (fun k => let w := Z.of_nat (binom s k) in
                       if w =? 0 then []
                       else map (fun p => (bump k (fst p), w * snd p)) (pats s nr' (n - k)))
             (seq 0 (S n))
  end.

Lemma weighted_in s ranks : forall n p, In p (weighted s ranks n) -> incl (fst p) ranks.
Proof.
  induction ranks as [|i ranks IH]; intros n p H.
  - destruct n; [|destruct H]. destruct H as [<-|[]]. intros ? [].
  - cbn [weighted] in H. apply in_flat_map in H. destruct H as (k & _ & H). cbv zeta in H.
    destruct (_ =? 0); [destruct H|]. apply in_map_iff in H. destruct H as (q & <- & Hq). cbn [fst].
    intros x Hx. apply in_app_or in Hx. destruct Hx as [Hx|Hx].
    + apply repeat_spec in Hx. subst. now left.
    + right. eapply IH; eassumption.
Qed.
Lemma binom_big : forall n k, (n < k)%nat -> binom n k = O.
Proof.
  induction n as [|n IH]; intros [|k] H; try lia; [reflexivity|]. cbn [binom]. rewrite !IH by lia. reflexivity.
Qed.

Lemma weighted_pats s ranks : (s <= 4)%nat -> NoDup ranks -> below ranks -> forall n,
  map (fun p => (pat (fst p), snd p)) (weighted s ranks n) = pats s (List.length ranks) n.
Proof.
  intros Hs. induction ranks as [|i ranks IH]; intros N B n.
  - destruct n; reflexivity.
  - inversion N as [|? ? Hi N']; subst. inversion B as [|? ? Bi B']; subst.
    cbn [weighted List.length pats].
    induction (seq 0 (S n)) as [|k ks IHk]; [reflexivity|]. cbn [flat_map]. rewrite map_app, IHk. f_equal.
    cbv zeta. destruct (Z.of_nat (binom s k) =? 0) eqn:E; [reflexivity|].
    rewrite <- (IH N' B'), !map_map. apply map_ext_in. intros p Hp. cbn [fst snd]. f_equal.
    apply pat_bump; [|exact Bi|].
    + destruct (le_lt_dec k 4); [assumption|]. rewrite binom_big in E by lia. discriminate.
    + intros H. apply Hi. eapply weighted_in; eassumption.
Qed.

(** patterns without a pair *)
Fixpoint nodupb (l : list nat) : bool :=
  match l with [] => true | x :: l' => negb (existsb (Nat.eqb x) l') && nodupb l' end.
Lemma nodupb_iff l : nodupb l = true <-> NoDup l.
Proof.
  induction l as [|x l IH]; cbn [nodupb]; [split; [constructor|reflexivity]|].
  rewrite andb_true_iff, IH, negb_true_iff. split.
  - intros [H1 H2]. constructor; [|exact H2]. intros H.
    assert (X : existsb (Nat.eqb x) l = true); [|congruence].
    apply existsb_exists. exists x. split; [exact H|apply Nat.eqb_refl].
  - intros H. inversion H as [|? ? H1 H2]; subst. split; [|exact H2].
    destruct (existsb (Nat.eqb x) l) eqn:E; [|reflexivity]. apply existsb_exists in E.
    destruct E as (y & Hy & E). apply Nat.eqb_eq in E. now subst.
Qed.

Lemma binom_1 n : binom n 1 = n.
Proof. induction n as [|n IH]; [reflexivity|]. cbn [binom]. rewrite IH. destruct n; reflexivity. Qed.
Lemma binom_0 n : binom n 0 = 1%nat.
Proof. now destruct n. Qed.

Lemma weighted_distinct s ranks : NoDup ranks -> forall n (g : list nat -> Z),
  sumf (fun p => snd p * (b2z (nodupb (fst p)) * g (fst p))) (weighted s ranks n)
  = Z.of_nat s ^ Z.of_nat n * sumf g (combs n ranks).
Proof.
  induction 1 as [|i ranks Hi N IH]; intros n g.
  - destruct n as [|n]; cbn [weighted combs]; [rewrite !sumf_one; cbn [fst snd nodupb b2z]; rewrite Z.pow_0_r; lia|].
    unfold sumf. cbn. lia.
  - cbn [weighted]. rewrite sumf_flat.
    set (G := fun k => sumf _ _).
    assert (G0 : G O = Z.of_nat s ^ Z.of_nat n * sumf g (combs n ranks)).
    { unfold G. cbv zeta. rewrite binom_0. cbn [Z.eqb Z.of_nat Pos.of_succ_nat].
      rewrite sumf_map, Nat.sub_0_r. cbn [repeat app fst snd]. rewrite <- (IH n g). apply sumf_ext.
      intros p _. lia. }
    assert (G2 : forall k, G (S (S k)) = 0).
    { intros k. unfold G. cbv zeta. destruct (_ =? 0); [reflexivity|]. rewrite sumf_map.
      rewrite (sumf_ext _ (fun _ => 0)); [rewrite sumf_const; lia|]. intros p _. cbn [fst snd repeat app nodupb existsb].
      rewrite Nat.eqb_refl. cbn [orb negb andb b2z]. lia. }
    rewrite sumf_seq_S, G0. destruct n as [|n].
    + cbn [seq]. rewrite sumf_nil. cbn [combs]. destruct ranks; cbn [combs]; lia.
    + assert (G1 : G 1%nat = Z.of_nat s ^ Z.of_nat (S n) * sumf (fun l => g (i :: l)) (combs n ranks)).
      { unfold G. cbv zeta. rewrite binom_1. destruct (Z.of_nat s =? 0) eqn:E.
        - apply Z.eqb_eq in E. rewrite E, Z.pow_0_l by lia. reflexivity.
        - rewrite sumf_map. cbn [Nat.sub]. rewrite Nat.sub_0_r. cbn [fst snd repeat app].
          rewrite Nat2Z.inj_succ, Z.pow_succ_r by lia.
          rewrite <- Z.mul_assoc, <- (IH n (fun l => g (i :: l))), <- sumf_scale. apply sumf_ext.
          intros p Hp. cbn [nodupb].
          assert (E2 : existsb (Nat.eqb i) (fst p) = false).
          { destruct (existsb (Nat.eqb i) (fst p)) eqn:E2; [|reflexivity]. apply existsb_exists in E2.
            destruct E2 as (y & Hy & E2). apply Nat.eqb_eq in E2. subst y. exfalso. apply Hi.
            eapply weighted_in; eassumption. }
          rewrite E2. cbn [negb andb]. lia. }
      rewrite sumf_seq_S, G1.
      rewrite (sumf_ext (fun k => G (S (S k))) (fun _ => 0)) by (intros; apply G2). rewrite sumf_const.
      cbn [combs]. rewrite sumf_app, sumf_map. lia.
Qed.

Lemma weighted_shape s ranks : NoDup ranks -> forall n p, In p (weighted s ranks n) ->
  List.length (fst p) = n /\ forall i, (copies i (fst p) <= s)%nat.
Proof.
  induction 1 as [|i ranks Hi N IH]; intros n p H.
  - destruct n; [|destruct H]. destruct H as [<-|[]]. split; [reflexivity|]. intros j. cbn. lia.
  - cbn [weighted] in H. apply in_flat_map in H. destruct H as (k & Hk & H). cbv zeta in H.
    destruct (_ =? 0) eqn:E; [destruct H|]. apply in_map_iff in H. destruct H as (q & <- & Hq). cbn [fst].
    apply in_seq in Hk. destruct (IH _ _ Hq) as [L C]. rewrite app_length, repeat_length, L. split; [lia|].
    intros j. rewrite copies_app, copies_repeat. destruct (Nat.eqb_spec i j) as [->|Hn].
    + assert (C0 : copies j (fst q) = O).
      { apply count_occ_not_In. intros X. apply Hi. eapply weighted_in; eassumption. }
      destruct (le_lt_dec k s); [lia|]. rewrite binom_big in E by lia. discriminate.
    + apply C.
Qed.

Definition pclass (p : pattern) : hclass :=
  let '(q, t, d, u) := p in
  if (1 <=? q)%nat then FK else if ((1 <=? t) && (1 <=? d))%nat then FH
  else if (1 <=? t)%nat then TK else if (2 <=? d)%nat then TP else if (1 <=? d)%nat then PA else HC.

Lemma nodup_pclass l : below l -> (forall i, copies i l <= 4)%nat ->
  (nodupb l = true <-> pclass (pat l) = HC).
Proof.
  intros B C. rewrite nodupb_iff. split.
  - intros N. unfold pat. unfold quads, trips, pairs. rewrite !nodup_no_mult by (lia || exact N). reflexivity.
  - intros H. apply (NoDup_count_occ Nat.eq_dec). intros i.
    change (count_occ Nat.eq_dec l i) with (copies i l).
    destruct (le_lt_dec (copies i l) 1) as [G|G]; [exact G|exfalso].
    assert (Hi : In i l) by (apply (count_occ_In Nat.eq_dec); change (copies i l > 0)%nat; lia).
    unfold below in B. rewrite Forall_forall in B. specialize (B i Hi). specialize (C i).
    assert (Hm : forall m, copies i l = m -> (1 <= List.length (of_multiplicity m l))%nat).
    { intros m Em. assert (X : In i (of_multiplicity m l)) by (apply of_mult_in; auto).
      destruct (of_multiplicity m l); [destruct X|cbn; lia]. }
    unfold pat, pclass, quads, trips, pairs in H.
    assert (copies i l = 2 \/ copies i l = 3 \/ copies i l = 4)%nat as [E|[E|E]] by lia;
      specialize (Hm _ E); repeat match type of H with context [if ?b then _ else _] => destruct b eqn:? end;
      try discriminate; lia.
Qed.

Lemma classify_split s r c low l : List.length l = c -> below l -> (forall i, copies i l <= 4)%nat ->
  classify s r c low false l
  = if nodupb l then (if is_straight r c low l then ST else HC) else pclass (pat l).
Proof.
  intros L B C. unfold classify, is_flush. rewrite !andb_false_r. cbn [andb].
  pose proof (nodup_pclass l B C) as N. destruct (nodupb l) eqn:E.
  - apply nodupb_iff in E. unfold quads, trips, pairs. rewrite !nodup_no_mult by (lia || exact E).
    reflexivity.
  - assert (Hs : is_straight r c low l = false).
    { unfold is_straight, straight_top. destruct (Nat.eqb_spec (List.length (singles l)) c) as [Es|Es].
      - exfalso. assert (X : pclass (pat l) = HC); [|apply N in X; discriminate].
        pose proof (group_length l B C) as G. unfold pat, pclass.
        destruct (quads l), (trips l), (pairs l); cbn [List.length] in *; first [lia|reflexivity].
      - cbn [negb]. rewrite orb_true_r. reflexivity. }
    rewrite Hs. reflexivity.
Qed.

Lemma class_count_sum s r c low k : (1 <= c)%nat ->
  let F := fun l => b2z (hclass_eqb (classify s r c low false l) k) in
  let T := fun l => b2z (hclass_eqb (classify s r c low true l) k) in
  Z.of_nat (class_count s r c low k)
  = sumf (fun p => snd p * F (fst p)) (weighted s (desc_ranks r) c)
    + Z.of_nat s * sumf (fun l => T l - F l) (combs c (desc_ranks r)).
Proof.
  intros Hc F T. unfold class_count, all_hands. rewrite sumf_filter.
  change (deck_pairs s r) with (deck_of s (desc_ranks r)).
  rewrite (sumf_ext _ (fun h => F (map fst h) + b2z (same_suit h) * (T (map fst h) - F (map fst h)))).
  2:{ intros h _. unfold class_of, F, T. destruct (same_suit h); cbn [b2z]; lia. }
  rewrite sumf_plus. apply (f_equal2 Z.add);
    [exact (sum_weighted s (desc_ranks r) c F)|exact (sum_suited s (desc_ranks r) c (fun l => T l - F l) Hc)].
Qed.

(** the number of hands of a class, from the numbers of rank patterns *)
Definition pat_count (ps : list (pattern * Z)) (k : hclass) : Z :=
  sumf (fun p => snd p * b2z (hclass_eqb (pclass (fst p)) k)) ps.
Definition zcount (ps : list (pattern * Z)) (s r c : Z) (nS nF : Z) (k : hclass) : Z :=
  let f := if (2 <=? s) && (3 <=? c) then s else 0 in
  match k with
  | SF => f * nS | FL => f * nF | ST => (s ^ c - f) * nS | HC => (s ^ c - f) * nF
  | _ => pat_count ps k
  end.

Section Regular.
  Variables (s r c : Z) (low : bool).
  Hypothesis Hs : 1 <= s <= 4.
  Hypothesis Hr : 1 <= r <= 13.
  Hypothesis Hc : 1 <= c <= 5.
  Hypothesis Hcr : c <= r.
  Hypothesis Hgood : 3 <= c -> r = c -> low = false.
  Notation ns := (Z.to_nat s).
  Notation nr := (Z.to_nat r).
  Notation nc := (Z.to_nat c).
  Notation straight := (is_straight nr nc low).

  Lemma desc_below : below (desc_ranks nr).
  Proof. apply Forall_forall. intros i Hi. apply in_desc in Hi; lia. Qed.
  Lemma desc_nodup : NoDup (desc_ranks nr).
  Proof. apply sdesc_nodup, desc_sdesc. Qed.
  Lemma desc_length : List.length (desc_ranks nr) = nr.
  Proof. unfold desc_ranks. rewrite rev_length, seq_length. reflexivity. Qed.

  Lemma n_straights : sumf (fun l => b2z (straight l)) (combs nc (desc_ranks nr))
    = Z.of_nat (List.length (slists r c low)).
  Proof.
    rewrite <- sumf_filter. f_equal. apply Permutation_length, NoDup_Permutation.
    - apply NoDup_filter, desc_lex_nodup, SS_desc_lex, combs_desc, desc_sdesc.
    - apply (NoDup_map_inv (tie_break nr nc low)), desc_lex_nodup.
      apply slists_desc; assumption.
    - intros l. rewrite filter_In. split.
      + intros [H1 H2]. apply (slists_iff r c low Hr Hc Hcr); assumption.
      + intros H. pose proof (slists_comb r c low Hr Hc Hcr Hgood l H) as H1. split; [exact H1|].
        eapply slists_iff; eassumption.
  Qed.
  Lemma n_flushes : sumf (fun l => b2z (negb (straight l))) (combs nc (desc_ranks nr))
    = Z.of_nat (List.length (flists r c low)).
  Proof. now rewrite <- sumf_filter. Qed.

  Lemma class_count_zcount k :
    Z.of_nat (class_count ns nr nc low k)
    = zcount (pats ns nr nc) s r c (Z.of_nat (List.length (slists r c low)))
        (Z.of_nat (List.length (flists r c low))) k.
  Proof.
    rewrite class_count_sum by lia. cbv zeta.
    pose proof desc_below as B. pose proof desc_nodup as N.
    set (D := fun l => b2z (hclass_eqb (if straight l then ST else HC) k)).
    set (M := fun p => b2z (hclass_eqb (pclass p) k && negb (hclass_eqb k HC))).
    rewrite (sumf_ext _ (fun p => snd p * (b2z (nodupb (fst p)) * D (fst p)) + snd p * M (pat (fst p)))).
    2:{ intros p Hp. destruct (weighted_shape _ _ N _ _ Hp) as [L C].
        pose proof (weighted_in _ _ _ _ Hp) as I.
        assert (Bp : below (fst p)).
        { unfold below in *. rewrite Forall_forall in *. intros i Hi. apply B, I, Hi. }
        assert (C4 : (forall i, copies i (fst p) <= 4)%nat) by (intros i; specialize (C i); lia).
        rewrite (classify_split ns nr nc low (fst p) L Bp C4).
        pose proof (nodup_pclass (fst p) Bp C4) as E. unfold D, M.
        destruct (nodupb (fst p)); cbn [b2z].
        - destruct E as [E _]. rewrite (E eq_refl). destruct (straight (fst p)), k; cbn; lia.
        - destruct (hclass_eqb (pclass (pat (fst p))) k) eqn:Ek; cbn [b2z andb]; [|lia].
          apply hclass_eqb_eq in Ek. rewrite <- Ek. destruct (hclass_eqb (pclass (pat (fst p))) HC) eqn:E2.
          + apply hclass_eqb_eq in E2. apply E in E2. discriminate.
          + cbn [negb b2z]. lia. }
    rewrite sumf_plus, (weighted_distinct ns _ N nc D).
    rewrite <- (sumf_map (fun q => snd q * M (fst q)) (fun p => (pat (fst p), snd p))).
    rewrite weighted_pats by (assumption || lia). rewrite desc_length.
    set (f := (2 <=? s) && (3 <=? c)).
    rewrite (sumf_ext (fun l => _ - _) (fun l => b2z f * (b2z (hclass_eqb (if straight l then SF else FL) k) - D l))).
    2:{ intros l Hl. apply comb_shape in Hl; [|assumption..]. destruct Hl as (S1 & L & F).
        assert (Bl : below l) by (eapply Forall_impl; [|exact F]; cbn; lia).
        destruct (sdesc_singles l S1 Bl) as (_ & E2 & E3 & E4).
        unfold classify, is_flush. rewrite E2, E3, E4.
        replace ((2 <=? ns)%nat && (3 <=? nc)%nat) with f by (unfold f; lia).
        rewrite andb_true_r, andb_false_r. unfold D. destruct f, (straight l); destruct k; reflexivity. }
    rewrite sumf_scale.
    assert (P : Z.of_nat ns ^ Z.of_nat nc = s ^ c) by (rewrite !Z2Nat.id by lia; reflexivity).
    rewrite P. rewrite !Z2Nat.id by lia.
    assert (G : forall g h : list nat -> Z, sumf (fun l => g l - h l) (combs nc (desc_ranks nr))
      = sumf g (combs nc (desc_ranks nr)) - sumf h (combs nc (desc_ranks nr))).
    { intros g h. rewrite (sumf_ext _ (fun l => g l + (-1) * h l)) by (intros; lia).
      rewrite sumf_plus, sumf_scale. lia. }
    rewrite G. clear G.
    assert (S1 : forall a b, sumf (fun l => b2z (hclass_eqb (if straight l then a else b) k)) (combs nc (desc_ranks nr))
       = b2z (hclass_eqb a k) * Z.of_nat (List.length (slists r c low))
         + b2z (hclass_eqb b k) * Z.of_nat (List.length (flists r c low))).
    { intros a b. rewrite <- n_straights, <- n_flushes, <- !sumf_scale, <- sumf_plus. apply sumf_ext.
      intros l _. destruct (straight l); cbn [negb b2z]; lia. }
    unfold D. rewrite !S1.
    assert (PM : sumf (fun q => snd q * M (fst q)) (pats ns nr nc)
      = if hclass_eqb k HC then 0 else pat_count (pats ns nr nc) k).
    { unfold pat_count, M. destruct (hclass_eqb k HC).
      - rewrite (sumf_ext _ (fun _ => 0)); [rewrite sumf_const; lia|]. intros. rewrite andb_false_r. cbn; lia.
      - apply sumf_ext. intros. now rewrite andb_true_r. }
    rewrite PM.
    assert (PZ : In k [SF; FL; ST] -> pat_count (pats ns nr nc) k = 0).
    { intros Hk. unfold pat_count. rewrite (sumf_ext _ (fun _ => 0)); [rewrite sumf_const; lia|].
      intros [[[[q t] d] u] w] _. cbn [fst snd pclass].
      cbn [In] in Hk. destruct Hk as [<-|[<-|[<-|[]]]];
      repeat match goal with |- context [if ?b then _ else _] => destruct b end; cbn; lia. }
    unfold zcount. fold f.
    replace (if f then s else 0) with (s * b2z f) by (destruct f; cbn; lia).
    destruct k; cbn [hclass_eqb b2z]; try rewrite PZ by (cbn; tauto); lia.
  Qed.
End Regular.

(** ** Rarity checks (by computation in EvalSweep2.v) *)
Definition class_counts (s r c : Z) (low : bool) : list (hclass * Z) :=
  if c <=? r
  then let ps := pats (Z.to_nat s) (Z.to_nat r) (Z.to_nat c) in
       map (fun k => (k, zcount ps s r c (ucount s r c low ST) (ucount s r c low HC) k)) all_classes
  else frequencies (Z.to_nat s) (Z.to_nat r) (Z.to_nat c) low.

Lemma class_counts_ok s r c low k : 1 <= s <= 4 -> 1 <= r <= 13 -> 1 <= c <= 5 ->
  hopeless r c low = false ->
  Z.of_nat (class_count (Z.to_nat s) (Z.to_nat r) (Z.to_nat c) low k) = freq (class_counts s r c low) k.
Proof.
  intros Hs Hr Hc Hh. unfold class_counts. destruct (c <=? r) eqn:Ecr; [|apply class_count_freq; lia].
  assert (Hcr : c <= r) by lia.
  assert (Hgood : 3 <= c -> r = c -> low = false).
  { intros H3 ->. unfold hopeless in Hh. destruct low; [exfalso; lia|reflexivity]. }
  rewrite class_count_zcount by assumption.
  assert (LS : Z.of_nat (List.length (slists r c low)) = ucount s r c low ST).
  { pose proof (lens_all s r c low ST Hs Hr Hc Hh) as L. cbv zeta in L. rewrite Ecr in L.
    cbn [possible class_keys] in L. rewrite map_length in L.
    rewrite <- (slists_bits r c low Hr Hc Hcr) by assumption. rewrite map_length.
    destruct (3 <=? c) eqn:E3; [exact L|]. rewrite L. unfold S_bits. replace (c <? 3) with true by lia. reflexivity. }
  assert (LF : Z.of_nat (List.length (flists r c low)) = ucount s r c low HC).
  { pose proof (lens_all s r c low HC Hs Hr Hc Hh) as L. cbv zeta in L. rewrite Ecr in L.
    cbn [possible class_keys] in L. rewrite map_length in L.
    rewrite <- (flists_bits r c low Hr Hc Hcr) by assumption. rewrite map_length. exact L. }
  rewrite LS, LF. unfold freq, all_classes. destruct k; reflexivity.
Qed.
Fixpoint rare_first (fs : list (hclass * Z)) (l : list hclass) : bool :=
  match l with
  | [] => true
  | k :: l' => forallb (fun k' => (freq fs k' =? 0) || (freq fs k <=? freq fs k')) l'
               && rare_first fs l'
  end.

Definition rarity_ok (s r c : Z) (low : bool) : bool :=
  if tight r c then true
  else if negb (constructible s r c low) then true
  else match ranked_classes (hand_counts s r c low) None with
  | Err _ => true
  | Ok hs => Bool.eqb (rare_first (class_counts s r c low)
                                  (r_ranked (compute_ranking (hand_counts s r c low) hs)))
                      (negb (rarity_exception s r c))
  end.

(** tight decks: everything about the default order, by computation *)
Definition tight_hands (s c : Z) (t : lookup_table) : list (hclass * option Z) :=
  let ns := Z.to_nat s in let nc := Z.to_nat c in
  map (fun h => (classify ns nc nc false (fst h) (snd h),
                 dict_find (if fst h : bool then t_suited t else t_unsuited t) (prime_prod (snd h))))
      (abstract_hands ns nc nc).
Definition tight_ok (s c : Z) : bool :=
  match LookupTable s c c false None with
  | Err _ => false
  | Ok t =>
    let l := tight_hands s c t in
    let fs := frequencies (Z.to_nat s) (Z.to_nat c) (Z.to_nat c) false in
    forallb (fun k => 0 <=? ucount s c c false k) all_classes
    && forallb (fun p => match snd p with Some v => (0 <=? v) && (v <=? t_max_rank t) | None => false end) l
    && (rarity_exception s c c
        || forallb (fun a => forallb (fun b =>
             match snd a, snd b with
             | Some va, Some vb => negb (freq fs (fst a) <? freq fs (fst b)) || (va <=? vb)
             | _, _ => false
             end) l) l)
  end.
