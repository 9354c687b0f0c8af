(** * EvalRuns: straights and hands without a pair: the bit patterns of evaluator.py are
    the runs, and all the other combinations of ranks, best first *)
From Coq Require Import FMapPositive Permutation ZifyBool ZifyNat Arith Sorted Znumtheory.
From Verif Require Import PyBase PyFacts CardModel EvalModel PokerSpec EvalSpec EvalCheck CardProofs
  EvalRank EvalTable EvalHands EvalLists.

(** ** Straights and hands without a pair *)
Definition bits_ranks (b : Z) : list nat := filter (fun k => Z.testbit b (Z.of_nat k)) (rev (seq 0 13)).
Lemma bits_ranks_product b : prime_product_from_rank_bits b = prime_prod (bits_ranks b).
Proof.
  rewrite bits_product. apply prime_prod_perm. unfold bits_ranks.
  apply NoDup_Permutation; [apply NoDup_filter, seq_NoDup|apply NoDup_filter, NoDup_rev, seq_NoDup|].
  intros x. now rewrite !filter_In, <- in_rev.
Qed.
Lemma bits_ranks_inj a b : 0 <= a < 8192 -> 0 <= b < 8192 -> bits_ranks a = bits_ranks b -> a = b.
Proof.
  intros Ha Hb E. apply Z.bits_inj'. intros n Hn.
  destruct (Z_lt_dec n 13) as [H13|H13].
  - assert (G : forall x, Z.testbit x n = true <-> In (Z.to_nat n) (bits_ranks x)).
    { intros x. unfold bits_ranks. rewrite filter_In, <- in_rev, in_seq, Z2Nat.id by lia. intuition lia. }
    apply eq_true_iff_eq. rewrite !G, E. reflexivity.
  - assert (G : forall x, 0 <= x < 8192 -> Z.testbit x n = false).
    { intros x Hx. destruct (Z.eq_dec x 0) as [->|Hx0]; [apply Z.bits_0|].
      apply Z.bits_above_log2; [lia|]. apply Z.log2_lt_pow2; [lia|].
      assert (2 ^ 13 <= 2 ^ n) by (apply Z.pow_le_mono_r; lia). change (2 ^ 13) with 8192 in *. lia. }
    now rewrite !G.
Qed.

Definition run (t c : nat) : list nat := rev (seq (t + 1 - c) c).
Definition runs (r c : nat) (low : bool) : list (list nat) :=
  map (fun t => run t c) (rev (seq (12 + c - r) (r + 1 - c)))
  ++ (if low then [12%nat :: rev (seq (13 - r) (c - 1))] else []).

Definition lists_eqb (a b : list (list nat)) : bool :=
  Nat.eqb (List.length a) (List.length b)
  && forallb (fun p => list_nat_eqb (fst p) (snd p)) (combine a b).
Lemma lists_eqb_eq a : forall b, lists_eqb a b = true -> a = b.
Proof.
  induction a as [|x a IH]; intros [|y b] H; try reflexivity; try discriminate.
  unfold lists_eqb in H. cbn [List.length combine forallb fst snd] in H. rewrite !andb_true_iff in H.
  destruct H as (H1 & H2 & H3). apply list_nat_eqb_eq in H2. subst. f_equal. apply IH.
  unfold lists_eqb. rewrite H3. cbn in H1. now rewrite H1.
Qed.

Definition small_bits (l : list Z) : bool := forallb (fun b => (0 <=? b) && (b <? 8192)) l.
Definition check_runs (r c : Z) (low : bool) : bool :=
  let nr := Z.to_nat r in let nc := Z.to_nat c in
  let S := gen_straight_flush c r low in
  small_bits S && lists_eqb (map bits_ranks S) (runs nr nc low)
  && forallb (fun l => is_straight nr nc low l) (runs nr nc low)
  && (((r =? c) && low) || desc_lex (map (tie_break nr nc low) (runs nr nc low))).
Definition all_bits (r c : Z) : list Z :=
  map (fun x => Z.shiftl x (13 - r)) (lex_loop (Z.to_nat (ncr r c)) (bits_to_Z (rep true c))).
Definition check_bits (r c : Z) : bool :=
  let A := rev (all_bits r c) in
  small_bits A && lists_eqb (map bits_ranks A) (combs (Z.to_nat c) (desc_ranks (Z.to_nat r))).
Lemma runs_swept :
  forallb (fun c => forallb (fun r => forallb (check_runs r c) [true; false]) (zrange c 14)) (zrange 3 6)
  = true.
Proof. vm_cast_no_check (eq_refl true). Qed.
Lemma bits_swept :
  forallb (fun c => forallb (fun r => check_bits r c) (zrange c 14)) (zrange 1 6) = true.
Proof. vm_cast_no_check (eq_refl true). Qed.

Lemma nodup_perm_incl (a b : list nat) : NoDup a -> incl a b -> List.length b = List.length a ->
  forall i, In i a <-> In i b.
Proof.
  intros N I L i. split; [apply I|]. apply (NoDup_length_incl N); [lia|exact I].
Qed.

Lemma has_run_in lo k l : has_run lo k l = true -> forall i, (lo <= i < lo + k)%nat -> In i l.
Proof.
  unfold has_run. rewrite forallb_forall. intros H i Hi. specialize (H i). rewrite in_seq in H.
  specialize (H Hi). apply (count_occ_In Nat.eq_dec). unfold copies in H. lia.
Qed.

(** straight patterns are exactly the runs *)
Lemma straight_run r c low l : (r <= 13)%nat -> (c <= r)%nat -> sdesc l -> List.length l = c ->
  Forall (fun i => (13 - r <= i < 13)%nat) l ->
  is_straight r c low l = true -> In l (runs r c low).
Proof.
  intros Hr Hcr Sl Ll Fl H. unfold is_straight in H.
  assert (F' : forall i, In i l -> (13 - r <= i < 13)%nat) by now apply Forall_forall.
  destruct (straight_top r c low l) as [t|] eqn:E; [|discriminate]. clear H.
  unfold straight_top in E. destruct ((c <? 3)%nat || _) eqn:E3; [discriminate|].
  apply orb_false_iff in E3. destruct E3 as [E3 _].
  destruct (find _ _) as [t'|] eqn:Ef.
  - apply find_some in Ef. destruct Ef as [Ht Hrun]. apply in_rev, in_seq in Ht.
    assert (El : l = run t' c).
    { apply sdesc_unique; [exact Sl|apply sdesc_seq|]. intros i. symmetry.
      apply nodup_perm_incl; [apply NoDup_rev, seq_NoDup| |].
      - intros j Hj. apply in_rev, in_seq in Hj. eapply has_run_in; [exact Hrun|lia].
      - unfold run. rewrite rev_length, seq_length. exact Ll. }
    unfold runs. apply in_or_app. left. apply in_map_iff. exists t'. split; [now symmetry|].
    apply in_rev. rewrite rev_involutive. apply in_seq.
    assert (In (t' + 1 - c)%nat l) by (eapply has_run_in; [exact Hrun|lia]).
    specialize (F' _ H). lia.
  - destruct (low && _ && _) eqn:El; [|discriminate]. rewrite !andb_true_iff in El.
    destruct El as [[-> H12] Hrun]. unfold runs. apply in_or_app. right. left. symmetry.
    apply sdesc_unique; [exact Sl| |].
    + constructor; [apply sdesc_seq|]. apply Forall_forall. intros x Hx. apply in_rev, in_seq in Hx. lia.
    + intros i. symmetry. apply nodup_perm_incl.
      * constructor; [|apply NoDup_rev, seq_NoDup]. intros Hx. apply in_rev, in_seq in Hx. lia.
      * intros j [<-|Hj].
        -- apply (count_occ_In Nat.eq_dec). unfold copies in H12. lia.
        -- apply in_rev, in_seq in Hj. eapply has_run_in; [exact Hrun|lia].
      * cbn [List.length]. rewrite rev_length, seq_length. lia.
Qed.

Lemma sdesc_singles l : sdesc l -> below l -> singles l = l /\
  quads l = [] /\ trips l = [] /\ pairs l = [].
Proof.
  intros Sl B. split.
  - apply of_mult_eq; [exact Sl|]. intros i. rewrite copies_sdesc by exact Sl.
    unfold below in B. rewrite Forall_forall in B.
    destruct (in_dec Nat.eq_dec i l) as [H|H]; [specialize (B i H)|]; intuition lia.
  - apply sdesc_nodup in Sl. repeat split; apply nodup_no_mult; first [lia|exact Sl].
Qed.

Section Patterns.
  Variables (r c : Z) (low : bool).
  Hypothesis Hr : 1 <= r <= 13.
  Hypothesis Hc : 1 <= c <= 5.
  Hypothesis Hcr : c <= r.
  Hypothesis Hgood : 3 <= c -> r = c -> low = false.
  Notation nr := (Z.to_nat r).
  Notation nc := (Z.to_nat c).

  Definition slists : list (list nat) := if c <? 3 then [] else runs nr nc low.
  Definition flists : list (list nat) :=
    filter (fun l => negb (is_straight nr nc low l)) (combs nc (desc_ranks nr)).

  Lemma runs_checked : 3 <= c -> check_runs r c low = true.
  Proof.
    intros H3. pose proof runs_swept as H.  rewrite forallb_forall in H.
    specialize (H c). rewrite in_zrange in H. specialize (H ltac:(lia)). rewrite forallb_forall in H.
    specialize (H r). rewrite in_zrange in H. specialize (H ltac:(lia)). rewrite forallb_forall in H.
    apply H. destruct low; cbn; tauto.
  Qed.
  Lemma bits_checked : check_bits r c = true.
  Proof.
    pose proof bits_swept as H.  rewrite forallb_forall in H.
    specialize (H c). rewrite in_zrange in H. specialize (H ltac:(lia)). rewrite forallb_forall in H.
    apply H. rewrite in_zrange. lia.
  Qed.

  Lemma slists_bits : map bits_ranks (S_bits r c low) = slists.
  Proof.
    unfold S_bits, slists. destruct (c <? 3) eqn:E; [reflexivity|].
    pose proof (runs_checked ltac:(lia)) as H. unfold check_runs in H. rewrite !andb_true_iff in H.
    apply lists_eqb_eq, H.
  Qed.
  Lemma slists_small : small_bits (S_bits r c low) = true.
  Proof.
    unfold S_bits. destruct (c <? 3) eqn:E; [reflexivity|].
    pose proof (runs_checked ltac:(lia)) as H. unfold check_runs in H. rewrite !andb_true_iff in H. tauto.
  Qed.
  Lemma slists_straight l : In l slists -> is_straight nr nc low l = true.
  Proof.
    unfold slists. destruct (c <? 3) eqn:E; [intros []|].
    pose proof (runs_checked ltac:(lia)) as H. unfold check_runs in H. rewrite !andb_true_iff in H.
    destruct H as [[_ H] _]. rewrite forallb_forall in H. apply H.
  Qed.
  Lemma slists_desc : desc_lex (map (tie_break nr nc low) slists) = true.
  Proof.
    unfold slists. destruct (c <? 3) eqn:E; [reflexivity|].
    pose proof (runs_checked ltac:(lia)) as H. unfold check_runs in H. rewrite !andb_true_iff in H.
    destruct H as [_ H]. apply orb_true_iff in H. destruct H as [H|H]; [|exact H].
    exfalso. rewrite Hgood in H by lia. lia.
  Qed.

  Lemma comb_shape l : In l (combs nc (desc_ranks nr)) <->
    sdesc l /\ List.length l = nc /\ Forall (fun i => (13 - nr <= i < 13)%nat) l.
  Proof.
    split.
    - intros H. destruct (combs_sdesc _ (desc_sdesc _) _ _ H) as (S1 & I & L). repeat split; try assumption.
      apply Forall_forall. intros i Hi. apply in_desc; [lia|]. now apply I.
    - intros (S1 & <- & F). apply combs_complete; [apply desc_sdesc|exact S1|]. intros i Hi.
      rewrite Forall_forall in F. apply in_desc; [lia|]. now apply F.
  Qed.

  Lemma slists_iff l : In l (combs nc (desc_ranks nr)) ->
    (In l slists <-> is_straight nr nc low l = true).
  Proof.
    intros Hl. split; [apply slists_straight|]. intros H. apply comb_shape in Hl.
    destruct Hl as (S1 & L & F). unfold slists. destruct (c <? 3) eqn:E.
    - exfalso. unfold is_straight, straight_top in H.
      replace (nc <? 3)%nat with true in H by lia. discriminate.
    - apply straight_run; try assumption; lia.
  Qed.

  Lemma flists_bits : map bits_ranks (F_bits r c low) = flists.
  Proof.
    unfold F_bits, gen_flush, flists. fold (all_bits r c).
    pose proof bits_checked as H. unfold check_bits in H. apply andb_true_iff in H.
    destruct H as [Hs H]. apply lists_eqb_eq in H. rewrite <- H.
    assert (Hfr : forall (q : Z -> bool) x, rev (filter q x) = filter q (rev x)).
    { intros q x. induction x as [|y x IH]; [reflexivity|]. cbn [filter rev]. rewrite filter_app, <- IH.
      cbn [filter]. destruct (q y); [reflexivity|]. now rewrite app_nil_r. }
    rewrite Hfr.
    assert (G : forall x, In x (rev (all_bits r c)) ->
      negb (existsb (Z.eqb x) (S_bits r c low)) = negb (is_straight nr nc low (bits_ranks x))).
    { intros x Hx. f_equal. apply eq_true_iff_eq.
      rewrite <- slists_iff by (rewrite <- H; now apply in_map).
      rewrite <- slists_bits, existsb_exists, in_map_iff. split.
      - intros (y & Hy & E). apply Z.eqb_eq in E. subst. exists y. auto.
      - intros (y & E & Hy). exists y. split; [exact Hy|]. apply Z.eqb_eq. symmetry.
        apply bits_ranks_inj; [| |exact E].
        + pose proof slists_small as Q. unfold small_bits in Q. rewrite forallb_forall in Q.
          specialize (Q y Hy). lia.
        + unfold small_bits in Hs. rewrite forallb_forall in Hs. specialize (Hs x Hx). lia. }
    clear -G. induction (rev (all_bits r c)) as [|x l IH]; [reflexivity|]. cbn [filter map].
    rewrite (G x) by now left. destruct (is_straight nr nc low (bits_ranks x)); cbn [negb map].
    - apply IH. intros. apply G. now right.
    - f_equal. apply IH. intros. apply G. now right.
  Qed.

  Lemma flists_in l : In l flists <-> In l (combs nc (desc_ranks nr)) /\ is_straight nr nc low l = false.
  Proof. unfold flists. rewrite filter_In, negb_true_iff. reflexivity. Qed.
  Lemma flists_desc : desc_lex (map (tie_break nr nc low) flists) = true.
  Proof.
    rewrite (map_ext_in _ (fun l => l)).
    - rewrite map_id. apply SS_desc_lex. unfold flists. apply SS_filter, combs_desc, desc_sdesc.
    - intros l Hl. apply flists_in in Hl. destruct Hl as [Hl H]. apply comb_shape in Hl.
      destruct Hl as (S1 & L & F). unfold tie_break. unfold is_straight in H.
      destruct (straight_top nr nc low l); [discriminate|].
      assert (B : below l) by (eapply Forall_impl; [|exact F]; cbn; lia).
      destruct (sdesc_singles l S1 B) as (E1 & E2 & E3 & E4). unfold kick_order.
      now rewrite E1, E2, E3, E4.
  Qed.
  (* a run is a combination *)
  Lemma slists_comb l : In l slists -> In l (combs nc (desc_ranks nr)).
  Proof.
    unfold slists. destruct (c <? 3) eqn:E; [intros []|]. intros H. apply comb_shape.
    unfold runs in H. apply in_app_or in H. destruct H as [H|H].
    - apply in_map_iff in H. destruct H as (t & <- & Ht). apply in_rev, in_seq in Ht.
      split; [apply sdesc_seq|]. unfold run. rewrite rev_length, seq_length. split; [reflexivity|].
      apply Forall_forall. intros x Hx. apply in_rev, in_seq in Hx. lia.
    - destruct low; [|destruct H]. destruct H as [<-|[]]. split; [|split].
      + constructor; [apply sdesc_seq|]. apply Forall_forall. intros x Hx. apply in_rev, in_seq in Hx. lia.
      + cbn [List.length]. rewrite rev_length, seq_length. lia.
      + constructor; [lia|]. apply Forall_forall. intros x Hx. apply in_rev, in_seq in Hx. lia.
  Qed.
End Patterns.
