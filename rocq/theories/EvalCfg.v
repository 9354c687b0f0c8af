(** * EvalCfg: the key lists of every deck that can be used *)
From Coq Require Import FMapPositive Permutation ZifyBool ZifyNat Arith Sorted.
From Verif Require Import PyBase PyFacts CardModel EvalModel PokerSpec EvalSpec EvalCheck CardProofs
  EvalRank EvalTable EvalHands EvalSweep1 EvalLists EvalRuns.

Definition zhand (s r c : Z) (h : hand) : Prop :=
  hand_of_deck (Z.to_nat s) (Z.to_nat r) (Z.to_nat c) h.
Definition zclass (s r c : Z) (low : bool) (h : hand) : hclass :=
  class_of (Z.to_nat s) (Z.to_nat r) (Z.to_nat c) low h.
Definition ztie (r c : Z) (low : bool) (h : hand) : list nat :=
  tie_of (Z.to_nat r) (Z.to_nat c) low h.


Definition is_multi (k : hclass) : bool :=
  match k with FK | FH | TK | TP | PA => true | _ => false end.
Lemma is_multi_in k : is_multi k = true <-> In k multi_classes.
Proof. destruct k; cbn; intuition discriminate. Qed.

Lemma used_msum s r c low k : is_multi k = true -> 0 < ucount s r c low k -> msum k <= c.
Proof.
  unfold ucount. destruct k; try discriminate; intros _; cbn [hand_counts];
    unfold n_four_of_a_kind, n_full_house, n_three_of_a_kind, n_two_pair, n_pair;
    [change (msum FK) with 4|change (msum FH) with 5|change (msum TK) with 3|change (msum TP) with 4
    |change (msum PA) with 2];
    (destruct ((c <? _) || _) eqn:E; cbn [snd]; lia).
Qed.

Definition suited_class (k : hclass) : bool := match k with SF | FL => true | _ => false end.

(** ** Decks with at least as many ranks as cards in a hand *)
Section Regular.
  Variables (r c : Z) (low : bool).
  Hypothesis Hr : 1 <= r <= 13.
  Hypothesis Hc : 1 <= c <= 5.
  Hypothesis Hcr : c <= r.
  Hypothesis Hgood : 3 <= c -> r = c -> low = false.
  Notation nr := (Z.to_nat r).
  Notation nc := (Z.to_nat c).

  Definition class_lists (k : hclass) : list (list nat) :=
    match k with
    | SF | ST => slists r c low
    | FL | HC => flists r c low
    | _ => map (mlist (class_multiples k)) (mpairs r c (class_multiples k))
    end.

  Lemma lists_keys k : (is_multi k = true -> msum k <= c) ->
    class_keys r c low k = map prime_prod (class_lists k).
  Proof.
    intros Hm.
    assert (G : forall b, map prime_product_from_rank_bits b = map prime_prod (map bits_ranks b)).
    { intros b. rewrite map_map. apply map_ext. intros. apply bits_ranks_product. }
    unfold class_keys, class_lists. destruct k;
      try (rewrite G; first [rewrite slists_bits by assumption|rewrite flists_bits by assumption]; reflexivity);
      specialize (Hm eq_refl); unfold msum in Hm; rewrite mkeys_pairs by lia; now rewrite map_map.
  Qed.

  Lemma lists_desc k : (is_multi k = true -> msum k <= c) ->
    desc_lex (map (tie_break nr nc low) (class_lists k)) = true.
  Proof.
    intros Hm.
    assert (G : forall k, is_multi k = true -> msum k <= c ->
      desc_lex (map (tie_break nr nc low) (map (mlist (class_multiples k)) (mpairs r c (class_multiples k)))) = true).
    { clear k Hm. intros k Hk Hm. apply is_multi_in in Hk. rewrite map_map.
      rewrite (map_ext_in _ (fun p => fst p ++ snd p)).
      - apply SS_desc_lex. apply (SS_map (fun p q => lgt (fst p ++ snd p) (fst q ++ snd q))); [tauto|].
        apply mpairs_sorted; [exact Hr|]. destruct k; cbn; lia.
      - intros [X K] HXK. cbn [fst snd].
        apply (mlist_class r c Hr 4%nat low k X K Hk HXK Hm). }
    unfold class_lists. destruct k; try (apply G; [reflexivity|now apply Hm]).
    - now apply slists_desc.
    - now apply flists_desc.
    - now apply slists_desc.
    - now apply flists_desc.
  Qed.

  Lemma lists_class k l : (is_multi k = true -> msum k <= c) -> (suited_class k = true -> 3 <= c) ->
    In l (class_lists k) ->
    below l /\ classify 4 nr nc low (suited_class k) l = k.
  Proof.
    intros Hm H3 Hl.
    assert (G : is_multi k = true -> In l (map (mlist (class_multiples k)) (mpairs r c (class_multiples k))) ->
      below l /\ classify 4 nr nc low false l = k).
    { intros Hk H. apply in_map_iff in H. destruct H as ([X K] & <- & H).
      pose proof (proj1 (is_multi_in k) Hk) as Hk'. split; [now apply (mlist_below r c Hr)|].
      apply (mlist_class r c Hr 4%nat low k X K Hk' H (Hm Hk)). }
    assert (C : forall same, In l (combs nc (desc_ranks nr)) -> below l /\
       classify 4 nr nc low same l
       = if is_flush 4 nc same then (if is_straight nr nc low l then SF else FL)
         else if is_straight nr nc low l then ST else HC).
    { intros same H. apply (comb_shape r c low) in H; try assumption. destruct H as (S1 & L & F).
      assert (B : below l) by (eapply Forall_impl; [|exact F]; cbn; lia). split; [exact B|].
      destruct (sdesc_singles l S1 B) as (E1 & E2 & E3 & E4). unfold classify. rewrite E2, E3, E4.
      destruct (is_flush 4 nc same), (is_straight nr nc low l); reflexivity. }
    assert (S : In l (slists r c low) -> In l (combs nc (desc_ranks nr)) /\ is_straight nr nc low l = true).
    { intros H. split; [now apply (slists_comb r c low Hr Hc Hcr Hgood)|now apply (slists_straight r c low Hr Hc Hcr Hgood)]. }
    assert (F : In l (flists r c low) -> In l (combs nc (desc_ranks nr)) /\ is_straight nr nc low l = false).
    { intros H. now apply (flists_in r c low). }
    unfold class_lists in Hl. destruct k; cbn [suited_class] in *;
      try (apply G; [reflexivity|exact Hl]).
    - destruct (S Hl) as [H1 H2]. destruct (C true H1) as [H4 ->]. split; [exact H4|].
      unfold is_flush. rewrite H2. specialize (H3 eq_refl). replace (3 <=? nc)%nat with true by lia. reflexivity.
    - destruct (F Hl) as [H1 H2]. destruct (C true H1) as [H4 ->]. split; [exact H4|].
      unfold is_flush. rewrite H2. specialize (H3 eq_refl). replace (3 <=? nc)%nat with true by lia. reflexivity.
    - destruct (S Hl) as [H1 H2]. destruct (C false H1) as [H4 ->]. split; [exact H4|].
      unfold is_flush. now rewrite H2, andb_false_r.
    - destruct (F Hl) as [H1 H2]. destruct (C false H1) as [H4 ->]. split; [exact H4|].
      unfold is_flush. now rewrite H2, andb_false_r.
  Qed.

  (** every rank pattern is listed under its class *)
  Lemma lists_complete s same k l : 1 <= s <= 4 ->
    List.length l = nc -> Forall (fun i => (13 - nr <= i < 13)%nat) l ->
    (forall i, (copies i l <= Z.to_nat s)%nat) -> (same = true -> NoDup l) ->
    classify (Z.to_nat s) nr nc low same l = k ->
    possible s c k = true /\ exists x, In x (class_lists k) /\ Permutation l x.
  Proof.
    intros Hs Ll Fl Hcp Hsame Hcl.
    assert (Bl : below l) by (eapply Forall_impl; [|exact Fl]; cbn; lia).
    assert (Hcp4 : forall i, (copies i l <= 4)%nat) by (intros i; specialize (Hcp i); lia).
    pose proof (group_perm l Bl Hcp4) as P. pose proof (group_length l Bl Hcp4) as Lg.
    (* patterns without a pair *)
    assert (D : List.length (singles l) = nc -> In (singles l) (combs nc (desc_ranks nr)) /\ Permutation l (singles l)).
    { intros H. split.
      - apply (comb_shape r c low); try assumption. repeat split; [apply of_mult_sdesc|exact H|].
        apply Forall_forall. intros i Hi. apply of_mult_in in Hi. rewrite Forall_forall in Fl. apply Fl.
        apply (count_occ_In Nat.eq_dec). unfold copies in Hi. lia.
      - rewrite P at 1.
        assert (E1 : quads l = []) by (destruct (quads l); [reflexivity|cbn [List.length] in Lg; lia]).
        assert (E2 : trips l = []) by (destruct (trips l); [reflexivity|cbn [List.length] in Lg; lia]).
        assert (E3 : pairs l = []) by (destruct (pairs l); [reflexivity|cbn [List.length] in Lg; lia]).
        rewrite E1, E2, E3. reflexivity. }
    assert (St : is_straight nr nc low l = true -> List.length (singles l) = nc /\ (3 <= nc)%nat).
    { unfold is_straight, straight_top. destruct ((nc <? 3)%nat || _) eqn:E; [discriminate|]. lia. }
    assert (Nd : NoDup l -> List.length (singles l) = nc).
    { intros N. unfold quads, trips, pairs in Lg. rewrite !nodup_no_mult in Lg by (assumption || lia).
      cbn [List.length] in Lg. lia. }
    assert (DS : is_straight nr nc low l = true -> exists x, In x (slists r c low) /\ Permutation l x).
    { intros H. destruct (St H) as [H1 _]. destruct (D H1) as [H2 H3]. exists (singles l).
      split; [|exact H3]. apply slists_iff; try assumption.
      unfold is_straight in *. now rewrite <- (straight_top_perm _ _ H3). }
    assert (DF : is_straight nr nc low l = false -> List.length (singles l) = nc ->
                 exists x, In x (flists r c low) /\ Permutation l x).
    { intros H H1. destruct (D H1) as [H2 H3]. exists (singles l). split; [|exact H3].
      apply flists_in. split; [exact H2|]. unfold is_straight in *. now rewrite <- (straight_top_perm _ _ H3). }
    destruct (is_multi k) eqn:Em.
    - pose proof (proj1 (is_multi_in k) Em) as Hk.
      destruct (mlist_complete r c Hr ltac:(lia) _ low same k l Hk Ll Fl Hcp4 Hcl) as (Hm & X & K & HXK & HP).
      split.
      + destruct (mlist_groups r c Hr k X K Hk HXK) as (_ & _ & EG). cbv zeta in EG.
        set (x := mlist (class_multiples k) (X, K)) in *.
        assert (Eq : forall m i, In i (of_multiplicity m x) -> (m <= Z.to_nat s)%nat).
        { intros m i Hi. apply of_mult_in in Hi. rewrite <- (copies_perm _ _ HP) in Hi. specialize (Hcp i). lia. }
        assert (E4 : (1 <= List.length (quads x))%nat -> 4 <= s).
        { intros H. destruct (quads x) as [|i q] eqn:Eq4; [cbn in H; lia|].
          specialize (Eq 4%nat i). fold (quads x) in Eq. rewrite Eq4 in Eq. specialize (Eq (or_introl eq_refl)). lia. }
        assert (E3 : (1 <= List.length (trips x))%nat -> 3 <= s).
        { intros H. destruct (trips x) as [|i q] eqn:Eq4; [cbn in H; lia|].
          specialize (Eq 3%nat i). fold (trips x) in Eq. rewrite Eq4 in Eq. specialize (Eq (or_introl eq_refl)). lia. }
        assert (E2 : (1 <= List.length (pairs x))%nat -> 2 <= s).
        { intros H. destruct (pairs x) as [|i q] eqn:Eq4; [cbn in H; lia|].
          specialize (Eq 2%nat i). fold (pairs x) in Eq. rewrite Eq4 in Eq. specialize (Eq (or_introl eq_refl)). lia. }
        clear -Hm EG E4 E3 E2 Hk.
        destruct Hk as [<-|[<-|[<-|[<-|[<-|[]]]]]]; cbn [group_counts possible] in *;
          injection EG as F1 F2 F3; rewrite F1 in E4; rewrite F2 in E3; rewrite F3 in E2;
          [change (msum FK) with 4 in Hm|change (msum FH) with 5 in Hm|change (msum TK) with 3 in Hm
          |change (msum TP) with 4 in Hm|change (msum PA) with 2 in Hm]; lia.
      + exists (mlist (class_multiples k) (X, K)). split; [|exact HP].
        unfold class_lists. destruct k; try discriminate; now apply in_map.
    - (* is the hand a flush? *)
      unfold classify in Hcl. unfold is_flush in Hcl.
      destruct (((2 <=? Z.to_nat s)%nat && (3 <=? nc)%nat) && same) eqn:Ef; cbn [andb] in Hcl.
      + rewrite !andb_true_iff in Ef. destruct Ef as [[E2 E3] ->].
        destruct (is_straight nr nc low l) eqn:Es.
        * subst k. cbn [possible class_lists]. split; [lia|now apply DS].
        * destruct (1 <=? List.length (quads l))%nat; [subst k; discriminate|].
          destruct ((1 <=? List.length (trips l))%nat && _); [subst k; discriminate|].
          subst k. cbn [possible class_lists]. split; [lia|]. apply DF; [reflexivity|]. now apply Nd, Hsame.
      + destruct (1 <=? List.length (quads l))%nat eqn:Eq; [subst k; discriminate|].
        destruct ((1 <=? List.length (trips l))%nat && _) eqn:Et; [subst k; discriminate|].
        destruct (is_straight nr nc low l) eqn:Es.
        * subst k. cbn [possible class_lists]. destruct (St eq_refl). split; [lia|now apply DS].
        * destruct (1 <=? List.length (trips l))%nat eqn:Et1; [subst k; discriminate|].
          destruct (2 <=? List.length (pairs l))%nat eqn:Ep; [subst k; discriminate|].
          destruct (1 <=? List.length (pairs l))%nat eqn:Ep1; [subst k; discriminate|].
          subst k. cbn [possible class_lists]. split; [reflexivity|]. apply DF; [reflexivity|lia].
  Qed.
End Regular.

(** ** The facts used in EvalMain.v *)
Record cfg_facts (s r c : Z) (low : bool) : Prop := {
  cf_shape : check_shape s r c low = true;
  cf_flush : tight r c = false -> check_flush s r c low = true;
  cf_keys : forall ks, ks = suited_classes \/ ks = unsuited_classes ->
    Forall (fun k => 0 < k) (flat_map (used_keys s r c low) ks) /\
    NoDup (flat_map (used_keys s r c low) ks);
  cf_len : forall k, Z.of_nat (List.length (used_keys s r c low k)) = ucount s r c low k;
  cf_ties : forall k, exists T : list (list nat),
    (forall h, zhand s r c h -> zclass s r c low h = k ->
       exists i, nth_error (used_keys s r c low k) i = Some (prime_prod (map fst h)) /\
                 nth_error T i = Some (ztie r c low h)) /\
    (forall h, zhand s r c h -> zclass s r c low h = k -> desc_lex T = true)
}.

Lemma cfg_ok_all s r c low : 1 <= s <= 4 -> 1 <= r <= 13 -> 1 <= c <= 5 ->
  cfg_ok s r c low = true.
Proof.
  intros Hs Hr Hc. pose proof sweep_cfg as H. rewrite forallb_forall in H.
  specialize (H s). rewrite in_zrange in H. specialize (H ltac:(lia)). rewrite forallb_forall in H.
  specialize (H r). rewrite in_zrange in H. specialize (H ltac:(lia)).
  rewrite forallb_forall in H. specialize (H c). rewrite in_zrange in H. specialize (H ltac:(lia)).
  rewrite forallb_forall in H. apply H. destruct low; cbn; tauto.
Qed.
Lemma lens_all s r c low k : 1 <= s <= 4 -> 1 <= r <= 13 -> 1 <= c <= 5 -> hopeless r c low = false ->
  let u := ucount s r c low k in let n := Z.of_nat (List.length (class_keys r c low k)) in
  if c <=? r then (if possible s c k then n = u else u = 0) else u <= 0 \/ n = u.
Proof.
  intros Hs Hr Hc Hh u n. pose proof sweep_lens as H. rewrite forallb_forall in H.
  specialize (H r). rewrite in_zrange in H. specialize (H ltac:(lia)).
  rewrite forallb_forall in H. specialize (H c). rewrite in_zrange in H. specialize (H ltac:(lia)).
  rewrite forallb_forall in H. specialize (H low ltac:(destruct low; cbn; tauto)). rewrite Hh in H.
  unfold check_lens in H. rewrite forallb_forall in H. specialize (H s). rewrite in_zrange in H.
  specialize (H ltac:(lia)). rewrite forallb_forall in H.
  specialize (H (k, n)). cbn [fst snd] in H. fold u in H.
  assert (Hin : In (k, n) (map (fun k => (k, Z.of_nat (Datatypes.length (class_keys r c low k)))) all_classes)).
  { apply in_map_iff. exists k. split; [reflexivity|apply all_classes_in]. }
  specialize (H Hin). destruct (c <=? r); [destruct (possible s c k)|]; lia.
Qed.

Lemma NoDup_flat_map {A B} (f : A -> list B) l : NoDup l -> (forall x, In x l -> NoDup (f x)) ->
  (forall x y a, In x l -> In y l -> In a (f x) -> In a (f y) -> x = y) -> NoDup (flat_map f l).
Proof.
  induction 1 as [|x l Hx _ IH]; intros H1 H2; [constructor|]. cbn [flat_map].
  assert (N1 : NoDup (f x)) by (apply H1; now left).
  assert (N2 : NoDup (flat_map f l)).
  { apply IH; [intros; apply H1; now right|]. intros y z a Hy Hz. apply H2; now right. }
  assert (D : forall a, In a (f x) -> ~ In a (flat_map f l)).
  { intros a Ha H. apply in_flat_map in H. destruct H as (y & Hy & H).
    assert (x = y) by (apply (H2 x y a); [now left|now right|assumption|assumption]). subst. contradiction. }
  clear -N1 N2 D. induction N1 as [|a m Ha _ IH]; [exact N2|]. cbn [app]. constructor.
  - rewrite in_app_iff. intros [H|H]; [contradiction|]. apply (D a); [now left|exact H].
  - apply IH. intros b Hb. apply D. now right.
Qed.
Lemma desc_lex_nodup l : desc_lex l = true -> NoDup l.
Proof.
  intros D. apply (NoDup_nth_error l). intros i j Hi E.
  destruct (nth_error l i) as [a|] eqn:Ea; [|apply nth_error_None in Ea; lia].
  symmetry in E. destruct (lt_eq_lt_dec i j) as [[H|H]|H]; [|exact H|].
  - pose proof (desc_lex_nth _ D i j _ _ H Ea E) as G. rewrite lex_gt_irrefl in G. discriminate.
  - pose proof (desc_lex_nth _ D j i _ _ H E Ea) as G. rewrite lex_gt_irrefl in G. discriminate.
Qed.
Lemma NoDup_map_weak {A B} (f : A -> B) l : NoDup (map f l) -> NoDup l.
Proof. apply NoDup_map_inv. Qed.

Lemma cfg_facts_regular s r c low : 1 <= s <= 4 -> 1 <= r <= 13 -> 1 <= c <= 5 ->
  hopeless r c low = false -> c <= r ->
  check_shape s r c low = true -> (tight r c = false -> check_flush s r c low = true) ->
  cfg_facts s r c low.
Proof.
  intros Hs Hr Hc Hh Hcr Hsh Hfl.
  assert (Hgood : 3 <= c -> r = c -> low = false).
  { intros H3 ->. unfold hopeless in Hh. destruct low; [exfalso; lia|reflexivity]. }
  assert (Hu : forall k, 0 < ucount s r c low k -> used_keys s r c low k = map prime_prod (class_lists r c low k)
             /\ possible s c k = true /\ (is_multi k = true -> msum k <= c)).
  { intros k Hk. assert (Hm : is_multi k = true -> msum k <= c) by (intros; eapply used_msum; eassumption).
    split; [|split; [|exact Hm]].
    - unfold used_keys. replace (0 <? ucount s r c low k) with true by lia.
      now apply lists_keys.
    - pose proof (lens_all s r c low k Hs Hr Hc Hh) as L. cbv zeta in L.
      replace (c <=? r) with true in L by lia. destruct (possible s c k); [reflexivity|lia]. }
  assert (H0 : forall k, ~ 0 < ucount s r c low k -> used_keys s r c low k = []).
  { intros k Hk. unfold used_keys. replace (0 <? ucount s r c low k) with false by lia. reflexivity. }
  assert (Hkey : forall k x, In x (used_keys s r c low k) -> exists l, x = prime_prod l /\
            In l (class_lists r c low k) /\ below l /\
            classify 4 (Z.to_nat r) (Z.to_nat c) low (suited_class k) l = k /\ 0 < ucount s r c low k).
  { intros k x Hx. destruct (Z_lt_dec 0 (ucount s r c low k)) as [Hk|Hk]; [|rewrite H0 in Hx by lia; destruct Hx].
    destruct (Hu k Hk) as (E & Hp & Hm). rewrite E in Hx. apply in_map_iff in Hx. destruct Hx as (l & <- & Hl).
    exists l. split; [reflexivity|]. split; [exact Hl|].
    assert (Hl' : below l /\ classify 4 (Z.to_nat r) (Z.to_nat c) low (suited_class k) l = k).
    { apply (lists_class r c low Hr Hc Hcr Hgood k l Hm); [|exact Hl].
      destruct k; try discriminate; cbn [possible] in Hp; lia. }
    tauto. }
  split; try assumption.
  - intros ks Hks.
    assert (Nks : NoDup ks).
    { destruct Hks as [-> | ->]; repeat constructor; cbn; intuition discriminate. }
    assert (Hst : exists b, forall k, In k ks -> suited_class k = b).
    { destruct Hks as [-> | ->]; [exists true|exists false]; intros k Hk; cbn in Hk;
        intuition (subst; reflexivity). }
    destruct Hst as [b Hst]. split.
    + apply Forall_forall. intros x Hx. apply in_flat_map in Hx. destruct Hx as (k & _ & Hx).
      apply Hkey in Hx. destruct Hx as (l & -> & _ & B & _). now apply prime_prod_pos.
    + apply NoDup_flat_map; [exact Nks| |].
      * intros k _. destruct (Z_lt_dec 0 (ucount s r c low k)) as [Hk|Hk]; [|rewrite H0 by lia; constructor].
        destruct (Hu k Hk) as (E & Hp & Hm). rewrite E.
        pose proof (lists_desc r c low Hr Hc Hcr Hgood k Hm) as D. apply desc_lex_nodup in D.
        apply NoDup_map_on; [|now apply NoDup_map_inv in D].
        assert (T : forall x y, In x (class_lists r c low k) -> In y (class_lists r c low k) ->
          tie_break (Z.to_nat r) (Z.to_nat c) low x = tie_break (Z.to_nat r) (Z.to_nat c) low y -> x = y).
        { clear -D. induction (class_lists r c low k) as [|z m IH]; [intros x y []|].
          cbn [map] in D. inversion D as [|? ? Hz D']; subst. intros x y [<-|Hx] [<-|Hy] E.
          - reflexivity.
          - exfalso. apply Hz. rewrite E. now apply in_map.
          - exfalso. apply Hz. rewrite <- E. now apply in_map.
          - now apply IH. }
        intros x y Hx Hy E'. apply T; try assumption. apply tie_break_perm.
        assert (K3 : suited_class k = true -> 3 <= c)
          by (destruct k; try discriminate; cbn [possible] in Hp; lia).
        apply prime_prod_inj; [| |exact E'].
        -- apply (lists_class r c low Hr Hc Hcr Hgood k x Hm K3 Hx).
        -- apply (lists_class r c low Hr Hc Hcr Hgood k y Hm K3 Hy).
      * intros k k' x Hk Hk' Hx Hx'. apply Hkey in Hx. apply Hkey in Hx'.
        destruct Hx as (l & -> & _ & B & C & _). destruct Hx' as (l' & E & _ & B' & C' & _).
        rewrite (Hst k Hk) in C. rewrite (Hst k' Hk') in C'. rewrite <- C, <- C'. apply classify_perm.
        now apply prime_prod_inj.
  - intros k. pose proof (lens_all s r c low k Hs Hr Hc Hh) as L. cbv zeta in L.
    replace (c <=? r) with true in L by lia. unfold used_keys.
    destruct (0 <? ucount s r c low k) eqn:E.
    + destruct (possible s c k); lia.
    + pose proof (U_nonneg s r c low Hsh k) as P. cbv zeta in P. cbn [List.length]. lia.
  - intros k. exists (map (tie_break (Z.to_nat r) (Z.to_nat c) low) (class_lists r c low k)).
    assert (G : forall h, zhand s r c h -> zclass s r c low h = k ->
       0 < ucount s r c low k /\ exists x, In x (class_lists r c low k) /\ Permutation (map fst h) x).
    { intros h Hh' Hk.
      destruct (lists_complete r c low Hr Hc Hcr Hgood s (same_suit h) k (map fst h) Hs) as (Hp & x & Hx & P).
      - rewrite map_length. apply Hh'.
      - exact (hand_ranks_range _ _ _ h Hh').
      - intros i. apply (copies_le_suits (Z.to_nat s) (Z.to_nat r) (Z.to_nat c) ltac:(lia) ltac:(lia) h Hh' i).
      - exact (same_suit_nodup (Z.to_nat s) (Z.to_nat r) (Z.to_nat c) ltac:(lia) ltac:(lia) h Hh').
      - exact Hk.
      - split; [|exists x; auto].
        pose proof (lens_all s r c low k Hs Hr Hc Hh) as L. cbv zeta in L.
        replace (c <=? r) with true in L by lia. rewrite Hp in L.
        assert (Hm : is_multi k = true -> msum k <= c).
        { intros Em. apply is_multi_in in Em.
          apply (mlist_complete r c Hr ltac:(lia) (Z.to_nat s) low (same_suit h) k (map fst h)).
          - exact Em.
          - rewrite map_length. apply Hh'.
          - exact (hand_ranks_range _ _ _ h Hh').
          - intros i. pose proof (copies_le_suits (Z.to_nat s) (Z.to_nat r) (Z.to_nat c) ltac:(lia) ltac:(lia) h Hh' i). lia.
          - exact Hk. }
        rewrite (lists_keys r c low Hr Hc Hcr Hgood k Hm), map_length in L.
        destruct (class_lists r c low k); [destruct Hx|cbn [List.length] in L; lia]. }
    split.
    + intros h Hh' Hk. destruct (G h Hh' Hk) as (Hu0 & x & Hx & P).
      apply In_nth_error in Hx. destruct Hx as [i Hi]. exists i.
      destruct (Hu k Hu0) as (E & _ & _). rewrite E. split.
      * erewrite map_nth_error by exact Hi. now rewrite (prime_prod_perm _ _ P).
      * erewrite map_nth_error by exact Hi. unfold ztie, tie_of. now rewrite (tie_break_perm _ _ P).
    + intros h Hh' Hk. destruct (G h Hh' Hk) as (Hu0 & _). destruct (Hu k Hu0) as (_ & _ & Hm).
      now apply lists_desc.
Qed.

(** decks with fewer ranks than cards in a hand *)
Lemma cfg_facts_small s r c low : 1 <= s <= 4 -> 1 <= r <= 13 -> 1 <= c <= 5 ->
  hopeless r c low = false -> r < c ->
  check_shape s r c low = true -> (tight r c = false -> check_flush s r c low = true) ->
  check_keys s r c low = true -> check_hands s r c low = true ->
  cfg_facts s r c low.
Proof.
  intros Hs Hr Hc Hh Hcr Hsh Hfl Hk Hhd.
  assert (Hkeys : forall ks, ks = suited_classes \/ ks = unsuited_classes ->
    Forall (fun k => 0 < k) (flat_map (used_keys s r c low) ks) /\
    NoDup (flat_map (used_keys s r c low) ks)).
  { unfold check_keys in Hk. rewrite !andb_true_iff in Hk. destruct Hk as [H1 H2].
    apply nodup_keys_spec in H1. apply nodup_keys_spec in H2.
    clear -H1 H2. intros ks [-> | ->]; tauto. }
  assert (Hpos : forall k, Forall (fun x => 0 < x) (used_keys s r c low k)).
  { intros k. destruct (Hkeys (if suited_class k then suited_classes else unsuited_classes)) as [F _].
    { destruct (suited_class k); auto. }
    rewrite Forall_forall in F |- *. intros x Hx. apply F. apply in_flat_map. exists k.
    split; [|exact Hx]. destruct k; cbn; tauto. }
  split; try assumption.
  - intros k. pose proof (lens_all s r c low k Hs Hr Hc Hh) as L. cbv zeta in L.
    replace (c <=? r) with false in L by lia. unfold used_keys.
    pose proof (U_nonneg s r c low Hsh k) as P. cbv zeta in P.
    destruct (0 <? ucount s r c low k) eqn:E; cbn [List.length]; lia.
  - intros k. exists (map (fun p => tie_break (Z.to_nat r) (Z.to_nat c) low (decode p)) (used_keys s r c low k)).
    assert (G : forall h, zhand s r c h -> zclass s r c low h = k ->
      let d := canon (Z.to_nat r) (map fst h) in
      Permutation (map fst h) d /\
      kset_mem (kset_of (used_keys s r c low k)) (prime_prod d) = true /\
      decode (prime_prod d) = d /\
      desc_lex (map (fun p => tie_break (Z.to_nat r) (Z.to_nat c) low (decode p))
                    (used_keys s r c low k)) = true).
    { intros h Hh' Hkk d.
      assert (P : Permutation (map fst h) d).
      { apply canon_perm; [lia|]. eapply hand_ranks_range; eassumption. }
      assert (Hin0 : In (k, d) (classified (Z.to_nat s) (Z.to_nat r) (Z.to_nat c) low)).
      { unfold classified. apply in_map_iff. exists (same_suit h, d). cbn [fst snd]. split.
        - f_equal. rewrite <- Hkk. unfold zclass, class_of. symmetry. now apply classify_perm.
        - apply canon_abstract; first [lia|exact Hh']. }
      split; [exact P|]. unfold check_hands in Hhd. rewrite forallb_forall in Hhd.
      specialize (Hhd k (all_classes_in k)). unfold check_class in Hhd.
      assert (Hin : In (k, d) (filter (fun x => hclass_eqb (fst x) k)
                 (classified (Z.to_nat s) (Z.to_nat r) (Z.to_nat c) low))).
      { apply filter_In. split; [exact Hin0|apply hclass_eqb_refl]. }
      destruct (filter _ _) as [|x xs] eqn:Ef in Hhd; [rewrite Ef in Hin; destruct Hin|].
      rewrite <- Ef in Hhd. rewrite andb_true_iff, forallb_forall in Hhd.
      destruct Hhd as [H1 H2]. specialize (H1 _ Hin). cbn [snd] in H1.
      apply andb_true_iff in H1. destruct H1 as [H1 H3]. apply list_nat_eqb_eq in H3. auto. }
    split.
    + intros h Hh' Hkk. destruct (G h Hh' Hkk) as (P & Hmem & Hd & _).
      apply kset_of_mem in Hmem; [|apply Hpos].
      apply In_nth_error in Hmem. destruct Hmem as [i Hi]. exists i.
      rewrite (prime_prod_perm _ _ P). split; [exact Hi|].
      erewrite map_nth_error by exact Hi. rewrite Hd. unfold ztie, tie_of. now rewrite (tie_break_perm _ _ P).
    + intros h Hh' Hkk. now destruct (G h Hh' Hkk) as (_ & _ & _ & D).
Qed.

Lemma cfg_facts_all s r c low : 1 <= s <= 4 -> 1 <= r <= 13 -> 1 <= c <= 5 ->
  no_hands s r c = false -> hopeless r c low = false -> cfg_facts s r c low.
Proof.
  intros Hs Hr Hc Hn Hh. pose proof (cfg_ok_all s r c low Hs Hr Hc) as H. unfold cfg_ok in H.
  rewrite Hn, Hh in H. rewrite !andb_true_iff in H. destruct H as [[Hfl Hsh] H].
  assert (Hfl' : tight r c = false -> check_flush s r c low = true).
  { intros E. rewrite E in Hfl. exact Hfl. }
  destruct (c <=? r) eqn:E.
  - apply cfg_facts_regular; try assumption. lia.
  - apply andb_true_iff in H. apply cfg_facts_small; try tauto; lia.
Qed.
