(** * EvalMain: ranks of concrete hands under every successfully built table *)
From Coq Require Import FMapPositive Permutation ZifyBool ZifyNat Arith.
From Verif Require Import PyBase PyFacts CardModel CardSpec EvalModel PokerSpec EvalSpec EvalCheck CardProofs
  EvalRank EvalTable EvalHands EvalCfg.

Lemma hand_fits s r c h : hand_of_deck s r c h -> (r <= 13)%nat -> (c <= s * r)%nat.
Proof.
  intros (L & N & F) Hr. rewrite <- L.
  replace (s * r)%nat with (List.length (list_prod (seq (13 - r) r) (seq 0 s)))
    by (rewrite prod_length, !seq_length; lia).
  apply NoDup_incl_length; [exact N|]. intros [i j] H. rewrite Forall_forall in F.
  specialize (F _ H). cbn [fst snd] in F. apply in_prod; apply in_seq; lia.
Qed.

Lemma hand_suited_ranks s r c h : hand_of_deck s r c h -> (r <= 13)%nat -> NoDup (map fst h) ->
  (c <= r)%nat.
Proof.
  intros (L & N & F) Hr D. rewrite <- L, <- (map_length fst).
  replace r with (List.length (seq (13 - r) r)) by apply seq_length. apply NoDup_incl_length; [exact D|].
  intros i Hi. apply in_map_iff in Hi. destruct Hi as [p [<- Hp]]. rewrite Forall_forall in F.
  specialize (F _ Hp). apply in_seq. lia.
Qed.

Section Main.
  Variables (s r c : Z) (low : bool) (order : option (list string)) (t : lookup_table).
  Hypothesis Hs : 1 <= s <= 4.
  Hypothesis Hr : 1 <= r <= 13.
  Hypothesis Hc : 1 <= c <= 5.
  Hypothesis Hord : order_perm order.
  Hypothesis Ht : LookupTable s r c low order = Ok t.
  (** the table distinguishes suited hands as the rules demand *)
  Definition loose : Prop := tight r c = false \/ (In FL (r_ranked (t_ranking t)) <-> 2 <= s).
  Definition okh (h : hand) : Prop := zhand s r c h /\ (loose \/ same_suit h = false).

  (** facts shared by all hands of one table *)
  Record facts (hs : list hclass) : Prop := {
    f_perm : Permutation all_classes hs;
    f_order : match order with Some o => o = map class_string hs | None => True end;
    f_ranking : t_ranking t = compute_ranking (hand_counts s r c low) hs;
    f_pos : forall k, 0 <= ucount s r c low k;
    f_len : forall k, Z.of_nat (List.length (used_keys s r c low k)) = ucount s r c low k;
    f_lookup : forall h, okh h ->
      let k := zclass s r c low h in
      0 < ucount s r c low k /\
      exists v, table_lookup t (cards_of h) = Ok v /\
                base s r c low hs k <= v < base s r c low hs k + ucount s r c low k;
    (* within a class, ranks follow the tie-break *)
    f_ties : forall k, exists T : list (list nat),
      (forall h, okh h -> zclass s r c low h = k -> desc_lex T = true) /\
      forall h, okh h -> zclass s r c low h = k ->
        exists i, nth_error T i = Some (ztie r c low h) /\
                  table_lookup t (cards_of h) = Ok (base s r c low hs k + Z.of_nat i)
  }.

  Lemma main_facts h0 : zhand s r c h0 -> exists hs, facts hs.
  Proof.
    intros Hh0.
    pose proof (hand_fits _ _ _ _ Hh0 ltac:(lia)) as Hfit.
    assert (Hn : no_hands s r c = false) by (unfold no_hands; nia).
    destruct (LookupTable_built _ _ _ _ _ _ Ht) as
        (Hval & hs & s1 & s2 & u1 & u2 & l1 & l2 & l3 & l4 & l5 & Hhs & B).
    pose proof (ranked_classes_perm _ _ _ Hord Hval Hhs) as P.
    destruct (hopeless r c low) eqn:Eh.
    { pose proof (cfg_ok_all s r c low Hs Hr Hc) as Hcfg. unfold cfg_ok in Hcfg. rewrite Hn, Eh in Hcfg.
      rewrite (built_buildable _ _ _ _ _ _ _ _ _ _ _ _ _ _ _ P B) in Hcfg. discriminate. }
    destruct (cfg_facts_all s r c low Hs Hr Hc Hn Eh) as [Hsh Hfl Hk Hlen Hties].
    assert (Hcum : loose -> c <= r -> (r_cum (t_ranking t) FL =? 0) = negb ((2 <=? s) && (3 <=? c))).
    { intros Hloose. unfold loose in Hloose. destruct (tight r c) eqn:Et.
      - intros _. destruct Hloose as [Hl|Hl]; [discriminate|].
        assert (Hn0 : forall k, 0 <= snd (hand_counts s r c low k))
          by (intros k; exact (U_nonneg s r c low Hsh k)).
        pose proof (cum_k s r c low _ _ _ _ _ _ _ _ _ _ _ P B FL) as Hck.
        pose proof (pre_nonneg s r c low Hsh hs FL) as Hpn.
        pose proof (U_nonneg s r c low Hsh FL) as Hun.
        rewrite (b_ranking _ _ _ _ _ _ _ _ _ _ _ _ _ _ _ B) in Hl, Hck |- *.
        rewrite (ranked_iff_cum _ Hn0 hs) in Hl.
        + unfold tight in Et. destruct (2 <=? s) eqn:E2; destruct (3 <=? c) eqn:E3; cbn [andb negb]; try lia.
        + eapply Permutation_NoDup; [exact P|apply all_classes_nodup].
        + eapply Permutation_in; [exact P|apply all_classes_in].
      - intros Hcr. specialize (Hfl eq_refl). now apply (cum_FL s r c low Hsh _ _ _ _ _ _ _ _ _ _ _ P B). }
    assert (Hlook : forall h k p i, okh h -> zclass s r c low h = k -> p = prime_prod (map fst h) ->
       nth_error (used_keys s r c low k) i = Some p ->
       table_lookup t (cards_of h) = Ok (base s r c low hs k + Z.of_nat i)).
    { intros h k p i [Hh Hlo] Ek Ep Hi.
      assert (Hsuit : same_suit h = true -> NoDup (map fst h)).
      { intros E. exact (same_suit_nodup (Z.to_nat s) (Z.to_nat r) (Z.to_nat c) ltac:(lia) ltac:(lia) h Hh E). }
      assert (Hrange : in_range h) by exact (hand_in_range (Z.to_nat s) (Z.to_nat r) (Z.to_nat c) ltac:(lia) ltac:(lia) h Hh).
      assert (Hne : h <> []).
      { destruct Hh as (L & _). destruct h; [cbn in L; lia|discriminate]. }
      assert (Hkk : In k (if is_flush (Z.to_nat s) (Z.to_nat c) (same_suit h)
                          then suited_classes else unsuited_classes)).
      { rewrite <- Ek. unfold zclass, class_of.
        destruct (is_flush (Z.to_nat s) (Z.to_nat c) (same_suit h)) eqn:Ef.
        - unfold is_flush in Ef. apply andb_true_iff in Ef. destruct Ef as [Ef Es].
          rewrite Es. apply classify_suited; [now apply Hsuit|].
          unfold is_flush. now rewrite Ef.
        - now apply classify_unsuited. }
      rewrite lookup_ranks by assumption. rewrite <- Ep.
      assert (Hdict : (if same_suit h then t_suited t else t_unsuited t)
                      = chain s r c low hs (if is_flush (Z.to_nat s) (Z.to_nat c) (same_suit h)
                                then suited_classes else unsuited_classes)).
      { unfold is_flush. destruct (same_suit h) eqn:Es.
        - rewrite andb_true_r.
          rewrite (suited_chain s r c low Hsh _ _ _ _ _ _ _ _ _ _ _ P B).
          rewrite Hcum; [|destruct Hlo as [Hlo|Hlo]; [exact Hlo|discriminate]|].
          2:{ pose proof (hand_suited_ranks _ _ _ _ Hh ltac:(lia) (Hsuit eq_refl)). lia. }
          replace ((2 <=? Z.to_nat s)%nat && (3 <=? Z.to_nat c)%nat) with ((2 <=? s) && (3 <=? c)) by lia.
          now destruct ((2 <=? s) && (3 <=? c)).
        - rewrite andb_false_r. apply (unsuited_chain s r c low Hsh _ _ _ _ _ _ _ _ _ _ _ P B). }
      rewrite Hdict. unfold chain.
      set (ks := if is_flush (Z.to_nat s) (Z.to_nat c) (same_suit h)
                 then suited_classes else unsuited_classes) in *.
      destruct (Hk ks) as [F N].
      { unfold ks. destruct (is_flush _ _ _); auto. }
      now rewrite (chain_find s r c low hs ks dict_empty F N k p i Hkk Hi). }
    exists hs. split.
    - exact P.
    - destruct order as [o|]; [|exact I]. cbn in Hhs. now apply map_order_index.
    - apply (b_ranking _ _ _ _ _ _ _ _ _ _ _ _ _ _ _ B).
    - intros k. now apply U_nonneg.
    - exact Hlen.
    - intros h Hh k. destruct (Hties k) as (T & HT & _). destruct (HT h (proj1 Hh) eq_refl) as (i & Hi & _).
      pose proof (Hlook h k _ i Hh eq_refl eq_refl Hi) as Hl.
      assert (L : (i < List.length (used_keys s r c low k))%nat) by (apply nth_error_Some; congruence).
      pose proof (Hlen k). split; [lia|]. exists (base s r c low hs k + Z.of_nat i). split; [exact Hl|lia].
    - intros k. destruct (Hties k) as (T & HT & HD). exists T. split; [intros h Hh; exact (HD h (proj1 Hh))|].
      intros h Hh Ek. destruct (HT h (proj1 Hh) Ek) as (i & Hi & Hi'). exists i. split; [exact Hi'|].
      exact (Hlook h k _ i Hh Ek eq_refl Hi).
  Qed.

  Section Facts.
    Variable hs : list hclass.
    Hypothesis F : facts hs.

    Lemma fhs_nodup : NoDup hs.
    Proof. eapply Permutation_NoDup; [apply (f_perm hs F)|apply all_classes_nodup]. Qed.
    Lemma fhs_in k : In k hs.
    Proof. eapply Permutation_in; [apply (f_perm hs F)|apply all_classes_in]. Qed.

    Lemma fpre_nonneg k : 0 <= pre s r c low hs k.
    Proof. apply sumU_nonneg. apply (f_pos hs F). Qed.

    Lemma fcum k : r_cum (t_ranking t) k = pre s r c low hs k + ucount s r c low k.
    Proof.
      rewrite (f_ranking hs F). pose proof (class_pos_split k hs (fhs_in k)) as E.
      pose proof fhs_nodup as N. rewrite E in N. rewrite E at 1. now rewrite (cum_at _ _ _ _ N).
    Qed.

    Lemma pre_before k1 k2 : (class_pos k1 hs < class_pos k2 hs)%nat ->
      pre s r c low hs k1 + ucount s r c low k1 <= pre s r c low hs k2.
    Proof.
      intros H. unfold pre.
      assert (E : firstn (class_pos k2 hs) hs
                  = firstn (class_pos k1 hs) hs ++ k1 ::
                    skipn (S (class_pos k1 hs)) (firstn (class_pos k2 hs) hs)).
      { rewrite (class_pos_split k1 hs (fhs_in k1)) at 2.
        set (n1 := class_pos k1 hs) in *. set (n2 := class_pos k2 hs) in *.
        assert (L : (n1 < List.length hs)%nat).
        { unfold n1. rewrite (class_pos_split k1 hs (fhs_in k1)) at 2.
          rewrite app_length, firstn_length. cbn [List.length]. fold n1.
          pose proof (f_equal (@List.length _) (class_pos_split k1 hs (fhs_in k1))) as E.
          rewrite app_length, firstn_length in E. cbn [List.length] in E. fold n1 in E.
          rewrite skipn_length in E |- *. lia. }
        rewrite firstn_app, firstn_firstn, firstn_length.
        replace (Nat.min n2 n1) with n1 by lia. f_equal.
        replace (n2 - Nat.min n1 (List.length hs))%nat with (S (n2 - S n1))%nat by lia.
        cbn [firstn]. f_equal. rewrite skipn_firstn_comm. reflexivity. }
      rewrite E, sumU_app, sumU_cons.
      pose proof (sumU_nonneg _ (f_pos hs F) (skipn (S (class_pos k1 hs)) (firstn (class_pos k2 hs) hs))).
      unfold ucount. lia.
    Qed.

    Lemma ftotal : t_max_rank t = sumU (hand_counts s r c low) hs.
    Proof.
      unfold t_max_rank. rewrite (f_ranking hs F).
      change (compute_ranking (hand_counts s r c low) hs)
        with (rfold (hand_counts s r c low) hs init_ranking).
      rewrite rfold_total. reflexivity.
    Qed.
    Lemma pre_total k : pre s r c low hs k + ucount s r c low k <= t_max_rank t.
    Proof.
      rewrite ftotal. rewrite (class_pos_split k hs (fhs_in k)) at 2.
      rewrite sumU_app, sumU_cons. unfold pre, ucount.
      pose proof (sumU_nonneg _ (f_pos hs F) (skipn (S (class_pos k hs)) hs)). lia.
    Qed.

    (** the rank of a hand lies in the interval of its class *)
    Lemma fvalue h v : okh h -> table_lookup t (cards_of h) = Ok v ->
      let k := zclass s r c low h in
      base s r c low hs k <= v < base s r c low hs k + ucount s r c low k /\
      0 < ucount s r c low k.
    Proof.
      intros Hh Hv k. destruct (f_lookup hs F h Hh) as (Hu & w & Hw & Hi). fold k in Hu, Hi.
      assert (E : w = v) by congruence. rewrite E in Hi. split; [exact Hi|exact Hu].
    Qed.

    Lemma value_bounds h v : okh h -> table_lookup t (cards_of h) = Ok v ->
      let k := zclass s r c low h in
      0 <= v <= r_cum (t_ranking t) k /\ r_cum (t_ranking t) k <= t_max_rank t /\
      (pre s r c low hs k <> 0 -> pre s r c low hs k < v).
    Proof.
      intros Hh Hv k. destruct (fvalue h v Hh Hv) as [H1 H2]. fold k in H1, H2.
      rewrite fcum. pose proof (pre_total k). pose proof (fpre_nonneg k).
      unfold base in H1. destruct (pre s r c low hs k =? 0) eqn:E; lia.
    Qed.

    Lemma class_pos_inj k1 k2 : class_pos k1 hs = class_pos k2 hs -> k1 = k2.
    Proof.
      intros H. pose proof (class_pos_split k1 hs (fhs_in k1)) as E1.
      pose proof (class_pos_split k2 hs (fhs_in k2)) as E2. rewrite <- H in E2.
      rewrite E2 in E1 at 1. apply app_inv_head in E1. congruence.
    Qed.

    (** comparison of two hands *)
    Lemma compare_hands a b va vb : okh a -> okh b ->
      table_lookup t (cards_of a) = Ok va -> table_lookup t (cards_of b) = Ok vb ->
      (va < vb <-> beats hs (Z.to_nat s) (Z.to_nat r) (Z.to_nat c) low a b = true) /\
      (va = vb <-> zclass s r c low a = zclass s r c low b /\ ztie r c low a = ztie r c low b).
    Proof.
      intros Ha Hb Va Vb.
      destruct (fvalue a va Ha Va) as [Ia Ua]. destruct (fvalue b vb Hb Vb) as [Ib Ub].
      set (ka := zclass s r c low a) in *. set (kb := zclass s r c low b) in *.
      unfold beats. fold (zclass s r c low a) (zclass s r c low b) (ztie r c low a) (ztie r c low b).
      fold ka kb.
      pose proof (fpre_nonneg ka) as Pa. pose proof (fpre_nonneg kb) as Pb.
      destruct (lt_eq_lt_dec (class_pos ka hs) (class_pos kb hs)) as [[H|H]|H].
      - pose proof (pre_before ka kb H) as X. unfold base in *.
        assert (Hne : ka <> kb) by (intros E; rewrite E in H; lia).
        assert (va < vb).
        { destruct (pre s r c low hs ka =? 0) eqn:E1; destruct (pre s r c low hs kb =? 0) eqn:E2; lia. }
        split; split; intros; [apply orb_true_iff; left; lia|lia|lia|].
        exfalso. apply Hne. tauto.
      - apply class_pos_inj in H. rewrite H in Ia, Ua, Pa. rewrite H, Nat.ltb_irrefl, hclass_eqb_refl.
        cbn [orb andb].
        destruct (f_ties hs F kb) as (T & HD & HT).
        destruct (HT a Ha H) as (i & Ta & Li). destruct (HT b Hb eq_refl) as (j & Tb & Lj).
        pose proof (HD b Hb eq_refl) as D.
        assert (va = base s r c low hs kb + Z.of_nat i) by congruence.
        assert (vb = base s r c low hs kb + Z.of_nat j) by congruence.
        destruct (lt_eq_lt_dec i j) as [[Hij|Hij]|Hij].
        + pose proof (desc_lex_nth _ D i j _ _ Hij Ta Tb) as G.
          split; split; intros Hx; [exact G|lia|lia|].
          destruct Hx as [_ Hx]. rewrite Hx, lex_gt_irrefl in G. discriminate.
        + subst j. assert (E : ztie r c low a = ztie r c low b) by congruence.
          rewrite E, lex_gt_irrefl. split; split; intros Hx; try lia; try discriminate. auto.
        + pose proof (desc_lex_nth _ D j i _ _ Hij Tb Ta) as G.
          rewrite (lex_gt_asym _ _ G).
          split; split; intros Hx; try lia; try discriminate.
          destruct Hx as [_ Hx]. rewrite Hx, lex_gt_irrefl in G. discriminate.
      - pose proof (pre_before kb ka H) as X. unfold base in *.
        assert (Hne : ka <> kb) by (intros E; rewrite E in H; lia).
        assert (vb < va).
        { destruct (pre s r c low hs ka =? 0) eqn:E1; destruct (pre s r c low hs kb =? 0) eqn:E2; lia. }
        apply hclass_eqb_neq in Hne. rewrite Hne. cbn [andb]. apply hclass_eqb_neq in Hne.
        split; split; intros Hx; try lia. exfalso. apply Hne. tauto.
    Qed.

    (** the ranked hands of the table: [hs] without the leading impossible classes *)
    Lemma franked : exists z, hs = z ++ r_ranked (t_ranking t) /\
      forall k, In k z -> ucount s r c low k = 0.
    Proof.
      rewrite (f_ranking hs F).
      destruct (ranked_suffix _ (f_pos hs F) hs) as (z & E & Z0). exists z. split; [exact E|].
      intros k Hk. apply in_split in Hk. destruct Hk as (z1 & z2 & ->).
      rewrite sumU_app, sumU_cons in Z0.
      pose proof (sumU_nonneg _ (f_pos hs F) z1). pose proof (sumU_nonneg _ (f_pos hs F) z2).
      pose proof (f_pos hs F k). unfold ucount in *. lia.
    Qed.

    Lemma class_pos_app k z l : ~ In k z -> class_pos k (z ++ l) = (List.length z + class_pos k l)%nat.
    Proof.
      induction z as [|x z IH]; intros H; [reflexivity|]. cbn [app class_pos List.length].
      destruct (hclass_eqb x k) eqn:E.
      - apply hclass_eqb_eq in E. exfalso. apply H. now left.
      - rewrite IH; [lia|]. intros Hk. apply H. now right.
    Qed.

    Lemma beats_ranked a b va vb : okh a -> okh b ->
      table_lookup t (cards_of a) = Ok va -> table_lookup t (cards_of b) = Ok vb ->
      beats (r_ranked (t_ranking t)) (Z.to_nat s) (Z.to_nat r) (Z.to_nat c) low a b
      = beats hs (Z.to_nat s) (Z.to_nat r) (Z.to_nat c) low a b.
    Proof.
      intros Ha Hb Va Vb. destruct franked as (z & E & Hz).
      destruct (fvalue a va Ha Va) as [_ Ua]. destruct (fvalue b vb Hb Vb) as [_ Ub].
      unfold beats. fold (zclass s r c low a) (zclass s r c low b).
      rewrite E. rewrite !class_pos_app.
      - f_equal. lia.
      - intros H. apply Hz in H. lia.
      - intros H. apply Hz in H. lia.
    Qed.

    (** ** Rank classes *)
    Lemma find_first (q : hclass -> bool) l x : In x l -> q x = true ->
      (forall y, (class_pos y l < class_pos x l)%nat -> In y l -> q y = false) ->
      find q l = Some x.
    Proof.
      induction l as [|y l IH]; intros Hx Hq Hb; [destruct Hx|]. cbn [find].
      destruct (hclass_eqb y x) eqn:E.
      - apply hclass_eqb_eq in E. subst. now rewrite Hq.
      - cbn [class_pos] in Hb. rewrite E in Hb.
        rewrite (Hb y); [|rewrite hclass_eqb_refl; lia|now left].
        apply IH; [|exact Hq|].
        + destruct Hx as [->|Hx]; [|exact Hx]. rewrite hclass_eqb_refl in E. discriminate.
        + intros w Hw Hin. destruct (hclass_eqb y w) eqn:E2.
          * apply hclass_eqb_eq in E2. subst w. apply Hb; [rewrite hclass_eqb_refl; lia|now left].
          * apply Hb; [rewrite E2; lia|now right].
    Qed.

    Lemma class_of_value h v : okh h -> table_lookup t (cards_of h) = Ok v ->
      find (fun k => v <=? r_cum (t_ranking t) k) (r_ranked (t_ranking t))
      = Some (zclass s r c low h).
    Proof.
      intros Hh Hv. destruct franked as (z & E & Hz).
      destruct (fvalue h v Hh Hv) as [I U]. destruct (value_bounds h v Hh Hv) as (B1 & _ & B3).
      set (k := zclass s r c low h) in *.
      assert (Nk : ~ In k z) by (intros H; apply Hz in H; lia).
      apply find_first.
      - pose proof (fhs_in k) as H. rewrite E in H. apply in_app_or in H. tauto.
      - lia.
      - intros y Hy Hin.
        assert (Ny : ~ In y z).
        { intros H. pose proof fhs_nodup as N. rewrite E in N. apply in_split in H.
          destruct H as (z1 & z2 & Ez). rewrite Ez in N. rewrite <- app_assoc in N. cbn [app] in N.
          apply NoDup_remove_2 in N. apply N. apply in_or_app. right. apply in_or_app. now right. }
        assert (Hp : (class_pos y hs < class_pos k hs)%nat).
        { rewrite E, !class_pos_app by assumption. lia. }
        pose proof (pre_before y k Hp) as X. rewrite fcum.
        assert (Py : 0 < pre s r c low hs y + ucount s r c low y).
        { destruct (Z_lt_dec 0 (pre s r c low hs y + ucount s r c low y)) as [?|Hn]; [assumption|exfalso].
          (* y is ranked, so its cumulative count is positive *)
          assert (C : 0 < r_cum (t_ranking t) y).
          { rewrite (f_ranking hs F).
            apply (ranked_cum_pos _ (f_pos hs F) hs fhs_nodup). rewrite <- (f_ranking hs F). exact Hin. }
          rewrite fcum in C. lia. }
        lia.
    Qed.
  End Facts.
End Main.
