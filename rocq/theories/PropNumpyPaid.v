(** * PropNumpyPaid: what a showdown of the dealer on arrays pays, in every case (C66) *)
From Coq Require Import ZifyBool ZifyNat Arith Permutation Sorted.
From Verif Require Import PyBase PyFacts CardModel EvalModel EngineModel EngineSpec EngineFacts BetFacts EngineDemo MoneyFacts ShowSpec ShowFacts SideFacts SideExists HandEnd PropRound PropSide PaidSpec PaidFacts PropWin NumpyModel NumpySpec NumpyFacts PropNumpy PropNumpyEnds NumpyPaidSpec.

Section ArrayPots.
  Variables (d : showdown) (worst : Z) (all : list hand3).
  Hypothesis ND : NoDup (map h_idx all).
  Hypothesis Idx : Permutation (map h_idx all) (seq 0 (sd_players d)).
  Hypothesis Srt : StronglySorted hle all.
  Hypothesis Put : forall h, In h all -> h_commit h = sd_put d (h_idx h).
  Hypothesis In_hand : forall h, In h all -> sd_in d (h_idx h) = true -> h_strength h = sd_rank d (h_idx h) /\ h_strength h < worst.
  Hypothesis Out : forall h, In h all -> sd_in d (h_idx h) = false -> h_strength h = worst.

  Lemma np_dealt_array : forall rest pre L mk, all = pre ++ rest ->
    (forall o, In o pre -> h_commit o <= L) ->
    (forall o, In o rest -> mk (h_idx o) = false) -> (forall o, In o pre -> mk (h_idx o) = true) ->
    array_pots d L (np_dealt worst all rest L mk).
  Proof.
    induction rest as [|h rest IH]; intros pre L mk Ea HL Hm Hmk; cbn [np_dealt].
    - apply array_none. intros i Hi. destruct (hand_of d all Idx i Hi) as (o & Ho & <-).
      rewrite <- (Put o Ho). rewrite app_nil_r in Ea. rewrite Ea in Ho. now apply HL.
    - assert (Hh : In h all) by (rewrite Ea; apply in_or_app; right; now left).
      assert (Es : all = (pre ++ [h]) ++ rest) by (rewrite Ea, <- app_assoc; reflexivity).
      assert (Hm' : forall o, In o rest -> mk (h_idx o) = false) by (intros o Ho; apply Hm; now right).
      pose proof Srt as Sr. rewrite Ea in Sr. apply sorted_split in Sr. destruct Sr as [S1 S2].
      assert (Hm2 : forall o, In o rest -> Nat.eqb (h_idx o) (h_idx h) || mk (h_idx o) = false).
      { intros o Ho. rewrite (Hm' o Ho), orb_false_r. apply Nat.eqb_neq. intros X.
        rewrite Ea, map_app in ND. cbn [map] in ND. apply NoDup_remove_2 in ND. apply ND. rewrite <- X. apply in_or_app. right. now apply in_map. }
      assert (Hmk2 : forall o, In o (pre ++ [h]) -> Nat.eqb (h_idx o) (h_idx h) || mk (h_idx o) = true).
      { intros o Ho. apply in_app_or in Ho. destruct Ho as [Ho|[<-|[]]]; [now rewrite (Hmk o Ho), orb_true_r|now rewrite Nat.eqb_refl]. }
      assert (HL2 : forall x, L <= x -> h_commit h <= x -> forall o, In o (pre ++ [h]) -> h_commit o <= x).
      { intros x H1 H2 o Ho. apply in_app_or in Ho. destruct Ho as [Ho|[<-|[]]]; [specialize (HL o Ho); lia|lia]. }
      assert (Cases : forall o, In o all -> In o pre \/ o = h \/ In o rest).
      { intros o Ho. rewrite Ea in Ho. apply in_app_or in Ho. destruct Ho as [Ho|[Ho|Ho]]; auto. }
      destruct (h_commit h <=? L) eqn:EL; [apply (IH (pre ++ [h])); try assumption; apply HL2; lia|].
      assert (Con : forall o, In o all -> contends d L (h_idx o) -> o = h \/ In o rest).
      { intros o Ho (_ & _ & C). destruct (Cases o Ho) as [Co|Co]; [|exact Co]. rewrite <- (Put o Ho) in C. specialize (HL o Co). lia. }
      assert (Nx : array_pots d (h_commit h) (np_dealt worst all rest (h_commit h) (fun i => Nat.eqb i (h_idx h) || mk i))).
      { apply (IH (pre ++ [h])); try assumption. apply HL2; lia. }
      rewrite (chips_same d all Idx Put).
      destruct (sd_in d (h_idx h)) eqn:Ih.
      + (* a player in the hand *)
        destruct (In_hand h Hh Ih) as [Rh Wh].
        assert (Best : forall o, In o all -> contends d L (h_idx o) -> h_strength h <= h_strength o).
        { intros o Ho C. destruct (Con o Ho C) as [->|Co]; [lia|]. pose proof (S2 o Co) as Hle. apply hle_spec in Hle. lia. }
        assert (Win : forall o, In o all -> cur_strength worst mk o = h_strength h -> sd_in d (h_idx o) = true /\ h_strength o = h_strength h /\ h_commit h <= h_commit o).
        { intros o Ho E. unfold cur_strength in E. destruct (mk (h_idx o)) eqn:Mo; [lia|].
          assert (Io : sd_in d (h_idx o) = true).
          { destruct (sd_in d (h_idx o)) eqn:Io; [reflexivity|]. rewrite (Out o Ho Io) in E. lia. }
          split; [exact Io|]. split; [exact E|]. destruct (Cases o Ho) as [Co|[->|Co]]; [|lia|].
          - rewrite (Hmk o Co) in Mo. discriminate.
          - pose proof (S2 o Co) as Hle. apply hle_spec in Hle. lia. }
        apply array_next; [| | |exact Nx].
        * split; [now apply NoDup_map_filter|]. intros i. unfold eligible_for. rewrite in_map_iff. split.
          -- intros (o & <- & Ho). apply filter_In in Ho. destruct Ho as [Ho E]. apply Z.eqb_eq in E.
             destruct (Win o Ho E) as (Io & Eo & Lo). split.
             ++ split; [now apply (np_idx_lt d all Idx)|]. split; [exact Io|]. rewrite <- (Put o Ho). lia.
             ++ intros j C. destruct C as (Hj & Ij & Lj). destruct (hand_of d all Idx j Hj) as (k & Hk & <-).
                destruct (In_hand o Ho Io) as [Ro _]. destruct (In_hand k Hk Ij) as [Rk _].
                pose proof (Best k Hk (conj Hj (conj Ij Lj))). lia.
          -- intros [(Hi & Ii & Li) Bi]. destruct (hand_of d all Idx i Hi) as (o & Ho & <-). exists o. split; [reflexivity|].
             apply filter_In. split; [exact Ho|]. apply Z.eqb_eq. unfold cur_strength.
             assert (Co : o = h \/ In o rest) by (apply Con; [exact Ho|now split]).
             replace (mk (h_idx o)) with false by (symmetry; apply Hm; destruct Co as [->|Co]; [now left|now right]).
             pose proof (Best o Ho (conj Hi (conj Ii Li))).
             assert (X : sd_rank d (h_idx o) <= sd_rank d (h_idx h)).
             { apply Bi. split; [now apply (np_idx_lt d all Idx)|]. split; [exact Ih|]. rewrite <- (Put h Hh). lia. }
             destruct (In_hand o Ho Ii) as [Ro _]. lia.
        * exists (h_idx h). split; [|now rewrite (Put h Hh)]. apply in_map. apply filter_In. split; [exact Hh|].
          unfold cur_strength. rewrite (Hm h (or_introl eq_refl)). lia.
        * intros i Hi. apply in_map_iff in Hi. destruct Hi as (o & <- & Ho). apply filter_In in Ho. destruct Ho as [Ho E]. apply Z.eqb_eq in E.
          rewrite <- (Put o Ho). now apply Win.
      + (* a player who has folded: only folded players are left *)
        pose proof (Out h Hh Ih) as Wh.
        assert (Rest : forall o, In o rest -> sd_in d (h_idx o) = false /\ h_strength o = worst /\ h_commit h <= h_commit o).
        { intros o Ho. assert (Ho' : In o all) by (rewrite Ea; apply in_or_app; right; now right).
          pose proof (S2 o Ho) as Hle. apply hle_spec in Hle. rewrite Wh in Hle.
          destruct (sd_in d (h_idx o)) eqn:Io; [destruct (In_hand o Ho' Io); lia|]. pose proof (Out o Ho' Io). split; [reflexivity|]. split; [assumption|]. lia. }
        apply array_folded; [| | | | |exact Nx].
        * intros i C. pose proof C as (Hi & Ii & Li). destruct (hand_of d all Idx i Hi) as (o & Ho & Eo). rewrite <- Eo in C, Ii.
          destruct (Con o Ho C) as [->|Co]; [congruence|]. destruct (Rest o Co) as [X _]. congruence.
        * now apply NoDup_map_filter.
        * intros i. unfold eligible_for. rewrite in_map_iff. split.
          -- intros (o & <- & Ho). apply filter_In in Ho. destruct Ho as [Ho _]. now apply (np_idx_lt d all Idx).
          -- intros Hi. destruct (hand_of d all Idx i Hi) as (o & Ho & <-). exists o. split; [reflexivity|]. apply filter_In. split; [exact Ho|].
             apply Z.eqb_eq. unfold cur_strength. destruct (Cases o Ho) as [Co|[->|Co]].
             ++ rewrite (Hmk o Co). now rewrite Wh.
             ++ now rewrite (Hm h (or_introl eq_refl)).
             ++ rewrite (Hm' o Co). destruct (Rest o Co) as (_ & X & _). congruence.
        * exists (h_idx h). split; [now apply (np_idx_lt d all Idx)|]. rewrite <- (Put h Hh). lia.
        * intros i Hi Li. destruct (hand_of d all Idx i Hi) as (o & Ho & <-). rewrite <- (Put o Ho) in *.
          destruct (Cases o Ho) as [Co|[->|Co]]; [specialize (HL o Co); lia|lia|]. now apply Rest.
  Qed.
End ArrayPots.

Lemma np_show_array d worst st cm n : List.length st = n -> List.length cm = n -> sd_players d = n ->
  (forall i, (i < n)%nat -> sd_put d i = nth i cm 0) ->
  (forall i, (i < n)%nat -> sd_in d i = true -> nth i st 0 = sd_rank d i /\ nth i st 0 < worst) ->
  (forall i, (i < n)%nat -> sd_in d i = false -> nth i st 0 = worst) ->
  array_pots d 0 (np_show_pots worst st cm).
Proof.
  intros Hs Hc Hn P I O'. assert (Hl : List.length cm = List.length st) by congruence.
  assert (X : forall h, In h (show_hands st cm) -> (h_idx h < n)%nat /\ h_strength h = nth (h_idx h) st 0 /\ h_commit h = nth (h_idx h) cm 0).
  { intros h Hh. apply show_in in Hh; [|exact Hl]. now rewrite Hs in Hh. }
  unfold np_show_pots. apply (np_dealt_array d worst (show_hands st cm)) with (pre := []).
  - now apply show_nodup.
  - rewrite Hn, <- Hs. now apply show_idx.
  - apply sort_sorted.
  - intros h Hh. destruct (X h Hh) as (H1 & H2 & H3). now rewrite P.
  - intros h Hh Ih. destruct (X h Hh) as (H1 & H2 & H3). rewrite H2. now apply I.
  - intros h Hh Ih. destruct (X h Hh) as (H1 & H2 & H3). rewrite H2. now apply O'.
  - reflexivity.
  - intros o [].
  - reflexivity.
  - intros o [].
Qed.

(** ** Facts about the specification *)
Lemma winners_same d a w w' : winners d a w -> winners d a w' -> Permutation w w'.
Proof. intros [N H] [N' H']. eapply same_members; [exact N|exact N'|exact H|exact H']. Qed.
Lemma array_pots_unique d a p : array_pots d a p -> forall p', array_pots d a p' ->
  odd_chips p = odd_chips p' /\ forall i, share p i = share p' i.
Proof.
  induction 1 as [a N|a w b r Hw (k & Hk & Ek) Hb Hr IH|a w b r No Nd Hw (k & Hk & Lk & Ek) Hb Hr IH]; intros p' H'.
  - destruct H' as [a' N'|a' w' b' r' Hw' (k' & Hk' & Ek') Hb' Hr'|a' w' b' r' No' Nd' Hw' (k' & Hk' & Lk' & Ek') Hb' Hr']; [auto| |].
    + exfalso. apply Hw' in Hk'. destruct Hk' as [(B1 & _ & B3) _]. specialize (N k' B1). lia.
    + exfalso. specialize (N k' Hk'). lia.
  - destruct H' as [a' N'|a' w' b' r' Hw' (k' & Hk' & Ek') Hb' Hr'|a' w' b' r' No' Nd' Hw' (k' & Hk' & Lk' & Ek') Hb' Hr'].
    + exfalso. apply Hw in Hk. destruct Hk as [(B1 & _ & B3) _]. specialize (N' k B1). lia.
    + pose proof (winners_same _ _ _ _ Hw Hw') as P.
      assert (Eb : b' = b).
      { specialize (Hb k' (Permutation_in _ (Permutation_sym P) Hk')). specialize (Hb' k (Permutation_in _ P Hk)). lia. }
      rewrite Eb in *. destruct (IH r' Hr') as [I1 I2]. now apply same_pot.
    + exfalso. apply Hw in Hk. apply (No' k). apply Hk.
  - destruct H' as [a' N'|a' w' b' r' Hw' (k' & Hk' & Ek') Hb' Hr'|a' w' b' r' No' Nd' Hw' (k' & Hk' & Lk' & Ek') Hb' Hr'].
    + exfalso. specialize (N' k Hk). lia.
    + exfalso. apply Hw' in Hk'. apply (No k'). apply Hk'.
    + assert (Eb : b' = b) by (specialize (Hb k' Hk' Lk'); specialize (Hb' k Hk Lk); lia). rewrite Eb in *. destruct (IH r' Hr') as [I1 I2].
      apply same_pot; [|exact I1|exact I2]. eapply same_members; [exact Nd|exact Nd'|exact Hw|exact Hw'].
Qed.
(** where everybody who has folded is covered this is the specification of C66_partial *)
Lemma array_covered d : covered_folds d -> forall a p, array_pots d a p -> side_pots d a p.
Proof.
  intros Cov a p. induction 1 as [a N|a w b r Hw Hk Hb Hr IH|a w b r No Nd Hw (k & Hk & Lk & Ek) Hb Hr IH].
  - apply side_pots_none. intros i (Hi & _ & Li). specialize (N i Hi). lia.
  - now apply side_pots_next.
  - exfalso. destruct (sd_in d k) eqn:Ik; [apply (No k); split; [exact Hk|]; split; [exact Ik|lia]|].
    destruct (Cov k Hk Ik) as (j & Hj & Ij & Lj). apply (No j). split; [exact Hj|]. split; [exact Ij|lia].
Qed.
(** a winner of a pot gets at least the chip of its own *)
Lemma array_first_share d a p : array_pots d a p -> Forall (good_pot (sd_players d)) p -> (exists i, contends d a i) -> exists i, (i < sd_players d)%nat /\ 0 < share p i.
Proof.
  intros H G (c0 & C0). destruct H as [a N|a w b r Hw (k & Hk & Ek) Hb Hr|a w b r No Nd Hw Hk Hb Hr].
  - exfalso. destruct C0 as (C1 & _ & C3). specialize (N c0 C1). lia.
  - exists k. assert (Ck := proj1 (proj1 (proj2 Hw k) Hk)). destruct Ck as (Ck1 & Ck2 & Ck3). split; [exact Ck1|].
    assert (Gr : Forall (good_pot (sd_players d)) r) by (inversion G; assumption).
    unfold share. cbn [map fst snd]. rewrite sumZ_cons. fold (share r k). pose proof (share_nonneg _ _ k Gr) as Sn.
    rewrite (proj2 (existsb_in w k) Hk).
    enough (1 <= chips_between d a b / Z.of_nat (List.length w)) by lia.
    apply Z.div_le_lower_bound; [destruct w; [destruct Hk|cbn; lia]|]. rewrite Z.mul_1_r. apply chips_winners; [lia|apply Hw|].
    intros i Hi. split; [|now apply Hb]. apply (proj2 Hw) in Hi. apply Hi.
  - exfalso. exact (No c0 C0).
Qed.

(** ** C66 Side pots, in every case *)
(** Every showdown of the dealer on arrays, for all hands, folds and amounts put in: the pots of [NumpyPaidSpec] are paid out in equal
    shares, and the odd chips of all pots together go to the first seat with a share after the button (seat n - 1 once the counter of
    the button has reached the number of players).  The only showdowns that raise are those with odd chips and without a share for
    anybody: nobody in the hand has put in a chip. *)
Theorem C66_exact : forall c s b, np_fair c s -> in_progress s ->
  let n := num_players c in
  let s' := fst (np_step c s b) in
  (street s < num_streets c)%nat -> (num_streets c <= street s')%nat -> 2 <= count_true (active s') ->
  (forall i, (i < n)%nat -> is_active s' i ->
     is_ok (evaluate (the_evaluator c) (nth i (hole_cards s') []) (community_cards s')) = true) ->
  (* the ranks of the showdown are those of the evaluator *)
  (forall i, (i < n)%nat -> is_active s' i ->
     evaluate (the_evaluator c) (nth i (hole_cards s') []) (community_cards s') = Ok (sd_rank (show_of c s') i)) /\
  exists pots, array_pots (show_of c s') 0 pots /\
    ((action s' = None /\ exists out, snd (np_step c s b) = Ok out /\
        (odd_chips pots = 0 \/ exists q, first_winner n (Nat.min (button s') (n - 1)) (share pots) q) /\
        forall q, (odd_chips pots <> 0 -> first_winner n (Nat.min (button s') (n - 1)) (share pots) q) ->
        forall i, (i < n)%nat ->
          nth i (out_payouts out) 0 = share pots i - committed s' i + (if Nat.eqb i q then odd_chips pots else 0)) \/
     (action s' <> None /\ snd (np_step c s b) = Err ValueError /\ 0 < odd_chips pots /\
        (forall i, (i < n)%nat -> share pots i = 0) /\ forall i, (i < n)%nat -> is_active s' i -> committed s' i = 0)).
Proof.
  intros c s b F Hp. cbv zeta. intros Hs0 Hs Hc Ev. pose proof (np_fair_money c s F) as M. pose proof (cw_two _ (mo_cfg _ _ M)) as H2.
  destruct (np_step_settled c s b M Hp) as [(_ & E & _)|(z & Z)]; [rewrite E in Hs; lia|].
  rewrite (np_show_same _ _ _ _ Z) in *. destruct (np_same _ _ _ _ Z) as (E1 & E2 & E3 & E4 & E5 & E6). unfold is_active in *. rewrite E1, E5, E6 in *. rewrite E3 in Hs.
  rewrite E4, <- (ns_button _ _ _ _ Z).
  assert (Ec : forall i, committed (fst (np_step c s b)) i = committed z i) by (intros i; unfold committed; now rewrite E2).
  pose proof (ns_commits _ _ _ _ Z) as Lc.
  destruct (np_show_payouts c z ltac:(lia) Hs (ns_commits _ _ _ _ Z) (ns_hole _ _ _ _ Z) (ns_nonneg _ _ _ _ Z) (ns_pot _ _ _ _ Z)) as [(e & X & _)|(st & X & G & T & P)].
  { exfalso. revert X. unfold eval_hands. destruct (map_res_all (fun p => if nth p (active z) false then let* h := get (hole_cards z) p in evaluate (the_evaluator c) h (community_cards z) else Ok (worst_hand c)) (seq 0 (num_players c))) as (r & ->); [|discriminate].
    intros x Hx. apply in_seq in Hx. destruct (nth x (active z) false) eqn:Ax; [|reflexivity]. unfold get.
    rewrite (nth_error_nth' _ []) by (rewrite (ns_hole _ _ _ _ Z); lia). cbn [bind]. apply Ev; [lia|exact Ax]. }
  cbv zeta in *. destruct (eval_hands_spec c z st (ns_hole _ _ _ _ Z) X) as [Ls Hst].
  assert (SP : array_pots (show_of c z) 0 (np_pots_of c z st)).
  { apply np_show_array with (n := num_players c); try assumption; try reflexivity.
    + intros i Hi Ai. destruct (Hst i Hi) as [H _]. destruct (H Ai) as (H1 & H3 & _). auto.
    + intros i Hi Ai. destruct (Hst i Hi) as [_ H]. now apply H. }
  split; [intros i Hi Ai; destruct (Hst i Hi) as [H _]; destruct (H Ai) as (H1 & H3 & H4); congruence|].
  set (pots := np_pots_of c z st) in *. exists pots. split; [exact SP|].
  assert (Good : forall pay, np_payouts c z = Ok pay -> action (fst (np_step c s b)) = None /\ exists o, snd (np_step c s b) = Ok (mkOut o pay (repeat true (num_players c)))).
  { intros pay Hpay. destruct (np_settled_ends c s b z pay Z H2 (or_introl Hs) Hpay) as (o & E). split; [rewrite (ne_state _ _ _ _ _ _ E); reflexivity|]. exists o. apply E. }
  assert (N : forall j, 0 <= share pots j) by (intros j; exact (share_nonneg _ _ j G)).
  destruct P as [(P1 & P)|[(P1 & P2 & P)|(P1 & q & Q1 & Q2 & Q3 & P)]].
  - left. destruct (Good _ P) as (G1 & o & G2). split; [exact G1|]. eexists. split; [exact G2|]. cbn [out_payouts].
    split; [now left|]. intros q _ i Hi. rewrite Ec, sub_lists_nth by (now rewrite base_length). rewrite base_nth by exact Hi. unfold committed. rewrite P1. destruct (Nat.eqb i q); lia.
  - right. assert (Es : np_step c s b = (z, Err ValueError)) by (rewrite (ns_step _ _ _ _ Z); unfold np_step_end; now rewrite P).
    rewrite Es. cbn [fst snd]. split; [exact (ns_turn _ _ _ _ Z)|]. split; [reflexivity|]. split; [exact P1|]. split; [exact P2|].
    intros i Hi Ai. pose proof (ns_nonneg _ _ _ _ Z i) as Ni. destruct (Z.eq_dec (committed z i) 0) as [E0|E0]; [exact E0|exfalso].
    destruct (array_first_share _ _ _ SP G) as (j & Hj & Sj); [|cbn [show_of sd_players] in Hj; rewrite (P2 j Hj) in Sj; lia].
    exists i. split; [exact Hi|]. split; [exact Ai|]. cbn [show_of sd_put]. lia.
  - left. destruct (Good _ P) as (G1 & o & G2). split; [exact G1|]. eexists. split; [exact G2|]. cbn [out_payouts].
    assert (Fq : first_winner (num_players c) (Nat.min (button z) (num_players c - 1)) (share pots) q) by (apply shifted_first; try assumption; lia).
    split; [right; now exists q|]. intros q' Hq' i Hi. rewrite <- (first_winner_unique _ _ _ _ _ Fq (Hq' ltac:(lia))).
    rewrite Ec, sub_lists_nth by (now rewrite add_at_length, base_length). rewrite add_at_nth by (rewrite base_length; lia).
    unfold committed. destruct (Nat.eqb_spec i q) as [Ei|Ei]; rewrite ?base_nth by lia; lia.
Qed.
Print Assumptions C66_exact.
(** [NumpyPaidSpec] leaves nothing open, and is the specification of C66_partial where everybody who has folded is covered *)
Theorem C66_determined : forall d p, array_pots d 0 p ->
  (forall p', array_pots d 0 p' -> odd_chips p = odd_chips p' /\ forall i, share p i = share p' i) /\
  (covered_folds d -> side_pots d 0 p).
Proof. intros d p H. split; [intros p' H'; exact (array_pots_unique d 0 p H p' H')|intros Cov; now apply array_covered]. Qed.
Print Assumptions C66_determined.
(** the pots, by computation *)
Fixpoint array_fun (fuel : nat) (d : showdown) (a : Z) : list (list nat * Z) :=
  match fuel with
  | O => []
  | S f =>
    match winners_fun d a with
    | [] => match above d a with
            | [] => []
            | l => let b := least (map (sd_put d) l) in (seq 0 (sd_players d), chips_between d a b) :: array_fun f d b
            end
    | w => let b := least (map (sd_put d) w) in (w, chips_between d a b) :: array_fun f d b
    end
  end.
Lemma array_fun_ok d : forall fuel a, (List.length (above d a) < fuel)%nat -> array_pots d a (array_fun fuel d a).
Proof.
  induction fuel as [|f IH]; intros a H; [lia|]. cbn [array_fun]. destruct (winners_fun d a) as [|k w] eqn:W.
  - pose proof (winners_fun_none d a W) as No. destruct (above d a) as [|x l] eqn:A.
    + apply array_none. intros i Hi. destruct (Z_le_dec (sd_put d i) a) as [L|L]; [exact L|exfalso]. assert (X : In i (above d a)) by (apply above_in; lia). rewrite A in X. destruct X.
    + cbv zeta. set (b := least (map (sd_put d) (x :: l))).
      assert (B : In b (map (sd_put d) (x :: l))) by (apply least_in; discriminate). apply in_map_iff in B. destruct B as (k & Ek & Hk). rewrite <- A in Hk. apply above_in in Hk.
      assert (Hb : forall i, (i < sd_players d)%nat -> a < sd_put d i -> b <= sd_put d i).
      { intros i Hi Li. apply least_le. apply (in_map (sd_put d) (x :: l) i). rewrite <- A. apply above_in. auto. }
      apply array_folded; [exact No|apply seq_NoDup|intros i; rewrite in_seq; lia|exists k; lia|exact Hb|].
      apply IH. assert (List.length (above d b) < List.length (above d a))%nat by (apply above_shrink; [lia|exists k; lia]). rewrite A in *. lia.
  - cbv zeta. set (b := least (map (sd_put d) (k :: w))). pose proof (winners_fun_ok d a) as Wk. rewrite W in Wk.
    assert (B : In b (map (sd_put d) (k :: w))) by (apply least_in; discriminate). apply in_map_iff in B. destruct B as (q & Eq & Hq).
    apply array_next; [exact Wk|exists q; auto|intros i Hi; exact (least_le _ _ (in_map (sd_put d) (k :: w) i Hi))|].
    apply (proj2 Wk) in Hq. apply IH. destruct Hq as [(Q1 & Q2 & Q3) _]. assert (List.length (above d b) < List.length (above d a))%nat by (apply above_shrink; [lia|exists q; lia]). lia.
Qed.
Theorem C66_defined : forall d, exists p, array_pots d 0 p.
Proof. intros d. exists (array_fun (S (List.length (above d 0))) d 0). apply array_fun_ok. lia. Qed.
Print Assumptions C66_defined.
(** the hand of C66_refuted: seats 0 and 1 have put in 6 chips, seat 2 has folded after 11.  The best hand, seat 1, gets 18 chips, and
    the other 5 are shared by all three, the two odd ones for seat 1; and a hand that raises: everybody in it has put in nothing *)
Example C66_exact_example :
  (exists c s, np_fair c s /\ action s = Some 0%nat /\ street s = 0%nat /\ num_streets c = 1%nat /\
    let s' := fst (np_step c s (PyInt 3)) in
    street s' = 1%nat /\ active s' = [true; true; false] /\ pot_commits s' = [6; 6; 11] /\
    array_pots (show_of c s') 0 [([1]%nat, 18); ([0; 1; 2]%nat, 5)] /\
    match snd (np_step c s (PyInt 3)) with Ok out => Some (out_payouts out) | Err _ => None end = Some [-5; 15; -10]) /\
  (exists c s, np_fair c s /\ action s = Some 0%nat /\ street s = 0%nat /\ num_streets c = 1%nat /\
    let s' := fst (np_step c s (PyInt 0)) in
    street s' = 1%nat /\ count_true (active s') = 2 /\ num_players c = 3%nat /\ pot_commits s' = [0; 1; 0] /\
    array_pots (show_of c s') 0 [([0; 1; 2]%nat, 1)] /\ snd (np_step c s (PyInt 0)) = Err ValueError).
Proof.
  split.
  - assert (K : exists c s, np_fair c s /\ action s = Some 0%nat /\ street s = 0%nat /\ num_streets c = 1%nat /\
      street (fst (np_step c s (PyInt 3))) = 1%nat /\ active (fst (np_step c s (PyInt 3))) = [true; true; false] /\ pot_commits (fst (np_step c s (PyInt 3))) = [6; 6; 11] /\
      array_fun 5 (show_of c (fst (np_step c s (PyInt 3)))) 0 = [([1]%nat, 18); ([0; 1; 2]%nat, 5)] /\
      Nat.ltb (List.length (above (show_of c (fst (np_step c s (PyInt 3)))) 0)) 5 = true /\
      match snd (np_step c s (PyInt 3)) with Ok out => Some (out_payouts out) | Err _ => None end = Some [-5; 15; -10]).
    { np_play ante_game ante_ops c s E. split; [exact (np_played_fair _ _ _ _ E)|]. np_plays E. }
    destruct K as (c & s & F & K1 & K2 & K3 & K4 & K5 & K6 & K7 & K8 & K9). exists c, s. cbv zeta. rewrite <- K7. apply Nat.ltb_lt in K8.
    splits; try assumption. now apply array_fun_ok.
  - assert (K : exists c s, np_fair c s /\ action s = Some 0%nat /\ street s = 0%nat /\ num_streets c = 1%nat /\
      street (fst (np_step c s (PyInt 0))) = 1%nat /\ count_true (active (fst (np_step c s (PyInt 0)))) = 2 /\ num_players c = 3%nat /\ pot_commits (fst (np_step c s (PyInt 0))) = [0; 1; 0] /\
      array_fun 5 (show_of c (fst (np_step c s (PyInt 0)))) 0 = [([0; 1; 2]%nat, 1)] /\
      Nat.ltb (List.length (above (show_of c (fst (np_step c s (PyInt 0)))) 0)) 5 = true /\
      snd (np_step c s (PyInt 0)) = Err ValueError).
    { np_play lost_game lost_ops c s E. split; [exact (np_played_fair _ _ _ _ E)|]. np_plays E. }
    destruct K as (c & s & F & K1 & K2 & K3 & K4 & K5 & K6 & K7 & K8 & K9 & K10). exists c, s. cbv zeta. rewrite <- K8. apply Nat.ltb_lt in K9.
    splits; try assumption. now apply array_fun_ok.
Qed.
