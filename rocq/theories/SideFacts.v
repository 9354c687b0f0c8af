(** * SideFacts: the pots of the showdown loop are the side pots of the specification *)
From Coq Require Import ZifyBool ZifyNat Arith Permutation Sorted.
From Verif Require Import PyBase PyFacts CardModel EvalModel EngineModel EngineFacts ShowSpec ShowFacts.

Lemma sorted_split pre h rest : StronglySorted hle (pre ++ h :: rest) ->
  (forall o, In o pre -> hle o h) /\ (forall o, In o rest -> hle h o).
Proof.
  induction pre as [|x pre IH]; cbn [app]; intros H; inversion H as [|? ? S F]; subst.
  - split; [intros o []|]. now rewrite Forall_forall in F.
  - destruct (IH S) as [I1 I2]. split; [|exact I2]. intros o [<-|Ho]; [|now apply I1]. rewrite Forall_forall in F. apply F. apply in_or_app. right. now left.
Qed.

Section Side.
  Variables (d : showdown) (worst : Z) (all : list hand3).
  Hypothesis ND : NoDup (map h_idx all).
  Hypothesis Idx : Permutation (map h_idx all) (seq 0 (sd_players d)).
  Hypothesis Srt : StronglySorted hle all.
  Hypothesis Put : forall h, In h all -> h_commit h = sd_put d (h_idx h).
  Hypothesis In_hand : forall h, In h all -> sd_in d (h_idx h) = true -> h_strength h = sd_rank d (h_idx h) /\ h_strength h < worst.
  Hypothesis Out : forall h, In h all -> sd_in d (h_idx h) = false -> h_strength h = worst.
  Hypothesis Cov : covered_folds d.
  Hypothesis Reg : regular_ties d.

  Lemma idx_lt h : In h all -> (h_idx h < sd_players d)%nat.
  Proof. intros H. apply (in_map h_idx) in H. apply (Permutation_in _ Idx) in H. apply in_seq in H. lia. Qed.
  Lemma hand_of i : (i < sd_players d)%nat -> exists h, In h all /\ h_idx h = i.
  Proof.
    intros H. assert (X : In i (map h_idx all)) by (apply (Permutation_in _ (Permutation_sym Idx)); apply in_seq; lia).
    apply in_map_iff in X. destruct X as (h & E & Hh). eauto.
  Qed.
  Lemma same_hand h o : In h all -> In o all -> h_idx h = h_idx o -> h = o.
  Proof.
    clear - ND. induction all as [|x l IH]; intros Hh Ho E; [destruct Hh|]. cbn [map] in ND. inversion ND as [|? ? N ND']; subst.
    destruct Hh as [<-|Hh]; destruct Ho as [<-|Ho]; [reflexivity| | |now apply IH].
    - exfalso. apply N. rewrite E. now apply in_map.
    - exfalso. apply N. rewrite <- E. now apply in_map.
  Qed.
  Lemma chips_same a b : chips_of all a b = chips_between d a b.
  Proof.
    unfold chips_of, chips_between. rewrite <- (sumZ_perm _ _ (Permutation_map _ Idx)), map_map. f_equal. apply map_ext_in.
    intros o Ho. now rewrite (Put o Ho).
  Qed.

  Lemma dealt_side : forall rest pre L mk, all = pre ++ rest ->
    (forall o, In o pre -> h_commit o <= L) -> (L = 0 \/ exists o, In o pre /\ h_commit o = L) ->
    (forall o, In o rest -> mk (h_idx o) = false) ->
    (forall o k, In o pre -> In k all -> sd_in d (h_idx o) = true -> sd_in d (h_idx k) = true ->
       h_strength o = h_strength k -> h_commit o < h_commit k -> mk (h_idx o) = true) ->
    side_pots d L (dealt worst all rest L mk).
  Proof.
    induction rest as [|h rest IH]; intros pre L mk Ea HL HLm Hm Hmk; cbn [dealt].
    - apply side_pots_none. intros i (Hi & Ii & Li). destruct (hand_of i Hi) as (o & Ho & <-).
      rewrite <- (Put o Ho) in Li. rewrite app_nil_r in Ea. rewrite Ea in Ho. specialize (HL o Ho). lia.
    - assert (Hh : In h all) by (rewrite Ea; apply in_or_app; right; now left).
      assert (Es : all = (pre ++ [h]) ++ rest) by (rewrite Ea, <- app_assoc; reflexivity).
      assert (Hm' : forall o, In o rest -> mk (h_idx o) = false) by (intros o Ho; apply Hm; now right).
      pose proof Srt as Sr. rewrite Ea in Sr. apply sorted_split in Sr. destruct Sr as [S1 S2].
      assert (Npre : ~ In h pre).
      { intros X. rewrite Ea, map_app in ND. cbn [map] in ND. apply NoDup_remove_2 in ND. apply ND. apply in_or_app. left. now apply in_map. }
      assert (Inpre : forall o, In o pre -> In o all) by (intros o Ho; rewrite Ea; apply in_or_app; now left).
      assert (Cases : forall o, In o all -> In o pre \/ o = h \/ In o rest).
      { intros o Ho. rewrite Ea in Ho. apply in_app_or in Ho. destruct Ho as [Ho|[Ho|Ho]]; auto. }
      (* a tied player with less in gets a pot of their own *)
      assert (Tie : forall k, In k all -> sd_in d (h_idx h) = true -> sd_in d (h_idx k) = true ->
                h_strength h = h_strength k -> h_commit h < h_commit k -> L < h_commit h).
      { intros k Hk Ih Ik E Lt. destruct (In_hand h Hh Ih) as [R1 _]. destruct (In_hand k Hk Ik) as [R2 _].
        destruct (Reg (h_idx h) (h_idx k) (idx_lt h Hh) (idx_lt k Hk) Ih Ik) as [P0 P]; [lia|rewrite <- !Put by assumption; lia|].
        rewrite <- (Put h Hh) in P0, P. destruct HLm as [->|(o & Ho & Eo)]; [lia|].
        assert (Ho' := Inpre o Ho). assert (Hne : h_idx o <> h_idx h).
        { intros X. apply Npre. now rewrite <- (same_hand o h Ho' Hh X). }
        pose proof (S1 o Ho) as Hle. apply hle_spec in Hle.
        destruct (sd_in d (h_idx o)) eqn:Io; [|rewrite (Out o Ho' Io) in Hle; destruct (In_hand h Hh Ih); lia].
        destruct (In_hand o Ho' Io) as [R3 _]. destruct (P (h_idx o) (idx_lt o Ho') Io Hne) as [P1 P2].
        rewrite <- (Put o Ho') in P1, P2. lia. }
      destruct (h_commit h <=? L) eqn:EL.
      + apply (IH (pre ++ [h])); try assumption.
        * intros o Ho. apply in_app_or in Ho. destruct Ho as [Ho|[<-|[]]]; [now apply HL|lia].
        * destruct HLm as [H|(o & Ho & E)]; [now left|right]. exists o. split; [apply in_or_app; now left|exact E].
        * intros o k Ho Hk Io Ik E Lt. apply in_app_or in Ho. destruct Ho as [Ho|[<-|[]]]; [now apply (Hmk o k)|].
          specialize (Tie k Hk Io Ik E Lt). lia.
      + assert (Ih : sd_in d (h_idx h) = true).
        { destruct (sd_in d (h_idx h)) eqn:Ih; [reflexivity|exfalso].
          destruct (Cov (h_idx h) (idx_lt h Hh) Ih) as (j & Hj & Ij & Lj). destruct (hand_of j Hj) as (k & Hk & <-).
          rewrite <- !Put in Lj by assumption. destruct (Cases k Hk) as [Ck|[->|Ck]]; [specialize (HL k Ck); lia|congruence|].
          pose proof (S2 k Ck) as Hle. apply hle_spec in Hle. rewrite (Out h Hh Ih) in Hle. destruct (In_hand k Hk Ij). lia. }
        destruct (In_hand h Hh Ih) as [Rh Wh].
        assert (Con : forall o, In o all -> contends d L (h_idx o) -> o = h \/ In o rest).
        { intros o Ho (_ & _ & C). destruct (Cases o Ho) as [Co|Co]; [|exact Co]. rewrite <- (Put o Ho) in C. specialize (HL o Co). lia. }
        assert (Best : forall o, In o all -> contends d L (h_idx o) -> h_strength h <= h_strength o).
        { intros o Ho C. destruct (Con o Ho C) as [->|Co]; [lia|]. pose proof (S2 o Co) as Hle. apply hle_spec in Hle. lia. }
        assert (Win : forall o, In o all -> cur_strength worst mk o = h_strength h -> sd_in d (h_idx o) = true /\ h_strength o = h_strength h /\ h_commit h <= h_commit o).
        { intros o Ho E. unfold cur_strength in E. destruct (mk (h_idx o)) eqn:Mo; [lia|].
          assert (Io : sd_in d (h_idx o) = true).
          { destruct (sd_in d (h_idx o)) eqn:Io; [reflexivity|]. rewrite (Out o Ho Io) in E. lia. }
          split; [exact Io|]. split; [exact E|]. destruct (Cases o Ho) as [Co|[->|Co]]; [|lia|].
          - destruct (Z_lt_dec (h_commit o) (h_commit h)) as [Lt|Lt]; [|lia]. rewrite (Hmk o h Co Hh Io Ih E Lt) in Mo. discriminate.
          - pose proof (S2 o Co) as Hle. apply hle_spec in Hle. lia. }
        rewrite chips_same. apply side_pots_next.
        * split; [now apply NoDup_map_filter|]. intros i. unfold eligible_for. rewrite in_map_iff. split.
          -- intros (o & <- & Ho). apply filter_In in Ho. destruct Ho as [Ho E]. apply Z.eqb_eq in E.
             destruct (Win o Ho E) as (Io & Eo & Lo). split.
             ++ split; [now apply idx_lt|]. split; [exact Io|]. rewrite <- (Put o Ho). lia.
             ++ intros j C. destruct C as (Hj & Ij & Lj). destruct (hand_of j Hj) as (k & Hk & <-).
                destruct (In_hand o Ho Io) as [Ro _]. destruct (In_hand k Hk Ij) as [Rk _].
                pose proof (Best k Hk (conj Hj (conj Ij Lj))). lia.
          -- intros [(Hi & Ii & Li) Bi]. destruct (hand_of i Hi) as (o & Ho & <-). exists o. split; [reflexivity|].
             apply filter_In. split; [exact Ho|]. apply Z.eqb_eq. unfold cur_strength.
             assert (Co : o = h \/ In o rest) by (apply Con; [exact Ho|now split]).
             replace (mk (h_idx o)) with false by (symmetry; apply Hm; destruct Co as [->|Co]; [now left|now right]).
             pose proof (Best o Ho (conj Hi (conj Ii Li))).
             assert (X : sd_rank d (h_idx o) <= sd_rank d (h_idx h)).
             { apply Bi. split; [now apply idx_lt|]. split; [exact Ih|]. rewrite <- (Put h Hh). lia. }
             destruct (In_hand o Ho Ii) as [Ro _]. lia.
        * exists (h_idx h). split; [|now rewrite (Put h Hh)]. apply in_map. apply filter_In. split; [exact Hh|].
          unfold cur_strength. rewrite (Hm h (or_introl eq_refl)). lia.
        * intros i Hi. apply in_map_iff in Hi. destruct Hi as (o & <- & Ho). apply filter_In in Ho. destruct Ho as [Ho E]. apply Z.eqb_eq in E.
          rewrite <- (Put o Ho). now apply Win.
        * apply (IH (pre ++ [h])); try assumption.
          -- intros o Ho. apply in_app_or in Ho. destruct Ho as [Ho|[<-|[]]]; [specialize (HL o Ho); lia|lia].
          -- right. exists h. split; [apply in_or_app; right; now left|reflexivity].
          -- intros o Ho. rewrite (Hm' o Ho), orb_false_r. apply Nat.eqb_neq. intros X.
             rewrite Ea, map_app in ND. cbn [map] in ND. apply NoDup_remove_2 in ND. apply ND. rewrite <- X. apply in_or_app. right. now apply in_map.
          -- intros o k Ho Hk Io Ik E Lt. apply in_app_or in Ho. destruct Ho as [Ho|[<-|[]]]; [|now rewrite Nat.eqb_refl].
             rewrite (Hmk o k) by assumption. now rewrite orb_true_r.
  Qed.
End Side.

Lemma show_side d worst st cm n : List.length st = n -> List.length cm = n -> sd_players d = n ->
  (forall i, (i < n)%nat -> sd_put d i = nth i cm 0) ->
  (forall i, (i < n)%nat -> sd_in d i = true -> nth i st 0 = sd_rank d i /\ nth i st 0 < worst) ->
  (forall i, (i < n)%nat -> sd_in d i = false -> nth i st 0 = worst) ->
  covered_folds d -> regular_ties d -> side_pots d 0 (show_pots worst st cm).
Proof.
  intros Hs Hc Hn P I O C R. assert (Hl : List.length cm = List.length st) by congruence.
  assert (X : forall h, In h (show_hands st cm) -> (h_idx h < n)%nat /\ h_strength h = nth (h_idx h) st 0 /\ h_commit h = nth (h_idx h) cm 0).
  { intros h Hh. apply show_in in Hh; [|exact Hl]. now rewrite Hs in Hh. }
  unfold show_pots. apply (dealt_side d worst (show_hands st cm)) with (pre := []).
  - now apply show_nodup.
  - rewrite Hn, <- Hs. now apply show_idx.
  - apply sort_sorted.
  - intros h Hh. destruct (X h Hh) as (H1 & H2 & H3). now rewrite P.
  - intros h Hh Ih. destruct (X h Hh) as (H1 & H2 & H3). rewrite H2. now apply I.
  - intros h Hh Ih. destruct (X h Hh) as (H1 & H2 & H3). rewrite H2. now apply O.
  - exact C.
  - exact R.
  - reflexivity.
  - intros o [].
  - now left.
  - reflexivity.
  - intros o k [].
Qed.

(** ** Facts about the specification *)
Lemma existsb_in w i : existsb (Nat.eqb i) w = true <-> In i w.
Proof. rewrite existsb_exists. split; [intros (x & H & E); apply Nat.eqb_eq in E; now subst|intros H; exists i; split; [exact H|apply Nat.eqb_refl]]. Qed.
Lemma winners_perm d a w w' : winners d a w -> winners d a w' -> Permutation w w'.
Proof. intros [N H] [N' H']. apply NoDup_Permutation; try assumption. intros i. rewrite H, H'. reflexivity. Qed.
(** the specification determines the shares *)
Lemma side_pots_unique d a p : side_pots d a p -> forall p', side_pots d a p' ->
  odd_chips p = odd_chips p' /\ forall i, share p i = share p' i.
Proof.
  induction 1 as [a N|a w b r Hw (k & Hk & Ek) Hb Hr IH]; intros p' H'.
  - destruct H' as [a' N'|a' w' b' r' Hw' (k' & Hk' & _) _ _]; [auto|]. exfalso. apply (N k'). now apply (proj2 Hw') in Hk'.
  - destruct H' as [a' N'|a' w' b' r' Hw' (k' & Hk' & Ek') Hb' Hr']; [exfalso; apply (N' k); now apply (proj2 Hw) in Hk|].
    pose proof (winners_perm d a' w w' Hw Hw') as P. pose proof (Permutation_length P) as Pl.
    assert (b = b').
    { pose proof (Hb k' (Permutation_in _ (Permutation_sym P) Hk')). pose proof (Hb' k (Permutation_in _ P Hk)). lia. }
    rewrite <- H in Hr'. rewrite <- H. destruct (IH r' Hr') as [I1 I2]. unfold odd_chips, share in *. cbn [map fst snd]. split.
    + rewrite !sumZ_cons, I1, Pl. reflexivity.
    + intros i. rewrite !sumZ_cons, (I2 i), Pl. f_equal.
      replace (existsb (Nat.eqb i) w') with (existsb (Nat.eqb i) w); [reflexivity|].
      apply eq_true_iff_eq. rewrite !existsb_in. split; apply Permutation_in; [exact P|now symmetry].
Qed.
(** every chip level belongs to the side pot of its winners *)
Lemma side_pots_level d a p : side_pots d a p -> forall x, a < x -> (exists i, contends d (x - 1) i) ->
  exists lo hi w, In (w, chips_between d lo hi) p /\ lo < x <= hi /\ winners d (x - 1) w.
Proof.
  induction 1 as [a N|a w b r Hw (k & Hk & Ek) Hb Hr IH]; intros x Hx (i & Ci).
  - exfalso. apply (N i). destruct Ci as (H1 & H2 & H3). split; [exact H1|]. split; [exact H2|lia].
  - destruct (Z_lt_dec b x) as [L|L].
    + destruct (IH x L (ex_intro _ i Ci)) as (lo & hi & w' & H1 & H2 & H3). exists lo, hi, w'. split; [now right|auto].
    + exists a, b, w. split; [now left|]. split; [lia|]. destruct Hw as [Nd Hw]. split; [exact Nd|]. intros j. rewrite (Hw j). split.
      * intros [(A1 & A2 & A3) B]. assert (Hj : In j w) by (apply Hw; now split). specialize (Hb j Hj).
        split; [split; [exact A1|]; split; [exact A2|lia]|]. intros m (M1 & M2 & M3). apply B. split; [exact M1|]. split; [exact M2|lia].
      * intros [(A1 & A2 & A3) B]. apply Hw in Hk. destruct Hk as [(K1 & K2 & K3) K].
        split; [split; [exact A1|]; split; [exact A2|lia]|]. intros m C.
        assert (sd_rank d j <= sd_rank d k) by (apply B; split; [exact K1|]; split; [exact K2|lia]). specialize (K m C). lia.
Qed.
Lemma chips_mono d a b : a <= b -> 0 <= chips_between d a b.
Proof. intros H. unfold chips_between. induction (seq 0 (sd_players d)) as [|i l IH]; [cbn; lia|]. cbn [map]. rewrite sumZ_cons. lia. Qed.
Lemma chips_add d a b e : chips_between d a b + chips_between d b e = chips_between d a e.
Proof. unfold chips_between. induction (seq 0 (sd_players d)) as [|i l IH]; [reflexivity|]. cbn [map]. rewrite !sumZ_cons. lia. Qed.
Lemma div_le_self x k : 0 <= x -> 1 <= k -> x / k <= x.
Proof. intros H1 H2. apply Z.div_le_upper_bound; nia. Qed.
(** nobody wins more from anybody than they put in themselves *)
Lemma side_pots_own d a p : side_pots d a p -> forall i, a <= sd_put d i -> share p i <= chips_between d a (sd_put d i).
Proof.
  induction 1 as [a N|a w b r Hw (k & Hk & Ek) Hb Hr IH]; intros i Hi; [unfold share; cbn; now apply chips_mono|].
  assert (Hab : a < b) by (apply (proj2 Hw) in Hk; destruct Hk as [(_ & _ & K) _]; lia).
  unfold share. cbn [map fst snd]. rewrite sumZ_cons. fold (share r i).
  destruct (existsb (Nat.eqb i) w) eqn:E.
  - apply existsb_in in E. specialize (Hb i E). specialize (IH i Hb). rewrite <- (chips_add d a b (sd_put d i)).
    pose proof (div_le_self (chips_between d a b) (Z.of_nat (List.length w)) (chips_mono d a b ltac:(lia)) ltac:(destruct w; [destruct E|cbn; lia])). lia.
  - destruct (Z_le_dec b (sd_put d i)) as [L|L].
    + specialize (IH i L). rewrite <- (chips_add d a b (sd_put d i)). pose proof (chips_mono d a b ltac:(lia)). lia.
    + assert (Z : share r i = 0); [|rewrite Z; pose proof (chips_mono d a (sd_put d i) Hi); lia].
      clear - Hr L. assert (X : forall b p, side_pots d b p -> sd_put d i < b -> share p i = 0).
      { clear. induction 1 as [a N|a w b r Hw (k & Hk & Ek) Hb Hr IH]; intros L; [reflexivity|]. unfold share. cbn [map fst snd]. rewrite sumZ_cons. fold (share r i).
        assert (Hab : a < b) by (apply (proj2 Hw) in Hk; destruct Hk as [(_ & _ & K) _]; lia).
        rewrite IH by lia. destruct (existsb (Nat.eqb i) w) eqn:E; [|reflexivity]. apply existsb_in in E. specialize (Hb i E). lia. }
      apply (X b r Hr). lia.
Qed.
(** folded players have no share *)
Lemma side_pots_out d a p : side_pots d a p -> forall i, sd_in d i = false -> share p i = 0.
Proof.
  induction 1 as [a N|a w b r Hw Hk Hb Hr IH]; intros i Hi; [reflexivity|]. unfold share. cbn [map fst snd]. rewrite sumZ_cons. fold (share r i).
  rewrite IH by exact Hi. destruct (existsb (Nat.eqb i) w) eqn:E; [|reflexivity]. apply existsb_in, (proj2 Hw) in E. destruct E as [(_ & E & _) _]. congruence.
Qed.
(** a winner of a side pot gets at least one chip of it *)
Lemma sum_at_least (f : nat -> Z) w : forall l, NoDup w -> incl w l -> (forall i, 0 <= f i) -> (forall i, In i w -> 1 <= f i) ->
  Z.of_nat (List.length w) <= sumZ (map f l).
Proof.
  induction w as [|x w IH]; intros l Nd Hi Hf Hw.
  - clear - Hf. induction l as [|i l IH]; [cbn; lia|]. cbn [map]. rewrite sumZ_cons. specialize (Hf i). cbn [List.length] in *. lia.
  - inversion Nd as [|? ? Nx Nd']; subst. destruct (in_split x l (Hi x (or_introl eq_refl))) as (l1 & l2 & ->).
    specialize (IH (l1 ++ l2) Nd'). rewrite map_app, sumZ_app in *. cbn [map]. rewrite sumZ_cons.
    specialize (Hw x (or_introl eq_refl)) as Hx. cbn [List.length].
    enough (Z.of_nat (List.length w) <= sumZ (map f l1) + sumZ (map f l2)) by lia. apply IH; [|exact Hf|intros i Y; apply Hw; now right].
    intros i Y. specialize (Hi i (or_intror Y)). apply in_app_or in Hi. apply in_or_app. destruct Hi as [Hi|[<-|Hi]]; auto. contradiction.
Qed.
Lemma chips_winners d a b w : a < b -> NoDup w -> (forall i, In i w -> (i < sd_players d)%nat /\ b <= sd_put d i) ->
  Z.of_nat (List.length w) <= chips_between d a b.
Proof.
  intros Hab Nd H. apply sum_at_least; [exact Nd| |intros; lia|intros i Hi; apply H in Hi; lia].
  intros i Hi. apply in_seq. apply H in Hi. lia.
Qed.
(** the players with a positive share are the winners of the side pots; an odd chip only arises when two players win *)
Lemma side_pots_positive d a p : side_pots d a p -> 0 < odd_chips p -> exists i j, i <> j /\ (i < sd_players d)%nat /\ (j < sd_players d)%nat /\ 0 < share p i /\ 0 < share p j.
Proof.
  induction 1 as [a N|a w b r Hw (k & Hk & Ek) Hb Hr IH]; intros O; [cbn in O; lia|].
  assert (Hab : a < b) by (apply (proj2 Hw) in Hk; destruct Hk as [(_ & _ & K) _]; lia).
  assert (Rn : forall a p, side_pots d a p -> forall i, 0 <= share p i).
  { clear. induction 1 as [a N|a w b r Hw (k & Hk & Ek) Hb Hr IH]; intros i; [cbn; lia|]. unfold share. cbn [map fst snd]. rewrite sumZ_cons. fold (share r i).
    assert (Hab : a < b) by (apply (proj2 Hw) in Hk; destruct Hk as [(_ & _ & K) _]; lia). specialize (IH i).
    destruct (existsb _ _); [|lia]. pose proof (Z.div_pos (chips_between d a b) (Z.of_nat (List.length w)) (chips_mono d a b ltac:(lia)) ltac:(destruct w; [destruct Hk|cbn; lia])). lia. }
  assert (W1 : 1 <= chips_between d a b / Z.of_nat (List.length w)).
  { apply Z.div_le_lower_bound; [destruct w; [destruct Hk|cbn; lia]|]. rewrite Z.mul_1_r. apply chips_winners; [exact Hab|apply Hw|].
    intros i Hi. split; [|now apply Hb]. apply (proj2 Hw) in Hi. apply Hi. }
  assert (Sw : forall i, In i w -> 0 < share ((w, chips_between d a b) :: r) i).
  { intros i Hi. unfold share. cbn [map fst snd]. rewrite sumZ_cons. fold (share r i). rewrite (proj2 (existsb_in w i) Hi). pose proof (Rn b r Hr i). lia. }
  assert (Wn : forall i, In i w -> (i < sd_players d)%nat) by (intros i Hi; apply (proj2 Hw) in Hi; apply Hi).
  destruct (Z.eq_dec (Z.of_nat (List.length w)) 1) as [E1|E1].
  - unfold odd_chips in O. cbn [map fst snd] in O. rewrite sumZ_cons, E1, Z.mod_1_r in O. fold (odd_chips r) in O.
    destruct (IH O) as (i & j & H1 & H2 & H3 & H4 & H5). exists i, j. split; [exact H1|]. split; [exact H2|]. split; [exact H3|].
    unfold share. cbn [map fst snd]. rewrite !sumZ_cons. fold (share r i) (share r j). destruct (existsb (Nat.eqb i) w), (existsb (Nat.eqb j) w); lia.
  - destruct w as [|x [|y w]]; [destruct Hk|cbn in E1; lia|]. exists x, y.
    destruct Hw as [Nd Hw]. inversion Nd as [|? ? Nx _]; subst. split; [intros ->; apply Nx; now left|].
    split; [apply Wn; now left|]. split; [apply Wn; right; now left|]. split; apply Sw; [now left|right; now left].
Qed.

(** ** Without assuming regular ties: folded players still get nothing *)
Section OutOfHand.
  Variables (d : showdown) (worst : Z) (all : list hand3).
  Hypothesis Idx : Permutation (map h_idx all) (seq 0 (sd_players d)).
  Hypothesis Srt : StronglySorted hle all.
  Hypothesis Put : forall h, In h all -> h_commit h = sd_put d (h_idx h).
  Hypothesis In_hand : forall h, In h all -> sd_in d (h_idx h) = true -> h_strength h < worst.
  Hypothesis Out : forall h, In h all -> sd_in d (h_idx h) = false -> h_strength h = worst.
  Hypothesis Cov : covered_folds d.
  Lemma dealt_out i : sd_in d i = false -> forall rest pre L mk, all = pre ++ rest -> (forall o, In o pre -> h_commit o <= L) ->
    share (dealt worst all rest L mk) i = 0.
  Proof.
    intros Oi. induction rest as [|h rest IH]; intros pre L mk Ea HL; cbn [dealt]; [reflexivity|].
    assert (Hh : In h all) by (rewrite Ea; apply in_or_app; right; now left).
    assert (Es : all = (pre ++ [h]) ++ rest) by (rewrite Ea, <- app_assoc; reflexivity).
    pose proof Srt as Sr. rewrite Ea in Sr. apply sorted_split in Sr. destruct Sr as [S1 S2].
    assert (HL' : forall x, L <= x -> h_commit h <= x -> forall o, In o (pre ++ [h]) -> h_commit o <= x).
    { intros x H1 H2 o Ho. apply in_app_or in Ho. destruct Ho as [Ho|[<-|[]]]; [specialize (HL o Ho); lia|lia]. }
    destruct (h_commit h <=? L) eqn:EL; [apply (IH (pre ++ [h])); [exact Es|apply HL'; lia]|].
    unfold share. cbn [map fst snd]. rewrite sumZ_cons. fold (share (dealt worst all rest (h_commit h) (fun i => Nat.eqb i (h_idx h) || mk i)) i).
    rewrite (IH (pre ++ [h])) by (exact Es || apply HL'; lia).
    destruct (existsb (Nat.eqb i) (eligible_for worst all mk (h_strength h))) eqn:E; [exfalso|reflexivity].
    apply existsb_in in E. apply in_map_iff in E. destruct E as (o & Eo & Ho). apply filter_In in Ho. destruct Ho as [Ho E]. apply Z.eqb_eq in E.
    assert (Wh : h_strength h = worst).
    { rewrite <- E. unfold cur_strength. destruct (mk (h_idx o)); [reflexivity|]. apply Out; [exact Ho|now rewrite Eo]. }
    assert (Ih : sd_in d (h_idx h) = false).
    { destruct (sd_in d (h_idx h)) eqn:Ih; [|reflexivity]. specialize (In_hand h Hh Ih). lia. }
    assert (Hlt : (h_idx h < sd_players d)%nat).
    { assert (X := in_map h_idx _ _ Hh). apply (Permutation_in _ Idx) in X. apply in_seq in X. lia. }
    destruct (Cov (h_idx h) Hlt Ih) as (j & Hj & Ij & Lj).
    assert (X : In j (map h_idx all)) by (apply (Permutation_in _ (Permutation_sym Idx)); apply in_seq; lia).
    apply in_map_iff in X. destruct X as (k & <- & Hk). rewrite <- !Put in Lj by assumption.
    pose proof Hk as Hk'. rewrite Ea in Hk'. apply in_app_or in Hk'. destruct Hk' as [Ck|[Ck|Ck]]; [specialize (HL k Ck); lia|subst k; congruence|].
    pose proof (S2 k Ck) as Hle. apply hle_spec in Hle. specialize (In_hand k Hk Ij). lia.
  Qed.
End OutOfHand.
Lemma show_out d worst st cm n i : List.length st = n -> List.length cm = n -> sd_players d = n ->
  (forall i, (i < n)%nat -> sd_put d i = nth i cm 0) ->
  (forall i, (i < n)%nat -> sd_in d i = true -> nth i st 0 < worst) ->
  (forall i, (i < n)%nat -> sd_in d i = false -> nth i st 0 = worst) ->
  covered_folds d -> sd_in d i = false -> share (show_pots worst st cm) i = 0.
Proof.
  intros Hs Hc Hn P I O C Oi. assert (Hl : List.length cm = List.length st) by congruence.
  assert (X : forall h, In h (show_hands st cm) -> (h_idx h < n)%nat /\ h_strength h = nth (h_idx h) st 0 /\ h_commit h = nth (h_idx h) cm 0).
  { intros h Hh. apply show_in in Hh; [|exact Hl]. now rewrite Hs in Hh. }
  unfold show_pots. apply (dealt_out d worst (show_hands st cm)) with (pre := []).
  - rewrite Hn, <- Hs. now apply show_idx.
  - apply sort_sorted.
  - intros h Hh. destruct (X h Hh) as (H1 & H2 & H3). now rewrite P.
  - intros h Hh Ih. destruct (X h Hh) as (H1 & H2 & H3). rewrite H2. now apply I.
  - intros h Hh Ih. destruct (X h Hh) as (H1 & H2 & H3). rewrite H2. now apply O.
  - exact C.
  - exact Oi.
  - reflexivity.
  - intros o [].
Qed.
