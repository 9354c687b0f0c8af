(** * PaidFacts: the pots of the showdown loop are those of [PaidSpec] *)
From Coq Require Import ZifyBool ZifyNat Arith Permutation Sorted.
From Verif Require Import PyBase PyFacts CardModel EvalModel EngineModel EngineFacts ShowSpec ShowFacts SideFacts SideExists PaidSpec.

(** ** the sort is stable *)
Definition hlt (a b : hand3) : Prop := hle a b /\ (h_strength a = h_strength b -> h_commit a = h_commit b -> (h_idx a < h_idx b)%nat).
Lemma insert_stable x l : (forall y, In y l -> (h_idx x < h_idx y)%nat) -> StronglySorted hlt l -> StronglySorted hlt (insert_sorted hand_le x l).
Proof.
  induction l as [|y l IH]; intros B H; cbn; [repeat constructor|]. inversion H as [|? ? H' F]; subst. destruct (hand_le x y) eqn:E.
  - constructor; [exact H|]. constructor; [split; [exact E|intros _ _; apply B; now left]|]. rewrite Forall_forall in *.
    intros z Hz. destruct (F z Hz) as [Hz1 _]. split; [|intros _ _; apply B; now right]. apply hle_spec in Hz1. assert (E' : hle x y) by exact E. apply hle_spec in E'. apply hle_spec. lia.
  - constructor; [apply IH; [intros z Hz; apply B; now right|exact H']|]. rewrite Forall_forall in *. intros z Hz.
    apply (Permutation_in _ (insert_perm hand_le x l)) in Hz. destruct Hz as [<-|Hz]; [|now apply F].
    assert (X : ~ hle x y) by (unfold hle; congruence). rewrite hle_spec in X. split; [apply hle_spec; lia|lia].
Qed.
Lemma sort_stable l : StronglySorted lt (map h_idx l) -> StronglySorted hlt (sort_by hand_le l).
Proof.
  induction l as [|x l IH]; intros H; [constructor|]. cbn [sort_by fold_right map] in *. inversion H as [|? ? H' F]; subst. apply insert_stable; [|now apply IH].
  intros y Hy. apply (Permutation_in _ (sort_perm hand_le l)) in Hy. rewrite Forall_forall in F. apply F. now apply in_map.
Qed.
Lemma seq_sorted k n : StronglySorted lt (seq k n).
Proof. revert k; induction n as [|n IH]; intros k; [constructor|]. cbn [seq]. constructor; [apply IH|]. apply Forall_forall. intros x Hx. apply in_seq in Hx. lia. Qed.
Lemma show_stable st cm : List.length cm = List.length st -> StronglySorted hlt (show_hands st cm).
Proof. intros Hl. apply sort_stable. rewrite zip_idx by exact Hl. apply seq_sorted. Qed.
Lemma stable_split pre h rest : StronglySorted hlt (pre ++ h :: rest) ->
  (forall o, In o pre -> hlt o h) /\ (forall o, In o rest -> hlt h o).
Proof.
  induction pre as [|x pre IH]; cbn [app]; intros H; inversion H as [|? ? S F]; subst.
  - split; [intros o []|]. now rewrite Forall_forall in F.
  - destruct (IH S) as [I1 I2]. split; [|exact I2]. intros o [<-|Ho]; [|now apply I1]. rewrite Forall_forall in F. apply F. apply in_or_app. right. now left.
Qed.

Definition left_overb (d : showdown) (i : nat) : bool :=
  (sd_put d i <=? 0) || existsb (fun j => sd_in d j && ((sd_rank d j <? sd_rank d i) && (sd_put d i <=? sd_put d j) || (sd_rank d j =? sd_rank d i) && (sd_put d i =? sd_put d j) && Nat.ltb j i)) (seq 0 (sd_players d)).
Lemma left_overb_ok d i : left_overb d i = true <-> left_over d i.
Proof.
  unfold left_overb, left_over. rewrite orb_true_iff, existsb_exists. split; (intros [E|E]; [left; lia|right]).
  - destruct E as (j & Hj & E). apply in_seq in Hj. exists j. split; [lia|]. split; [now destruct (sd_in d j)|lia].
  - destruct E as (j & Hj & Ij & X). exists j. split; [apply in_seq; lia|]. rewrite Ij. lia.
Qed.
Lemma left_over_dec d i : {left_over d i} + {~ left_over d i}.
Proof. destruct (left_overb d i) eqn:E; [left; now apply left_overb_ok|right; rewrite <- left_overb_ok; congruence]. Qed.

Section Paid.
  Variables (d : showdown) (worst : Z) (all : list hand3).
  Hypothesis ND : NoDup (map h_idx all).
  Hypothesis Idx : Permutation (map h_idx all) (seq 0 (sd_players d)).
  Hypothesis Srt : StronglySorted hlt all.
  Hypothesis Put : forall h, In h all -> h_commit h = sd_put d (h_idx h).
  Hypothesis In_hand : forall h, In h all -> sd_in d (h_idx h) = true -> h_strength h = sd_rank d (h_idx h) /\ h_strength h < worst.
  Hypothesis Out : forall h, In h all -> sd_in d (h_idx h) = false -> h_strength h = worst.
  Lemma idx_lt h : In h all -> (h_idx h < sd_players d)%nat.
  Proof. intros H. apply (in_map h_idx) in H. apply (Permutation_in _ Idx) in H. apply in_seq in H. lia. Qed.
  Lemma hand_of i : (i < sd_players d)%nat -> exists h, In h all /\ h_idx h = i.
  Proof.
    intros H. assert (X : In i (map h_idx all)) by (apply (Permutation_in _ (Permutation_sym Idx)); apply in_seq; lia).
    apply in_map_iff in X. destruct X as (h & E & Hh). eauto.
  Qed.
  Lemma chips_same a b : chips_of all a b = chips_between d a b.
  Proof.
    unfold chips_of, chips_between. rewrite <- (sumZ_perm _ _ (Permutation_map _ Idx)), map_map. f_equal. apply map_ext_in.
    intros o Ho. now rewrite (Put o Ho).
  Qed.

  Lemma dealt_paid : forall rest pre L mk, all = pre ++ rest ->
    0 <= L -> (forall o, In o pre -> h_commit o <= L) -> (L = 0 \/ exists o, In o pre /\ h_commit o = L) ->
    (forall o, In o rest -> mk (h_idx o) = false) ->
    (forall o, In o pre -> sd_in d (h_idx o) = true -> (mk (h_idx o) = true <-> ~ left_over d (h_idx o))) ->
    paid_pots d L (dealt worst all rest L mk).
  Proof.
    induction rest as [|h rest IH]; intros pre L mk Ea L0 HL HLm Hm Hmk; cbn [dealt].
    - apply paid_none. intros i Hi. destruct (hand_of i Hi) as (o & Ho & <-).
      rewrite <- (Put o Ho). rewrite app_nil_r in Ea. rewrite Ea in Ho. exact (HL o Ho).
    - assert (Hh : In h all) by (rewrite Ea; apply in_or_app; right; now left).
      assert (Es : all = (pre ++ [h]) ++ rest) by (rewrite Ea, <- app_assoc; reflexivity).
      assert (Hm' : forall o, In o rest -> mk (h_idx o) = false) by (intros o Ho; apply Hm; now right).
      pose proof Srt as Sr. rewrite Ea in Sr. apply stable_split in Sr. destruct Sr as [S1 S2].
      assert (Inpre : forall o, In o pre -> In o all) by (intros o Ho; rewrite Ea; apply in_or_app; now left).
      assert (Cases : forall o, In o all -> In o pre \/ o = h \/ In o rest).
      { intros o Ho. rewrite Ea in Ho. apply in_app_or in Ho. destruct Ho as [Ho|[Ho|Ho]]; auto. }
      (* a player in the hand opens no side pot exactly if they are left over *)
      assert (LO : sd_in d (h_idx h) = true -> (left_over d (h_idx h) <-> h_commit h <= L)).
      { intros Ih. destruct (In_hand h Hh Ih) as [Rh Wh]. unfold left_over. rewrite <- (Put h Hh). split.
        - intros [X|(j & Hj & Ij & X)]; [lia|]. destruct (hand_of j Hj) as (o & Ho & <-). destruct (In_hand o Ho Ij) as [Ro Wo].
          rewrite <- (Put o Ho) in X. destruct (Cases o Ho) as [Co|[->|Co]]; [specialize (HL o Co); lia|lia|].
          destruct (S2 o Co) as [T1 T2]. apply hle_spec in T1. specialize (T2 ltac:(lia)). lia.
        - intros X. destruct HLm as [->|(o & Ho & Eo)]; [now left|right]. pose proof (Inpre o Ho) as Ho'. destruct (S1 o Ho) as [T1 T2]. apply hle_spec in T1.
          assert (Io : sd_in d (h_idx o) = true) by (destruct (sd_in d (h_idx o)) eqn:Io; [reflexivity|rewrite (Out o Ho' Io) in T1; lia]).
          destruct (In_hand o Ho' Io) as [Ro Wo]. exists (h_idx o). split; [now apply idx_lt|]. split; [exact Io|]. rewrite <- (Put o Ho').
          destruct T1 as [T1|T1]; [left; lia|]. right. assert (h_commit o = h_commit h) by lia. specialize (T2 ltac:(lia) ltac:(lia)). lia. }
      destruct (h_commit h <=? L) eqn:EL.
      + apply (IH (pre ++ [h])); try assumption.
        * intros o Ho. apply in_app_or in Ho. destruct Ho as [Ho|[<-|[]]]; [now apply HL|lia].
        * destruct HLm as [H|(o & Ho & E)]; [now left|right]. exists o. split; [apply in_or_app; now left|exact E].
        * intros o Ho Io. apply in_app_or in Ho. destruct Ho as [Ho|[<-|[]]]; [now apply Hmk|].
          rewrite (Hm h (or_introl eq_refl)). specialize (LO Io). split; [discriminate|]. intros X. exfalso. apply X, LO. lia.
      + assert (Con : forall o, In o all -> contends d L (h_idx o) -> o = h \/ In o rest).
        { intros o Ho (_ & _ & C). destruct (Cases o Ho) as [Co|Co]; [|exact Co]. rewrite <- (Put o Ho) in C. specialize (HL o Co). lia. }
        assert (Next : paid_pots d (h_commit h) (dealt worst all rest (h_commit h) (fun i => Nat.eqb i (h_idx h) || mk i))).
        { apply (IH (pre ++ [h])); try assumption; [lia| | | |].
          - intros o Ho. apply in_app_or in Ho. destruct Ho as [Ho|[<-|[]]]; [specialize (HL o Ho); lia|lia].
          - right. exists h. split; [apply in_or_app; right; now left|reflexivity].
          - intros o Ho. rewrite (Hm' o Ho), orb_false_r. apply Nat.eqb_neq. intros X.
            rewrite Ea, map_app in ND. cbn [map] in ND. apply NoDup_remove_2 in ND. apply ND. rewrite <- X. apply in_or_app. right. now apply in_map.
          - intros o Ho Io. apply in_app_or in Ho. destruct Ho as [Ho|[<-|[]]].
            + replace (Nat.eqb (h_idx o) (h_idx h)) with false; [now apply Hmk|]. symmetry. apply Nat.eqb_neq. intros X.
              rewrite Ea, map_app in ND. cbn [map] in ND. apply NoDup_remove_2 in ND. apply ND. rewrite <- X. apply in_or_app. left. now apply in_map.
            + rewrite Nat.eqb_refl. cbn [orb]. specialize (LO Io). split; [intros _ X; apply LO in X; lia|reflexivity]. }
        rewrite chips_same. destruct (sd_in d (h_idx h)) eqn:Ih.
        * destruct (In_hand h Hh Ih) as [Rh Wh].
          assert (Bh : best_above d L (h_idx h)).
          { split; [split; [now apply idx_lt|]; split; [exact Ih|]; rewrite <- (Put h Hh); lia|]. intros j C. pose proof C as (Hj & Ij & Lj). destruct (hand_of j Hj) as (o & Ho & <-).
            destruct (In_hand o Ho Ij) as [Ro _]. destruct (Con o Ho C) as [->|Co]; [lia|]. destruct (S2 o Co) as [T1 _]. apply hle_spec in T1. lia. }
          assert (Bo : forall o, In o all -> (best_above d L (h_idx o) <-> sd_in d (h_idx o) = true /\ L < h_commit o /\ h_strength o = h_strength h)).
          { intros o Ho. split.
            - intros [(H1 & H2 & H3) H4]. rewrite <- (Put o Ho) in H3. split; [exact H2|]. split; [exact H3|]. destruct (In_hand o Ho H2) as [Ro _]. specialize (H4 _ (proj1 Bh)). destruct Bh as [_ Bh]. specialize (Bh (h_idx o)). rewrite <- Rh, <- Ro in *.
              assert (h_strength h <= h_strength o) by (apply Bh; split; [now apply idx_lt|]; split; [exact H2|]; rewrite <- (Put o Ho); exact H3). lia.
            - intros (H1 & H2 & H3). destruct (In_hand o Ho H1) as [Ro _]. split; [split; [now apply idx_lt|]; split; [exact H1|]; rewrite <- (Put o Ho); exact H2|]. intros j C. destruct Bh as [_ Bh]. specialize (Bh j C). lia. }
          apply paid_next; [now apply NoDup_map_filter| | | |exact Next].
          -- exists (h_idx h). split; [exact Bh|]. now rewrite (Put h Hh).
          -- intros i Hi. pose proof Hi as [(H1 & H2 & H3) _]. destruct (hand_of i H1) as (o & Ho & <-). apply (Bo o Ho) in Hi. destruct Hi as (_ & Hl & He). rewrite <- (Put o Ho).
             destruct (Cases o Ho) as [Co|[->|Co]]; [specialize (HL o Co); lia|lia|]. destruct (S2 o Co) as [T1 _]. apply hle_spec in T1. lia.
          -- intros i. unfold eligible_for. rewrite in_map_iff. split.
             ++ intros (o & <- & Ho). apply filter_In in Ho. destruct Ho as [Ho E]. apply Z.eqb_eq in E. unfold cur_strength in E. destruct (mk (h_idx o)) eqn:Mo; [lia|].
                assert (Io : sd_in d (h_idx o) = true) by (destruct (sd_in d (h_idx o)) eqn:Io; [reflexivity|rewrite (Out o Ho Io) in E; lia]).
                destruct (In_hand o Ho Io) as [Ro _]. destruct (Z_lt_dec L (h_commit o)) as [Lt|Ge]; [left; apply (Bo o Ho); auto|right].
                split; [now apply idx_lt|]. split; [exact Io|]. rewrite <- (Put o Ho). split; [lia|]. split.
                ** destruct (Cases o Ho) as [Co|[->|Co]]; [| |].
                   --- pose proof (Hmk o Co Io) as X. rewrite Mo in X. clear - X Put HL Co Ho. destruct (left_over_dec d (h_idx o)) as [Y|Y]; [exact Y|]. apply X in Y. discriminate Y.
                   --- lia.
                   --- destruct (S2 o Co) as [T1 _]. apply hle_spec in T1. lia.
                ** exists (h_idx h). split; [exact Bh|]. lia.
             ++ intros [B|(H1 & H2 & H3 & H4 & k & Bk & Ek)].
                ** pose proof B as [(H1 & _) _]. destruct (hand_of i H1) as (o & Ho & <-). apply (Bo o Ho) in B. destruct B as (B1 & B2 & B3). exists o. split; [reflexivity|]. apply filter_In. split; [exact Ho|]. apply Z.eqb_eq.
                   unfold cur_strength. destruct (Con o Ho) as [->|Co]; [split; [now apply idx_lt|]; split; [exact B1|]; rewrite <- (Put o Ho); exact B2| |].
                   --- now rewrite (Hm h (or_introl eq_refl)).
                   --- rewrite (Hm' o Co). exact B3.
                ** destruct (hand_of i H1) as (o & Ho & <-). exists o. split; [reflexivity|]. apply filter_In. split; [exact Ho|]. apply Z.eqb_eq.
                   pose proof Bk as [(K1 & K2 & _) _]. destruct (hand_of k K1) as (q & Hq & <-). apply (Bo q Hq) in Bk. destruct Bk as (_ & _ & Bk). destruct (In_hand o Ho H2) as [Ro _]. destruct (In_hand q Hq K2) as [Rq _].
                   unfold cur_strength. replace (mk (h_idx o)) with false; [lia|]. symmetry. destruct (Cases o Ho) as [Co|[->|Co]]; [|now apply Hm; left|now apply Hm'].
                   apply not_true_is_false. intros X. apply (Hmk o Co H2) in X. contradiction.
        * assert (No : forall i, ~ contends d L i).
          { intros i C. pose proof C as (Hi & Ii & Li). destruct (hand_of i Hi) as (o & Ho & <-). destruct (In_hand o Ho Ii) as [_ Wo]. destruct (Con o Ho C) as [->|Co]; [congruence|].
            destruct (S2 o Co) as [T1 _]. apply hle_spec in T1. rewrite (Out h Hh Ih) in T1. lia. }
          apply paid_folded; [exact No|now apply NoDup_map_filter| | | |exact Next].
          -- exists (h_idx h). split; [now apply idx_lt|]. rewrite <- (Put h Hh). lia.
          -- intros i Hi Li. destruct (hand_of i Hi) as (o & Ho & <-). rewrite <- (Put o Ho) in *. destruct (Cases o Ho) as [Co|[->|Co]]; [specialize (HL o Co); lia|lia|].
             destruct (S2 o Co) as [T1 _]. apply hle_spec in T1. destruct (sd_in d (h_idx o)) eqn:Io; [destruct (In_hand o Ho Io) as [_ Wo]; rewrite (Out h Hh Ih) in T1; lia|]. rewrite (Out h Hh Ih), (Out o Ho Io) in T1. lia.
          -- intros i. unfold eligible_for. rewrite in_map_iff, (Out h Hh Ih). split.
             ++ intros (o & <- & Ho). apply filter_In in Ho. destruct Ho as [Ho E]. apply Z.eqb_eq in E. split; [now apply idx_lt|]. destruct (sd_in d (h_idx o)) eqn:Io; [right|now left].
                destruct (In_hand o Ho Io) as [_ Wo]. unfold cur_strength in E. destruct (mk (h_idx o)) eqn:Mo; [|lia].
                destruct (Cases o Ho) as [Co|[->|Co]]; [now apply (Hmk o Co Io)|congruence|rewrite (Hm' o Co) in Mo; discriminate].
             ++ intros [Hi X]. destruct (hand_of i Hi) as (o & Ho & <-). exists o. split; [reflexivity|]. apply filter_In. split; [exact Ho|]. apply Z.eqb_eq. unfold cur_strength.
                destruct (sd_in d (h_idx o)) eqn:Io; [|rewrite (Out o Ho Io); now destruct (mk (h_idx o))]. destruct X as [X|X]; [discriminate|].
                destruct (In_hand o Ho Io) as [_ Wo]. destruct (Cases o Ho) as [Co|[->|Co]]; [|congruence|].
                ** apply (Hmk o Co Io) in X. now rewrite X.
                ** destruct (S2 o Co) as [T1 _]. apply hle_spec in T1. rewrite (Out h Hh Ih) in T1. lia.
  Qed.
End Paid.

Lemma show_paid d worst st cm n : List.length st = n -> List.length cm = n -> sd_players d = n ->
  (forall i, (i < n)%nat -> sd_put d i = nth i cm 0) ->
  (forall i, (i < n)%nat -> sd_in d i = true -> nth i st 0 = sd_rank d i /\ nth i st 0 < worst) ->
  (forall i, (i < n)%nat -> sd_in d i = false -> nth i st 0 = worst) ->
  paid_pots d 0 (show_pots worst st cm).
Proof.
  intros Hs Hc Hn P I O. assert (Hl : List.length cm = List.length st) by congruence.
  assert (X : forall h, In h (show_hands st cm) -> (h_idx h < n)%nat /\ h_strength h = nth (h_idx h) st 0 /\ h_commit h = nth (h_idx h) cm 0).
  { intros h Hh. apply show_in in Hh; [|exact Hl]. now rewrite Hs in Hh. }
  unfold show_pots. apply (dealt_paid d worst (show_hands st cm)) with (pre := []).
  - now apply show_nodup.
  - rewrite Hn, <- Hs. now apply show_idx.
  - now apply show_stable.
  - intros h Hh. destruct (X h Hh) as (H1 & H2 & H3). now rewrite P.
  - intros h Hh Ih. destruct (X h Hh) as (H1 & H2 & H3). rewrite H2. now apply I.
  - intros h Hh Ih. destruct (X h Hh) as (H1 & H2 & H3). rewrite H2. now apply O.
  - reflexivity.
  - lia.
  - intros o [].
  - now left.
  - reflexivity.
  - intros o [].
Qed.

(** ** Facts about the specification *)
Lemma same_members {A} (w w' : list A) (P : A -> Prop) : NoDup w -> NoDup w' -> (forall i, In i w <-> P i) -> (forall i, In i w' <-> P i) -> Permutation w w'.
Proof. intros N N' H H'. apply NoDup_Permutation; [exact N|exact N'|]. intros i. now rewrite H, H'. Qed.
Lemma same_pot d a b w w' r r' : Permutation w w' -> odd_chips r = odd_chips r' -> (forall i, share r i = share r' i) ->
  odd_chips ((w, chips_between d a b) :: r) = odd_chips ((w', chips_between d a b) :: r') /\
  forall i, share ((w, chips_between d a b) :: r) i = share ((w', chips_between d a b) :: r') i.
Proof.
  intros P I1 I2. pose proof (Permutation_length P) as Pl. unfold odd_chips, share in *. cbn [map fst snd]. split.
  - rewrite !sumZ_cons, I1, Pl. reflexivity.
  - intros i. rewrite !sumZ_cons, (I2 i), Pl. f_equal.
    replace (existsb (Nat.eqb i) w') with (existsb (Nat.eqb i) w); [reflexivity|].
    apply eq_true_iff_eq. rewrite !existsb_in. split; apply Permutation_in; [exact P|now symmetry].
Qed.
(** the specification determines the shares and the odd chips *)
Lemma paid_pots_unique d a p : paid_pots d a p -> forall p', paid_pots d a p' ->
  odd_chips p = odd_chips p' /\ forall i, share p i = share p' i.
Proof.
  induction 1 as [a N|a w b r Nd (k & Bk & Ek) Hb Hw Hr IH|a w b r No Nd (k & Hk & Lk & Ek) Hb Hw Hr IH]; intros p' H'.
  - destruct H' as [a' N'|a' w' b' r' Nd' (k' & Bk' & Ek') Hb' Hw' Hr'|a' w' b' r' No' Nd' (k' & Hk' & Lk' & Ek') Hb' Hw' Hr']; [auto| |].
    + exfalso. destruct Bk' as [(B1 & _ & B3) _]. specialize (N k' B1). lia.
    + exfalso. specialize (N k' Hk'). lia.
  - destruct H' as [a' N'|a' w' b' r' Nd' (k' & Bk' & Ek') Hb' Hw' Hr'|a' w' b' r' No' Nd' (k' & Hk' & Lk' & Ek') Hb' Hw' Hr'].
    + exfalso. destruct Bk as [(B1 & _ & B3) _]. specialize (N' k B1). lia.
    + assert (Eb : b' = b) by (specialize (Hb k' Bk'); specialize (Hb' k Bk); lia). rewrite Eb in *. destruct (IH r' Hr') as [I1 I2].
      apply same_pot; [|exact I1|exact I2]. eapply same_members; [exact Nd|exact Nd'|exact Hw|exact Hw'].
    + exfalso. apply (No' k). apply Bk.
  - destruct H' as [a' N'|a' w' b' r' Nd' (k' & Bk' & Ek') Hb' Hw' Hr'|a' w' b' r' No' Nd' (k' & Hk' & Lk' & Ek') Hb' Hw' Hr'].
    + exfalso. specialize (N' k Hk). lia.
    + exfalso. apply (No k'). apply Bk'.
    + assert (Eb : b' = b) by (specialize (Hb k' Hk' Lk'); specialize (Hb' k Hk Lk); lia). rewrite Eb in *. destruct (IH r' Hr') as [I1 I2].
      apply same_pot; [|exact I1|exact I2]. eapply same_members; [exact Nd|exact Nd'|exact Hw|exact Hw'].
Qed.
Definition chips_above (d : showdown) (a : Z) : Z := sumZ (map (fun i => Z.max 0 (sd_put d i - a)) (seq 0 (sd_players d))).
Lemma chips_above_step d a b : a <= b -> chips_between d a b + chips_above d b = chips_above d a.
Proof. intros H. unfold chips_between, chips_above. induction (seq 0 (sd_players d)) as [|i l IH]; [reflexivity|]. cbn [map]. rewrite !sumZ_cons. lia. Qed.
Lemma chips_above_none d a : (forall i, (i < sd_players d)%nat -> sd_put d i <= a) -> chips_above d a = 0.
Proof.
  intros H. unfold chips_above. assert (X : forall l, incl l (seq 0 (sd_players d)) -> sumZ (map (fun i => Z.max 0 (sd_put d i - a)) l) = 0).
  { induction l as [|i l IH]; intros Hl; [reflexivity|]. cbn [map]. rewrite sumZ_cons, IH by (intros x Hx; apply Hl; now right). assert (Hi := Hl i (or_introl eq_refl)). apply in_seq in Hi. specialize (H i ltac:(lia)). lia. }
  apply X, incl_refl.
Qed.
(** every chip is in a pot *)
Lemma paid_total d a p : paid_pots d a p -> sumZ (map snd p) = chips_above d a.
Proof.
  induction 1 as [a N|a w b r Nd (k & Bk & Ek) Hb Hw Hr IH|a w b r No Nd (k & Hk & Lk & Ek) Hb Hw Hr IH]; [now rewrite chips_above_none| |]; cbn [map snd]; rewrite sumZ_cons, IH; apply chips_above_step; [|lia].
  destruct Bk as [(_ & _ & B3) _]. lia.
Qed.
Lemma paid_above d a p : paid_pots d a p -> (forall i, ~ contends d a i) ->
  forall w, NoDup w -> (forall i, In i w <-> (i < sd_players d)%nat /\ (sd_in d i = false \/ ~ left_over d i)) ->
  forall i, In i w -> share p i = sumZ (map (fun x => x / Z.of_nat (List.length w)) (map snd p)).
Proof.
  induction 1 as [a N|a w b r Nd (k & Bk & Ek) Hb Hw Hr IH|a w b r No Nd (k & Hk & Lk & Ek) Hb Hw Hr IH]; intros Nc w0 N0 W0 i Hi; [reflexivity|exfalso; apply (Nc k); apply Bk|].
  unfold share. cbn [map fst snd]. rewrite !sumZ_cons. fold (share r i).
  assert (P : Permutation w w0) by (eapply same_members; [exact Nd|exact N0|exact Hw|exact W0]). rewrite (Permutation_length P).
  rewrite (proj2 (existsb_in w i) (Permutation_in _ (Permutation_sym P) Hi)). f_equal. apply IH; [|exact N0|exact W0|exact Hi].
  intros j (J1 & J2 & J3). apply (No j). split; [exact J1|]. split; [exact J2|lia].
Qed.
(** folded players: nothing of the pots up to the largest amount of a player in the hand, equal shares of what is above *)
Lemma paid_excess d a p : paid_pots d a p -> forall m, a <= m -> (forall i, (i < sd_players d)%nat -> sd_in d i = true -> sd_put d i <= m) ->
  (exists i, (i < sd_players d)%nat /\ sd_in d i = true /\ sd_put d i = m) ->
  exists excess, sumZ excess = chips_above d m /\ Forall (fun x => 0 < x) excess /\
    forall w, NoDup w -> (forall i, In i w <-> (i < sd_players d)%nat /\ (sd_in d i = false \/ ~ left_over d i)) ->
    forall i, (i < sd_players d)%nat -> sd_in d i = false -> share p i = sumZ (map (fun x => x / Z.of_nat (List.length w)) excess).
Proof.
  intros H. induction H as [a N|a w b r Nd (k & Bk & Ek) Hb Hw Hr IH|a w b r No Nd (k & Hk & Lk & Ek) Hb Hw Hr IH]; intros m Hm Hin Hex.
  - exists []. split; [symmetry; apply chips_above_none; intros i Hi; specialize (N i Hi); lia|]. split; [constructor|]. reflexivity.
  - pose proof Bk as [(B1 & B2 & B3) _]. destruct (IH m) as (ex & E1 & E2 & E3); [specialize (Hin k B1 B2); lia|exact Hin|exact Hex|].
    exists ex. split; [exact E1|]. split; [exact E2|]. intros w0 N0 W0 i Hi Ii. rewrite <- (E3 w0 N0 W0 i Hi Ii). unfold share. cbn [map fst snd]. rewrite sumZ_cons. fold (share r i).
    destruct (existsb (Nat.eqb i) w) eqn:E; [|lia]. exfalso. apply existsb_in, Hw in E. destruct E as [[(_ & E & _) _]|(_ & E & _)]; congruence.
  - assert (a = m). { destruct Hex as (i & Hi & Ii & Ei). destruct (Z_lt_dec a m); [|lia]. exfalso. apply (No i). split; [exact Hi|]. split; [exact Ii|lia]. } subst m.
    assert (Pp : paid_pots d a ((w, chips_between d a b) :: r)) by (apply paid_folded; eauto).
    exists (map snd ((w, chips_between d a b) :: r)). split; [now apply paid_total|]. split.
    + assert (X : forall a p, paid_pots d a p -> Forall (fun x => 0 < x) (map snd p)).
      { clear. assert (Cp : forall a b k, (k < sd_players d)%nat -> a < b -> sd_put d k = b -> 0 < chips_between d a b).
        { intros a b k Hk Hab Ek. unfold chips_between. assert (In k (seq 0 (sd_players d))) by (apply in_seq; lia). induction (seq 0 (sd_players d)) as [|x l IH]; [contradiction|]. cbn [map]. rewrite sumZ_cons.
          assert (P : 0 <= sumZ (map (fun i => Z.min (sd_put d i) b - Z.min (sd_put d i) a) l)) by (clear - Hab; induction l as [|x l IH]; [cbn; lia|]; cbn [map]; rewrite sumZ_cons; lia).
          destruct H as [->|H]; [lia|]. specialize (IH H). lia. }
        induction 1 as [a N|a w b r Nd (k & Bk & Ek) Hb Hw Hr IH|a w b r No Nd (k & Hk & Lk & Ek) Hb Hw Hr IH]; cbn [map snd]; constructor; try exact IH.
        - destruct Bk as [(B1 & _ & B3) _]. apply (Cp a b k); [exact B1|lia|exact Ek].
        - apply (Cp a b k); [exact Hk|lia|exact Ek]. }
      exact (X _ _ Pp).
    + intros w0 N0 W0 i Hi Ii. apply (paid_above d a _ Pp No w0 N0 W0). apply W0. split; [exact Hi|now left].
Qed.

(** ** computing the pots *)
Definition above (d : showdown) (a : Z) : list nat := filter (fun i => a <? sd_put d i) (seq 0 (sd_players d)).
Fixpoint paid_fun (fuel : nat) (d : showdown) (a : Z) : list (list nat * Z) :=
  match fuel with
  | O => []
  | S f =>
    match winners_fun d a with
    | [] => match above d a with
            | [] => []
            | l => let b := least (map (sd_put d) l) in
                   (filter (fun i => negb (sd_in d i) || negb (left_overb d i)) (seq 0 (sd_players d)), chips_between d a b) :: paid_fun f d b
            end
    | (k :: _) as w =>
      let b := least (map (sd_put d) w) in
      (filter (fun i => existsb (Nat.eqb i) w || (sd_in d i && (sd_put d i <=? a) && left_overb d i && (sd_rank d i =? sd_rank d k))) (seq 0 (sd_players d)), chips_between d a b)
      :: paid_fun f d b
    end
  end.
Lemma above_in d a i : In i (above d a) <-> (i < sd_players d)%nat /\ a < sd_put d i.
Proof. unfold above. rewrite filter_In, in_seq. lia. Qed.
Lemma above_shrink d a b : a < b -> (exists i, (i < sd_players d)%nat /\ sd_put d i = b) -> (List.length (above d b) < List.length (above d a))%nat.
Proof. intros H (i & Hi & Ei). unfold above. apply filter_shrink; [intros x; lia|]. exists i. split; [apply in_seq; lia|lia]. Qed.
Lemma paid_fun_ok d : forall fuel a, (List.length (above d a) < fuel)%nat -> paid_pots d a (paid_fun fuel d a).
Proof.
  induction fuel as [|f IH]; intros a H; [lia|]. cbn [paid_fun]. destruct (winners_fun d a) as [|k w] eqn:W.
  - pose proof (winners_fun_none d a W) as No. destruct (above d a) as [|x l] eqn:A.
    + apply paid_none. intros i Hi. destruct (Z_le_dec (sd_put d i) a) as [L|L]; [exact L|exfalso]. assert (X : In i (above d a)) by (apply above_in; lia). rewrite A in X. destruct X.
    + cbv zeta. set (b := least (map (sd_put d) (x :: l))).
      assert (B : In b (map (sd_put d) (x :: l))) by (apply least_in; discriminate). apply in_map_iff in B. destruct B as (k & Ek & Hk). rewrite <- A in Hk. apply above_in in Hk.
      assert (Hb : forall i, (i < sd_players d)%nat -> a < sd_put d i -> b <= sd_put d i).
      { intros i Hi Li. apply least_le. apply (in_map (sd_put d) (x :: l) i). rewrite <- A. apply above_in. auto. }
      apply paid_folded; [exact No|apply NoDup_filter, seq_NoDup|exists k; lia|exact Hb| |].
      * intros i. rewrite filter_In, in_seq. pose proof (left_overb_ok d i) as X. destruct (sd_in d i), (left_overb d i); cbn [negb orb]; split; intros [Y1 Y2]; try discriminate; (split; [lia|]); auto.
        -- destruct Y2 as [Y2|Y2]; [discriminate|]. exfalso. apply Y2. now apply X.
        -- right. intros Z. apply X in Z. discriminate.
      * apply IH. assert (List.length (above d b) < List.length (above d a))%nat by (apply above_shrink; [lia|exists k; lia]). rewrite A in *. lia.
  - cbv zeta. set (b := least (map (sd_put d) (k :: w))). pose proof (winners_fun_ok d a) as [Nd Wk]. rewrite W in Wk, Nd.
    assert (B : In b (map (sd_put d) (k :: w))) by (apply least_in; discriminate). apply in_map_iff in B. destruct B as (q & Eq & Hq). apply Wk in Hq.
    assert (Bk : best_above d a k) by (apply Wk; now left).
    apply paid_next; [apply NoDup_filter, seq_NoDup|exists q; auto|intros i Hi; exact (least_le _ _ (in_map (sd_put d) (k :: w) i (proj2 (Wk i) Hi)))| |].
    + intros i. rewrite filter_In, in_seq, orb_true_iff, existsb_in, Wk. split.
      * intros [Hi [X|X]]; [now left|right]. split; [lia|]. split; [destruct (sd_in d i); [reflexivity|discriminate X]|]. split; [lia|]. split; [apply left_overb_ok; destruct (left_overb d i); [reflexivity|lia]|]. exists k. split; [exact Bk|lia].
      * intros [X|(H1 & H2 & H3 & H4 & m & Bm & Em)]; [split; [destruct X as [(X & _) _]; lia|now left]|]. split; [lia|right]. apply left_overb_ok in H4. rewrite H2, H4.
        assert (sd_rank d m = sd_rank d k) by (destruct Bm as [Bm1 Bm2], Bk as [Bk1 Bk2]; specialize (Bm2 k Bk1); specialize (Bk2 m Bm1); lia). lia.
    + apply IH. destruct Hq as [(Q1 & Q2 & Q3) _]. assert (List.length (above d b) < List.length (above d a))%nat by (apply above_shrink; [lia|exists q; lia]). lia.
Qed.
Lemma paid_exists d a : exists p, paid_pots d a p.
Proof. exists (paid_fun (S (List.length (above d a))) d a). apply paid_fun_ok. lia. Qed.
