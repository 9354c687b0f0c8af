(** * DeckProofs: histories of decks *)
From Coq Require Import Permutation ZifyBool ZifyNat Arith.
From Verif Require Import PyBase CardModel CardSpec DeckSpec CardProofs.

Lemma shuffle_wf s r rnd d : deck_wf s r d -> deck_wf s r (deck_shuffle rnd d).
Proof. intros [? ? ? ? ? ?]. split; assumption. Qed.
Lemma draw_wf s r n d : deck_wf s r d -> deck_wf s r (snd (deck_draw n d)).
Proof. rewrite deck_draw_spec. intros [? ? ? ? ? ?]. split; assumption. Qed.
Lemma untrick_wf s r d : deck_wf s r d -> deck_wf s r (deck_untrick d).
Proof. intros [? ? ? ? ? ?]. split; try assumption. discriminate. Qed.
Lemma trick_wf s r top d d' : deck_wf s r d -> deck_trick top d = Ok d' -> deck_wf s r d'.
Proof.
  intros W H. unfold deck_trick in H.
  destruct (map_res (fun c => index_of c (d_full d) 0) top) as [idcs|] eqn:E; [|discriminate].
  cbn in H. injection H as <-. destruct (trick_idcs _ _ _ _ _ W E) as [H1 _].
  destruct W as [? ? Hns Hnr Hf _]. split; try assumption. cbn. intros _. split; [exact H1|].
  rewrite Hns, Hnr. f_equal. f_equal. lia.
Qed.

Lemma deck_full_inj s r d x y : deck_wf s r d -> In x (d_full d) -> In y (d_full d) ->
  c_int x = c_int y -> x = y.
Proof.
  intros W Hx Hy E. rewrite (dw_full _ _ _ W) in Hx, Hy.
  pose proof (dw_s _ _ _ W). pose proof (dw_r _ _ _ W).
  apply in_deck_cards in Hx; [|lia]. apply in_deck_cards in Hy; [|lia].
  destruct Hx as (i & j & Hi & Hj & ->), Hy as (i' & j' & Hi' & Hj' & ->).
  cbn in E. apply layout_inj in E; [|lia..]. now destruct E as [-> ->].
Qed.

Lemma at_idcs_in full idcs c : In c (at_idcs full idcs) -> In c full.
Proof.
  unfold at_idcs. rewrite in_flat_map. intros [i [_ H]].
  destruct (nth_error full i) as [x|] eqn:E; [|destruct H].
  destruct H as [<-|[]]. eapply nth_error_In; eauto.
Qed.

Lemma map_int_inj s r d a : deck_wf s r d -> forall b,
  incl a (d_full d) -> incl b (d_full d) -> map c_int a = map c_int b -> a = b.
Proof.
  intros W. induction a as [|x a IH]; intros [|y b] Ha Hb E; cbn in E; try discriminate; [reflexivity|].
  injection E as E1 E2. f_equal.
  - apply (deck_full_inj s r d); [exact W|apply Ha; now left|apply Hb; now left|exact E1].
  - apply IH; [|intros z Hz; apply Hb; now right|exact E2]. intros z Hz; apply Ha; now right.
Qed.

(** when tricked with distinct cards, top ++ bottom is a permutation of the deck *)
Lemma tricked_perm s r d : deck_wf s r d -> d_tricked d = true -> NoDup (d_top d) ->
  Permutation (at_idcs (d_full d) (d_top d) ++ at_idcs (d_full d) (d_bottom d)) (d_full d).
Proof.
  intros W T N. destruct (dw_top _ _ _ W T) as [F B].
  assert (L : List.length (d_full d) = (r * s)%nat)
    by (rewrite (dw_full _ _ _ W); apply deck_cards_length).
  rewrite <- (map_nth_seq (d_full d) (mkCard 0 0 0)) at 3.
  rewrite !(at_idcs_map _ _ (mkCard 0 0 0)).
  - rewrite <- map_app. apply Permutation_map. rewrite B, L. now apply top_bottom_perm.
  - rewrite B, L. apply Forall_forall. intros x Hx. apply filter_In in Hx.
    destruct Hx as [Hx _]. apply in_seq in Hx. lia.
  - rewrite L. exact F.
Qed.

Lemma shuffle_perm s r rnd d : deck_wf s r d -> (d_tricked d = true -> NoDup (d_top d)) ->
  Permutation (d_cards (deck_shuffle rnd d)) (deck_cards s r).
Proof.
  intros W N. unfold deck_shuffle. cbn [d_cards].
  destruct (d_tricked d) eqn:T; cbn [andb];
    [|rewrite <- (dw_full _ _ _ W); apply Permutation_sym, shuf_perm].
  destruct (negb (List.length (d_top d) =? 0)%nat && negb (List.length (d_bottom d) =? 0)%nat).
  - rewrite <- (dw_full _ _ _ W).
    eapply perm_trans; [|apply (tricked_perm s r); [exact W|exact T|now apply N]].
    apply Permutation_app_head, Permutation_sym, shuf_perm.
  - rewrite <- (dw_full _ _ _ W). apply Permutation_sym, shuf_perm.
Qed.

Lemma trick_nodup_idcs s r d top idcs : deck_wf s r d ->
  map_res (fun c => index_of c (d_full d) 0) top = Ok idcs ->
  NoDup (map c_int top) -> NoDup idcs.
Proof.
  intros W H N. destruct (trick_idcs _ _ _ _ _ W H) as [F E].
  assert (L : List.length (d_full d) = (r * s)%nat)
    by (rewrite (dw_full _ _ _ W); apply deck_cards_length).
  rewrite <- E in N. rewrite (at_idcs_map _ _ (mkCard 0 0 0)) in N
    by (rewrite L; exact F).
  rewrite map_map in N. eapply NoDup_map_inv; exact N.
Qed.

(** ** Invariant of deck histories *)
Record deck_inv (s r : nat) (p : deck * list card) : Prop := {
  di_wf : deck_wf s r (fst p);
  di_nodup : d_tricked (fst p) = true -> NoDup (d_top (fst p));
  di_perm : Permutation (snd p ++ d_cards (fst p)) (deck_cards s r)
}.

Lemma deck_apply_inv s r p o : deck_inv s r p ->
  match o with DTrick cs => NoDup (map c_int cs) | _ => True end ->
  deck_inv s r (deck_apply p o).
Proof.
  destruct p as [d drawn]. intros [W N P] Ho. cbn [fst snd] in *.
  destruct o as [n|rnd|cs|]; cbn [deck_apply].
  - pose proof (draw_wf s r n d W) as W'.
    destruct (deck_draw n d) as [cs d'] eqn:E. cbn [snd] in W'.
    rewrite deck_draw_spec in E. injection E as <- <-. split; [exact W'|exact N|].
    cbn [fst snd set_cards d_cards]. rewrite <- app_assoc, firstn_skipn. exact P.
  - split; [now apply shuffle_wf|exact N|]. now apply shuffle_perm.
  - destruct (deck_trick cs d) as [d'|e] eqn:E; [|now split].
    pose proof (trick_wf _ _ _ _ _ W E) as W'. unfold deck_trick in E.
    destruct (map_res (fun c => index_of c (d_full d) 0) cs) as [idcs|] eqn:E2; [|discriminate].
    cbn in E. injection E as <-. split; [exact W'| |exact P].
    intros _. cbn. eapply trick_nodup_idcs; eauto.
  - split; [now apply untrick_wf|discriminate|exact P].
Qed.

Lemma deck_run_inv s r ops : forall p, deck_inv s r p -> distinct_tricks ops ->
  deck_inv s r (fold_left deck_apply ops p).
Proof.
  induction ops as [|o ops IH]; intros p I D; [exact I|].
  inversion D as [|? ? Ho D']; subst. cbn. apply IH; [|exact D']. now apply deck_apply_inv.
Qed.

Lemma new_deck_inv rnd s r d : Deck rnd s r = Ok d ->
  deck_inv (Z.to_nat s) (Z.to_nat r) (d, []).
Proof.
  intros H. destruct (Deck_wf _ _ _ _ H) as (W & T & C & _ & _).
  split; cbn [fst snd]; [exact W|congruence|]. rewrite C. apply Permutation_sym, shuf_perm.
Qed.

(** every history keeps well-formedness, distinct or not *)
Lemma deck_run_wf s r ops : forall p, deck_wf s r (fst p) ->
  deck_wf s r (fst (fold_left deck_apply ops p)).
Proof.
  induction ops as [|o ops IH]; intros [d dr] W; [exact W|]. cbn. apply IH.
  destruct o as [n|rnd|cs|]; cbn.
  - pose proof (draw_wf s r n d W) as W'. destruct (deck_draw n d). exact W'.
  - now apply shuffle_wf.
  - destruct (deck_trick cs d) eqn:E; [|exact W]. eapply trick_wf; eauto.
  - now apply untrick_wf.
Qed.

(** ** Tricking *)
Lemma trick_total s r d top : deck_wf s r d -> incl top (d_full d) ->
  exists d', deck_trick top d = Ok d'.
Proof.
  intros W H. unfold deck_trick.
  destruct (map_res (fun c => index_of c (d_full d) 0) top) as [idcs|e] eqn:E; [cbn; eauto|].
  apply map_res_err in E. destruct E as [c [Hc E]].
  pose proof (index_of_spec c (d_full d) 0) as S. rewrite E in S. destruct S as [_ S].
  exfalso. apply S, in_map, H, Hc.
Qed.

Lemma trick_bad s r d top c : deck_wf s r d -> In c top -> ~ In (c_int c) (map c_int (d_full d)) ->
  deck_trick top d = Err ValueError.
Proof.
  intros W H Hn. unfold deck_trick.
  destruct (map_res (fun c => index_of c (d_full d) 0) top) as [idcs|e] eqn:E.
  - exfalso. destruct (trick_idcs _ _ _ _ _ W E) as [_ E2].
    apply Hn. apply (in_map c_int) in H. rewrite <- E2 in H.
    apply in_map_iff in H. destruct H as [x [<- Hx]]. apply in_map. eapply at_idcs_in; eauto.
  - apply map_res_err in E. destruct E as [x [_ E]].
    pose proof (index_of_spec x (d_full d) 0) as S. rewrite E in S. cbn. now destruct S as [-> _].
Qed.

(** same tricking data *)
Definition same_trick (d d' : deck) : Prop :=
  d_full d = d_full d' /\ d_tricked d = d_tricked d' /\ d_top d = d_top d'
  /\ d_bottom d = d_bottom d'.

Lemma only_draw_shuffle_same ops : forall p, only_draw_shuffle ops ->
  same_trick (fst p) (fst (fold_left deck_apply ops p)).
Proof.
  induction ops as [|o ops IH]; intros [d dr] H; [repeat split|].
  inversion H as [|? ? Ho H']; subst. cbn [fold_left].
  specialize (IH (deck_apply (d, dr) o) H').
  destruct o as [n|rnd|cs|]; try destruct Ho; cbn [deck_apply] in *;
    [rewrite deck_draw_spec in *; exact IH|exact IH].
Qed.

Lemma trick_shuffle s r d top d1 ops rnd :
  deck_wf s r d -> incl top (d_full d) -> NoDup (map c_int top) ->
  (List.length top < List.length (d_full d))%nat ->
  deck_trick top d = Ok d1 -> only_draw_shuffle ops ->
  exists rest,
    d_cards (deck_shuffle rnd (fst (deck_run d1 ops))) = top ++ rest /\
    Permutation (top ++ rest) (d_full d).
Proof.
  intros W Hin Hnd Hlen H Hops.
  pose proof (trick_wf _ _ _ _ _ W H) as W1.
  destruct (only_draw_shuffle_same ops (d1, []) Hops) as (Ef & Et & Etop & Ebot).
  cbn [fst] in Ef, Et, Etop, Ebot. fold (deck_run d1 ops) in *.
  unfold deck_trick in H.
  destruct (map_res (fun c => index_of c (d_full d) 0) top) as [idcs|] eqn:E; [|discriminate].
  pose proof (trick_nodup_idcs _ _ _ _ _ W E Hnd) as Hni.
  destruct (trick_idcs _ _ _ _ _ W E) as [Fi Mi].
  cbn in H. injection H as <-. cbn in Ef, Et, Etop, Ebot.
  assert (Htop : at_idcs (d_full d) idcs = top).
  { apply (map_int_inj s r d); [exact W| |exact Hin|exact Mi].
    intros x Hx. eapply at_idcs_in; eauto. }
  unfold deck_shuffle. cbn [d_cards]. rewrite <- Ef, <- Et, <- Etop, <- Ebot. cbn [andb].
  match goal with W1 : deck_wf s r ?dd |- _ => set (d1 := dd) in * end.
  assert (P : Permutation (at_idcs (d_full d) idcs ++ at_idcs (d_full d) (d_bottom d1)) (d_full d)).
  { apply (tricked_perm s r d1); [exact W1|reflexivity|exact Hni]. }
  rewrite Htop in P. fold (d_bottom d1).
  destruct top as [|t0 top'].
  - assert (idcs = []) as -> by (cbn in E; injection E as <-; reflexivity).
    cbn. eexists. split; [reflexivity|]. apply Permutation_sym, shuf_perm.
  - assert (Hb : d_bottom d1 <> []).
    { intros Hb. rewrite Hb in P. cbn [at_idcs flat_map] in P. rewrite app_nil_r in P.
      apply Permutation_length in P. lia. }
    destruct idcs as [|i0 idcs']; [cbn in Htop; discriminate|].
    change (filter (fun i : nat => negb (existsb (Nat.eqb i) (i0 :: idcs')))
         (seq 0 (Z.to_nat (d_num_ranks d * d_num_suits d)))) with (d_bottom d1).
    destruct (d_bottom d1) as [|b0 bs] eqn:Eb; [congruence|].
    cbn [List.length Nat.eqb negb andb]. rewrite Htop. rewrite <- Eb in *.
    eexists. split; [reflexivity|].
    eapply perm_trans; [|exact P]. apply Permutation_app_head, Permutation_sym, shuf_perm.
Qed.
