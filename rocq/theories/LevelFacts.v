(** * LevelFacts: hands in which everybody starts with the same number of chips *)
From Coq Require Import ZifyBool ZifyNat Arith.
From Verif Require Import PyBase PyFacts CardModel EvalModel EngineModel EngineSpec EngineFacts BetFacts MoneyFacts PropRound HandEnd PropShow PropTerm SolventSpec.

(** all players left own the same number of chips, bet or not; all put the same into the streets before; and who has not
    acted on this street can still bet *)
Record level (c : config) (s : state) : Prop := mkLevel {
  lv_nonneg : forall i, (i < num_players c)%nat -> is_active s i -> 0 <= stack_of s i;
  lv_total : exists t, forall i, (i < num_players c)%nat -> is_active s i -> stack_of s i + committed s i = t;
  lv_base : exists B, forall i, (i < num_players c)%nat -> is_active s i -> committed s i - street_committed s i = B;
  lv_wait : forall i, (i < num_players c)%nat -> is_active s i -> nth i (street_option s) false = false -> 0 < stack_of s i
}.
Lemma after_bet_level c s b s1 : money c s -> in_progress s -> level c s -> after_bet c s b = Some s1 -> level c s1.
Proof.
  intros M Hp [V1 (t & V2) (B & V3) V4] H. apply after_bet_effect in H. destruct H as (a & call & mi & ma & bet & folds & E).
  pose proof (be_turn _ _ _ _ _ _ _ _ _ _ E) as Ta. pose proof (money_limits c s a call mi ma M Ta (be_sizes _ _ _ _ _ _ _ _ _ _ E)) as L.
  pose proof (mo_wf _ _ M) as Iw. destruct (wf_turn _ _ Iw a Ta) as [La Ea].
  set (x := Z.min (nth a (stacks s) 0) bet) in *.
  assert (Ec : forall i, committed s1 i = committed s i + if Nat.eqb i a then x else 0).
  { intros i. unfold committed. rewrite (be_commits _ _ _ _ _ _ _ _ _ _ E), add_at_nth by (rewrite (wf_commits _ _ Iw); exact La).
    destruct (Nat.eqb_spec i a) as [->|]; lia. }
  assert (Es : forall i, stack_of s1 i = stack_of s i - if Nat.eqb i a then x else 0).
  { intros i. unfold stack_of. rewrite (be_stacks _ _ _ _ _ _ _ _ _ _ E), add_at_nth by (rewrite (wf_stacks _ _ Iw); exact La).
    destruct (Nat.eqb_spec i a) as [->|]; lia. }
  assert (Et : forall i, street_committed s1 i = street_committed s i + if Nat.eqb i a then x else 0).
  { intros i. unfold street_committed. rewrite (be_street_commits _ _ _ _ _ _ _ _ _ _ E), add_at_nth by (rewrite (wf_street _ _ Iw); exact La).
    destruct (Nat.eqb_spec i a) as [->|]; lia. }
  assert (Ai : forall i, is_active s1 i -> is_active s i).
  { intros i. unfold is_active. rewrite (be_active _ _ _ _ _ _ _ _ _ _ E). destruct folds; [|auto].
    destruct (Nat.eq_dec i a) as [->|Hi]; [now intros _|]. now rewrite upd_nth_other by congruence. }
  split.
  - intros i Hi Hx. rewrite Es. specialize (V1 i Hi (Ai i Hx)). destruct (Nat.eqb_spec i a) as [->|]; unfold x; unfold stack_of in *; lia.
  - exists t. intros i Hi Hx. rewrite Es, Ec. specialize (V2 i Hi (Ai i Hx)). destruct (Nat.eqb i a); lia.
  - exists B. intros i Hi Hx. rewrite Et, Ec. specialize (V3 i Hi (Ai i Hx)). destruct (Nat.eqb i a); lia.
  - intros i Hi Hx Hf. rewrite Es. pose proof (be_opt2 _ _ _ _ _ _ _ _ _ _ E i) as Q. rewrite upd_nth in Q by (rewrite (wf_option _ _ Iw); exact La).
    destruct (Nat.eqb_spec i a) as [->|]; [rewrite (Q eq_refl) in Hf; discriminate Hf|].
    specialize (V4 i Hi (Ai i Hx)). destruct (nth i (street_option s) false); [rewrite (Q eq_refl) in Hf; discriminate Hf|]. specialize (V4 eq_refl). lia.
Qed.
(** players left who have no chips at the end of a street have company *)
Lemma agreed_all_in c s : level c s -> List.length (active s) = num_players c -> List.length (stacks s) = num_players c -> List.length (street_commits s) = num_players c ->
  all_agreed s = true -> (exists i, (i < num_players c)%nat /\ is_active s i /\ stack_of s i = 0) ->
  forall j, (j < num_players c)%nat -> is_active s j -> stack_of s j = 0.
Proof.
  intros [V1 (t & V2) (B & V3) V4] La Ls Lt Ag (i & Hi & Ai & Zi) j Hj Aj.
  unfold all_agreed in Ag. apply andb_true_iff in Ag. destruct Ag as [_ Ag]. rewrite all_true_spec in Ag.
  assert (Lc : List.length (combine (combine (street_commits s) (stacks s)) (active s)) = num_players c) by (rewrite !combine_length; lia).
  specialize (Ag j). rewrite map_length, Lc in Ag. specialize (Ag Hj).
  rewrite (map_nth_lt _ _ _ _ (0, 0, false)) in Ag by lia.
  rewrite combine_nth_lt in Ag by (rewrite ?combine_length; lia). rewrite combine_nth_lt in Ag by lia.
  pose proof (maxZ_nth_ge (street_commits s) i ltac:(lia)) as Mx.
  pose proof (V1 j Hj Aj). pose proof (V2 i Hi Ai). pose proof (V2 j Hj Aj). pose proof (V3 i Hi Ai). pose proof (V3 j Hj Aj).
  unfold is_active, stack_of, street_committed in *. rewrite Aj in Ag. lia.
Qed.
Lemma all_in_all c s : List.length (active s) = num_players c -> List.length (stacks s) = num_players c ->
  (forall j, (j < num_players c)%nat -> is_active s j -> stack_of s j = 0) -> all_all_in s = true.
Proof.
  intros La Ls H. unfold all_all_in.
  assert (X : forall l m, List.length l = List.length m -> (forall j, (j < List.length l)%nat -> nth j l false = true -> nth j m 0 = 0) ->
    count_true (map (fun p => fst p && (snd p =? 0)) (combine l m)) = count_true l).
  { clear. induction l as [|x l IH]; intros [|y m] L H; [reflexivity|discriminate L|discriminate L|]. cbn [combine map fst snd].
    unfold count_true in *. cbn [map]. rewrite !sumZ_cons. rewrite IH; [|now injection L as L|intros j Hj Hx; exact (H (S j) ltac:(cbn [List.length]; lia) Hx)].
    f_equal. f_equal. destruct x; [|reflexivity]. pose proof (H O ltac:(cbn [List.length]; lia) eq_refl) as Y. cbn [nth] in Y. rewrite Y. reflexivity. }
  rewrite X; [lia|congruence|]. intros j Hj. rewrite La in Hj. now apply H.
Qed.

(** a hand that is level goes on level, and is not cut short *)
Lemma ring_level c s b : money c s -> ring (num_players c) (active s) (street_option s) None -> in_progress s -> level c s -> let s' := fst (step c s b) in
  (in_progress s' -> (street s' < num_streets c)%nat -> level c s') /\ (action s' = None -> cut_short c s' = false).
Proof.
  intros M Rg Hp V. cbv zeta. pose proof (mo_cfg _ _ M) as W. pose proof (mo_wf _ _ M) as Iw.
  destruct (step_anatomy c s b Hp) as [(_ & E & _)|(s1 & H1 & E)]; [rewrite E; split; [intros _ _; exact V|intros X; exfalso; now apply Hp]|].
  pose proof (after_bet_level c s b s1 M Hp V H1) as V1.
  destruct (after_bet_wf c s b s1 W Iw H1) as (A1 & A2 & A3 & A4 & A5 & A6 & A7 & A8 & A9 & (a & Ta & La & Aa) & A11).
  destruct (settle_wf c s1 W A1 A2 A3 A4 A5 A6 A7 A8 A9 (ex_intro _ a (conj Ta (conj La Aa)))) as (_ & B1 & B2 & B3 & B4 & B5 & B6 & B7 & B8 & B9).
  pose proof (after_bet_ring c s b s1 W Iw H1 Rg) as R1.
  pose proof (settle_keep c s1 W) as K.
  assert (G : (street (settle c s1) < num_streets c)%nat -> level c (settle c s1)).
  { intros Hs. destruct (settle_cases c s1 W) as [[_ Eq]|[Ag Ne]]; [rewrite Eq; exact V1|].
    assert (Np : forall j, (j < num_players c)%nat -> is_active s1 j -> 0 < stack_of s1 j).
    { intros j Hj Aj. pose proof (lv_nonneg _ _ V1 j Hj Aj) as Nj. destruct (Z.eq_dec (stack_of s1 j) 0) as [Zj|Zj]; [exfalso|lia].
      pose proof (agreed_all_in c s1 V1 A1 A3 A4 Ag (ex_intro _ j (conj Hj (conj Aj Zj)))) as Q.
      pose proof (se_street _ _ _ (ne_street _ _ _ Ne)) as St. rewrite (all_in_all c s1 A1 A3 Q) in St. lia. }
    assert (Es : forall i, stack_of (settle c s1) i = stack_of s1 i) by (intros i; unfold stack_of; now rewrite (sk_stacks _ _ K)).
    assert (Ec : forall i, committed (settle c s1) i = committed s1 i) by (intros i; unfold committed; now rewrite (sk_commits _ _ K)).
    assert (Ea : forall i, is_active (settle c s1) i -> is_active s1 i) by (intros i; unfold is_active; now rewrite (sk_active _ _ K)).
    assert (Zt : forall i, street_committed (settle c s1) i = 0).
    { intros i. unfold street_committed. rewrite (ne_street_commits _ _ _ Ne). destruct (Nat.lt_ge_cases i (num_players c)); [now rewrite nth_repeat_lt|now rewrite nth_overflow by (now rewrite repeat_length)]. }
    destruct V1 as [X1 (t & X2) (B & X3) X4]. split.
    - intros i Hi Hx. rewrite Es. apply X1; auto.
    - exists t. intros i Hi Hx. rewrite Es, Ec. apply X2; auto.
    - exists (B + maxZ (street_commits s1)). intros i Hi Hx. rewrite Ec, Zt. apply Ea in Hx. specialize (X3 i Hi Hx). specialize (Np i Hi Hx).
      enough (street_committed s1 i = maxZ (street_commits s1)) by lia.
      unfold all_agreed in Ag. apply andb_true_iff in Ag. destruct Ag as [_ Ag]. rewrite all_true_spec in Ag.
      assert (Lc : List.length (combine (combine (street_commits s1) (stacks s1)) (active s1)) = num_players c) by (rewrite !combine_length; lia).
      specialize (Ag i). rewrite map_length, Lc in Ag. specialize (Ag Hi).
      rewrite (map_nth_lt _ _ _ _ (0, 0, false)) in Ag by lia.
      rewrite combine_nth_lt in Ag by (rewrite ?combine_length; lia). rewrite combine_nth_lt in Ag by lia.
      unfold is_active, stack_of, street_committed in *. rewrite Hx in Ag. lia.
    - intros i Hi Hx _. rewrite Es. apply Np; auto. }
  rewrite E. destruct (step_end_cases c (settle c s1)) as [(e & _ & E')|[(pay & _ & D & E')|(pay & _ & _ & E')]]; rewrite E'; cbn [fst].
  - split; [intros _; exact G|]. intros X. exfalso. destruct B9 as (y & Y & _). congruence.
  - split; [intros X; exfalso; now apply X|]. intros _. unfold cut_short. cbn [finish_hand active street].
    destruct (Z.leb_spec 2 (count_true (active (settle c s1)))) as [C2|C2]; [|reflexivity].
    destruct (Nat.ltb_spec (street (settle c s1)) (num_streets c)) as [Ls|Ls]; [exfalso|reflexivity].
    specialize (G Ls). apply (done_all c _ W B1 B3) in D. destruct D as [D|[D|D]]; [lia|lia|].
    assert (Q : forall j, (j < num_players c)%nat -> is_active s1 j -> stack_of s1 j = 0).
    { intros j Hj Aj. unfold stack_of. rewrite <- (sk_stacks _ _ K). apply D; [exact Hj|]. rewrite (sk_active _ _ K). exact Aj. }
    destruct (settle_cases c s1 W) as [[Ag Eq]|[Ag Ne]].
    + enough (all_agreed s1 = true) by congruence. apply (all_rest_agreed c s1 a W La Aa A1 A3 A4 A5 R1).
      intros d _ Ad. set (j := ((a + d) mod num_players c)%nat) in *. assert (Hj : (j < num_players c)%nat) by (apply Nat.mod_upper_bound; lia).
      split; [|right; now apply Q]. destruct (nth j (street_option s1) false) eqn:Eo; [reflexivity|].
      pose proof (lv_wait _ _ V1 j Hj Ad Eo). rewrite (Q j Hj Ad) in *. lia.
    + pose proof (se_street _ _ _ (ne_street _ _ _ Ne)) as St. rewrite (all_in_all c s1 A1 A3 Q) in St. lia.
  - split; [intros _; exact G|]. intros X. exfalso. destruct B9 as (y & Y & _). congruence.
Qed.
Lemma step_level c s b : fair c s -> in_progress s -> level c s -> let s' := fst (step c s b) in
  (in_progress s' -> (street s' < num_streets c)%nat -> level c s') /\ (action s' = None -> cut_short c s' = false).
Proof. intros F Hp. apply ring_level; [now apply fair_money|exact (reachable_ring c s (fair_reachable c s F) Hp)|exact Hp]. Qed.
