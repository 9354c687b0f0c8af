(** * PropNumpySame: whole hands at both dealers (C68) *)
From Coq Require Import ZifyBool ZifyNat Arith.
From Verif Require Import PyBase PyFacts CardModel EvalModel EngineModel EngineSpec EngineFacts BetFacts EngineDemo MoneyFacts PropBetting ShowSpec ShowFacts SideFacts HandEnd PropRound PropShow PropTerm SolventSpec SolventFacts LevelFacts PropLevel NumpyModel NumpySpec NumpyFacts PropNumpy PropNumpyWin.

Lemma level_wrap c s : level c (wrap c s) <-> level c s.
Proof. split; intros [V1 V2 V3 V4]; split; assumption. Qed.
(** after an agreed bet everybody in the hand has put in the same *)
Lemma agreed_even c s : level c s -> List.length (active s) = num_players c -> List.length (stacks s) = num_players c -> List.length (street_commits s) = num_players c ->
  all_agreed s = true -> forall i j, (i < num_players c)%nat -> (j < num_players c)%nat -> is_active s i -> is_active s j -> committed s i = committed s j.
Proof.
  intros V La Ls Lt Ag i j Hi Hj Ai Aj. pose proof (agreed_all_in c s V La Ls Lt Ag) as All.
  destruct V as [V1 (t & V2) (B & V3) V4].
  assert (Mx : forall k, (k < num_players c)%nat -> is_active s k -> 0 < stack_of s k -> street_committed s k = maxZ (street_commits s)).
  { intros k Hk Ak Pk. clear All. unfold all_agreed in Ag. apply andb_true_iff in Ag. destruct Ag as [_ Ag]. rewrite all_true_spec in Ag.
    assert (Lc : List.length (combine (combine (street_commits s) (stacks s)) (active s)) = num_players c) by (rewrite !combine_length; lia).
    specialize (Ag k). rewrite map_length, Lc in Ag. specialize (Ag Hk).
    rewrite (map_nth_lt _ _ _ _ (0, 0, false)) in Ag by lia.
    rewrite combine_nth_lt in Ag by (rewrite ?combine_length; lia). rewrite combine_nth_lt in Ag by lia.
    unfold is_active, stack_of, street_committed in *. rewrite Ak in Ag. lia. }
  pose proof (V1 i Hi Ai) as Ni. pose proof (V1 j Hj Aj) as Nj. pose proof (V2 i Hi Ai) as Ti. pose proof (V2 j Hj Aj) as Tj.
  destruct (Z.eq_dec (stack_of s i) 0) as [Zi|Zi].
  - rewrite (All (ex_intro _ i (conj Hi (conj Ai Zi))) j Hj Aj) in Tj. lia.
  - destruct (Z.eq_dec (stack_of s j) 0) as [Zj|Zj].
    + rewrite (All (ex_intro _ j (conj Hj (conj Aj Zj))) i Hi Ai) in Ti. lia.
    + pose proof (Mx i Hi Ai ltac:(lia)). pose proof (Mx j Hj Aj ltac:(lia)). pose proof (V3 i Hi Ai). pose proof (V3 j Hj Aj). lia.
Qed.
(** one bet of a hand with equal chips *)
Lemma level_same c s b : equal_antes c -> np_solvent c s -> in_progress s -> (street s < num_streets c)%nat -> level c s ->
  let s' := fst (np_step c s b) in
  (button s = O \/ (street s' < num_streets c)%nat \/ count_true (active s') = 1) ->
  wrap c s' = fst (step c (wrap c s) b) /\ same_result c (snd (np_step c s b)) (snd (step c (wrap c s) b)) /\
  (in_progress s' -> (street s' < num_streets c)%nat -> level c s').
Proof.
  intros Eq So Hp Hs V. cbv zeta. intros Hb. pose proof (np_solvent_fair c s So) as F. pose proof (np_fair_money c s F) as M.
  pose proof (mo_cfg _ _ M) as W. pose proof (mo_wf _ _ M) as Iw.
  destruct (ring_level c (wrap c s) b M (np_ring c s F Hp) Hp (proj2 (level_wrap c s) V)) as [L1 L2]. cbv zeta in L1, L2.
  assert (G : wrap c (fst (np_step c s b)) = fst (step c (wrap c s) b) /\ same_result c (snd (np_step c s b)) (snd (step c (wrap c s) b))).
  { destruct (np_step_settled c s b M Hp) as [(_ & E & _)|(z & Z)].
    - apply C68_step; [exact F|exact Hp|rewrite E; now right|exact L2].
    - destruct (np_same _ _ _ _ Z) as (E1 & E2 & E3 & _). pose proof (ns_count _ _ _ _ Z) as C1.
      destruct (Z.eq_dec (count_true (active (fst (np_step c s b)))) 1) as [C|C]; [apply C68_step; auto|].
      destruct (Nat.lt_ge_cases (street (fst (np_step c s b))) (num_streets c)) as [Ls|Ls]; [apply C68_step; auto|].
      destruct Hb as [Hb|[Hb|Hb]]; [|lia|lia]. apply C68_showdown_partial; try assumption; [rewrite E1 in *; lia| |].
      + rewrite (np_show_same _ _ _ _ Z). now apply (np_step_covered c s b).
      + apply even_ties_regular. rewrite (np_show_same _ _ _ _ Z). intros j k Hj Hk Ij Ik _. cbn [show_of sd_players sd_in sd_put] in *.
        destruct (ns_after _ _ _ _ Z) as (s1 & H1 & Ez). pose proof (settle_keep c s1 W) as K.
        pose proof (after_bet_level c (wrap c s) b s1 M Hp (proj2 (level_wrap c s) V) H1) as V1.
        destruct (after_bet_wf c _ b s1 W Iw H1) as (A1 & A2 & A3 & A4 & A5 & A6 & A7 & A8 & A9 & A10 & A11).
        assert (Ec : forall i, committed z i = committed s1 i) by (intros i; change (committed z i) with (committed (wrap c z) i); rewrite Ez; unfold committed; now rewrite (sk_commits _ _ K)).
        assert (Ea : active z = active s1) by (change (active z) with (active (wrap c z)); rewrite Ez; apply (sk_active _ _ K)).
        rewrite !Ec. rewrite Ea in *. destruct (settle_cases c s1 W) as [[_ Eq1]|[Ag _]]; [exfalso|apply (agreed_even c s1); assumption].
        rewrite Eq1 in Ez. apply after_bet_effect in H1. destruct H1 as (a & call & mi & ma & bet & folds & B). pose proof (be_street _ _ _ _ _ _ _ _ _ _ B) as St.
        rewrite E3 in Ls. change (street z) with (street (wrap c z)) in Ls. rewrite Ez, St in Ls. cbn [wrap set_button street] in Ls. lia. }
  destruct G as [G1 G2]. split; [exact G1|]. split; [exact G2|]. intros P' S'. apply level_wrap. rewrite G1. apply L1; rewrite <- G1; assumption.
Qed.
(** a hand with equal chips, up to any bet *)
Lemma level_run c u bs : equal_antes c -> np_solvent c u -> in_progress u -> (street u < num_streets c)%nat -> level c u ->
  let s0 := np_run_steps c u bs in
  in_progress s0 -> (street s0 < num_streets c)%nat ->
  wrap c s0 = run_steps c (wrap c u) bs /\ level c s0 /\ np_solvent c s0 /\ button s0 = button u.
Proof.
  intros Eq So Hp Hs V. cbv zeta. induction bs as [|b bs IH] using rev_ind; intros Hp0 Hs0; [now split; [|split; [|split]]|].
  assert (En : np_run_steps c u (bs ++ [b]) = fst (np_step c (np_run_steps c u bs) b)) by (unfold np_run_steps; now rewrite fold_left_app).
  assert (El : run_steps c (wrap c u) (bs ++ [b]) = fst (step c (run_steps c (wrap c u) bs) b)) by (unfold run_steps; now rewrite fold_left_app).
  rewrite En, El in *. set (s0 := np_run_steps c u bs) in *.
  assert (P0 : in_progress s0).
  { intros X. apply Hp0. unfold np_step. now rewrite X. }
  assert (So' : forall l, np_solvent c (np_run_steps c u l)).
  { intros l. clear - So. revert u So. induction l as [|x l IHl]; intros u So; [exact So|]. change (np_run_steps c u (x :: l)) with (np_run_steps c (fst (np_step c u x)) l).
    apply IHl. exact (np_solvent_op c u (OStep x) So I I). }
  assert (M : money c (wrap c s0)) by (apply np_fair_money, np_solvent_fair, So').
  assert (S0 : (street s0 < num_streets c)%nat).
  { destruct (Nat.lt_ge_cases (street s0) (num_streets c)) as [L|L]; [exact L|]. destruct (np_stuck c s0 b M P0 L) as [E _]. rewrite E in Hs0. lia. }
  destruct (IH P0 S0) as (I1 & I2 & I3 & I4).
  destruct (level_same c s0 b Eq I3 P0 S0 I2) as (G1 & G2 & G3); [right; now left|]. rewrite <- I1. split; [exact G1|]. split; [now apply G3|].
  split; [rewrite <- En; apply So'|]. rewrite <- I4. destruct (np_step_settled c s0 b M P0) as [(_ & E & _)|(z & Z)]; [now rewrite E|]. now destruct (np_same _ _ _ _ Z) as (_ & _ & _ & E4 & _).
Qed.
Lemma equal_affordable c s rs t : cfg_wf c -> sane c -> equal_chips c s rs t -> affordable c s rs.
Proof.
  intros W Sn (Hs & _ & Hab) i a b Hi Ha Hb. cbv zeta. intros Hc. pose proof (sane_antes _ Sn) as Sa. pose proof (sane_blinds _ Sn) as Sb. rewrite Forall_forall in Sa, Sb.
  assert (Ht : (if rs then start_stack c else stack_of s i) = t) by (destruct rs; [exact Hs|destruct (Hs i Hi); lia]). rewrite Ht in *.
  pose proof (cw_two _ W) as N2. pose proof (cw_antes _ W) as Ln. pose proof (cw_blinds _ W) as Lb.
  assert (Xa : exists a', In a' (antes c) /\ a <= a').
  { destruct Ha as [<-|Ha]; [|exists a; split; [exact Ha|lia]]. destruct (antes c) as [|x l]; [cbn in Ln; lia|]. exists x. split; [now left|]. apply Sa. now left. }
  assert (Xb : exists b', In b' (blinds c) /\ b <= b').
  { destruct Hb as [<-|Hb]; [|exists b; split; [exact Hb|lia]]. destruct (blinds c) as [|x l]; [cbn in Lb; lia|]. exists x. split; [now left|]. apply Sb. now left. }
  destruct Xa as (a' & A1 & A2), Xb as (b' & B1 & B2). specialize (Hab a' b' A1 B1). lia.
Qed.

(** ** C68 The two dealers *)
(** Hands that everybody starts with the same number of chips, at tables without debts: after any bets both dealers have the same
    table (the button as a seat), and the next bet gets the same observation, payouts or exception from both; at the showdown as
    well if the button is at the first seat, as after [reset(reset_button=True)]. *)
Theorem C68_hand : forall c s rnd rb rs t bs b, np_solvent c s -> equal_chips c s rs t ->
  np_allowed c s (OReset rnd rb rs) -> is_ok (snd (np_reset c s rnd rb rs)) = true ->
  let s0 := np_run_steps c (fst (np_reset c s rnd rb rs)) bs in
  let t0 := run_steps c (fst (reset c (wrap c s) rnd rb rs)) bs in
  in_progress s0 -> (street s0 < num_streets c)%nat ->
  wrap c s0 = t0 /\
  let s' := fst (np_step c s0 b) in let t' := fst (step c t0 b) in
  (rb = true \/ (street s' < num_streets c)%nat \/ count_true (active s') = 1 ->
    wrap c s' = t' /\ same_result c (snd (np_step c s0 b)) (snd (step c t0 b))).
Proof.
  intros c s rnd rb rs t bs b So Eq Al Ok1. cbv zeta. intros Hp Hs. pose proof (np_solvent_fair c s So) as F. pose proof (np_fair_money c s F) as M.
  pose proof (mo_cfg _ _ M) as W. pose proof (mo_wf _ _ M) as Iw. destruct (np_reset_wrap c s rnd rb rs W) as [E1 E2].
  assert (Ok2 : is_ok (snd (reset c (wrap c s) rnd rb rs)) = true) by (rewrite <- E2; destruct (snd (np_reset c s rnd rb rs)); [reflexivity|discriminate Ok1]).
  assert (Eq' : equal_chips c (wrap c s) rs t) by exact Eq.
  pose proof (reset_level c (wrap c s) rnd rb rs t M Eq' Ok2) as V. rewrite <- E1 in V. apply (proj1 (level_wrap c _)) in V.
  set (u := fst (np_reset c s rnd rb rs)) in *.
  assert (Su : np_solvent c u).
  { apply (np_solvent_op c s (OReset rnd rb rs) So Al). pose proof (affordable_money c (wrap c s) rnd rb rs M) as A. rewrite <- E1 in A.
    apply A; [exact (np_solvent_nonneg c s So)|exact Ok2|]. apply equal_affordable with (t := t); [exact W|apply M|exact Eq']. }
  destruct (reset_spec c (wrap c s) rnd rb rs W Iw) as [(_ & _ & E)|[(_ & E)|(Ns & _ & _ & E)]]; [rewrite E in Ok2; discriminate Ok2|rewrite E in Ok2; discriminate Ok2|].
  destruct (re_turn _ _ _ _ _ _ E) as (a & Ta & _). pose proof (re_street _ _ _ _ _ _ E) as Su0. rewrite <- E1 in Ta, Su0. cbn [wrap set_button action street] in Ta, Su0.
  destruct (level_run c u bs (proj1 (proj2 Eq)) Su ltac:(unfold in_progress; rewrite Ta; discriminate) ltac:(lia) V Hp Hs) as (R1 & R2 & R3 & R4).
  rewrite <- E1, <- R1. split; [reflexivity|]. intros Hb.
  destruct (level_same c (np_run_steps c u bs) b (proj1 (proj2 Eq)) R3 Hp Hs R2) as (G1 & G2 & _); [|now split].
  destruct Hb as [->|Hb]; [left|now right]. rewrite R4. exact (proj1 (C71_button c s rnd true rs F Ok1)).
Qed.
Print Assumptions C68_hand.
(** three players with 20 chips each, the button at the first seat: the small blind folds, the others are all in before the flop; both
    dealers play it out, share the pot between the tied hands and give the odd chip to the same seat *)
Example C68_hand_example : exists c s, np_solvent c s /\ equal_chips c s true 20 /\ np_allowed c s (OReset [] true true) /\
  is_ok (snd (np_reset c s [] true true)) = true /\
  let s0 := np_run_steps c (fst (np_reset c s [] true true)) [PyInt 20; PyInt (-1)] in
  action s0 = Some 2%nat /\ street s0 = 0%nat /\ num_streets c = 2%nat /\
  let t0 := run_steps c (fst (reset c (wrap c s) [] true true)) [PyInt 20; PyInt (-1)] in
  stacks (fst (np_step c s0 (PyInt 18))) = [20; 19; 21] /\ stacks (fst (step c t0 (PyInt 18))) = [20; 19; 21] /\
  action (fst (step c t0 (PyInt 18))) = None.
Proof.
  np_play no_limit_3 (@nil op) c s E. split; [apply (np_played_solvent _ _ _ _ E); vm_compute; reflexivity|].
  assert (K : action s = None /\ start_stack c = 20 /\ antes c = [0; 0; 0] /\ blinds c = [1; 2; 0]) by np_plays E. destruct K as (K0 & K1 & K2 & K3).
  split; [|split; [left; exact K0|cbv zeta; np_plays E]].
  unfold equal_chips, equal_antes. rewrite K1, K2, K3. clear E. split; [reflexivity|]. split; [exists 0; repeat constructor|].
  intros a b Ha Hb. cbn [In] in Ha, Hb. lia.
Qed.
