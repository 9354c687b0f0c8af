(** * PropLevel: hands that everybody starts with the same number of chips (C19, C20) *)
From Coq Require Import ZifyBool ZifyNat Arith.
From Verif Require Import PyBase PyFacts CardModel EvalModel EngineModel EngineSpec EngineFacts BetFacts EngineDemo MoneyFacts PropRound HandEnd PropShow PropTerm SolventSpec LevelFacts.

(** everybody who is dealt in has [t] chips, everybody pays the same ante, and nobody is all in after antes and blinds *)
Definition equal_chips (c : config) (s : state) (reset_stacks : bool) (t : Z) : Prop :=
  (if reset_stacks then start_stack c = t else forall i, (i < num_players c)%nat -> stack_of s i <= 0 \/ stack_of s i = t) /\
  equal_antes c /\ (forall a b, In a (antes c) -> In b (blinds c) -> a + b < t).

Lemma due_in n start i l : (0 < n)%nat -> List.length l = n -> In (due n start i l) l.
Proof. intros Hn L. unfold due. apply nth_In. rewrite L. apply Nat.mod_upper_bound. lia. Qed.
Lemma reset_level c s rnd rb rs t : money c s -> equal_chips c s rs t -> is_ok (snd (reset c s rnd rb rs)) = true -> level c (fst (reset c s rnd rb rs)).
Proof.
  intros M (Hs & (al & Ha) & Hab) H. pose proof (mo_cfg _ _ M) as W. pose proof (mo_wf _ _ M) as Iw. pose proof (mo_sane _ _ M) as Sn. pose proof (cw_two _ W) as N2.
  destruct (reset_spec c s rnd rb rs W Iw) as [(_ & _ & E)|[(_ & E)|(_ & _ & _ & E)]]; [rewrite E in H; discriminate H|rewrite E in H; discriminate H|].
  set (s' := fst (reset c s rnd rb rs)) in *.
  destruct (re_money _ _ _ _ _ _ E) as (st & ante & blind & M1 & M2 & M3 & M4 & M5 & M6 & M7 & M8 & M9 & M10).
  assert (G : forall j, (j < num_players c)%nat -> is_active s' j -> 0 < stack_of s' j /\ stack_of s' j + committed s' j = t /\ committed s' j - street_committed s' j = al).
  { intros j Hj Aj. destruct (M7 j Hj) as (N1 & N3 & N4). cbv zeta in *. unfold is_active in Aj. rewrite Aj in N1, N3.
    assert (Et : (if rs then start_stack c else nth j (stacks s) 0) = t).
    { destruct rs; [exact Hs|]. destruct (Hs j Hj) as [X|X]; [|exact X]. exfalso. unfold stack_of in X. rewrite (re_active _ _ _ _ _ _ E) in Aj.
      rewrite (map_nth_lt _ _ _ _ 0) in Aj by (rewrite (wf_stacks _ _ Iw); exact Hj). lia. }
    rewrite Et in *. clear Et Hs.
    pose proof (due_in (num_players c) st j (antes c) ltac:(lia) (cw_antes _ W)) as X. pose proof (due_in (num_players c) st j (blinds c) ltac:(lia) (cw_blinds _ W)) as Y.
    set (x := due (num_players c) st j (antes c)) in *. set (y := due (num_players c) st j (blinds c)) in *.
    pose proof (Hab _ _ X Y) as Q. pose proof (sane_antes _ Sn) as Sa. pose proof (sane_blinds _ Sn) as Sb. rewrite Forall_forall in Ha, Sa, Sb.
    pose proof (Ha _ X) as Q1. pose proof (Sa _ X) as Q2. pose proof (Sb _ Y) as Q3. cbv beta in *.
    replace (0 <? t) with true in N1 by lia. cbn [andb] in N1. rewrite N1 in N3. replace (0 <? t - x) with true in N3 by lia. cbn [andb] in N3.
    unfold stack_of, committed, street_committed. rewrite M8, M9, add_lists_nth by congruence. lia. }
  split.
  - intros i Hi Hx. destruct (G i Hi Hx) as (G1 & _). lia.
  - exists t. intros i Hi Hx. apply G; assumption.
  - exists al. intros i Hi Hx. apply G; assumption.
  - intros i Hi Hx _. apply G; assumption.
Qed.
Lemma run_level c s bs : fair c s -> in_progress s -> level c s -> (street s < num_streets c)%nat ->
  let s' := run_steps c s bs in if action s' then all_chips s' = all_chips s else sumZ (stacks s') = all_chips s /\ cut_short c s' = false.
Proof.
  revert s; induction bs as [|b bs IH]; intros s F Hp V Hs; [change (run_steps c s []) with s; cbv zeta; destruct (action s) eqn:X; [reflexivity|exfalso; exact (Hp X)]|].
  cbv zeta. change (run_steps c s (b :: bs)) with (run_steps c (fst (step c s b)) bs).
  pose proof (fair_op c s (OStep b) F I I) as F'. cbn [apply_op] in F'. destruct (step_level c s b F Hp V) as [V1 V2]. cbv zeta in *.
  destruct (action (fst (step c s b))) as [a'|] eqn:Ea.
  - assert (Hp' : in_progress (fst (step c s b))) by (unfold in_progress; rewrite Ea; discriminate).
    assert (Ch : all_chips (fst (step c s b)) = all_chips s).
    { destruct (step_settled c s b F Hp) as [(_ & E & _)|(z & Z)]; [now rewrite E|]. rewrite <- (se_chips _ _ _ _ Z). rewrite (se_step _ _ _ _ Z) in *.
      destruct (step_end_cases c z) as [(e & _ & E)|[(pay & _ & _ & E)|(pay & _ & _ & E)]]; rewrite E in *; [reflexivity|discriminate Ea|reflexivity]. }
    destruct (Nat.lt_ge_cases (street (fst (step c s b))) (num_streets c)) as [Ls|Ls].
    + specialize (IH _ F' Hp' (V1 Hp' Ls) Ls). cbv zeta in IH. rewrite Ch in IH. exact IH.
    + rewrite (past_end c _ bs F' Hp' Ls), Ea. exact Ch.
  - rewrite (run_idle c _ bs Ea), Ea. split; [|exact (V2 eq_refl)]. rewrite (C19_exact c s b F Hp Ea), (V2 eq_refl). lia.
Qed.

(** No chip is lost in a hand that everybody starts with the same number of chips, whatever is bet: every reset with
    [reset_stacks=True], for example *)
Theorem C19_equal_chips : forall c s rnd rb rs t bs, fair c s -> equal_chips c s rs t ->
  allowed c s (OReset rnd rb rs) -> is_ok (snd (reset c s rnd rb rs)) = true ->
  let s1 := fst (reset c s rnd rb rs) in
  let s' := run_steps c s1 bs in
  action s' = None ->
  sumZ (stacks s') = sumZ (stacks s1) + pot s1.
Proof.
  intros c s rnd rb rs t bs F Eq Al H. cbv zeta. intros Hn.
  pose proof (fair_op c s (OReset rnd rb rs) F Al I) as F1. cbn [apply_op] in F1. pose proof (fair_money c s F) as M.
  pose proof (reset_level c s rnd rb rs t M Eq H) as V.
  destruct (reset_spec c s rnd rb rs (mo_cfg _ _ M) (mo_wf _ _ M)) as [(_ & _ & E)|[(_ & E)|(Ns & _ & _ & E)]]; [rewrite E in H; discriminate H|rewrite E in H; discriminate H|].
  destruct (re_turn _ _ _ _ _ _ E) as (a & Ta & _).
  pose proof (run_level c (fst (reset c s rnd rb rs)) bs F1 ltac:(unfold in_progress; rewrite Ta; discriminate) V ltac:(rewrite (re_street _ _ _ _ _ _ E); lia)) as Q.
  cbv zeta in Q. rewrite Hn in Q. apply Q.
Qed.
Print Assumptions C19_equal_chips.
(** ... so the payouts of the step that ends it sum to zero *)
Theorem C20_equal_chips : forall c s rnd rb rs t bs b out, fair c s -> equal_chips c s rs t ->
  allowed c s (OReset rnd rb rs) -> is_ok (snd (reset c s rnd rb rs)) = true ->
  let s0 := run_steps c (fst (reset c s rnd rb rs)) bs in
  in_progress s0 -> action (fst (step c s0 b)) = None -> snd (step c s0 b) = Ok out ->
  sumZ (out_payouts out) = 0.
Proof.
  intros c s rnd rb rs t bs b out F Eq Al H. cbv zeta. intros Hp Hn Ho.
  pose proof (fair_op c s (OReset rnd rb rs) F Al I) as F1. cbn [apply_op] in F1. pose proof (fair_money c s F) as M.
  pose proof (reset_level c s rnd rb rs t M Eq H) as V.
  destruct (reset_spec c s rnd rb rs (mo_cfg _ _ M) (mo_wf _ _ M)) as [(_ & _ & E)|[(_ & E)|(Ns & _ & _ & E)]]; [rewrite E in H; discriminate H|rewrite E in H; discriminate H|].
  destruct (re_turn _ _ _ _ _ _ E) as (a & Ta & _).
  pose proof (run_level c (fst (reset c s rnd rb rs)) (bs ++ [b]) F1 ltac:(unfold in_progress; rewrite Ta; discriminate) V ltac:(rewrite (re_street _ _ _ _ _ _ E); lia)) as Q.
  cbv zeta in Q. assert (Er : run_steps c (fst (reset c s rnd rb rs)) (bs ++ [b]) = fst (step c (run_steps c (fst (reset c s rnd rb rs)) bs) b)) by (unfold run_steps; now rewrite fold_left_app).
  rewrite Er, Hn in Q. destruct Q as [_ Q].
  destruct (C20_exact c _ b (fair_run_steps c _ bs F1) Hp Hn) as (out' & X1 & _ & X3). assert (out' = out) by congruence. subst out'. rewrite X3, Q. reflexivity.
Qed.
Print Assumptions C20_equal_chips.

(** ... and it ends only by folds or with a complete board *)
Theorem C39_equal_chips : forall c s rnd rb rs t bs, fair c s -> equal_chips c s rs t ->
  allowed c s (OReset rnd rb rs) -> is_ok (snd (reset c s rnd rb rs)) = true ->
  let s' := run_steps c (fst (reset c s rnd rb rs)) bs in
  action s' = None -> count_true (active s') <= 1 \/ (num_streets c <= street s')%nat.
Proof.
  intros c s rnd rb rs t bs F Eq Al H. cbv zeta. intros Hn.
  pose proof (fair_op c s (OReset rnd rb rs) F Al I) as F1. cbn [apply_op] in F1. pose proof (fair_money c s F) as M.
  pose proof (reset_level c s rnd rb rs t M Eq H) as V.
  destruct (reset_spec c s rnd rb rs (mo_cfg _ _ M) (mo_wf _ _ M)) as [(_ & _ & E)|[(_ & E)|(Ns & _ & _ & E)]]; [rewrite E in H; discriminate H|rewrite E in H; discriminate H|].
  destruct (re_turn _ _ _ _ _ _ E) as (a & Ta & _).
  pose proof (run_level c (fst (reset c s rnd rb rs)) bs F1 ltac:(unfold in_progress; rewrite Ta; discriminate) V ltac:(rewrite (re_street _ _ _ _ _ _ E); lia)) as Q.
  cbv zeta in Q. rewrite Hn in Q. destruct Q as [_ Q]. unfold cut_short in Q. lia.
Qed.
Print Assumptions C39_equal_chips.

(** the hypotheses are met: three players with 20 chips each, blinds 1 and 2: the small blind folds, the others are all in before the flop *)
Example C19_equal_chips_met : exists c s,
  fair c s /\ equal_chips c s true 20 /\ allowed c s (OReset [] true true) /\
  is_ok (snd (reset c s [] true true)) = true /\
  let s1 := fst (reset c s [] true true) in
  stacks s1 = [20; 19; 18] /\
  let s0 := run_steps c s1 [PyInt 20; PyInt (-1)] in
  action s0 = Some 2%nat /\ action (fst (step c s0 (PyInt 18))) = None /\
  sumZ (stacks (fst (step c s0 (PyInt 18)))) = 60 /\
  match snd (step c s0 (PyInt 18)) with Ok out => Some (sumZ (out_payouts out), nth 1 (out_payouts out) 0) | Err _ => None end = Some (0, -1).
Proof.
  play no_limit_3 (@nil op) c s E. split; [exact (played_fair _ _ _ _ E)|].
  assert (K : action s = None /\ start_stack c = 20 /\ antes c = [0; 0; 0] /\ blinds c = [1; 2; 0]) by plays E. destruct K as (K0 & K1 & K2 & K3).
  split; [|split; [left; exact K0|cbv zeta; plays E]].
  unfold equal_chips, equal_antes. rewrite K1, K2, K3. clear E. split; [reflexivity|]. split; [exists 0; repeat constructor|].
  intros a b Ha Hb. cbn [In] in Ha, Hb. lia.
Qed.
(** In the game of C19_refuted, C20_refuted and C39_refuted everybody has 5 chips as well, but there the big blind is all in
    after the blinds: [a + b < t] cannot be weakened to [a + b <= t]. *)
Example C19_equal_chips_sharp : exists c s, fair c s /\
  start_stack c = 5 /\ antes c = [0; 0; 0] /\ blinds c = [1; 5; 0] /\ is_ok (snd (reset c s [] true true)) = true /\
  let s1 := fst (reset c s [] true true) in
  let s' := run_steps c s1 [PyInt 5; PyInt (-1)] in
  action s' = None /\ sumZ (stacks s1) + pot s1 = 15 /\ sumZ (stacks s') = 14.
Proof. play short_game (@nil op) c s E. split; [exact (played_fair _ _ _ _ E)|]. cbv zeta. plays E. Qed.
