(** * PropSameBet: C105, all ways to fold are the same, and so are all bets above the limits *)
From Coq Require Import ZifyBool ZifyNat Arith QArith.
From Verif Require Import PyBase PyFacts CardModel EvalModel EngineModel EngineSpec EngineFacts BetFacts MoneyFacts EngineDemo PropBetting PropRound
  NumpyModel NumpySpec NumpyFacts PropNumpy.
Open Scope Z_scope.

(** ** Specification *)
(** a number that can be rounded and is below zero; a number that rounds to at least all three limits seen *)
Definition a_fold (b : pynum) : Prop := pynum_neg b = true /\ exists z, py_round b = Ok z.
Definition above_limits (o : obs) (b : pynum) : Prop :=
  pynum_neg b = false /\ exists z, py_round b = Ok z /\ o_call o <= z /\ o_min_raise o <= z /\ o_max_raise o <= z.

Lemma settle_fold x y call mi ma : x <= 0 -> y <= 0 -> settle_bet true x call mi ma = settle_bet true y call mi ma.
Proof. intros Hx Hy. unfold settle_bet. now rewrite !clean_bet_spec, !Z.max_l by assumption. Qed.
Lemma clean_above x call mi ma : 0 <= x -> call <= x -> mi <= x -> ma <= x ->
  clean_bet x call mi ma = if 0 <? call then (if call <? mi then ma else if call <? ma then ma else call) else (if 0 <? mi then ma else if 0 <? ma then ma else 0).
Proof.
  intros H0 Hc Hi Ha. rewrite clean_bet_spec, Z.max_r by exact H0. cbv zeta.
  assert (A : forall v w, v <= x -> w <= x -> (Z.abs (v - x) <? Z.abs (w - x)) = (w <? v)) by (intros v w Hv Hw; lia).
  rewrite !A by assumption. replace (Z.min ma (Z.max mi x)) with ma by lia. reflexivity.
Qed.
Lemma settle_above x y call mi ma f : 0 <= x -> 0 <= y -> call <= x -> mi <= x -> ma <= x -> call <= y -> mi <= y -> ma <= y ->
  settle_bet f x call mi ma = settle_bet f y call mi ma.
Proof. intros. unfold settle_bet. now rewrite !clean_above by assumption. Qed.

(** ** C105 What a bet does depends only on how it is read *)
Theorem C105_fold : forall c s x y, a_fold x -> a_fold y -> step c s x = step c s y.
Proof.
  intros c s x y [Nx [u Ex]] [Ny [v Ey]]. unfold step. destruct (action s) as [a|]; [|reflexivity]. rewrite Nx, Ny, Ex, Ey.
  destruct (bet_sizes c s) as [[[call mi] ma]|]; [|reflexivity]. now rewrite (settle_fold u v) by (eapply pynum_neg_round; eassumption).
Qed.
Print Assumptions C105_fold.
Theorem C105_above : forall c s o x y, observation c s false = Ok o -> above_limits o x -> above_limits o y -> step c s x = step c s y.
Proof.
  intros c s o x y Ho (Nx & u & Ex & X1 & X2 & X3) (Ny & v & Ey & Y1 & Y2 & Y3). pose proof (pynum_nonneg_round _ _ Ex Nx). pose proof (pynum_nonneg_round _ _ Ey Ny).
  unfold step. destruct (action s) as [a|]; [|reflexivity]. rewrite Nx, Ny, Ex, Ey, (obs_sizes c s o Ho). now rewrite (settle_above u v) by assumption.
Qed.
Print Assumptions C105_above.
(** a number that is rounded to a whole bet of the same sign is that bet *)
Theorem C105_whole : forall c s b z, py_round b = Ok z -> pynum_neg b = (z <? 0) -> step c s b = step c s (PyInt z).
Proof. intros c s b z E N. unfold step. rewrite E, N. reflexivity. Qed.
Print Assumptions C105_whole.

Theorem C105_array_fold : forall c s x y, np_fair c s -> a_fold x -> a_fold y -> np_step c s x = np_step c s y.
Proof.
  intros c s x y F [Nx [u Ex]] [Ny [v Ey]]. pose proof (np_fair_money c s F) as M. clear F. unfold np_step. destruct (action s) as [a|] eqn:Ea; [|reflexivity]. rewrite Ex, Ey.
  destruct (bet_sizes c s) as [[[call mi] ma]|] eqn:Eb; [|reflexivity].
  assert (L : limits (wrap c s) a call mi ma) by (apply (money_limits c); [exact M|exact Ea|now rewrite wrap_bet_sizes]).
  rewrite (np_settle_same _ _ _ _ _ x u L Ex), (np_settle_same _ _ _ _ _ y v L Ey), Nx, Ny. now rewrite (settle_fold u v) by (eapply pynum_neg_round; eassumption).
Qed.
Print Assumptions C105_array_fold.
Theorem C105_array_above : forall c s o x y, observation c s false = Ok o -> above_limits o x -> above_limits o y -> np_step c s x = np_step c s y.
Proof.
  intros c s o x y Ho (Nx & u & Ex & X1 & X2 & X3) (Ny & v & Ey & Y1 & Y2 & Y3). pose proof (pynum_nonneg_round _ _ Ex Nx) as Hu. pose proof (pynum_nonneg_round _ _ Ey Ny) as Hv.
  unfold np_step. destruct (action s) as [a|]; [|reflexivity]. rewrite Nx, Ny, Ex, Ey, (obs_sizes c s o Ho).
  assert (S : forall z, 0 <= z -> np_settle_bet false z (o_call o) (o_min_raise o) (o_max_raise o) = settle_bet false z (o_call o) (o_min_raise o) (o_max_raise o)) by (intros z Hz; unfold np_settle_bet, settle_bet; now rewrite np_clean_nonneg).
  rewrite !S by assumption. now rewrite (settle_above u v) by assumption.
Qed.
Print Assumptions C105_array_above.
Theorem C105_array_whole : forall c s b z, py_round b = Ok z -> pynum_neg b = (z <? 0) -> np_step c s b = np_step c s (PyInt z).
Proof. intros c s b z E N. unfold np_step. rewrite E, N. reflexivity. Qed.
Print Assumptions C105_array_whole.

(** *** -1 and -7.5 fold; 25 and 1000.2 are both above all limits of a player with 20 chips; -0.4 rounds to 0 but folds *)
Example C105_fold_example : a_fold (PyInt (-1)) /\ a_fold (PyFloat (-15 # 2)) /\ a_fold (PyFloat (-2 # 5)) /\ py_round (PyFloat (-2 # 5)) = Ok 0.
Proof. splits; unfold a_fold; splits; try reflexivity; eexists; reflexivity. Qed.
Definition limits_of (c : config) (s : state) : option (Z * Z * Z) := match observation c s false with Ok o => Some (o_call o, o_min_raise o, o_max_raise o) | _ => None end.
Example C105_above_example : exists c s o, reachable c s /\ in_progress s /\ observation c s false = Ok o /\ 0 < o_call o < o_max_raise o /\ above_limits o (PyInt 25) /\ above_limits o (PyFloat (5001 # 5)) /\
  fst (step c s (PyInt 25)) <> s.
Proof.
  assert (K : exists c s, reachable c s /\ action s = Some 0%nat /\ limits_of c s = Some (2, 4, 20) /\ history s = [] /\ history (fst (step c s (PyInt 25))) = [(0%nat, 20, false)]).
  { play no_limit_3 [new_hand] c s E. split; [exact (played_reachable _ _ _ _ E)|]. plays E. }
  destruct K as (c & s & R & A & L & H0 & H). unfold limits_of in L. destruct (observation c s false) as [o|] eqn:Ho; [|discriminate L]. injection L as L1 L2 L3.
  exists c, s, o. split; [exact R|]. split; [unfold in_progress; rewrite A; discriminate|]. split; [exact Ho|]. split; [lia|].
  split; [split; [reflexivity|]; exists 25; splits; [reflexivity|lia|lia|lia]|]. split; [split; [reflexivity|]; exists 1000; splits; [reflexivity|lia|lia|lia]|].
  intros X. rewrite X, H0 in H. discriminate H.
Qed.
Example C105_array_example : exists c s o, np_fair c s /\ in_progress s /\ observation c s false = Ok o /\ 0 < o_call o < o_max_raise o /\ above_limits o (PyInt 25) /\ above_limits o (PyFloat (5001 # 5)) /\
  fst (np_step c s (PyInt 25)) <> s.
Proof.
  assert (K : exists c s, np_fair c s /\ action s = Some 0%nat /\ limits_of c s = Some (2, 4, 20) /\ history s = [] /\ history (fst (np_step c s (PyInt 25))) = [(0%nat, 20, false)]).
  { np_play no_limit_3 [new_hand] c s E. split; [exact (np_played_fair _ _ _ _ E)|]. np_plays E. }
  destruct K as (c & s & R & A & L & H0 & H). unfold limits_of in L. destruct (observation c s false) as [o|] eqn:Ho; [|discriminate L]. injection L as L1 L2 L3.
  exists c, s, o. split; [exact R|]. split; [unfold in_progress; rewrite A; discriminate|]. split; [exact Ho|]. split; [lia|].
  split; [split; [reflexivity|]; exists 25; splits; [reflexivity|lia|lia|lia]|]. split; [split; [reflexivity|]; exists 1000; splits; [reflexivity|lia|lia|lia]|].
  intros X. rewrite X, H0 in H. discriminate H.
Qed.
Example C105_whole_example : py_round (PyFloat (37 # 5)) = Ok 7 /\ pynum_neg (PyFloat (37 # 5)) = (7 <? 0).
Proof. split; reflexivity. Qed.
