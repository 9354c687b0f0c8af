(** * PropSpeed: property C86 (the times of speed_test) *)
From Coq Require Import ZifyBool ZifyNat Lqa.
From Verif Require Import PyBase CardModel EvalModel EvalTextModel PropShares SpeedModel.

(** ** Specification: the time of the [i]-th evaluation, and of the first [n] *)
Definition interval (clock : nat -> Q) (i : nat) : Q := (clock (2 * i + 1)%nat - clock (2 * i)%nat)%Q.
Fixpoint total_time (clock : nat -> Q) (n : nat) : Q := match n with O => 0%Q | S n => (total_time clock n + interval clock n)%Q end.
(** a clock that does not run backwards *)
Definition runs_on (clock : nat -> Q) : Prop := forall i, (clock i <= clock (S i))%Q.

Lemma timed_loop_spec clock e : forall n d j time,
  match timed_loop clock n (2 * j) time e d, speed_loop n e d with
  | Ok t, Ok l => (t + total_time clock j == time + total_time clock (j + n))%Q
  | Err x, Err y => x = y
  | _, _ => False
  end.
Proof.
  induction n as [|n IH]; intros d j time; cbn [timed_loop speed_loop].
  - rewrite Nat.add_0_r. reflexivity.
  - destruct (deck_draw 2 d) as [hole d1]. destruct (deck_draw 5 d1) as [com d2]. destruct (evaluate e hole com) as [v|]; [|reflexivity]. cbn [bind].
    specialize (IH d2 (S j) (time + (clock (S (2 * j)) - clock (2 * j)%nat))%Q). replace (2 * S j)%nat with (S (S (2 * j))) in IH by lia.
    destruct (timed_loop clock n _ _ e d2) as [t|x]; destruct (speed_loop n e d2) as [l|y]; cbn [bind]; try exact IH.
    replace (j + S n)%nat with (S j + n)%nat by lia. cbn [total_time] in IH. unfold interval in IH. replace (2 * j + 1)%nat with (S (2 * j)) in IH by lia. lra.
Qed.

(** ** C86 The times of speed_test *)
(** The result is the mean of the times of the evaluations; it is an error exactly if the test
    without the clock (C62) is one. *)
Theorem C86_mean : forall clock rnd e n,
  match timed_speed_test clock 0 rnd e n, speed_test rnd e n with
  | Ok avg, Ok l => n <> 0 /\ (avg * inject_Z n == total_time clock (List.length l))%Q
  | Err x, Err y => x = y
  | _, _ => False
  end.
Proof.
  intros clock rnd e n. unfold timed_speed_test, speed_test. destruct (Deck rnd (e_suits e) (e_ranks e)) as [d|x]; [|reflexivity]. cbn [bind].
  pose proof (timed_loop_spec clock e (Z.to_nat n) d 0 0%Q) as H. change (2 * 0)%nat with O in H.
  destruct (timed_loop clock (Z.to_nat n) 0 0 e d) as [t|x]; destruct (speed_loop (Z.to_nat n) e d) as [l|y] eqn:L; cbn [bind]; try (now destruct H); try exact H.
  destruct (n =? 0) eqn:E; [reflexivity|]. assert (N : n <> 0) by lia. split; [exact N|].
  apply speed_loop_hands in L. rewrite L, map_length, seq_length. cbn [total_time Nat.add] in H.
  assert (Q0 : ~ (inject_Z n == 0)%Q) by (unfold Qeq; cbn; lia). rewrite Qmult_comm, Qmult_div_r by exact Q0. lra.
Qed.
Print Assumptions C86_mean.
(** If the clock does not run backwards the mean is not negative, and the evaluations take no
    longer than the whole test. *)
Lemma total_bounds clock : runs_on clock -> forall n, (0 <= total_time clock n <= clock (2 * n)%nat - clock 0%nat)%Q.
Proof.
  intros H. induction n as [|n IH]; [cbn [total_time]; change (2 * 0)%nat with O; lra|]. cbn [total_time]. unfold interval.
  replace (2 * S n)%nat with (S (S (2 * n))) by lia. replace (2 * n + 1)%nat with (S (2 * n)) by lia. pose proof (H (2 * n)%nat). pose proof (H (S (2 * n))). lra.
Qed.
Theorem C86_bounds : forall clock rnd e n avg, runs_on clock -> 0 < n -> timed_speed_test clock 0 rnd e n = Ok avg ->
  (0 <= avg)%Q /\ (avg * inject_Z n <= clock (2 * Z.to_nat n)%nat - clock 0%nat)%Q.
Proof.
  intros clock rnd e n avg R Hn H. pose proof (C86_mean clock rnd e n) as M. rewrite H in M. destruct (speed_test rnd e n) as [l|] eqn:S; [|destruct M]. destruct M as [_ M].
  assert (L : List.length l = Z.to_nat n).
  { unfold speed_test in S. destruct (Deck rnd (e_suits e) (e_ranks e)) as [d|]; [|discriminate S]. cbn [bind] in S. destruct (speed_loop (Z.to_nat n) e d) as [l'|] eqn:L; [|discriminate S].
    cbn [bind] in S. destruct (n =? 0); [discriminate S|]. injection S as ->. apply speed_loop_hands in L. now rewrite L, map_length, seq_length. }
  rewrite L in M. pose proof (total_bounds clock R (Z.to_nat n)) as [B1 B2]. rewrite <- M in B1, B2. split; [|exact B2].
  apply Qmult_le_r with (inject_Z n); [unfold Qlt; cbn; lia|]. rewrite Qmult_0_l. exact B1.
Qed.
Print Assumptions C86_bounds.
(** A count that is not positive: 0 raises, a negative one is no test and gives 0. *)
Theorem C86_counts : forall clock rnd s r c m low e, 1 <= s <= 4 -> 1 <= r <= 13 -> Evaluator s r c m low None = Ok e -> 0 <= m <= c ->
  (forall n, is_ok (timed_speed_test clock 0 rnd e n) = true <-> n <> 0) /\ timed_speed_test clock 0 rnd e 0 = Err ZeroDivisionError /\
  forall n avg, n < 0 -> timed_speed_test clock 0 rnd e n = Ok avg -> (avg == 0)%Q.
Proof.
  intros clock rnd s r c m low e Hs Hr He Hm. split; [|split].
  - intros n. pose proof (C86_mean clock rnd e n) as M. pose proof (C62_succeeds rnd s r c m low e n Hs Hr He Hm) as S.
    destruct (timed_speed_test clock 0 rnd e n); destruct (speed_test rnd e n); cbn [is_ok]; try (now destruct M); split; intros X; try tauto; try discriminate X; lia.
  - pose proof (C86_mean clock rnd e 0) as M. pose proof (C62_succeeds rnd s r c m low e 0 Hs Hr He Hm) as S.
    destruct (timed_speed_test clock 0 rnd e 0); destruct (speed_test rnd e 0); try (now destruct M). destruct S as [_ ->]. now rewrite M.
  - intros n avg Hn H. unfold timed_speed_test in H. destruct (Deck rnd (e_suits e) (e_ranks e)) as [d|]; [|discriminate H]. cbn [bind] in H.
    replace (Z.to_nat n) with O in H by lia. cbn [timed_loop bind] in H. replace (n =? 0) with false in H by lia. injection H as <-. unfold Qdiv. now rewrite Qmult_0_l.
Qed.
Print Assumptions C86_counts.
(** speed_test.py prints the mean and then its inverse; only a clock that shows no time for the
    100000 evaluations makes it fail, with a ZeroDivisionError after the first line. *)
Theorem C86_main : forall clock rnd, exists avg, (avg * 100000 == total_time clock (Z.to_nat 100000))%Q /\
  ((total_time clock (Z.to_nat 100000) == 0)%Q /\ speed_main clock rnd = ([avg], Err ZeroDivisionError) \/
   ~ (total_time clock (Z.to_nat 100000) == 0)%Q /\ exists rate, speed_main clock rnd = ([avg; rate], Ok tt) /\ (rate * avg == 1)%Q).
Proof.
  intros clock rnd. destruct (C62_refuted rnd) as (e & l & E & T & _). unfold speed_main. rewrite E. cbn [bind].
  pose proof (C86_mean clock rnd e 100000) as M. rewrite T in M. destruct (timed_speed_test clock 0 rnd e 100000) as [avg|]; [|destruct M]. destruct M as [_ M].
  assert (L : List.length l = Z.to_nat 100000).
  { unfold speed_test in T. destruct (Deck rnd (e_suits e) (e_ranks e)) as [d|]; [|discriminate T]. cbn [bind] in T. remember (Z.to_nat 100000) as k. destruct (speed_loop k e d) as [l'|] eqn:L; [|discriminate T].
    cbn [bind] in T. change (100000 =? 0) with false in T. injection T as ->. apply speed_loop_hands in L. now rewrite L, map_length, seq_length. }
  rewrite L in M. assert (X : (inject_Z 100000 == 100000)%Q) by reflexivity. rewrite X in M. clear X L. exists avg.
  set (t := total_time clock (Z.to_nat 100000)) in *. clearbody t. split; [exact M|].
  destruct (Qeq_bool avg 0) eqn:Z0.
  - left. apply Qeq_bool_eq in Z0. split; [|reflexivity]. rewrite <- M, Z0. reflexivity.
  - right. apply Qeq_bool_neq in Z0. split; [intros Y; apply Z0; rewrite Y in M; lra|]. eexists. split; [reflexivity|]. field. exact Z0.
Qed.
Print Assumptions C86_main.
(** a clock that gains 1/4 with every call; the mean of three evaluations is 1/4 *)
Example C86_example : runs_on (fun i => Z.of_nat i # 4)%Q /\
  match Evaluator 4 13 5 0 true None with
  | Ok e => match timed_speed_test (fun i => Z.of_nat i # 4)%Q 0 [] e 3, speed_test [] e 3 with Ok avg, Ok l => Qeq_bool avg (1 # 4) && Nat.eqb (List.length l) 3 | _, _ => false end
  | Err _ => false
  end = true.
Proof. split; [intros i; unfold Qle; cbn [Qnum Qden]; lia|vm_compute; reflexivity]. Qed.
