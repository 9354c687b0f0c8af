(** * EngineDemo: small concrete games for the examples beside the theorems *)
From Coq Require Import ZifyBool.
From Verif Require Import PyBase PyFacts CardModel EvalModel EngineModel EngineSpec.

(** one hole card, hands of one card from a deck of 52 cards: ranks decide, suits do not *)
Definition demo (n : Z) (streets : Z) (bl an : list Z) (raises : list raw_raise) (counts : list raw_count)
           (comm : list Z) (start : Z) : raw_config :=
  mkRaw n streets (Listed bl) (Listed an) (Listed raises) (Listed counts) 4 13 1 (Listed comm) 1 0 start true None.

Definition saneb (c : config) : bool :=
  forallb (Z.leb 0) (blinds c) && forallb (Z.leb 0) (antes c)
  && forallb (fun r => match r with RInt z => 0 <=? z | _ => true end) (raise_sizes c) && (0 <=? start_stack c).
Definition fair_ops (ops : list op) : bool :=
  forallb (fun o => match o with OSetStacks l => forallb (Z.leb 0) l | _ => true end) ops.

(** build the dealer and play *)
Definition played (w : raw_config) (ops : list op) : result (config * state) :=
  let* cs := Dealer [] w in
  let '(c, s) := cs in
  if all_allowed c s ops && saneb c && fair_ops ops then Ok (c, run c s ops) else Err TypeError.

Lemma saneb_sane c : saneb c = true -> sane c.
Proof.
  unfold saneb. rewrite !andb_true_iff, !forallb_forall. intros [[[H1 H2] H3] H4].
  split; try (apply Forall_forall; intros x Hx); [apply H1 in Hx; lia|apply H2 in Hx; lia| |lia].
  specialize (H3 x Hx). destruct x; [lia|exact I|exact I].
Qed.
Lemma fair_run c s ops : fair c s -> all_allowed c s ops = true -> fair_ops ops = true -> fair c (run c s ops).
Proof.
  revert s; induction ops as [|o ops IH]; intros s R H F; [exact R|]. cbn [all_allowed] in H.
  destruct (allowedb c s o) eqn:E; [|discriminate]. cbn [fair_ops forallb] in F. apply andb_true_iff in F. destruct F as [F1 F2].
  cbn. apply IH; [|exact H|exact F2]. apply fair_op; [exact R| |].
  - destruct o as [rnd rb rs|b|cs| |l]; cbn in *; try exact I.
    + destruct (action s) eqn:Ea; [now right|now left].
    + now apply PeanoNat.Nat.eqb_eq in E.
  - destruct o; try exact I. rewrite forallb_forall in F1. apply Forall_forall. intros x Hx. apply F1 in Hx. lia.
Qed.
Lemma played_fair w ops c s : played w ops = Ok (c, s) -> fair c s.
Proof.
  unfold played. destruct (Dealer [] w) as [[c0 s0]|] eqn:E; [|discriminate]. cbn [bind].
  destruct (all_allowed c0 s0 ops && saneb c0 && fair_ops ops) eqn:A; [|discriminate]. intros H. injection H as <- <-.
  apply andb_true_iff in A. destruct A as [A A3]. apply andb_true_iff in A. destruct A as [A1 A2].
  apply fair_run; try assumption. eapply fair_new; [exact E|now apply saneb_sane].
Qed.
Lemma played_reachable w ops c s : played w ops = Ok (c, s) -> reachable c s.
Proof. intros H. now apply fair_reachable, (played_fair w ops). Qed.

(** facts about the final state by computation *)
Lemma played_fact {A} w ops c s (f : config -> state -> A) v : played w ops = Ok (c, s) ->
  match played w ops with Ok (c, s) => Some (f c s) | Err _ => None end = Some v -> f c s = v.
Proof. intros ->. congruence. Qed.
Ltac by_play E :=
  lazymatch type of E with played ?w ?ops = Ok (?c, ?s) =>
    lazymatch goal with |- ?l = ?v =>
      let p := eval pattern c, s in l in
      lazymatch p with ?f c s => apply (played_fact w ops c s f v E); vm_compute; reflexivity end end end.
Ltac play w ops c s E :=
  destruct (played w ops) as [[c s]|] eqn:E; [exists c, s|exfalso; vm_compute in E; discriminate].

(** the card with a given index in the full deck of 52 cards *)
Definition demo_card (i : nat) : card :=
  match deck_full 4 13 with Ok l => nth i l (mkCard 0 0 0) | Err _ => mkCard 0 0 0 end.
Ltac splits := repeat (match goal with |- _ /\ _ => split end).
Ltac plays E := splits; by_play E.
