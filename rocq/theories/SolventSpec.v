(** * SolventSpec: tables at which nobody is made to post more than they have *)
From Verif Require Import PyBase CardModel EvalModel EngineModel EngineSpec.

(** nobody has a negative stack *)
Definition no_debts (s : state) : Prop := forall i, 0 <= stack_of s i.

(** Fair play in which the antes and blinds taken by a reset leave nobody with a negative stack,
    and stacks are assigned between hands only. *)
Inductive solvent (c : config) : state -> Prop :=
| solvent_new w rnd s : Dealer rnd w = Ok (c, s) -> sane c -> solvent c s
| solvent_op s o : solvent c s -> allowed c s o ->
    match o with
    | OReset rnd rb rs => no_debts (fst (reset c s rnd rb rs))
    | OSetStacks l => action s = None /\ Forall (fun x => 0 <= x) l
    | _ => True
    end ->
    solvent c (apply_op c s o).

(** everybody who is dealt in can pay any ante together with any blind *)
Definition affordable (c : config) (s : state) (rs : bool) : Prop :=
  forall i a b, (i < num_players c)%nat -> In a (0 :: antes c) -> In b (0 :: blinds c) ->
    let chips := if rs then start_stack c else stack_of s i in
    0 < chips -> a + b <= chips.

(** the same ante from everybody *)
Definition equal_antes (c : config) : Prop := exists a, Forall (eq a) (antes c).

Lemma solvent_fair c s : solvent c s -> fair c s.
Proof.
  induction 1 as [w rnd s H Hs|s o S IH Ho Hn]; [eapply fair_new; eassumption|].
  apply fair_op; [exact IH|exact Ho|]. destruct o; try exact I. apply Hn.
Qed.
