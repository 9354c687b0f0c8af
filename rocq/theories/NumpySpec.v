(** * NumpySpec: vocabulary for the properties of the dealer on arrays *)
From Verif Require Import PyBase CardModel EvalModel EngineModel EngineSpec SolventSpec NumpyModel.

(** Histories as for the dealer on lists ([allowed], [reachable], [fair] in EngineSpec.v): a new
    dealer, then resets, steps with any bets, tricking of the deck and assignments of stacks.
    Excluded are a reset that raises in the middle of a hand and an assignment of an array of
    another length.  Amounts and assigned stacks are not negative. *)
Definition np_allowed (c : config) (s : state) (o : op) : Prop :=
  match o with
  | OReset rnd rb rs => action s = None \/ is_ok (snd (np_reset c s rnd rb rs)) = true
  | OSetStacks l => List.length l = num_players c
  | _ => True
  end.
Inductive np_fair (c : config) : state -> Prop :=
| np_fair_new w rnd s : Dealer rnd w = Ok (c, s) -> sane c -> np_fair c s
| np_fair_op s o : np_fair c s -> np_allowed c s o ->
    match o with OSetStacks l => Forall (fun x => 0 <= x) l | _ => True end ->
    np_fair c (np_apply_op c s o).
(** fair play without debts, as [solvent] in SolventSpec.v *)
Inductive np_solvent (c : config) : state -> Prop :=
| np_solvent_new w rnd s : Dealer rnd w = Ok (c, s) -> sane c -> np_solvent c s
| np_solvent_op s o : np_solvent c s -> np_allowed c s o ->
    match o with
    | OReset rnd rb rs => no_debts (fst (np_reset c s rnd rb rs))
    | OSetStacks l => action s = None /\ Forall (fun x => 0 <= x) l
    | _ => True
    end ->
    np_solvent c (np_apply_op c s o).
(** the seat of the dealer button: the attribute [button] is counted up by every reset and is
    not kept below the number of players *)
Definition button_seat (c : config) (s : state) : nat := Nat.modulo (button s) (num_players c).
(** the same table at the dealer on lists: only the button is different *)
Definition set_button (s : state) (b : nat) : state :=
  mkState (action s) (active s) b (community_cards s) (the_deck s) (history s)
          (hole_cards s) (largest_raise s) (pot s) (pot_commits s) (stacks s)
          (street s) (street_commits s) (street_option s) (street_raises s).
Definition wrap (c : config) (s : state) : state := set_button s (button s mod num_players c).
(** the same observation, with the button as a seat *)
Definition wrap_obs (c : config) (o : obs) : obs :=
  mkObs (o_action o) (o_active o) (o_button o mod num_players c)%nat (o_call o) (o_community_cards o) (o_hole_cards o)
        (o_max_raise o) (o_min_raise o) (o_pot o) (o_stacks o) (o_street_commits o).
Definition map_ok {A B} (f : A -> B) (r : result A) : result B := match r with Ok a => Ok (f a) | Err e => Err e end.
(** a sequence of steps *)
Definition np_run_steps (c : config) (s : state) (bets : list pynum) : state :=
  fold_left (fun s b => fst (np_step c s b)) bets s.

(** the chips the seat [a] puts in with a step *)
Definition np_put_in (c : config) (s : state) (b : pynum) (a : nat) : Z :=
  committed (fst (np_step c s b)) a - committed s a.

(** a history of operations, all of them as above *)
Definition np_allowedb (c : config) (s : state) (o : op) : bool :=
  match o with
  | OReset rnd rb rs => match action s with None => true | Some _ => is_ok (snd (np_reset c s rnd rb rs)) end
  | OSetStacks l => Nat.eqb (List.length l) (num_players c) && forallb (Z.leb 0) l
  | _ => true
  end.
Fixpoint np_all_allowed (c : config) (s : state) (ops : list op) : bool :=
  match ops with
  | [] => true
  | o :: r => if np_allowedb c s o then np_all_allowed c (np_apply_op c s o) r else false
  end.
