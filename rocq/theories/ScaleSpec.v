(** * ScaleSpec: the same table with every chip replaced by [k] chips *)
From Verif Require Import PyBase CardModel EvalModel EngineModel ShowSpec PaidSpec HandEnd.

(** the arguments of the constructor: blinds, antes, fixed raise sizes and the starting stack are amounts of chips *)
Definition k_inp {A} (f : A -> A) (v : inp A) : inp A :=
  match v with Scalar a => Scalar (f a) | Listed l => Listed (map f l) end.
Definition k_raw_raise (k : Z) (r : raw_raise) : raw_raise := match r with RawInt z => RawInt (k * z) | r => r end.
Definition k_raw (k : Z) (w : raw_config) : raw_config :=
  mkRaw (rw_num_players w) (rw_num_streets w) (k_inp (Z.mul k) (rw_blinds w)) (k_inp (Z.mul k) (rw_antes w))
        (k_inp (k_raw_raise k) (rw_raise_sizes w)) (rw_num_raises w) (rw_num_suits w) (rw_num_ranks w)
        (rw_num_hole_cards w) (rw_num_community_cards w) (rw_num_cards_for_hand w) (rw_mandatory_num_hole_cards w)
        (k * rw_start_stack w) (rw_low_end_straight w) (rw_order w).

(** the dealer *)
Definition k_rsize (k : Z) (r : rsize) : rsize := match r with RInt z => RInt (k * z) | r => r end.
Definition k_config (k : Z) (c : config) : config :=
  mkConfig (num_players c) (num_streets c) (map (Z.mul k) (blinds c)) (map (Z.mul k) (antes c)) (k * big_blind c)
           (map (k_rsize k) (raise_sizes c)) (num_raises c) (num_hole_cards c) (num_community_cards c)
           (k * start_stack c) (the_evaluator c).
Definition k_entry (k : Z) (e : nat * Z * bool) : nat * Z * bool := let '(i, bet, fold) := e in (i, k * bet, fold).
Definition k_state (k : Z) (s : state) : state :=
  mkState (action s) (active s) (button s) (community_cards s) (the_deck s) (map (k_entry k) (history s)) (hole_cards s)
          (k * largest_raise s) (k * pot s) (map (Z.mul k) (pot_commits s)) (map (Z.mul k) (stacks s)) (street s)
          (map (Z.mul k) (street_commits s)) (street_option s) (street_raises s).

(** what it returns *)
Definition k_obs (k : Z) (o : obs) : obs :=
  mkObs (o_action o) (o_active o) (o_button o) (k * o_call o) (o_community_cards o) (o_hole_cards o)
        (k * o_max_raise o) (k * o_min_raise o) (k * o_pot o) (map (Z.mul k) (o_stacks o)) (map (Z.mul k) (o_street_commits o)).
Definition k_out (k : Z) (o : step_out) : step_out :=
  mkOut (k_obs k (out_obs o)) (map (Z.mul k) (out_payouts o)) (out_done o).
Definition k_result {A} (f : A -> A) (r : result A) : result A := match r with Ok a => Ok (f a) | Err e => Err e end.

(** what the program does: bets and stacks are amounts of chips *)
Definition k_bet (k : Z) (b : pynum) : pynum :=
  match b with PyInt z => PyInt (k * z) | PyFloat q => PyFloat (inject_Z k * q) | b => b end.
Definition k_op (k : Z) (o : op) : op :=
  match o with OStep b => OStep (k_bet k b) | OSetStacks l => OSetStacks (map (Z.mul k) l) | o => o end.

(** a bet of whole chips; infinities and nan are refused anyway *)
Definition whole (b : pynum) : Prop := match b with PyFloat q => exists z, q = inject_Z z | _ => True end.

(** no chip is left over when the table [s] goes to a showdown *)
Definition no_odd_chips (c : config) (s : state) : Prop :=
  2 <= count_true (active s) -> (num_streets c <= street s)%nat ->
  forall pots, paid_pots (show_of c s) 0 pots -> odd_chips pots = 0.

(** a program none of whose showdowns leaves a chip over and whose bets are whole *)
Fixpoint evenly (c : config) (s : state) (ops : list op) : Prop :=
  match ops with
  | [] => True
  | o :: r =>
    match o with OStep b => whole b /\ no_odd_chips c (fst (step c s b)) | _ => True end /\
    evenly c (apply_op c s o) r
  end.
