(** * ExampleModel: the example programs of the README and of example.py

    README.md:23-50 and example.py:7-45.  Both build a dealer, deal a hand, and bet until the hand is over; what they
    bet depends on the last observation and on random numbers.  The values of [random] are arguments: a list of moves, one
    for every pass of the loop.  [time.sleep] is left out. *)
From Verif Require Import PyBase CardModel EvalModel EngineModel AsciiModel JsonModel SvgModel RenderModel ConfigsModel.

(** what a program has done after the moves of the list: printed the rewards (the state of the dealer is kept for the
    statements), stopped with an exception, or is still in its loop *)
Inductive outcome : Type :=
| Prints (rewards : list Z) (s : state)
| Raises (e : exn)
| Plays (s : state) (o : obs).

Section Program.
Context {A : Type} (bet : obs -> A -> result Z).
(** README.md:32-49: the loop *)
Fixpoint plays_on (c : config) (s : state) (o : obs) (l : list A) : outcome :=
  match l with
  | [] => Plays s o
  | m :: r =>
    match bet o m with
    | Err e => Raises e
    | Ok b =>
      match step c s (PyInt b) with
      | (_, Err e) => Raises e
      | (s', Ok out) => if all_true (out_done out) then Prints (out_payouts out) s' else plays_on c s' (out_obs out) r
      end
    end
  end.
(** README.md:29-49: [rnd0] and [rnd] are the random choices of the two shuffles *)
Definition program (w : raw_config) (rnd0 rnd : list nat) (l : list A) : outcome :=
  match Dealer rnd0 w with
  | Err e => Raises e
  | Ok (c, s) => match reset c s rnd false false with
                 | (_, Err e) => Raises e
                 | (s1, Ok o) => plays_on c s1 o l
                 end
  end.
End Program.

(** the branches of README.md:37-43 and of example.py:22-31; the number stands for the result of [randint] *)
Inductive move : Type := MZero | MCall | MRaise (k : nat).
(** README.md:33-43; [random.randint(a, b)] raises a ValueError if [b < a] *)
Definition readme_bet (o : obs) (m : move) : result Z :=
  match m with
  | MZero => Ok 0
  | MCall => Ok (o_call o)
  | MRaise k => if o_max_raise o <? o_min_raise o then Err ValueError
                else Ok (o_min_raise o + Z.of_nat k mod (o_max_raise o - o_min_raise o + 1))
  end.
Definition readme : list nat -> list nat -> list move -> outcome := program readme_bet NO_LIMIT_HOLDEM_SIX_PLAYER.

(** example.py:17-31 *)
Definition example_bet (o : obs) (m : move) : Z :=
  match m with MZero => 0 | MCall => o_call o | MRaise _ => o_min_raise o end.
(** example.py:16-39: the loop, which draws the table after every step; [kept] is the attribute [viewer] of the dealer *)
Fixpoint example_loop (env : environment) (seat_at commit_at : nat -> Z * Z) (c : config) (s : state) (o : obs)
         (kept : option any_viewer) (l : list move) : outcome :=
  match l with
  | [] => Plays s o
  | m :: r =>
    match step c s (PyInt (example_bet o m)) with
    | (_, Err e) => Raises e
    | (s', Ok out) =>
      match render env seat_at commit_at c s' kept "human" with
      | (_, Err e) => Raises e
      | (kept', Ok _) => if all_true (out_done out) then Prints (out_payouts out) s'
                         else example_loop env seat_at commit_at c s' (out_obs out) kept' r
      end
    end
  end.
(** example.py:8-41 *)
Definition example_py (env : environment) (seat_at commit_at : nat -> Z * Z) (rnd0 rnd : list nat) (l : list move) : outcome :=
  match Dealer rnd0 NO_LIMIT_HOLDEM_NINE_PLAYER with
  | Err e => Raises e
  | Ok (c, s) =>
    match reset c s rnd false false with
    | (_, Err e) => Raises e
    | (s1, Ok o) =>
      match render env seat_at commit_at c s1 None "human" with
      | (_, Err e) => Raises e
      | (kept, Ok _) => example_loop env seat_at commit_at c s1 o kept l
      end
    end
  end.
