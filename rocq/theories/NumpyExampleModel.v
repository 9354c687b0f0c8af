(** * NumpyExampleModel: the example program of the README, played at the dealer on arrays

    README.md:29-49 as in ExampleModel.v, with the class Dealer of engine_numpy.py. *)
From Verif Require Import PyBase CardModel EvalModel EngineModel NumpyModel ConfigsModel ExampleModel.

Section Program.
Context {A : Type} (bet : obs -> A -> result Z).
(** README.md:32-49: the loop, with [step] of engine_numpy.py:318-418 *)
Fixpoint np_plays_on (c : config) (s : state) (o : obs) (l : list A) : outcome :=
  match l with
  | [] => Plays s o
  | m :: r =>
    match bet o m with
    | Err e => Raises e
    | Ok b =>
      match np_step c s (PyInt b) with
      | (_, Err e) => Raises e
      | (s', Ok out) => if all_true (out_done out) then Prints (out_payouts out) s' else np_plays_on c s' (out_obs out) r
      end
    end
  end.
(** README.md:29-49, with [reset] of engine_numpy.py:244-316 *)
Definition np_program (w : raw_config) (rnd0 rnd : list nat) (l : list A) : outcome :=
  match Dealer rnd0 w with
  | Err e => Raises e
  | Ok (c, s) => match np_reset c s rnd false false with
                 | (_, Err e) => Raises e
                 | (s1, Ok o) => np_plays_on c s1 o l
                 end
  end.
End Program.
Definition np_readme : list nat -> list nat -> list move -> outcome := np_program readme_bet NO_LIMIT_HOLDEM_SIX_PLAYER.
