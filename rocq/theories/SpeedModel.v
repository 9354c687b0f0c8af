(** * SpeedModel: the clock of Evaluator.speed_test, and speed_test.py

    evaluator.py:159-182 and speed_test.py:4-8.  [clock i] is the value of the (i+1)-st call of [timer].
    Simplified: differences, sums and quotients are exact fractions, not floats. *)
From Verif Require Import PyBase CardModel EvalModel EvalTextModel.

(** evaluator.py:174-178: the loop, with the sum [time] and the number [k] of calls of [timer] so far *)
Fixpoint timed_loop (clock : nat -> Q) (n : nat) (k : nat) (time : Q) (e : evaluator) (d : deck) : result Q :=
  match n with
  | O => Ok time
  | S n =>
    let start := clock k in
    let '(hole, d) := deck_draw 2 d in
    let '(community, d) := deck_draw 5 d in
    let* _ := evaluate e hole community in
    timed_loop clock n (S (S k)) (time + (clock (S k) - start))%Q e d
  end.
(** evaluator.py:159-182, Evaluator.speed_test; [k] as above *)
Definition timed_speed_test (clock : nat -> Q) (k : nat) (rnd : list nat) (e : evaluator) (n : Z) : result Q :=
  let* d := Deck rnd (e_suits e) (e_ranks e) in
  let* time := timed_loop clock (Z.to_nat n) k 0%Q e d in
  if n =? 0 then Err ZeroDivisionError else Ok (time / inject_Z n)%Q.
(** speed_test.py:4-8: the two numbers printed, and whether the second line raises; the first line
    has been printed then *)
Definition speed_main (clock : nat -> Q) (rnd : list nat) : list Q * result unit :=
  match (let* e := Evaluator 4 13 5 0 true None in timed_speed_test clock 0 rnd e 100000) with
  | Err x => ([], Err x)
  | Ok avg => if Qeq_bool avg 0 then ([avg], Err ZeroDivisionError) else ([avg; (1 / avg)%Q], Ok tt)
  end.
