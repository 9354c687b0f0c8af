(** * EvalTextModel: the text of an evaluator and its speed test

    clubs/poker/evaluator.py:60-73 and 159-182 *)
From Verif Require Import PyBase CardModel EvalModel.

(** evaluator.py:60-68: the classes in the order of [ranked_hands], each with the quotient
    [hand_dict[hand]["suited"] / total].  Simplified: the quotient is an exact fraction, not a float. *)
Definition hand_shares (e : evaluator) : list (hclass * Q) :=
  let ranked := r_ranked (t_ranking (e_table e)) in
  let suited h := fst (t_counts (e_table e) h) in
  let total := sumZ (map suited ranked) in
  map (fun h => (h, inject_Z (suited h) / inject_Z total)%Q) ranked.
(** evaluator.py:65-70 and 72-73, [hand_ranks] and __str__; the formatting "{:.4%}" of a number is an argument *)
Definition evaluator_str (percent : Q -> list Z) (e : evaluator) : list Z :=
  join (ustr " > ") (map (fun p => ustr (class_name (fst p)) ++ ustr " (" ++ percent (snd p) ++ ustr ")") (hand_shares e)).

(** evaluator.py:159-182, Evaluator.speed_test without the clock: the hands given to [evaluate], in order *)
Fixpoint speed_loop (n : nat) (e : evaluator) (d : deck) : result (list (list card * list card)) :=
  match n with
  | O => Ok []
  | S n =>
    let '(hole, d) := deck_draw 2 d in
    let '(community, d) := deck_draw 5 d in
    let* _ := evaluate e hole community in
    let* rest := speed_loop n e d in
    Ok ((hole, community) :: rest)
  end.
Definition speed_test (rnd : list nat) (e : evaluator) (n : Z) : result (list (list card * list card)) :=
  let* d := Deck rnd (e_suits e) (e_ranks e) in
  let* l := speed_loop (Z.to_nat n) e d in
  if n =? 0 then Err ZeroDivisionError else Ok l.
