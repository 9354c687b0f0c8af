(** * PercentModel: the text of an evaluator with its percentages

    clubs/poker/evaluator.py:60-73; [EvalTextModel.v] has the exact shares and leaves the formatting open *)
From Verif Require Import PyBase CardModel EvalModel EngineModel AsciiModel FloatModel.

(** [x * 100] for a float [0 <= x <= 1]: the double for the exact product *)
Definition times_100 (x : Q) : Q := true_div (100 * Qnum x) (Zpos (Qden x)).

(** ["{:.4f}".format(x)] for a float [x >= 0]: its exact value, rounded to four decimals (ties to even) *)
Definition fixed_4 (x : Q) : list Z :=
  let n := half_even (10000 * Qnum x) (Zpos (Qden x)) in
  str_int (n / 10000) ++ ustr "." ++ map (fun k => 48 + (n / k) mod 10) [1000; 100; 10; 1].

(** ["{:.4%}".format(x)]: Python multiplies the float by 100, formats it as ["{:.4f}"] and adds the sign *)
Definition percent (x : Q) : list Z := fixed_4 (times_100 x) ++ ustr "%".

(** evaluator.py:60-70, [hand_ranks], which is also __str__ (72-73).  Simplified: the counts are taken to be
    between 0 and [total], as they are for all decks with enough cards ([counts_ok] in PropPercent.v). *)
Definition evaluator_text (e : evaluator) : list Z :=
  let ranked := r_ranked (t_ranking (e_table e)) in
  let suited h := fst (t_counts (e_table e) h) in
  let total := sumZ (map suited ranked) in
  join (ustr " > ") (map (fun h => ustr (class_name h) ++ ustr " (" ++ percent (true_div (suited h) total) ++ ustr ")") ranked).
