(** * FloatModel: the floats returned by [win_probabilities]

    Models the expressions
    - clubs/poker/engine.py:521-524 [hands_won[player_idx] / num_won] (division of two ints) and
    - engine_numpy.py:522 [(hands_won / hands_won.sum()).tolist()] (division of two integer arrays).
    A float is represented by its exact rational value.  Both divisions give the double that IEEE 754
    prescribes for the quotient (nearest, ties to the even significand).  Python's division of ints does so
    for ints of every size; numpy converts both ints to doubles first, which is exact up to 2^53.
    Simplification: only quotients of ints [0 <= a <= 2^52 * b], [0 < b], so there are no signs, infinities and
    overflows; in the two expressions [a <= b]. *)
From Verif Require Import PyBase CardModel EvalModel EngineModel NumpyModel.

(** the integer nearest to [p / q]; of two nearest ones the even one *)
Definition half_even (p q : Z) : Z :=
  let d := p / q in
  let r := p mod q in
  if 2 * r <? q then d
  else if q <? 2 * r then d + 1
  else if Z.even d then d else d + 1.

(** how many binary places the double nearest to [a / b] has at most: 53 significant ones, and never more
    than 1074 *)
Definition places (a b : Z) : Z :=
  let k := Z.log2 b - Z.log2 a in
  Z.min 1074 (if a * 2 ^ Z.max 0 k <? b * 2 ^ Z.max 0 (- k) then 53 + k else 52 + k).

(** [a / b] for ints [0 <= a <= 2^52 * b], [0 < b] *)
Definition true_div (a b : Z) : Q :=
  if a =? 0 then 0%Q
  else let e := places a b in half_even (a * 2 ^ e) b # Z.to_pos (2 ^ e).

(** ** engine.py:496-524 *)
Definition float_probabilities (c : config) (s : state) : result (list Q) :=
  let* ps := win_probabilities c s in
  Ok (map (fun p => true_div (fst p) (snd p)) ps).

(** ** engine_numpy.py:482-524 *)
Definition np_float_probabilities (c : config) (s : state) (n : Z) (samples : list (list card))
  : result (list Q) :=
  let* ps := np_win_probabilities c s n samples in
  Ok (map (fun p => true_div (fst p) (snd p)) ps).
