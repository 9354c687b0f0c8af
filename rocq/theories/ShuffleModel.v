(** * ShuffleModel: how [random.shuffle] orders a list

    [CardModel.deck_shuffle] takes any ordering ([PyBase.shuf]).  Here the standard library's [random.shuffle] (CPython,
    Lib/random.py) is modelled as it computes the ordering from the numbers it draws, so that one can say how often each
    ordering comes up. *)
From Verif Require Import PyBase CardModel.

(** [x[i], x[j] = x[j], x[i]]; an index outside the list leaves it as it is (it does not occur) *)
Definition swap {A} (i j : nat) (l : list A) : list A :=
  match nth_error l i, nth_error l j with
  | Some x, Some y => upd (upd l i y) j x
  | _, _ => l
  end.

(** the loop of [random.shuffle], called at card.py:222 and card.py:225:
    [for i in reversed(range(1, len(x))): j = randbelow(i + 1); x[i], x[j] = x[j], x[i]];
    [js] are the numbers [randbelow] returns, [i] the first index *)
Fixpoint shuffle_from {A} (i : nat) (js : list nat) (l : list A) : list A :=
  match i with
  | O => l
  | S i' => shuffle_from i' (tl js) (swap i (hd O js) l)
  end.
Definition py_shuffle {A} (js : list nat) (l : list A) : list A := shuffle_from (List.length l - 1) js l.

(** the random source of [PyBase.shuf] that gives the same ordering: where the elements of [l], from the first to the
    last, are found in [l'] when the elements before them are taken out *)
Fixpoint find_nat (x : nat) (l : list nat) : nat :=
  match l with
  | [] => O
  | y :: r => if Nat.eqb x y then O else S (find_nat x r)
  end.
Fixpoint positions (l l' : list nat) : list nat :=
  match l with
  | [] => []
  | x :: r => let k := find_nat x l' in k :: positions r (firstn k l' ++ skipn (S k) l')
  end.
(** card.py:222 and card.py:225 on [n] cards, with [js] the numbers drawn by [random.shuffle] *)
Definition source (js : list nat) (n : nat) : list nat := positions (seq 0 n) (py_shuffle js (seq 0 n)).
