(** * ReprModel: the [__repr__] methods and [Card._bin_str]

    [id(self)] is a parameter: Python only promises an integer that differs for objects that exist at
    the same time. *)
From Verif Require Import PyBase CardModel EvalModel EngineModel AsciiModel PercentModel.

(** the binary digits of a positive number in front of [acc] *)
Fixpoint bin_pos (p : positive) (acc : list Z) : list Z :=
  match p with
  | xH => 49 :: acc
  | xO q => bin_pos q (48 :: acc)
  | xI q => bin_pos q (49 :: acc)
  end.
(** Python's format [{:b}] of an int *)
Definition fmt_b (z : Z) : list Z :=
  match z with
  | Z0 => ustr "0"
  | Zpos p => bin_pos p []
  | Zneg p => ustr "-" ++ bin_pos p []
  end.
(** card.py:89, [Card._bin_str] *)
Definition bin_str (c : card) : list Z := fmt_b (c_int c).

(** card.py:99-100, Card.__repr__ *)
Definition card_repr (id : Z) (c : card) : list Z := ustr "Card (" ++ str_int id ++ ustr "): " ++ card_str c.
(** card.py:173-174, Deck.__repr__ *)
Definition deck_repr (id : Z) (d : deck) : list Z := ustr "Deck (" ++ str_int id ++ ustr "): " ++ deck_str d.
(** evaluator.py:75-76, Evaluator.__repr__ *)
Definition evaluator_repr (id : Z) (e : evaluator) : list Z := ustr "Evaluator (" ++ str_int id ++ ustr "): " ++ evaluator_text e.
(** engine.py:240-245, Dealer.__repr__; engine_numpy.py:237-242 is the same text *)
Definition dealer_repr (id : Z) (c : config) : list Z :=
  ustr "Dealer (" ++ str_int id ++ ustr ") - num players: " ++ str_int (Z.of_nat (num_players c)) ++
  ustr ", num streets: " ++ str_int (Z.of_nat (num_streets c)).
(** graphic.py:308-309, _SVGElement.__repr__; [name] is the attribute [name] *)
Definition svg_repr (id : Z) (name : list Z) : list Z := ustr "_SVGElement<name=" ++ name ++ ustr ", id=" ++ str_int id ++ ustr ">".
