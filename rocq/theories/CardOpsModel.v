(** * CardOpsModel: the operators of cards, clubs/poker/card.py:102-127

    Python dispatches [a & b] to [type(a).__and__] first and, when that returns
    NotImplemented (as [int.__and__] does for a card), to [type(b).__rand__].  An
    operand is a card, an integer, or any object that defines none of these
    operators and compares by identity (a string, None, a list of a caller). *)
From Verif Require Import PyBase CardModel.

Inductive operand : Type := OCard (c : card) | OInt (z : Z) | OOther.

(** card.py:104-105 and 112-113: "if isinstance(other, Card): other = other._int" *)
Definition unwrap (o : operand) : operand :=
  match o with OCard c => OInt (c_int c) | o => o end.

(** card.py:102-105, Card.__and__; [int & other] is a TypeError for other objects *)
Definition card_and (self : card) (other : operand) : result Z :=
  match unwrap other with OInt y => Ok (Z.land (c_int self) y) | _ => Err TypeError end.

(** card.py:107-108, Card.__rand__; reached only when the left operand is not a card *)
Definition card_rand (self : card) (other : operand) : result Z :=
  match other with
  | OInt x => Ok (Z.land x (c_int self))
  | OCard c => card_and c (OInt (c_int self))
  | OOther => Err TypeError
  end.

(** card.py:110-113, Card.__or__ *)
Definition card_or (self : card) (other : operand) : result Z :=
  match unwrap other with OInt y => Ok (Z.lor (c_int self) y) | _ => Err TypeError end.

(** card.py:115-116, Card.__ror__ *)
Definition card_ror (self : card) (other : operand) : result Z :=
  match other with
  | OInt x => Ok (Z.lor x (c_int self))
  | OCard c => card_or c (OInt (c_int self))
  | OOther => Err TypeError
  end.

(** shifts of Python integers: a negative count is a ValueError.  Counts for which
    the result does not fit the memory are not distinguished from others. *)
Definition int_lshift (x : Z) (other : operand) : result Z :=
  match other with
  | OInt n => if n <? 0 then Err ValueError else Ok (Z.shiftl x n)
  | _ => Err TypeError
  end.
Definition int_rshift (x : Z) (other : operand) : result Z :=
  match other with
  | OInt n => if n <? 0 then Err ValueError else Ok (Z.shiftr x n)
  | _ => Err TypeError
  end.

(** card.py:118-119, Card.__lshift__ and 121-122, Card.__rshift__ *)
Definition card_lshift (self : card) (other : operand) : result Z := int_lshift (c_int self) other.
Definition card_rshift (self : card) (other : operand) : result Z := int_rshift (c_int self) other.

(** card.py:124-127, Card.__eq__ *)
Definition card_eq (self : card) (other : operand) : result bool :=
  match other with
  | OCard c => Ok (card_eqb self c)
  | _ => Err NotImplementedError
  end.

(** ** The expressions a caller writes *)
Definition py_and (a b : operand) : result Z :=
  match a, b with
  | OCard c, _ => card_and c b
  | _, OCard c => card_rand c a
  | OInt x, OInt y => Ok (Z.land x y)
  | _, _ => Err TypeError
  end.
Definition py_or (a b : operand) : result Z :=
  match a, b with
  | OCard c, _ => card_or c b
  | _, OCard c => card_ror c a
  | OInt x, OInt y => Ok (Z.lor x y)
  | _, _ => Err TypeError
  end.
(** a card has no reflected shifts *)
Definition py_lshift (a b : operand) : result Z :=
  match a with OCard c => card_lshift c b | OInt x => int_lshift x b | OOther => Err TypeError end.
Definition py_rshift (a b : operand) : result Z :=
  match a with OCard c => card_rshift c b | OInt x => int_rshift x b | OOther => Err TypeError end.

(** [a == b] when at least one side is a card: the comparison of the other side, if it
    is asked first, returns NotImplemented and the card is asked.  [a != b] is the
    inherited [__ne__], which inverts [__eq__].  [None]: no card is involved. *)
Definition py_eq (a b : operand) : option (result bool) :=
  match a, b with
  | OCard c, _ => Some (card_eq c b)
  | _, OCard c => Some (card_eq c a)
  | _, _ => None
  end.
Definition py_ne (a b : operand) : option (result bool) :=
  option_map (fun r => let* e := r in Ok (negb e)) (py_eq a b).

(** [x in l] for a list of cards: the items are compared from the left until one is
    equal; the identity test that precedes each comparison only succeeds for a card,
    which then is equal anyway *)
Fixpoint py_in (x : operand) (l : list card) : result bool :=
  match l with
  | [] => Ok false
  | c :: r => let* e := card_eq c x in if e then Ok true else py_in x r
  end.

(** [l.count(x)] and [l.index(x)] for a list of cards *)
Fixpoint py_count (x : operand) (l : list card) : result nat :=
  match l with
  | [] => Ok O
  | c :: r => let* e := card_eq c x in let* n := py_count x r in Ok (if e then S n else n)
  end.
Fixpoint py_index (x : operand) (l : list card) (i : nat) : result nat :=
  match l with
  | [] => Err ValueError
  | c :: r => let* e := card_eq c x in if e then Ok i else py_index x r (S i)
  end.

(** [hash(card)]: a class that defines [__eq__] (card.py:124) and not [__hash__] has
    [__hash__ = None]; sets and dictionary keys raise likewise *)
Definition card_hash (c : card) : result Z := Err TypeError.

(** [functools.reduce(op, l)] *)
Fixpoint reduce_from (op : operand -> operand -> result Z) (acc : operand) (l : list operand)
  : result operand :=
  match l with
  | [] => Ok acc
  | x :: r => let* v := op acc x in reduce_from op (OInt v) r
  end.
Definition reduce (op : operand -> operand -> result Z) (l : list operand) : result operand :=
  match l with [] => Err TypeError | x :: r => reduce_from op x r end.

(** card.py:245-249, Deck.trick given a list of any objects *)
Definition deck_trick_any (top : list operand) (d : deck) : result deck :=
  let* top_idcs := map_res (fun o => py_index o (d_full d) 0) top in
  let all_idcs := seq 0 (Z.to_nat (d_num_ranks d * d_num_suits d)) in
  let bottom := filter (fun i => negb (existsb (Nat.eqb i) top_idcs)) all_idcs in
  Ok (mkDeck (d_num_ranks d) (d_num_suits d) (d_full d) true top_idcs bottom
             (d_cards d)).
