(** * CardSpec: what a card is, stated without the tables of card.py.

    A card has a rank index [i] (0 = deuce .. 12 = ace) and a suit index [j]
    (0 = spades, 1 = hearts, 2 = diamonds, 3 = clubs). *)
From Verif Require Import PyBase CardModel.

(** code points accepted for each rank: 2..9, then T J Q K A in either case *)
Definition rank_symbols : list (list Z) :=
  [[50]; [51]; [52]; [53]; [54]; [55]; [56]; [57];
   [84; 116]; [74; 106]; [81; 113]; [75; 107]; [65; 97]].

(** code points accepted for each suit: S H D C in either case.  383 is the long s
    (U+017F), which Python's [str.upper] also turns into an S. *)
Definition suit_symbols : list (list Z) := [[83; 115; 383]; [72; 104]; [68; 100]; [67; 99]].

(** printed rank symbol, printed suit glyph, prime of the rank *)
Definition rank_letter : list Z := [50; 51; 52; 53; 54; 55; 56; 57; 84; 74; 81; 75; 65].
Definition suit_glyph : list Z := [9824; 9829; 9830; 9827].
Definition rank_prime : list Z := [2; 3; 5; 7; 11; 13; 17; 19; 23; 29; 31; 37; 41].

(** position of the symbol class containing [c] *)
Fixpoint symbol_index (c : Z) (classes : list (list Z)) : option nat :=
  match classes with
  | [] => None
  | cl :: r => if existsb (Z.eqb c) cl then Some O else option_map S (symbol_index c r)
  end.

(** the documented 29-bit layout as a sum of disjoint bit fields *)
Definition layout (i j : nat) : Z :=
  2 ^ 16 * 2 ^ Z.of_nat i + 2 ^ 12 * 2 ^ Z.of_nat j + 2 ^ 8 * Z.of_nat i
  + nth i rank_prime 0.

Definition the_card (i j : nat) : card :=
  mkCard (layout i j) (nth j suit_glyph 0) (nth i rank_letter 0).

(** the cards of a deck with the [r] highest ranks and the first [s] suits *)
Definition deck_cards (s r : nat) : list card :=
  flat_map (fun i => map (the_card i) (seq 0 s)) (seq (13 - r) r).
