(** * CardModel: clubs/poker/card.py *)
From Verif Require Import PyBase.

(** card.py:8-10 *)
Definition STR_RANKS : list Z := ustr "23456789TJQKA".
Definition INT_RANKS : list Z := zrange 0 13.
Definition PRIMES : list Z := [2; 3; 5; 7; 11; 13; 17; 19; 23; 29; 31; 37; 41].

(** dictionary lookup with code point keys *)
Fixpoint dict_get {V} (k : Z) (d : list (Z * V)) : option V :=
  match d with
  | [] => None
  | (k', v) :: r => if k =? k' then Some v else dict_get k r
  end.

(** card.py:12 *)
Definition CHAR_RANK_TO_INT_RANK : list (Z * Z) := combine STR_RANKS INT_RANKS.

(** card.py:13-18; keys are 'S' 'H' 'D' 'C' *)
Definition CHAR_SUIT_TO_INT_SUIT : list (Z * Z) :=
  combine (ustr "SHDC") [1; 2; 4; 8].

(** card.py:20-25 *)
Definition PRETTY_SUITS : list (Z * Z) :=
  [(1, 9824); (2, 9829); (4, 9830); (8, 9827)].

(** [str.upper] on a single character.  ASCII letters are mapped; the only
    non-ASCII character whose upper case is one of the table keys is U+017F (long
    s), whose upper case is 'S'.  Every other character is mapped to itself, which
    is not a key of either table, exactly as its real upper case is not. *)
Definition upper (c : Z) : Z :=
  if (97 <=? c) && (c <=? 122) then c - 32
  else if c =? 383 then 83
  else c.

(** card.py:59-91.  For [_bin_str] see ReprModel.v. *)
Record card : Type := mkCard { c_int : Z; c_suit : Z; c_rank : Z }.

(** card.py:59-91, Card.__init__ *)
Definition Card (s : list Z) : result card :=
  let* c0 := get s 0 in
  let* c1 := get s 1 in
  let rank_char := upper c0 in
  let suit_char := upper c1 in
  match dict_get rank_char CHAR_RANK_TO_INT_RANK with
  | None => Err InvalidRankError
  | Some rank_int =>
    match dict_get suit_char CHAR_SUIT_TO_INT_SUIT with
    | None => Err InvalidSuitError
    | Some suit_int =>
      let* rank_prime := get PRIMES (Z.to_nat rank_int) in
      let bitrank := Z.shiftl (Z.shiftl 1 rank_int) 16 in
      let suit := Z.shiftl suit_int 12 in
      let rank := Z.shiftl rank_int 8 in
      let i := Z.lor (Z.lor (Z.lor bitrank suit) rank) rank_prime in
      match dict_get suit_int PRETTY_SUITS with
      | None => Err KeyError
      | Some glyph =>
        let* rk := get STR_RANKS (Z.to_nat rank_int) in
        Ok (mkCard i glyph rk)
      end
    end
  end.

(** card.py:96-97, Card.__str__ *)
Definition card_str (c : card) : list Z := [c_rank c; c_suit c].

(** card.py:124-127, Card.__eq__ on two cards *)
Definition card_eqb (a b : card) : bool := c_int a =? c_int b.

(** card.py:130-166, the attributes of a Deck *)
Record deck : Type := mkDeck {
  d_num_ranks : Z;
  d_num_suits : Z;
  d_full : list card;
  d_tricked : bool;
  d_top : list nat;
  d_bottom : list nat;
  d_cards : list card
}.

(** [full_deck[idx] for idx in idcs]; the indices always come from
    [trick], hence are in range *)
Definition at_idcs (full : list card) (idcs : list nat) : list card :=
  flat_map (fun i => match nth_error full i with Some c => [c] | None => [] end) idcs.

(** card.py:209-226, Deck.shuffle; [rnd] is the random source *)
Definition deck_shuffle (rnd : list nat) (d : deck) : deck :=
  let cards :=
    if d_tricked d
       && negb (Nat.eqb (List.length (d_top d)) 0)
       && negb (Nat.eqb (List.length (d_bottom d)) 0)
    then at_idcs (d_full d) (d_top d)
         ++ shuf rnd (at_idcs (d_full d) (d_bottom d))
    else shuf rnd (d_full d) in
  mkDeck (d_num_ranks d) (d_num_suits d) (d_full d) (d_tricked d)
         (d_top d) (d_bottom d) cards.

(** card.py:158-162; [STR_RANKS[-num_ranks:]] and [list(...)[:num_suits]] *)
Definition deck_full (num_suits num_ranks : Z) : result (list card) :=
  let ranks := skipn (List.length STR_RANKS - Z.to_nat num_ranks) STR_RANKS in
  let suits := firstn (Z.to_nat num_suits) (map fst CHAR_SUIT_TO_INT_SUIT) in
  map_res (fun rs => Card [fst rs; snd rs]) (list_prod ranks suits).

(** card.py:144-166, Deck.__init__ *)
Definition Deck (rnd : list nat) (num_suits num_ranks : Z) : result deck :=
  if (num_ranks <? 1) || (13 <? num_ranks) then Err InvalidRankError
  else if (num_suits <? 1) || (4 <? num_suits) then Err InvalidSuitError
  else
    let* full := deck_full num_suits num_ranks in
    Ok (deck_shuffle rnd (mkDeck num_ranks num_suits full false [] [] [])).

(** card.py:176-184, Deck.__len__ *)
Definition deck_len (d : deck) : Z := Z.of_nat (List.length (d_cards d)).

(** card.py:186-207, Deck.draw: the loop, [k] iterations *)
Fixpoint draw_loop (k : nat) (cards drawn : list card) : list card * list card :=
  match k with
  | O => (drawn, cards)
  | S k' =>
    match cards with
    | [] => (drawn, cards)
    | c :: r => draw_loop k' r (drawn ++ [c])
    end
  end.
Definition deck_draw (n : Z) (d : deck) : list card * deck :=
  let '(drawn, rest) := draw_loop (Z.to_nat n) (d_cards d) [] in
  (drawn, mkDeck (d_num_ranks d) (d_num_suits d) (d_full d) (d_tricked d)
                 (d_top d) (d_bottom d) rest).

(** [full_deck.index(c)] *)
Fixpoint index_of (c : card) (l : list card) (i : nat) : result nat :=
  match l with
  | [] => Err ValueError
  | x :: r => if card_eqb x c then Ok i else index_of c r (S i)
  end.

(** card.py:228-249, Deck.trick; on error the deck is unchanged because the
    list comprehension on line 245 raises before any attribute is assigned *)
Definition deck_trick (top : list card) (d : deck) : result deck :=
  let* top_idcs := map_res (fun c => index_of c (d_full d) 0) top in
  let all_idcs := seq 0 (Z.to_nat (d_num_ranks d * d_num_suits d)) in
  let bottom := filter (fun i => negb (existsb (Nat.eqb i) top_idcs)) all_idcs in
  Ok (mkDeck (d_num_ranks d) (d_num_suits d) (d_full d) true top_idcs bottom
             (d_cards d)).

(** card.py:251-262, Deck.untrick *)
Definition deck_untrick (d : deck) : deck :=
  mkDeck (d_num_ranks d) (d_num_suits d) (d_full d) false [] [] (d_cards d).

(** card.py:168-171, Deck.__str__: "[c1,c2,...]" *)
Fixpoint join (sep : list Z) (l : list (list Z)) : list Z :=
  match l with
  | [] => []
  | [x] => x
  | x :: r => x ++ sep ++ join sep r
  end.
Definition deck_str (d : deck) : list Z :=
  ustr "[" ++ join (ustr ",") (map card_str (d_cards d)) ++ ustr "]".
