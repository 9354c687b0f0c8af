(** * EvalSpec: vocabulary for stating the evaluator properties (no proofs) *)
From Coq Require Import Arith.
From Verif Require Import PyBase CardModel CardSpec EvalModel PokerSpec.

(** the cards of a hand of (rank, suit) pairs *)
Definition cards_of (h : hand) : list card := map (fun p => the_card (fst p) (snd p)) h.

(** ** Class orders *)

(** a custom order without repetitions (the default order is [None]) *)
Definition order_perm (order : option (list string)) : Prop :=
  match order with None => True | Some o => NoDup o end.

Definition class_string (k : hclass) : string :=
  match k with
  | SF => "sf" | FK => "fk" | FH => "fh" | FL => "fl" | ST => "st"
  | TK => "tk" | TP => "tp" | PA => "pa" | HC => "hc"
  end%string.

(** ** The hands of a deck *)

(** the [r] highest ranks, ace first *)
Definition desc_ranks (r : nat) : list nat := rev (seq (13 - r) r).

(** all cards of the deck as (rank, suit) pairs; all hands *)
Definition deck_pairs (s r : nat) : list (nat * nat) :=
  flat_map (fun i => map (pair i) (seq 0 s)) (desc_ranks r).
Definition all_hands (s r c : nat) : list hand := combs c (deck_pairs s r).
Definition class_count (s r c : nat) (low : bool) (k : hclass) : nat :=
  List.length (filter (fun h => hclass_eqb (class_of s r c low h) k) (all_hands s r c)).

(** decks with exactly as many ranks as a hand has cards (and no ace-low straight) *)
Definition tight (r c : Z) : bool := (3 <=? c) && (r =? c).

(** decks on which the default order is not the order of rarity *)
Definition rarity_exception (s r c : Z) : bool :=
  ((2 <=? s) && (r =? 2) && (c =? 2))
  || ((s =? 3) && (c =? 4) && (6 <=? r) && (r <=? 7))
  || ((s =? 3) && (c =? 5) && (4 <=? r))
  || ((r =? c) && (((c =? 4) && (2 <=? s)) || ((s =? 4) && (3 <=? c)))).

(** the deck parameters for which an evaluator with the default order can be built *)
Definition constructible (s r c : Z) (low : bool) : bool :=
  (c <=? 2) || (c <? r) || ((r =? c) && negb low) || (r =? c - 1)
  || ((r =? c - 2) && (s =? 1) && low).

(** single-suit decks far too small for a hand: the failure is a KeyError *)
Definition key_error (s r c : Z) (low : bool) : bool :=
  (s =? 1) && (3 <=? c) && (r <=? c - 2) && negb low.

(** ** Candidate hands of evaluate *)

(** [sublist a l]: [a] is [l] with some entries dropped *)
Inductive sublist {A} : list A -> list A -> Prop :=
| sub_nil : forall l, sublist [] l
| sub_take : forall x a l, sublist a l -> sublist (x :: a) (x :: l)
| sub_skip : forall x a l, sublist a l -> sublist a (x :: l).

(** [h] is made of [cards_for_hand] of the given cards; with [m > 0] mandatory hole
    cards, of exactly [m] hole cards and the rest from the community cards *)
Definition candidate (e : evaluator) (hole community h : list card) : Prop :=
  if e_mandatory e =? 0
  then sublist h (hole ++ community) /\ Z.of_nat (List.length h) = e_cfh e
  else exists a b, h = a ++ b /\ sublist a hole /\ sublist b community /\
       Z.of_nat (List.length a) = e_mandatory e /\
       Z.of_nat (List.length b) = e_cfh e - e_mandatory e.

(** renaming of suits *)
Definition rename (p : nat -> nat) (h : hand) : hand := map (fun c => (fst c, p (snd c))) h.
