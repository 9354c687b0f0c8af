(** * PokerSpec: the rules of poker, independent of evaluator.py

    A hand is a list of cards, a card a pair (rank, suit); ranks are 0 (deuce) .. 12
    (ace).  The deck has the [r] highest ranks and [s] suits; hands have [c] cards. *)
From Coq Require Import List Arith Bool.
From Verif Require Import EvalModel.
Import ListNotations.

Definition hand : Type := list (nat * nat).

(** how many cards of rank [i] *)
Definition copies (i : nat) (ranks : list nat) : nat := count_occ Nat.eq_dec ranks i.

(** the ranks occurring exactly [m] times, highest first *)
Definition of_multiplicity (m : nat) (ranks : list nat) : list nat :=
  filter (fun i => copies i ranks =? m) (rev (seq 0 13)).

(** quads, then trips, then pairs, then kickers; each group from high to low *)
Definition quads := of_multiplicity 4.
Definition trips := of_multiplicity 3.
Definition pairs := of_multiplicity 2.
Definition singles := of_multiplicity 1.
Definition kick_order (ranks : list nat) : list nat :=
  quads ranks ++ trips ranks ++ pairs ranks ++ singles ranks.

(** every rank [lo, lo+1, .., lo+k-1] occurs *)
Definition has_run (lo k : nat) (ranks : list nat) : bool :=
  forallb (fun i => 1 <=? copies i ranks) (seq lo k).

(** the top rank of a straight of [c] cards of different ranks: a run of [c]
    consecutive ranks, or, if [low], the ace below the [c-1] lowest ranks of the deck
    (whose top is the highest of these [c-1] ranks) *)
Definition straight_top (r c : nat) (low : bool) (ranks : list nat) : option nat :=
  if (c <? 3) || negb (length (singles ranks) =? c) then None
  else
    match find (fun t => has_run (t + 1 - c) c ranks) (rev (seq (c - 1) (14 - c))) with
    | Some t => Some t
    | None =>
      if low && (1 <=? copies 12 ranks) && has_run (13 - r) (c - 1) ranks
      then Some (13 - r + c - 2)
      else None
    end.

Definition is_straight (r c : nat) (low : bool) (ranks : list nat) : bool :=
  match straight_top r c low ranks with Some _ => true | None => false end.

(** flushes need at least three cards and at least two suits in the deck *)
Definition is_flush (s c : nat) (same_suit : bool) : bool :=
  (2 <=? s) && (3 <=? c) && same_suit.

(** the class of a hand from its ranks and whether all suits agree *)
Definition classify (s r c : nat) (low same_suit : bool) (ranks : list nat) : hclass :=
  if is_flush s c same_suit && is_straight r c low ranks then SF
  else if 1 <=? length (quads ranks) then FK
  else if (1 <=? length (trips ranks)) && (1 <=? length (pairs ranks)) then FH
  else if is_flush s c same_suit then FL
  else if is_straight r c low ranks then ST
  else if 1 <=? length (trips ranks) then TK
  else if 2 <=? length (pairs ranks) then TP
  else if 1 <=? length (pairs ranks) then PA
  else HC.

(** what decides between two hands of the same class, most important rank first *)
Definition tie_break (r c : nat) (low : bool) (ranks : list nat) : list nat :=
  match straight_top r c low ranks with
  | Some t => [t]
  | None => kick_order ranks
  end.

(** lexicographic comparison *)
Fixpoint lex_gt (a b : list nat) : bool :=
  match a, b with
  | x :: a', y :: b' => (y <? x) || ((x =? y) && lex_gt a' b')
  | _, _ => false
  end.

Definition same_suit (h : hand) : bool :=
  match h with
  | [] => true
  | (_, j) :: r => forallb (fun p => snd p =? j) r
  end.

Definition class_of (s r c : nat) (low : bool) (h : hand) : hclass :=
  classify s r c low (same_suit h) (map fst h).

Definition tie_of (r c : nat) (low : bool) (h : hand) : list nat :=
  tie_break r c low (map fst h).

(** position of a class in a list of classes, best first *)
Fixpoint class_pos (k : hclass) (order : list hclass) : nat :=
  match order with
  | [] => 0
  | x :: r => if hclass_eqb x k then 0 else S (class_pos k r)
  end.

(** [a] beats [b] *)
Definition beats (order : list hclass) (s r c : nat) (low : bool) (a b : hand) : bool :=
  let ka := class_of s r c low a in
  let kb := class_of s r c low b in
  (class_pos ka order <? class_pos kb order)
  || (hclass_eqb ka kb && lex_gt (tie_of r c low a) (tie_of r c low b)).

(** a hand of [c] distinct cards of the deck *)
Definition hand_of_deck (s r c : nat) (h : hand) : Prop :=
  length h = c /\ NoDup h /\
  Forall (fun p => 13 - r <= fst p < 13 /\ snd p < s) h.
