(** * EvalCheck: decidable facts about the key lists generated by evaluator.py,
    to be checked by computation for deck parameters *)
From Coq Require Import FMapPositive Arith.
From Verif Require Import PyBase CardModel EvalModel PokerSpec EvalSpec.

(** rank patterns of straights, and of the other hands without a pair *)
Definition S_bits (r c : Z) (low : bool) : list Z :=
  if c <? 3 then [] else gen_straight_flush c r low.
Definition F_bits (r c : Z) (low : bool) : list Z := gen_flush c r (S_bits r c low).

Definition mkeys (r c : Z) (m : list nat) : list Z :=
  match multiple_keys r c m with Ok l => l | Err _ => [] end.

Definition class_multiples (k : hclass) : list nat :=
  match k with
  | FK => [4%nat] | FH => [3%nat; 2%nat] | TK => [3%nat]
  | TP => [2%nat; 2%nat] | PA => [2%nat] | _ => []
  end.

(** the keys of a class, best hand first *)
Definition class_keys (r c : Z) (low : bool) (k : hclass) : list Z :=
  match k with
  | SF | ST => map prime_product_from_rank_bits (S_bits r c low)
  | FL | HC => map prime_product_from_rank_bits (F_bits r c low)
  | _ => mkeys r c (class_multiples k)
  end.

Definition ucount (s r c : Z) (low : bool) (k : hclass) : Z := snd (hand_counts s r c low k).

(** ** Enumeration of hands up to suits *)

Fixpoint msets (c : nat) (l : list nat) : list (list nat) :=
  match c with
  | O => [[]]
  | S c' =>
    (fix go (l : list nat) : list (list nat) :=
       match l with
       | [] => []
       | x :: l' => map (cons x) (msets c' l) ++ go l'
       end) l
  end.


(** rank lists of hands with all cards of one suit / with different suits *)
Definition suited_ranks (r c : nat) : list (list nat) := combs c (desc_ranks r).
Definition mixed_ranks (s r c : nat) : list (list nat) :=
  if (2 <=? s)%nat && (2 <=? c)%nat
  then filter (fun l => forallb (fun i => (copies i l <=? s)%nat) l) (msets c (desc_ranks r))
  else [].
Definition abstract_hands (s r c : nat) : list (bool * list nat) :=
  map (pair true) (suited_ranks r c) ++ map (pair false) (mixed_ranks s r c).

Definition prime_prod (l : list nat) : Z := prodZ (map prime l).

(** factorisation into primes, highest rank first *)
Fixpoint strip (fuel : nat) (p q : Z) (i : nat) : list nat * Z :=
  match fuel with
  | O => ([], p)
  | S f => if p mod q =? 0
           then let '(l, p') := strip f (p / q) q i in (i :: l, p')
           else ([], p)
  end.
Fixpoint decode_from (idcs : list nat) (p : Z) : list nat :=
  match idcs with
  | [] => []
  | i :: r => let '(l, p') := strip 5 p (prime i) i in l ++ decode_from r p'
  end.
Definition decode (p : Z) : list nat := decode_from (rev (seq 0 13)) p.

(** ** Checks *)

(** sets of positive keys *)
Definition kset := PositiveMap.t unit.
Definition kset_add (m : kset) (k : Z) : kset := PositiveMap.add (Z.to_pos k) tt m.
Definition kset_mem (m : kset) (k : Z) : bool :=
  (0 <? k) && PositiveMap.mem (Z.to_pos k) m.
Definition kset_of (l : list Z) : kset := fold_left kset_add l (PositiveMap.empty unit).

Fixpoint nodup_keys (l : list Z) (m : kset) : bool :=
  match l with
  | [] => true
  | k :: r => (0 <? k) && negb (kset_mem m k) && nodup_keys r (kset_add m k)
  end.

Fixpoint list_nat_eqb (a b : list nat) : bool :=
  match a, b with
  | [], [] => true
  | x :: a', y :: b' => Nat.eqb x y && list_nat_eqb a' b'
  | _, _ => false
  end.

Fixpoint desc_lex (l : list (list nat)) : bool :=
  match l with
  | a :: ((b :: _) as r) => lex_gt a b && desc_lex r
  | _ => true
  end.

Definition used_keys (s r c : Z) (low : bool) (k : hclass) : list Z :=
  if 0 <? ucount s r c low k then class_keys r c low k else [].

Definition suited_classes := [SF; FL].
Definition unsuited_classes := [ST; HC; FK; FH; TK; TP; PA].

Definition check_keys (s r c : Z) (low : bool) : bool :=
  nodup_keys (flat_map (used_keys s r c low) suited_classes) (PositiveMap.empty unit)
  && nodup_keys (flat_map (used_keys s r c low) unsuited_classes) (PositiveMap.empty unit).
(** the number of suits and cards a class needs *)
Definition possible (s c : Z) (k : hclass) : bool :=
  match k with
  | SF | FL => (2 <=? s) && (3 <=? c)
  | FK => (4 <=? s) && (4 <=? c)
  | FH => (3 <=? s) && (5 <=? c)
  | ST => 3 <=? c
  | TK => (3 <=? s) && (3 <=? c)
  | TP => (2 <=? s) && (4 <=? c)
  | PA => (2 <=? s) && (2 <=? c)
  | HC => true
  end.
(** for all numbers of suits at once *)
Definition check_lens (r c : Z) (low : bool) : bool :=
  let lens := map (fun k => (k, Z.of_nat (List.length (class_keys r c low k)))) all_classes in
  forallb (fun s => forallb (fun p => let u := ucount s r c low (fst p) in
                                      if c <=? r
                                      then (if possible s c (fst p) then snd p =? u else u =? 0)
                                      else (u <=? 0) || (snd p =? u)) lens) (zrange 1 5).

Definition check_class (s r c : Z) (low : bool) (hands : list (hclass * list nat))
           (k : hclass) : bool :=
  let nr := Z.to_nat r in let nc := Z.to_nat c in
  let mine := filter (fun h => hclass_eqb (fst h) k) hands in
  match mine with
  | [] => true
  | _ =>
    let keys := used_keys s r c low k in
    let ks := kset_of keys in
    forallb (fun h => let p := prime_prod (snd h) in
                      kset_mem ks p && list_nat_eqb (decode p) (snd h)) mine
    && desc_lex (map (fun p => tie_break nr nc low (decode p)) keys)
  end.

Definition classified (s r c : nat) (low : bool) : list (hclass * list nat) :=
  map (fun h => (classify s r c low (fst h) (snd h), snd h)) (abstract_hands s r c).

Definition check_hands (s r c : Z) (low : bool) : bool :=
  let hands := classified (Z.to_nat s) (Z.to_nat r) (Z.to_nat c) low in
  forallb (check_class s r c low hands) all_classes.

(** facts that let the emptiness tests of [_flushes] be resolved for every order *)
Definition check_shape (s r c : Z) (low : bool) : bool :=
  forallb (fun k => 0 <=? ucount s r c low k) all_classes
  && (if c <? 3
      then (ucount s r c low SF =? 0) && (ucount s r c low ST =? 0)
      else (ucount s r c low ST =? Z.of_nat (List.length (S_bits r c low)))).
(** flushes are possible exactly with two suits and three cards *)
Definition check_flush (s r c : Z) (low : bool) : bool :=
  if (2 <=? s) && (3 <=? c)
  then (0 <? ucount s r c low FL) || (r <? c)
  else (ucount s r c low FL =? 0)
       && negb (match F_bits r c low with [] => true | _ => false end).

(** can some order of the classes survive the assertions? (over-approximation:
    the straights may or may not have been removed from the other patterns) *)
Definition may_pass (s r c : Z) (low : bool) (k : hclass) : bool :=
  let u := ucount s r c low k in
  let len (l : list Z) := Z.of_nat (List.length l) in
  match k with
  | SF | ST => len (gen_straight_flush c r low) =? u
  | FL | HC => (len (gen_flush c r (gen_straight_flush c r low)) =? u)
               || (len (gen_flush c r []) =? u)
  | _ => match multiple_keys r c (class_multiples k) with
         | Ok l => len l =? u
         | Err _ => false
         end
  end.
(* one pick per distinct item *)
Definition item_eqb (a b : bool * Z) : bool := Bool.eqb (fst a) (fst b) && (snd a =? snd b).
Fixpoint upicks (before l : list (bool * Z)) : list ((bool * Z) * list (bool * Z)) :=
  match l with
  | [] => []
  | x :: r => if existsb (item_eqb x) before then upicks (before ++ [x]) r
              else (x, before ++ r) :: upicks (before ++ [x]) r
  end.
Fixpoint can_build (fuel : nat) (rem : list (bool * Z)) (cum : Z) : bool :=
  match fuel, rem with
  | O, _ => true
  | _, [] => true
  | S f, _ => existsb (fun p => let '((pass, u), rest) := p in
                                ((cum + u =? 0) || pass) && can_build f rest (cum + u))
                      (upicks [] rem)
  end.
Definition buildable (s r c : Z) (low : bool) : bool :=
  let items := map (fun k => (may_pass s r c low k, ucount s r c low k)) all_classes in
  can_build 9 items 0.

(** decks without enough cards for one hand *)
Definition no_hands (s r c : Z) : bool := s * r <? c.
(** decks for which no order of the classes passes the assertions *)
Definition hopeless (r c : Z) (low : bool) : bool :=
  (3 <=? c) && ((r <? c - 1) || ((r =? c) && low)).
(** a table whose counts are not all non-negative is never built *)
Definition check_nonneg (s r c : Z) (low : bool) : bool :=
  if forallb (fun k => 0 <=? ucount s r c low k) all_classes then true
  else negb (buildable s r c low).

(** the part of the checks done by computation for every deck *)
Definition cfg_ok (s r c : Z) (low : bool) : bool :=
  if no_hands s r c then true
  else if hopeless r c low then negb (buildable s r c low)
  else (tight r c || check_flush s r c low) && check_shape s r c low
       (* decks with fewer ranks than cards in a hand: all hands; see EvalCfg.v for the
          other decks *)
       && (if c <=? r then true else check_keys s r c low && check_hands s r c low).
