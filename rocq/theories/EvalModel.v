(** * EvalModel: clubs/poker/evaluator.py *)
From Coq Require Import FMapPositive.
From Verif Require Import PyBase CardModel.

(** the nine hand classes, in the order of evaluator.py:204 (ORDER_STRINGS) and of
    the list on evaluator.py:267-277 *)
Inductive hclass : Type := SF | FK | FH | FL | ST | TK | TP | PA | HC.

Definition all_classes : list hclass := [SF; FK; FH; FL; ST; TK; TP; PA; HC].

Definition hclass_eqb (a b : hclass) : bool :=
  match a, b with
  | SF, SF | FK, FK | FH, FH | FL, FL | ST, ST | TK, TK | TP, TP | PA, PA | HC, HC => true
  | _, _ => false
  end.

(** evaluator.py:204 *)
Definition ORDER_STRINGS : list string :=
  ["sf"; "fk"; "fh"; "fl"; "st"; "tk"; "tp"; "pa"; "hc"]%string.

(** the hand names of evaluator.py:245-277 *)
Definition class_name (h : hclass) : string :=
  match h with
  | SF => "straight flush" | FK => "four of a kind" | FH => "full house"
  | FL => "flush" | ST => "straight" | TK => "three of a kind"
  | TP => "two pair" | PA => "pair" | HC => "high card"
  end%string.

(** Python's [<] on strings: lexicographic by code point *)
Fixpoint str_ltb (a b : string) : bool :=
  match a, b with
  | EmptyString, EmptyString => false
  | EmptyString, String _ _ => true
  | String _ _, EmptyString => false
  | String x a', String y b' =>
    let nx := N_of_ascii x in let ny := N_of_ascii y in
    if (nx <? ny)%N then true else if (ny <? nx)%N then false else str_ltb a' b'
  end.

(** evaluator.py:663-667, _ncr *)
Definition ncr (n r : Z) : Z :=
  let r := Z.min r (n - r) in
  let numer := prodZ (zrange_down n (n - r)) in
  let denom := prodZ (zrange 1 (r + 1)) in
  numer / denom.

(** evaluator.py:345-355 *)
Definition n_straight_flush (suits ranks cfh : Z) (low : bool) : Z * Z :=
  if (cfh <? 3) || (suits <? 2) then (0, 0)
  else
    let unsuited := ranks - (cfh - 1) + b2z low in
    (Z.max unsuited (unsuited * suits), unsuited).

(** evaluator.py:357-366 *)
Definition n_four_of_a_kind (suits ranks cfh : Z) : Z * Z :=
  if (cfh <? 4) || (suits <? 4) then (0, 0)
  else
    let unsuited := ncr ranks 1 * ncr (ranks - 1) (cfh - 4) in
    (Z.max unsuited (unsuited * suits ^ (cfh - 4)), unsuited).

(** evaluator.py:368-383 *)
Definition n_full_house (suits ranks cfh : Z) : Z * Z :=
  if (cfh <? 5) || (suits <? 3) then (0, 0)
  else
    let unsuited := ncr ranks 1 * ncr (ranks - 1) 1 * ncr (ranks - 2) (cfh - 5) in
    (Z.max unsuited (unsuited * ncr suits 3 * ncr suits 2 * suits ^ (cfh - 5)), unsuited).

(** evaluator.py:385-397 *)
Definition n_flush (suits ranks cfh : Z) (low : bool) : Z * Z :=
  if (cfh <? 3) || (suits <? 2) then (0, 0)
  else
    let straight_flushes := ranks - (cfh - 1) + b2z low in
    let unsuited := ncr ranks cfh - straight_flushes in
    (Z.max unsuited (unsuited * suits), unsuited).

(** evaluator.py:399-416 *)
Definition n_straight (suits ranks cfh : Z) (low : bool) : Z * Z :=
  if cfh <? 3 then (0, 0)
  else
    let unsuited := ranks - (cfh - 1) + b2z low in
    let straight_flushes := if 1 <? suits then unsuited * suits else 0 in
    let suited := Z.max unsuited (unsuited * suits ^ cfh - straight_flushes) in
    (if suits <? 2 then unsuited else suited, unsuited).

(** evaluator.py:418-431 *)
Definition n_three_of_a_kind (suits ranks cfh : Z) : Z * Z :=
  if (cfh <? 3) || (suits <? 3) then (0, 0)
  else
    let unsuited := ncr ranks 1 * ncr (ranks - 1) (cfh - 3) in
    (Z.max unsuited (unsuited * ncr suits 3 * ncr suits 3 ^ (cfh - 3)), unsuited).

(** evaluator.py:433-445 *)
Definition n_two_pair (suits ranks cfh : Z) : Z * Z :=
  if (cfh <? 4) || (suits <? 2) then (0, 0)
  else
    let unsuited := ncr ranks 2 * ncr (ranks - 2) (cfh - 4) in
    (Z.max unsuited (unsuited * ncr suits 2 ^ 2 * suits ^ (cfh - 4)), unsuited).

(** evaluator.py:447-458 *)
Definition n_pair (suits ranks cfh : Z) : Z * Z :=
  if (cfh <? 2) || (suits <? 2) then (0, 0)
  else
    let unsuited := ncr ranks 1 * ncr (ranks - 1) (cfh - 2) in
    (Z.max unsuited (unsuited * ncr suits 2 * suits ^ (cfh - 2)), unsuited).

(** evaluator.py:460-475 *)
Definition n_high_card (suits ranks cfh : Z) (low : bool) : Z * Z :=
  let straights := if 2 <? cfh then ranks - (cfh - 1) + b2z low else 0 in
  let unsuited := ncr ranks cfh - straights in
  let suited := Z.max unsuited (unsuited * (suits ^ cfh - suits)) in
  (if suits <? 2 then unsuited else suited, unsuited).

(** evaluator.py:225-264: the (suited, unsuited) counts of [hand_dict] *)
Definition hand_counts (suits ranks cfh : Z) (low : bool) (h : hclass) : Z * Z :=
  match h with
  | SF => n_straight_flush suits ranks cfh low
  | FK => n_four_of_a_kind suits ranks cfh
  | FH => n_full_house suits ranks cfh
  | FL => n_flush suits ranks cfh low
  | ST => n_straight suits ranks cfh low
  | TK => n_three_of_a_kind suits ranks cfh
  | TP => n_two_pair suits ranks cfh
  | PA => n_pair suits ranks cfh
  | HC => n_high_card suits ranks cfh low
  end.

(** [self.ORDER_STRINGS.index(hand)], returning the class at that index *)
Fixpoint order_index (s : string) (names : list string) (classes : list hclass)
  : result hclass :=
  match names, classes with
  | n :: ns, c :: cs => if String.eqb s n then Ok c else order_index s ns cs
  | _, _ => Err ValueError
  end.

(** evaluator.py:215-222: the validity test of a custom order *)
Definition order_valid (order : list string) : bool :=
  forallb (fun s => existsb (String.eqb s) order) ORDER_STRINGS.

(** evaluator.py:279-285: classes from best to worst.  [sorted] compares the
    tuples (suited count, name). *)
Definition ranked_classes (cnt : hclass -> Z * Z) (order : option (list string))
  : result (list hclass) :=
  match order with
  | None =>
    Ok (sort_by (fun a b =>
                   let ca := fst (cnt a) in let cb := fst (cnt b) in
                   (ca <? cb)
                   || ((ca =? cb) && negb (str_ltb (class_name b) (class_name a))))
                all_classes)
  | Some o => map_res (fun s => order_index s ORDER_STRINGS all_classes) o
  end.

(** evaluator.py:294-308: cumulative counts, rank of each class, ranked hands.
    [r_cum h] is hand_dict[h]["cumulative unsuited"] (the initial 0 is never read:
    every class occurs in the list); [r_rank h] is hand_dict[h]["rank"], [None]
    when the key is missing. *)
Record ranking : Type := mkRanking {
  r_cum : hclass -> Z;
  r_rank : hclass -> option nat;
  r_ranked : list hclass;
  r_total : Z
}.
Definition set_fun {V} (f : hclass -> V) (h : hclass) (v : V) : hclass -> V :=
  fun x => if hclass_eqb x h then v else f x.
Definition rank_step (cnt : hclass -> Z * Z) (r : ranking) (h : hclass) : ranking :=
  let cumulative := r_total r + snd (cnt h) in
  let cum := set_fun (r_cum r) h cumulative in
  if 0 <? cumulative
  then mkRanking cum (set_fun (r_rank r) h (Some (List.length (r_ranked r))))
                 (r_ranked r ++ [h]) cumulative
  else mkRanking cum (r_rank r) (r_ranked r) cumulative.
Definition compute_ranking (cnt : hclass -> Z * Z) (hs : list hclass) : ranking :=
  fold_left (rank_step cnt) hs (mkRanking (fun _ => 0) (fun _ => None) [] 0).

(** evaluator.py:626-631, _get_rank *)
Definition get_rank (r : ranking) (h : hclass) : result Z :=
  match r_rank r h with
  | None => Err KeyError
  | Some O => Ok 0
  | Some (S k) =>
    let* better := get (r_ranked r) k in
    Ok (r_cum r better + 1)
  end.

(** [int(s, 2)] for a string of binary digits, most significant first *)
Definition bits_to_Z (bs : list bool) : Z :=
  fold_left (fun acc (b : bool) => 2 * acc + (if b then 1 else 0)) bs 0.

(** ["x" * n]; a negative [n] gives the empty string *)
Definition rep {A} (x : A) (n : Z) : list A := repeat x (Z.to_nat n).

(** evaluator.py:477-499, _gen_straight_flush *)
Fixpoint straight_loop (k : nat) (bs : list bool) : list Z :=
  match k with
  | O => []
  | S k' => bits_to_Z bs :: straight_loop k' (removelast bs)
  end.
Definition gen_straight_flush (cfh ranks : Z) (low : bool) : list Z :=
  straight_loop (Z.to_nat (ranks - (cfh - 1))) (rep true cfh ++ rep false (13 - cfh))
  ++ (if low
      then [bits_to_Z ([true] ++ rep false (ranks - cfh) ++ rep true (cfh - 1)
                       ++ rep false (13 - ranks))]
      else []).

(** evaluator.py:650-660, one step of _lexographic_next_bit *)
Definition lex_next (lex : Z) : Z :=
  let temp := Z.lor lex (lex - 1) + 1 in
  Z.lor temp (Z.shiftr (Z.land temp (- temp) / Z.land lex (- lex)) 1 - 1).

(** evaluator.py:501-519, _gen_flush *)
Fixpoint lex_loop (k : nat) (lex : Z) : list Z :=
  match k with
  | O => []
  | S k' => lex :: lex_loop k' (lex_next lex)
  end.
Definition gen_flush (cfh ranks : Z) (straight_flushes : list Z) : list Z :=
  let all := map (fun x => Z.shiftl x (13 - ranks))
                 (lex_loop (Z.to_nat (ncr ranks cfh)) (bits_to_Z (rep true cfh))) in
  rev (filter (fun x => negb (existsb (Z.eqb x) straight_flushes)) all).

(** evaluator.py:634-640, _prime_product_from_rank_bits *)
Definition prime_product_from_rank_bits (rankbits : Z) : Z :=
  fold_left (fun product (ip : Z * Z) =>
               if Z.land rankbits (Z.shiftl 1 (fst ip)) =? 0 then product
               else product * snd ip)
            (combine INT_RANKS PRIMES) 1.

(** evaluator.py:643-647, _prime_product_from_hand *)
Definition prime_product_from_hand (cards : list card) : Z :=
  fold_left (fun product c => product * Z.land (c_int c) 255) cards 1.

(** A lookup dictionary.  Keys are prime products, hence positive. *)
Definition dict := PositiveMap.t Z.
Definition dict_empty : dict := PositiveMap.empty Z.
Definition dict_set (d : dict) (k v : Z) : dict := PositiveMap.add (Z.to_pos k) v d.
Definition dict_find (d : dict) (k : Z) : option Z :=
  if k <=? 0 then None else PositiveMap.find (Z.to_pos k) d.

(** consecutive ranks for a list of keys, starting at [v] *)
Fixpoint dict_add_all (keys : list Z) (v : Z) (d : dict) : dict :=
  match keys with
  | [] => d
  | k :: r => dict_add_all r (v + 1) (dict_set d k v)
  end.

(** evaluator.py:541-553, the inner add_to_dict of _flushes *)
Definition flushes_add (cnt : hclass -> Z * Z) (r : ranking) (h : hclass)
           (rank_bits : list Z) (lookup : dict) : result dict :=
  if r_cum r h =? 0 then Ok lookup
  else if negb (Z.of_nat (List.length rank_bits) =? snd (cnt h)) then Err AssertionError
  else
    let* hand_rank := get_rank r h in
    Ok (dict_add_all (map prime_product_from_rank_bits rank_bits) hand_rank lookup).

(** evaluator.py:524-539: the rank patterns of straights and of the rest *)
Definition straight_bits (r : ranking) (ranks cfh : Z) (low : bool) : list Z :=
  if negb (r_cum r SF =? 0) || negb (r_cum r ST =? 0)
  then gen_straight_flush cfh ranks low else [].
Definition flush_bits (r : ranking) (ranks cfh : Z) (low : bool) : list Z :=
  if negb (r_cum r FL =? 0) || negb (r_cum r HC =? 0)
  then gen_flush cfh ranks (straight_bits r ranks cfh low) else [].

(** evaluator.py:521-562, _flushes *)
Definition table_flushes (cnt : hclass -> Z * Z) (r : ranking) (ranks cfh : Z)
           (low : bool) : result (dict * dict) :=
  let straight_flushes := straight_bits r ranks cfh low in
  let flushes := flush_bits r ranks cfh low in
  let* s1 := flushes_add cnt r SF straight_flushes dict_empty in
  let* s2 := flushes_add cnt r FL flushes s1 in
  let* u1 := flushes_add cnt r ST straight_flushes dict_empty in
  let* u2 := flushes_add cnt r HC flushes u1 in
  Ok (s2, u2).

(** evaluator.py:571, backwards_ranks: A, K, ... *)
Definition backwards_ranks (ranks : Z) : list nat :=
  map Z.to_nat (zrange_down 12 (12 - ranks)).

Definition prime (i : nat) : Z := nth i PRIMES 0.

(** [kickers.remove(card_rank)]: removes the first occurrence (always present) *)
Fixpoint remove_first (x : nat) (l : list nat) : list nat :=
  match l with
  | [] => []
  | y :: r => if Nat.eqb x y then r else y :: remove_first x r
  end.

(** evaluator.py:578-587: the choices of ranks for the multiples *)
Definition multiple_choices (ranks : Z) (multiples : list nat) : list (list nat) :=
  let bw := backwards_ranks ranks in
  match multiples with
  | [a; b] => if Nat.eqb a b then combs 2 bw else perms 2 bw
  | _ => combs (List.length multiples) bw
  end.

(** evaluator.py:588-611: the keys recorded by _multiples' add_to_dict, in the
    order in which they are recorded.  [num_kickers] is never negative when this is
    reached with the multiples used on lines 618-622 unless the assertion on line
    614 fails; a negative number makes [itertools.combinations] raise ValueError. *)
Definition multiple_keys (ranks cfh : Z) (multiples : list nat) : result (list Z) :=
  let num_kickers := cfh - sumZ (map Z.of_nat multiples) in
  let* ks :=
    map_res
      (fun card_ranks =>
         let base := fold_left (fun p (cm : nat * nat) =>
                                  p * prime (fst cm) ^ Z.of_nat (snd cm))
                               (combine card_ranks multiples) 1 in
         if num_kickers =? 0 then Ok [base]
         else
           let kickers := fold_left (fun ks r => remove_first r ks) card_ranks
                                    (backwards_ranks ranks) in
           let* kcs := combinations kickers num_kickers in
           Ok (map (fun kt => fold_left (fun p k => p * prime k) kt base) kcs))
      (multiple_choices ranks multiples) in
  Ok (List.concat ks).

(** evaluator.py:567-616, the inner add_to_dict of _multiples *)
Definition multiples_add (cnt : hclass -> Z * Z) (r : ranking) (ranks cfh : Z)
           (h : hclass) (multiples : list nat) (lookup : dict) : result dict :=
  if r_cum r h =? 0 then Ok lookup
  else
    let* hand_rank := get_rank r h in
    let* keys := multiple_keys ranks cfh multiples in
    if negb (Z.of_nat (List.length keys) =? snd (cnt h)) then Err AssertionError
    else Ok (dict_add_all keys hand_rank lookup).

(** evaluator.py:564-624, _multiples *)
Definition table_multiples (cnt : hclass -> Z * Z) (r : ranking) (ranks cfh : Z)
           (lookup : dict) : result dict :=
  let* l1 := multiples_add cnt r ranks cfh FK [4%nat] lookup in
  let* l2 := multiples_add cnt r ranks cfh FH [3%nat; 2%nat] l1 in
  let* l3 := multiples_add cnt r ranks cfh TK [3%nat] l2 in
  let* l4 := multiples_add cnt r ranks cfh TP [2%nat; 2%nat] l3 in
  multiples_add cnt r ranks cfh PA [2%nat] l4.

(** the attributes of a LookupTable *)
Record lookup_table : Type := mkTable {
  t_counts : hclass -> Z * Z;      (* hand_dict[h]["suited"], ["unsuited"] *)
  t_ranking : ranking;             (* cumulative counts, ranks, ranked_hands, max_rank *)
  t_suited : dict;
  t_unsuited : dict
}.
Definition t_max_rank (t : lookup_table) : Z := r_total (t_ranking t).

(** evaluator.py:206-322, LookupTable.__init__ *)
Definition LookupTable (suits ranks cfh : Z) (low : bool) (order : option (list string))
  : result lookup_table :=
  if match order with Some o => negb (order_valid o) | None => false end
  then Err InvalidOrderError
  else
    let cnt := hand_counts suits ranks cfh low in
    let* hs := ranked_classes cnt order in
    let r := compute_ranking cnt hs in
    let* su := table_flushes cnt r ranks cfh low in
    let* unsuited := table_multiples cnt r ranks cfh (snd su) in
    let suited := if r_cum r FL =? 0 then unsuited else fst su in
    Ok (mkTable cnt r suited unsuited).

(** evaluator.py:324-343, LookupTable.lookup *)
Definition table_lookup (t : lookup_table) (cards : list card) : result Z :=
  let ints := map c_int cards in
  if negb (fold_left Z.land ints 61440 =? 0)      (* 0xF000 *)
  then
    match ints with
    | [] => Err TypeError                          (* reduce of an empty list *)
    | i :: r =>
      let hand_or := Z.shiftr (fold_left Z.lor r i) 16 in
      match dict_find (t_suited t) (prime_product_from_rank_bits hand_or) with
      | Some v => Ok v
      | None => Err KeyError
      end
    end
  else
    match dict_find (t_unsuited t) (prime_product_from_hand cards) with
    | Some v => Ok v
    | None => Err KeyError
    end.

(** the attributes of an Evaluator ([hand_ranks], a display string of formatted
    percentages, is not modelled) *)
Record evaluator : Type := mkEvaluator {
  e_suits : Z;
  e_ranks : Z;
  e_cfh : Z;
  e_mandatory : Z;
  e_table : lookup_table
}.

(** evaluator.py:36-70, Evaluator.__init__; lines 66-69 divide by [total] once per
    ranked hand *)
Definition Evaluator (suits ranks cfh mandatory : Z) (low : bool)
           (order : option (list string)) : result evaluator :=
  if (cfh <? 1) || (5 <? cfh) then Err InvalidHandSizeError
  else
    let* t := LookupTable suits ranks cfh low order in
    let ranked := r_ranked (t_ranking t) in
    let total := sumZ (map (fun h => fst (t_counts t h)) ranked) in
    if negb (Nat.eqb (List.length ranked) 0) && (total =? 0)
    then Err ZeroDivisionError
    else Ok (mkEvaluator suits ranks cfh mandatory t).

(** evaluator.py:98-119: the candidate hands *)
Definition card_combs (e : evaluator) (hole community : list card)
  : result (list (list card)) :=
  if e_mandatory e =? 0
  then combinations (hole ++ community) (e_cfh e)
  else
    let* hole_combs := combinations hole (e_mandatory e) in
    let num_comm := e_cfh e - e_mandatory e in
    if num_comm =? 0 then Ok hole_combs
    else
      let* comm_combs := combinations community num_comm in
      Ok (map (fun p => fst p ++ snd p) (list_prod hole_combs comm_combs)).

(** evaluator.py:78-127, Evaluator.evaluate *)
Definition evaluate (e : evaluator) (hole community : list card) : result Z :=
  let* cs := card_combs e hole community in
  fold_res (fun minimum comb =>
              let* score := table_lookup (e_table e) comb in
              Ok (if score <? minimum then score else minimum))
           cs (t_max_rank (e_table e)).

(** evaluator.py:129-157, Evaluator.get_rank_class *)
Definition get_rank_class (e : evaluator) (hand_rank : Z) : result hclass :=
  if hand_rank <? 0 then Err InvalidHandRankError
  else
    match find (fun h => hand_rank <=? r_cum (t_ranking (e_table e)) h)
               (r_ranked (t_ranking (e_table e))) with
    | Some h => Ok h
    | None => Err InvalidHandRankError
    end.
