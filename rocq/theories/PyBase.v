(** * PyBase: the fragment of Python used by clubs, as total Gallina functions.

    Python integers are [Z] (unbounded, as in Python).  Exceptions are values.
    Strings are lists of Unicode code points. *)
From Coq Require Export List ZArith Bool Lia String Ascii QArith.
From Coq Require Import ZifyBool.
Export ListNotations.
Open Scope Z_scope.

(** Exceptions: clubs/error.py:1-46, followed by the built-in ones which the
    modelled code can raise. *)
Inductive exn : Type :=
| InvalidConfigError | InvalidRaiseSizeError | InvalidRankError
| InvalidSuitError | InvalidOrderError | InvalidHandSizeError
| InvalidHandRankError | TooFewActivePlayersError | TableResetError
| IndexError | KeyError | ValueError | AssertionError | ZeroDivisionError
| OverflowError | TypeError
| InvalidRenderModeError | RenderInitializationError | MissingImportsError
| NotImplementedError.

Inductive result (A : Type) : Type :=
| Ok (a : A)
| Err (e : exn).
Arguments Ok {A} _.
Arguments Err {A} _.

Definition bind {A B} (r : result A) (k : A -> result B) : result B :=
  match r with Ok a => k a | Err e => Err e end.

Notation "'let*' x ':=' e 'in' k" := (bind e (fun x => k))
  (at level 200, x pattern, e at level 100, k at level 200, right associativity).

Definition is_ok {A} (r : result A) : bool :=
  match r with Ok _ => true | Err _ => false end.

Definition exn_eqb (a b : exn) : bool :=
  match a, b with
  | InvalidConfigError, InvalidConfigError
  | InvalidRaiseSizeError, InvalidRaiseSizeError
  | InvalidRankError, InvalidRankError
  | InvalidSuitError, InvalidSuitError
  | InvalidOrderError, InvalidOrderError
  | InvalidHandSizeError, InvalidHandSizeError
  | InvalidHandRankError, InvalidHandRankError
  | TooFewActivePlayersError, TooFewActivePlayersError
  | TableResetError, TableResetError
  | IndexError, IndexError | KeyError, KeyError | ValueError, ValueError
  | AssertionError, AssertionError | ZeroDivisionError, ZeroDivisionError
  | OverflowError, OverflowError | TypeError, TypeError
  | InvalidRenderModeError, InvalidRenderModeError
  | RenderInitializationError, RenderInitializationError
  | MissingImportsError, MissingImportsError
  | NotImplementedError, NotImplementedError => true
  | _, _ => false
  end.

(** [[f(x) for x in l]] where [f] may raise: left to right, first error wins. *)
Fixpoint map_res {A B} (f : A -> result B) (l : list A) : result (list B) :=
  match l with
  | [] => Ok []
  | x :: r => let* y := f x in let* ys := map_res f r in Ok (y :: ys)
  end.

(** a [for] loop over a list whose body may raise *)
Fixpoint fold_res {A S} (f : S -> A -> result S) (l : list A) (s : S) : result S :=
  match l with
  | [] => Ok s
  | x :: r => let* s' := f s x in fold_res f r s'
  end.

(** [l[i]] for a non-negative index *)
Definition get {A} (l : list A) (i : nat) : result A :=
  match nth_error l i with Some x => Ok x | None => Err IndexError end.

(** [l[-1]] *)
Definition get_last {A} (l : list A) : result A :=
  match rev l with x :: _ => Ok x | [] => Err IndexError end.

(** [l[i] = v] for an index known to be in range (unchanged otherwise) *)
Fixpoint upd {A} (l : list A) (i : nat) (v : A) : list A :=
  match l, i with
  | [], _ => []
  | _ :: r, O => v :: r
  | x :: r, S j => x :: upd r j v
  end.

Definition sumZ (l : list Z) : Z := fold_right Z.add 0 l.

(** [sum] of a list of bools *)
Definition b2z (b : bool) : Z := if b then 1 else 0.
Definition count_true (l : list bool) : Z := sumZ (map b2z l).

(** [max(l)] for a non-empty list ([0] is never returned for the empty list in
    the modelled code because every such list has [num_players >= 2] entries) *)
Definition maxZ (l : list Z) : Z :=
  match l with [] => 0 | x :: r => fold_left Z.max r x end.

Definition all_true (l : list bool) : bool := forallb (fun b => b) l.
Definition any_true (l : list bool) : bool := existsb (fun b => b) l.

(** [range(lo, hi)] and [range(hi, lo, -1)] *)
Definition zrange (lo hi : Z) : list Z :=
  map (fun i => lo + Z.of_nat i) (seq 0 (Z.to_nat (hi - lo))).
Definition zrange_down (hi lo : Z) : list Z :=
  map (fun i => hi - Z.of_nat i) (seq 0 (Z.to_nat (hi - lo))).

Definition prodZ (l : list Z) : Z := fold_left Z.mul l 1.

(** [itertools.combinations(l, k)] for [k >= 0], in the library's order *)
Fixpoint combs {A} (k : nat) (l : list A) : list (list A) :=
  match k, l with
  | O, _ => [[]]
  | S _, [] => []
  | S k', x :: r => map (cons x) (combs k' r) ++ combs k r
  end.

(** [itertools.combinations(l, k)] for any int [k]; negative raises ValueError *)
Definition combinations {A} (l : list A) (k : Z) : result (list (list A)) :=
  if k <? 0 then Err ValueError else Ok (combs (Z.to_nat k) l).

(** all ways to take one element out of a list, keeping the rest in order *)
Fixpoint picks {A} (l : list A) : list (A * list A) :=
  match l with
  | [] => []
  | x :: r => (x, r) :: map (fun p => (fst p, x :: snd p)) (picks r)
  end.

(** [itertools.permutations(l, k)], in the library's order *)
Fixpoint perms {A} (k : nat) (l : list A) : list (list A) :=
  match k with
  | O => [[]]
  | S k' => flat_map (fun p => map (cons (fst p)) (perms k' (snd p))) (picks l)
  end.

(** a Python number passed as a bet: an int, a finite float (its exact rational
    value), an infinity or nan *)
Inductive pynum : Type :=
| PyInt (z : Z)
| PyFloat (q : Q)
| PyInf (negative : bool)
| PyNan.

(** [x < 0] *)
Definition pynum_neg (x : pynum) : bool :=
  match x with
  | PyInt z => z <? 0
  | PyFloat q => Qnum q <? 0
  | PyInf b => b
  | PyNan => false
  end.

(** [round(x)]: ints unchanged, floats half-to-even, OverflowError on
    infinities, ValueError on nan *)
Definition round_half_even (q : Q) : Z :=
  let n := Qnum q in
  let d := Zpos (Qden q) in
  let f := n / d in
  let r := 2 * (n mod d) in
  if r <? d then f
  else if d <? r then f + 1
  else if Z.even f then f else f + 1.

Definition py_round (x : pynum) : result Z :=
  match x with
  | PyInt z => Ok z
  | PyFloat q => Ok (round_half_even q)
  | PyInf _ => Err OverflowError
  | PyNan => Err ValueError
  end.

(** stable insertion sort ([sorted] is stable); [le a b] says [a] may stay in
    front of [b] *)
Fixpoint insert_sorted {A} (le : A -> A -> bool) (x : A) (l : list A) : list A :=
  match l with
  | [] => [x]
  | y :: r => if le x y then x :: y :: r else y :: insert_sorted le x r
  end.
Definition sort_by {A} (le : A -> A -> bool) (l : list A) : list A :=
  fold_right (insert_sorted le) [] l.

(** code points of an ASCII literal *)
Definition ustr (s : string) : list Z :=
  map (fun a => Z.of_N (N_of_ascii a)) (list_ascii_of_string s).

(** a random permutation: [shuf rnd l] inserts the elements of [l] one by one at
    the positions given by the random source [rnd].  Every ordering of [l] is
    [shuf rnd l] for some [rnd] ([CardProofs.shuf_complete]), so quantifying over [rnd]
    covers every outcome of [random.shuffle]. *)
Definition insert_at {A} (k : nat) (x : A) (l : list A) : list A :=
  firstn k l ++ x :: skipn k l.
Fixpoint shuf {A} (rnd : list nat) (l : list A) : list A :=
  match l with
  | [] => []
  | x :: r => insert_at (hd O rnd) x (shuf (tl rnd) r)
  end.
