(** * HeapModel: the dealer with its lists as objects

    EngineModel.v treats the lists of the dealer as values.  In the program they are objects, and an
    observation contains the objects themselves (engine.py:632-644), so a later change of the list is
    seen through the observation.  Here the same methods are modelled once more, on a store: an
    assignment [self.x = ...] binds [x] to a new object, [self.x[i] = ...], [self.x[i] += ...] and
    [self.x += ...] change the object in place.

    Simplifications: objects of different types (lists of booleans, of numbers, of cards) live in
    separate stores; the list of hands [self.hole_cards], the history and the lists of the deck are
    values, because no observation contains them. *)
From Verif Require Import PyBase CardModel EvalModel EngineModel.

(** the store: the contents of the list objects; an object is known by its position *)
Record heap : Type := mkHeap { bools : list (list bool); ints : list (list Z); cardss : list (list card) }.
(** the attributes of the dealer that are list objects, engine.py:207-229 *)
Record refs : Type := mkRefs {
  r_active : nat; r_option : nat;
  r_stacks : nat; r_pot_commits : nat; r_commits : nat;
  r_community : nat; r_holes : list nat
}.
(** the other attributes *)
Record scalars : Type := mkScalars {
  z_action : option nat; z_button : nat; z_deck : deck; z_history : list (nat * Z * bool);
  z_largest_raise : Z; z_pot : Z; z_street : nat; z_street_raises : Z
}.
Record hdealer : Type := mkH { q_heap : heap; q_refs : refs; q_scal : scalars }.

Definition read_bools (h : heap) (l : nat) : list bool := nth l (bools h) [].
Definition read_ints (h : heap) (l : nat) : list Z := nth l (ints h) [].
Definition read_cards (h : heap) (l : nat) : list card := nth l (cardss h) [].

(** what the attributes contain now *)
Definition view (q : hdealer) : state :=
  let h := q_heap q in let r := q_refs q in let z := q_scal q in
  mkState (z_action z) (read_bools h (r_active r)) (z_button z) (read_cards h (r_community r)) (z_deck z) (z_history z)
          (map (read_cards h) (r_holes r)) (z_largest_raise z) (z_pot z) (read_ints h (r_pot_commits r)) (read_ints h (r_stacks r))
          (z_street z) (read_ints h (r_commits r)) (read_bools h (r_option r)) (z_street_raises z).

(** ** Statements *)
(** [self.x = ...]: a new object *)
Definition assign_active (l : list bool) (q : hdealer) : hdealer :=
  let '(mkH (mkHeap b i k) (mkRefs _ o s p m cc hs) z) := q in mkH (mkHeap (b ++ [l]) i k) (mkRefs (List.length b) o s p m cc hs) z.
Definition assign_option (l : list bool) (q : hdealer) : hdealer :=
  let '(mkH (mkHeap b i k) (mkRefs a _ s p m cc hs) z) := q in mkH (mkHeap (b ++ [l]) i k) (mkRefs a (List.length b) s p m cc hs) z.
Definition assign_stacks (l : list Z) (q : hdealer) : hdealer :=
  let '(mkH (mkHeap b i k) (mkRefs a o _ p m cc hs) z) := q in mkH (mkHeap b (i ++ [l]) k) (mkRefs a o (List.length i) p m cc hs) z.
Definition assign_pot_commits (l : list Z) (q : hdealer) : hdealer :=
  let '(mkH (mkHeap b i k) (mkRefs a o s _ m cc hs) z) := q in mkH (mkHeap b (i ++ [l]) k) (mkRefs a o s (List.length i) m cc hs) z.
Definition assign_commits (l : list Z) (q : hdealer) : hdealer :=
  let '(mkH (mkHeap b i k) (mkRefs a o s p _ cc hs) z) := q in mkH (mkHeap b (i ++ [l]) k) (mkRefs a o s p (List.length i) cc hs) z.
Definition assign_community (l : list card) (q : hdealer) : hdealer :=
  let '(mkH (mkHeap b i k) (mkRefs a o s p m _ hs) z) := q in mkH (mkHeap b i (k ++ [l])) (mkRefs a o s p m (List.length k) hs) z.
(** a new list of new lists *)
Definition assign_holes (ls : list (list card)) (q : hdealer) : hdealer :=
  let '(mkH (mkHeap b i k) (mkRefs a o s p m cc _) z) := q in
  mkH (mkHeap b i (k ++ ls)) (mkRefs a o s p m cc (seq (List.length k) (List.length ls))) z.
(** changes in place *)
Definition write_active (j : nat) (v : bool) (q : hdealer) : hdealer :=
  let '(mkH (mkHeap b i k) r z) := q in mkH (mkHeap (upd b (r_active r) (upd (nth (r_active r) b []) j v)) i k) r z.
Definition write_option (j : nat) (v : bool) (q : hdealer) : hdealer :=
  let '(mkH (mkHeap b i k) r z) := q in mkH (mkHeap (upd b (r_option r) (upd (nth (r_option r) b []) j v)) i k) r z.
Definition add_stacks (j : nat) (v : Z) (q : hdealer) : hdealer :=
  let '(mkH (mkHeap b i k) r z) := q in mkH (mkHeap b (upd i (r_stacks r) (add_at (nth (r_stacks r) i []) j v)) k) r z.
Definition add_pot_commits (j : nat) (v : Z) (q : hdealer) : hdealer :=
  let '(mkH (mkHeap b i k) r z) := q in mkH (mkHeap b (upd i (r_pot_commits r) (add_at (nth (r_pot_commits r) i []) j v)) k) r z.
Definition add_commits (j : nat) (v : Z) (q : hdealer) : hdealer :=
  let '(mkH (mkHeap b i k) r z) := q in mkH (mkHeap b (upd i (r_commits r) (add_at (nth (r_commits r) i []) j v)) k) r z.
Definition extend_community (l : list card) (q : hdealer) : hdealer :=
  let '(mkH (mkHeap b i k) r z) := q in mkH (mkHeap b i (upd k (r_community r) (nth (r_community r) k [] ++ l))) r z.
(** attributes that are not lists *)
Definition on_scal (f : scalars -> scalars) (q : hdealer) : hdealer := mkH (q_heap q) (q_refs q) (f (q_scal q)).
Definition put_action (x : option nat) := on_scal (fun z => mkScalars x (z_button z) (z_deck z) (z_history z) (z_largest_raise z) (z_pot z) (z_street z) (z_street_raises z)).
Definition put_button (x : nat) := on_scal (fun z => mkScalars (z_action z) x (z_deck z) (z_history z) (z_largest_raise z) (z_pot z) (z_street z) (z_street_raises z)).
Definition put_deck (x : deck) := on_scal (fun z => mkScalars (z_action z) (z_button z) x (z_history z) (z_largest_raise z) (z_pot z) (z_street z) (z_street_raises z)).
Definition put_history (x : list (nat * Z * bool)) := on_scal (fun z => mkScalars (z_action z) (z_button z) (z_deck z) x (z_largest_raise z) (z_pot z) (z_street z) (z_street_raises z)).
Definition put_largest_raise (x : Z) := on_scal (fun z => mkScalars (z_action z) (z_button z) (z_deck z) (z_history z) x (z_pot z) (z_street z) (z_street_raises z)).
Definition put_pot (x : Z) := on_scal (fun z => mkScalars (z_action z) (z_button z) (z_deck z) (z_history z) (z_largest_raise z) x (z_street z) (z_street_raises z)).
Definition put_street (x : nat) := on_scal (fun z => mkScalars (z_action z) (z_button z) (z_deck z) (z_history z) (z_largest_raise z) (z_pot z) x (z_street_raises z)).
Definition put_street_raises (x : Z) := on_scal (fun z => mkScalars (z_action z) (z_button z) (z_deck z) (z_history z) (z_largest_raise z) (z_pot z) (z_street z) x).

(** ** Methods *)
(** The tests and sums that only read ([_bet_sizes], [_clean_bet], [_all_agreed], [_done],
    [_payouts], ...) are those of EngineModel.v, applied to what the attributes contain. *)

(** engine.py:737-746, _move_action *)
Fixpoint hmove_loop (n a0 k i a : nat) (q : hdealer) : nat * hdealer :=
  match k with
  | O => (a, q)
  | S k' =>
    let a' := Nat.modulo (a0 + i) n in
    if nth a' (active (view q)) false then (a', q) else hmove_loop n a0 k' (S i) a' (write_option a' true q)
  end.
Definition hmove_action (c : config) (q : hdealer) : hdealer :=
  let a0 := act_idx c (view q) in
  let '(a, q1) := hmove_loop (num_players c) a0 (num_players c) 1 a0 q in put_action (Some a) q1.

(** engine.py:589-607, _collect_multiple_bets *)
Definition hcollect_multiple_bets (c : config) (q : hdealer) (bets : list Z) (to_street : bool) : hdealer :=
  let b := forced_bets (view q) (roll (act_idx c (view q)) bets) in
  let q1 := if to_street then assign_commits (add_lists (street_commits (view q)) b) q else q in
  let q2 := put_pot (pot (view q1) + sumZ b) q1 in
  let q3 := assign_pot_commits (add_lists (pot_commits (view q2)) b) q2 in
  assign_stacks (sub_lists (stacks (view q3)) b) q3.

(** engine.py:609-616, _collect_bet *)
Definition hcollect_bet (a : nat) (bet : Z) (q : hdealer) : hdealer :=
  let taken := Z.min (nth a (stacks (view q)) 0) bet in
  add_stacks a (- taken) (add_commits a taken (add_pot_commits a taken (put_pot (pot (view q) + taken) q))).

(** engine.py:627-645: the observation, with the list objects of the dealer *)
Record hobs : Type := mkHObs {
  ho_action : option nat; ho_active : nat; ho_button : nat; ho_call : Z; ho_community : nat; ho_hole : nat;
  ho_max_raise : Z; ho_min_raise : Z; ho_pot : Z; ho_stacks : nat; ho_commits : nat
}.
Definition hobservation (c : config) (q : hdealer) (done : bool) : result hobs :=
  let* bs := if done then Ok (0, 0, 0) else bet_sizes c (view q) in
  let '(call, min_raise, max_raise) := bs in
  let r := q_refs q in
  let* hole := match z_action (q_scal q) with Some a => get (r_holes r) a | None => get_last (r_holes r) end in
  Ok (mkHObs (z_action (q_scal q)) (r_active r) (z_button (q_scal q)) call (r_community r) hole max_raise min_raise
             (z_pot (q_scal q)) (r_stacks r) (r_commits r)).
(** what somebody sees who looks at the observation when the store is [h] *)
Definition look (h : heap) (o : hobs) : obs :=
  mkObs (ho_action o) (read_bools h (ho_active o)) (ho_button o) (ho_call o) (read_cards h (ho_community o)) (read_cards h (ho_hole o))
        (ho_max_raise o) (ho_min_raise o) (ho_pot o) (read_ints h (ho_stacks o)) (read_ints h (ho_commits o)).

(** engine.py:247-319, reset *)
Definition hreset (c : config) (q : hdealer) (rnd : list nat) (reset_button reset_stacks : bool) : hdealer * result hobs :=
  let n := num_players c in
  let q0 := if reset_stacks
            then assign_stacks (repeat (start_stack c) n) (assign_active (repeat true n) q)
            else assign_active (map (fun x => 0 <? x) (stacks (view q))) q in
  if negb reset_stacks && (count_true (active (view q0)) <=? 1) then (q0, Err TooFewActivePlayersError)
  else
    let q1 := put_button (if reset_button then O else Nat.modulo (button (view q0) + 1) n) q0 in
    let q2 := put_deck (deck_shuffle rnd (the_deck (view q1))) q1 in
    match num_community_cards c with
    | [] => (q2, Err IndexError)
    | cc0 :: _ =>
      let '(comm, d1) := deck_draw cc0 (the_deck (view q2)) in
      let q3 := put_history [] (assign_community comm (put_deck d1 q2)) in
      let '(holes, d2) := deal_hands n (num_hole_cards c) (the_deck (view q3)) in
      let q4 := assign_holes holes (put_deck d2 q3) in
      let q5 := assign_pot_commits (repeat 0 n) (put_pot 0 (put_largest_raise (big_blind c) q4)) in
      let q6 := assign_option (repeat false n) (assign_commits (repeat 0 n) (put_street 0 q5)) in
      let q7 := put_action (Some (button (view q6))) (put_street_raises 0 q6) in
      let q8 := if Nat.ltb 2 n then hmove_action c q7 else q7 in
      let q9 := hcollect_multiple_bets c (hcollect_multiple_bets c q8 (antes c) false) (blinds c) true in
      let q10 := hmove_action c (hmove_action c q9) in
      (q10, hobservation c q10 false)
    end.

(** engine.py:366-384 *)
Definition hplace_bet (c : config) (q : hdealer) (a : nat) (fold : bool) (bet : Z) (folds : bool) (call : Z) : hdealer :=
  let q1 := if folds then write_active a false q else q in
  let q2 := if negb (bet =? 0) && (largest_raise (view q1) <=? bet - call)
            then put_street_raises (street_raises (view q1) + 1) (put_largest_raise (bet - call) q1) else q1 in
  let q3 := hcollect_bet a bet q2 in
  let q4 := put_history (history (view q3) ++ [(a, bet, fold)]) q3 in
  hmove_action c (write_option a true q4).

(** engine.py:393-411 *)
Fixpoint hstreet_loop (c : config) (fuel : nat) (q : hdealer) : hdealer :=
  match fuel with
  | O => q
  | S f =>
    let q1 := put_street (S (street (view q))) q in
    let full_streets := Nat.leb (num_streets c) (street (view q1)) in
    let all_in := map (fun p => fst p && (snd p =? 0)) (combine (active (view q1)) (stacks (view q1))) in
    let all_all_in := count_true (active (view q1)) - count_true all_in <=? 1 in
    if full_streets then q1
    else
      let '(cards, d) := deck_draw (nth (street (view q1)) (num_community_cards c) 0) (the_deck (view q1)) in
      let q2 := extend_community cards (put_deck d q1) in
      if all_all_in then hstreet_loop c f q2 else q2
  end.
(** engine.py:388-415 *)
Definition hnext_street (c : config) (q : hdealer) : hdealer :=
  let q1 := hmove_action c (put_action (Some (button (view q))) q) in
  let q2 := hstreet_loop c (S (num_streets c)) q1 in
  let q3 := assign_commits (repeat 0 (num_players c)) q2 in
  put_street_raises 0 (assign_option (map negb (active (view q3))) q3).

(** engine.py:419-427 *)
Definition hfinish_hand (q : hdealer) (pay : list Z) : hdealer :=
  let q1 := put_pot 0 (put_action None q) in
  assign_stacks (add_lists (add_lists (stacks (view q1)) pay) (pot_commits (view q1))) q1.

(** The lists of payouts and of the flags returned by step are always new objects, engine.py:618-670. *)
Definition hout : Type := hobs * list Z * list bool.
(** engine.py:355-361 *)
Definition hstep_idle (c : config) (q : hdealer) : result hout :=
  if any_true (active (view q))
  then
    let done := done_list c (view q) in
    let* pay := payouts c (view q) in
    let* o := hobservation c q (all_true done) in
    Ok (o, pay, done)
  else Err TableResetError.
(** engine.py:416-429 *)
Definition hstep_end (c : config) (q : hdealer) : hdealer * result hout :=
  let done := done_list c (view q) in
  match payouts c (view q) with
  | Err e => (q, Err e)
  | Ok pay =>
    let q' := if all_true done then hfinish_hand q pay else q in
    (q', let* o := hobservation c q' (all_true done) in Ok (o, pay, done))
  end.
(** engine.py:321-429, step *)
Definition hstep (c : config) (q : hdealer) (b : pynum) : hdealer * result hout :=
  match z_action (q_scal q) with
  | None => (q, hstep_idle c q)
  | Some a =>
    let fold := pynum_neg b in
    match py_round b with
    | Err e => (q, Err e)
    | Ok bet0 =>
      match bet_sizes c (view q) with
      | Err e => (q, Err e)
      | Ok (call, min_raise, max_raise) =>
        let '(bet, folds) := settle_bet fold bet0 call min_raise max_raise in
        let q1 := hplace_bet c q a fold bet folds call in
        let q2 := if all_agreed (view q1) then hnext_street c q1 else q1 in
        hstep_end c q2
      end
    end
  end.

(** the lists made by the constructor, engine.py:207-229, for a dealer with the contents [s] *)
Definition hnew (s : state) : hdealer :=
  mkH (mkHeap [active s; street_option s] [pot_commits s; stacks s; street_commits s] (community_cards s :: hole_cards s))
      (mkRefs 0 1 1 0 2 0 (seq 1 (List.length (hole_cards s))))
      (mkScalars (action s) (button s) (the_deck s) (history s) (largest_raise s) (pot s) (street s) (street_raises s)).

(** the operations of EngineModel.v; [dealer.stacks = l] is done with a list nobody else holds *)
Definition happly (c : config) (q : hdealer) (o : op) : hdealer :=
  match o with
  | OReset rnd rb rs => fst (hreset c q rnd rb rs)
  | OStep b => fst (hstep c q b)
  | OTrick cs => match deck_trick cs (the_deck (view q)) with Ok d => put_deck d q | Err _ => q end
  | OUntrick => put_deck (deck_untrick (the_deck (view q))) q
  | OSetStacks l => assign_stacks l q
  end.
Definition hrun (c : config) (q : hdealer) (ops : list op) : hdealer := fold_left (happly c) ops q.

(** ** A caller that writes into the lists of an observation *)
(** the caller assigns to an element of one of the lists of an observation *)
Inductive poke : Type :=
| PActive (j : nat) (v : bool) | PStacks (j : nat) (v : Z) | PCommits (j : nat) (v : Z)
| PCommunity (j : nat) (v : card) | PHole (j : nat) (v : card).
Definition poked (q : hdealer) (o : hobs) (p : poke) : hdealer :=
  let '(mkH (mkHeap b i k) r z) := q in
  let h := match p with
           | PActive j v => mkHeap (upd b (ho_active o) (upd (nth (ho_active o) b []) j v)) i k
           | PStacks j v => mkHeap b (upd i (ho_stacks o) (upd (nth (ho_stacks o) i []) j v)) k
           | PCommits j v => mkHeap b (upd i (ho_commits o) (upd (nth (ho_commits o) i []) j v)) k
           | PCommunity j v => mkHeap b i (upd k (ho_community o) (upd (nth (ho_community o) k []) j v))
           | PHole j v => mkHeap b i (upd k (ho_hole o) (upd (nth (ho_hole o) k []) j v))
           end in mkH h r z.
(** what a program does: it calls the dealer (the observation returned, if any, is kept), or it writes into a
    list of the observation it got as number [k] *)
Inductive deed : Type := Call (o : op) | Poke (k : nat) (p : poke).
(** the observation a call returns *)
Definition hgiven (c : config) (q : hdealer) (o : op) : list hobs :=
  match o with
  | OReset rnd rb rs => match snd (hreset c q rnd rb rs) with Ok o => [o] | Err _ => [] end
  | OStep b => match snd (hstep c q b) with Ok (o, _, _) => [o] | Err _ => [] end
  | _ => []
  end.
(** the dealer and the observations the caller has kept *)
Definition hdo_deed (c : config) (w : hdealer * list hobs) (d : deed) : hdealer * list hobs :=
  let '(q, kept) := w in
  match d with
  | Call o => (happly c q o, kept ++ hgiven c q o)
  | Poke k p => match nth_error kept k with Some o => (poked q o p, kept) | None => (q, kept) end
  end.
Definition hdo_deeds (c : config) (w : hdealer * list hobs) (l : list deed) : hdealer * list hobs := fold_left (hdo_deed c) l w.
