(** * NumpyHeapModel: the dealer of engine_numpy.py with its arrays and lists as objects

    As HeapModel.v does for clubs/poker/engine.py: NumpyModel.v treats arrays and lists as values, here they are
    objects in a store.  [self.x = ...] binds [x] to a new object; [self.x.fill(...)], [self.x[i] = ...],
    [self.x += ...] and [self.x -= ...] change the object in place; [x.tolist()] makes a new list.

    Simplifications: those of HeapModel.v; arrays and lists of the same element type live in the same store;
    arrays have as many elements as there are players (as in NumpyModel.v). *)
From Verif Require Import PyBase CardModel EvalModel EngineModel HeapModel NumpyModel.

(** ** Statements *)
(** an array gets new contents in place *)
Definition fill_active (l : list bool) (q : hdealer) : hdealer :=
  let '(mkH (mkHeap b i k) r z) := q in mkH (mkHeap (upd b (r_active r) l) i k) r z.
Definition fill_option (l : list bool) (q : hdealer) : hdealer :=
  let '(mkH (mkHeap b i k) r z) := q in mkH (mkHeap (upd b (r_option r) l) i k) r z.
Definition fill_stacks (l : list Z) (q : hdealer) : hdealer :=
  let '(mkH (mkHeap b i k) r z) := q in mkH (mkHeap b (upd i (r_stacks r) l) k) r z.
Definition fill_pot_commits (l : list Z) (q : hdealer) : hdealer :=
  let '(mkH (mkHeap b i k) r z) := q in mkH (mkHeap b (upd i (r_pot_commits r) l) k) r z.
Definition fill_commits (l : list Z) (q : hdealer) : hdealer :=
  let '(mkH (mkHeap b i k) r z) := q in mkH (mkHeap b (upd i (r_commits r) l) k) r z.
(** [x.tolist()]: a new list with the contents of the array; its place is the length of the store *)
Definition tolist_bools (x : nat) (q : hdealer) : hdealer :=
  let '(mkH (mkHeap b i k) r z) := q in mkH (mkHeap (b ++ [nth x b []]) i k) r z.
Definition tolist_ints (x : nat) (q : hdealer) : hdealer :=
  let '(mkH (mkHeap b i k) r z) := q in mkH (mkHeap b (i ++ [nth x i []]) k) r z.

(** ** Methods.  [_move_action], [_collect_bet] and the lines 373-387 of [step] change arrays in place exactly as
    the methods of clubs/poker/engine.py change lists: [hmove_action], [hplace_bet]; so does the loop on
    lines 393-406: [hstreet_loop]. *)
(** engine_numpy.py:584-593, _collect_multiple_bets *)
Definition nh_collect_multiple_bets (c : config) (q : hdealer) (bets : list Z) (to_street : bool) : hdealer :=
  let b := forced_bets (view q) (np_roll (act_idx c (view q)) bets) in
  let q1 := if to_street then fill_commits (add_lists (street_commits (view q)) b) q else q in
  let q2 := fill_pot_commits (add_lists (pot_commits (view q1)) b) q1 in
  let q3 := put_pot (pot (view q2) + sumZ b) q2 in
  fill_stacks (sub_lists (stacks (view q3)) b) q3.

(** engine_numpy.py:611-629, _observation: the arrays are copied, the community cards and the hole cards are
    the dealer's own lists *)
Definition nh_observation (c : config) (q : hdealer) (done : bool) : hdealer * result hobs :=
  match (if done then Ok (0, 0, 0) else bet_sizes c (view q)) with
  | Err e => (q, Err e)
  | Ok (call, min_raise, max_raise) =>
    let r := q_refs q in
    match (match z_action (q_scal q) with Some a => get (r_holes r) a | None => get_last (r_holes r) end) with
    | Err e => (q, Err e)
    | Ok hole =>
      let act := List.length (bools (q_heap q)) in
      let q1 := tolist_bools (r_active r) q in
      let stk := List.length (ints (q_heap q1)) in
      let q2 := tolist_ints (r_stacks r) q1 in
      let com := List.length (ints (q_heap q2)) in
      let q3 := tolist_ints (r_commits r) q2 in
      (q3, Ok (mkHObs (z_action (q_scal q)) act (z_button (q_scal q)) call (r_community r) hole max_raise min_raise
                      (z_pot (q_scal q)) stk com))
    end
  end.

(** engine_numpy.py:244-316, reset *)
Definition nh_reset (c : config) (q : hdealer) (rnd : list nat) (reset_button reset_stacks : bool) : hdealer * result hobs :=
  let n := num_players c in
  let q0 := if reset_stacks
            then assign_stacks (repeat (start_stack c) n) (fill_active (repeat true n) q)
            else assign_active (map (fun x => 0 <? x) (stacks (view q))) q in
  if negb reset_stacks && (count_true (active (view q0)) <=? 1) then (q0, Err TooFewActivePlayersError)
  else
    let q1 := put_button (if reset_button then O else (button (view q0) + Nat.modulo 1 n)%nat) q0 in
    let q2 := put_deck (deck_shuffle rnd (the_deck (view q1))) q1 in
    match num_community_cards c with
    | [] => (q2, Err IndexError)
    | cc0 :: _ =>
      let '(comm, d1) := deck_draw cc0 (the_deck (view q2)) in
      let q3 := put_history [] (assign_community comm (put_deck d1 q2)) in
      let '(holes, d2) := deal_hands n (num_hole_cards c) (the_deck (view q3)) in
      let q4 := assign_holes holes (put_deck d2 q3) in
      let q5 := fill_pot_commits (repeat 0 n) (put_pot 0 (put_largest_raise (big_blind c) q4)) in
      let q6 := fill_option (repeat false n) (fill_commits (repeat 0 n) (put_street 0 q5)) in
      let q7 := put_action (Some (button (view q6))) (put_street_raises 0 q6) in
      let q8 := if Nat.ltb 2 n then hmove_action c q7 else q7 in
      let q9 := nh_collect_multiple_bets c (nh_collect_multiple_bets c q8 (antes c) false) (blinds c) true in
      let q10 := hmove_action c (hmove_action c q9) in
      nh_observation c q10 false
    end.

(** engine_numpy.py:389-409 *)
Definition nh_next_street (c : config) (q : hdealer) : hdealer :=
  let q1 := hmove_action c (put_action (Some (button (view q))) q) in
  let q2 := hstreet_loop c (S (num_streets c)) q1 in
  let q3 := fill_commits (repeat 0 (num_players c)) q2 in
  put_street_raises 0 (assign_option (map negb (active (view q3))) q3).

(** engine_numpy.py:413-416 *)
Definition nh_finish_hand (q : hdealer) (pay : list Z) : hdealer :=
  let q1 := put_pot 0 (put_action None q) in
  fill_stacks (add_lists (add_lists (stacks (view q1)) pay) (pot_commits (view q1))) q1.

(** engine_numpy.py:411-412, 417-418 and 358-362: what is returned; the lists of payouts and flags are new *)
Definition nh_return (c : config) (q : hdealer) (pay : list Z) (done : list bool) : hdealer * result hout :=
  match nh_observation c q (all_true done) with
  | (q', Ok o) => (q', Ok (o, pay, done))
  | (q', Err e) => (q', Err e)
  end.
(** engine_numpy.py:357-363 *)
Definition nh_step_idle (c : config) (q : hdealer) : hdealer * result hout :=
  if any_true (active (view q))
  then match np_payouts c (view q) with
       | Err e => (q, Err e)
       | Ok pay => nh_return c q pay (np_done_list c (view q))
       end
  else (q, Err TableResetError).
(** engine_numpy.py:411-418 *)
Definition nh_step_end (c : config) (q : hdealer) : hdealer * result hout :=
  let done := np_done_list c (view q) in
  match np_payouts c (view q) with
  | Err e => (q, Err e)
  | Ok pay => nh_return c (if all_true done then nh_finish_hand q pay else q) pay done
  end.
(** engine_numpy.py:318-418, step *)
Definition nh_step (c : config) (q : hdealer) (b : pynum) : hdealer * result hout :=
  match z_action (q_scal q) with
  | None => nh_step_idle c q
  | Some a =>
    let fold := pynum_neg b in
    match py_round b with
    | Err e => (q, Err e)
    | Ok bet0 =>
      match bet_sizes c (view q) with
      | Err e => (q, Err e)
      | Ok (call, min_raise, max_raise) =>
        let '(bet, folds) := np_settle_bet fold bet0 call min_raise max_raise in
        let q1 := hplace_bet c q a fold bet folds call in
        let q2 := if all_agreed (view q1) then nh_next_street c q1 else q1 in
        nh_step_end c q2
      end
    end
  end.

(** the operations; [dealer.stacks = l] is done with an array nobody else holds *)
Definition nh_apply (c : config) (q : hdealer) (o : op) : hdealer :=
  match o with
  | OReset rnd rb rs => fst (nh_reset c q rnd rb rs)
  | OStep b => fst (nh_step c q b)
  | OTrick cs => match deck_trick cs (the_deck (view q)) with Ok d => put_deck d q | Err _ => q end
  | OUntrick => put_deck (deck_untrick (the_deck (view q))) q
  | OSetStacks l => assign_stacks l q
  end.
Definition nh_run (c : config) (q : hdealer) (ops : list op) : hdealer := fold_left (nh_apply c) ops q.

(** ** A caller that keeps the observations and writes into their lists, see HeapModel.v *)
Definition given (c : config) (q : hdealer) (o : op) : list hobs :=
  match o with
  | OReset rnd rb rs => match snd (nh_reset c q rnd rb rs) with Ok o => [o] | Err _ => [] end
  | OStep b => match snd (nh_step c q b) with Ok (o, _, _) => [o] | Err _ => [] end
  | _ => []
  end.
Definition do_deed (c : config) (w : hdealer * list hobs) (d : deed) : hdealer * list hobs :=
  let '(q, kept) := w in
  match d with
  | Call o => (nh_apply c q o, kept ++ given c q o)
  | Poke k p => match nth_error kept k with Some o => (poked q o p, kept) | None => (q, kept) end
  end.
Definition do_deeds (c : config) (w : hdealer * list hobs) (l : list deed) : hdealer * list hobs := fold_left (do_deed c) l w.
