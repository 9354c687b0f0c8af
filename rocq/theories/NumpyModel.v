(** * NumpyModel: engine_numpy.py, class Dealer (the dealer on numpy arrays)

    The file is in the root of the repository.  It has the same class as clubs/poker/engine.py,
    written with arrays.  Arrays of ints are lists of [Z] here: the fixed width of their elements
    (32 bits until the first [reset(reset_stacks=True)], 64 bits later) is not modelled.  The attributes are those of [state]; [button]
    is not bounded by the number of players.  Arguments of the constructor are those of
    [raw_config], and [__init__] (lines 117-231) is [Dealer].

    These methods do the same as in clubs/poker/engine.py, operation by operation, and are
    modelled by the definitions for that file in EngineModel.v:
    - [_all_agreed] (526-540) by [all_agreed];
    - [_bet_sizes] (542-568) by [bet_sizes];
    - [_collect_bet] (595-602), inside [place_bet];
    - [_observation] (611-629) by [observation] (arrays are copied by [tolist]);
    - [_eval_hands] (643-658) by [eval_hands];
    - [_move_action] (704-713) by [move_action];
    - the lines 373-387 of [step] by [place_bet], and the lines 389-409 by [next_street];
    - [stacks += payouts + pot_commit] (413-416) by [finish_hand]. *)
From Verif Require Import PyBase CardModel EvalModel EngineModel.

(** [np.roll(bets, a)], engine_numpy.py:587 *)
Definition np_roll (a : nat) (bets : list Z) : list Z := roll (Nat.modulo a (List.length bets)) bets.

(** engine_numpy.py:584-593, _collect_multiple_bets *)
Definition np_collect_multiple_bets (c : config) (s : state) (bets : list Z) (to_street : bool) : state :=
  let b := forced_bets s (np_roll (act_idx c s) bets) in
  mkState (action s) (active s) (button s) (community_cards s) (the_deck s)
          (history s) (hole_cards s) (largest_raise s)
          (pot s + sumZ b)
          (add_lists (pot_commits s) b)
          (sub_lists (stacks s) b)
          (street s)
          (if to_street then add_lists (street_commits s) b else street_commits s)
          (street_option s) (street_raises s).

(** engine_numpy.py:570-582, _clean_bet: a negative bet is not raised to 0 first; [np.argmin]
    returns the first index of the smallest element, as [argmin] does *)
Definition np_clean_bet (bet call min_raise max_raise : Z) : Z :=
  let idx := argmin (map (fun v => Z.abs (v - bet)) [0; call; min_raise; max_raise]) in
  match idx with
  | 1%nat => call
  | 2%nat | 3%nat => Z.min max_raise (Z.max min_raise bet)
  | _ => 0
  end.

(** engine_numpy.py:365-375 *)
Definition np_settle_bet (fold : bool) (bet call min_raise max_raise : Z) : Z * bool :=
  let bet := np_clean_bet bet call min_raise max_raise in
  if negb (call =? 0) && ((bet <? call) || fold) then (0, true) else (bet, false).

(** engine_numpy.py:604-609, _done: players who are all in are not done *)
Definition np_done_list (c : config) (s : state) : list bool :=
  if Nat.leb (num_streets c) (street s) || (count_true (active s) <=? 1)
  then repeat true (num_players c)
  else map negb (active s).

(** one iteration of the loop on engine_numpy.py:676-692.  There is no test for an empty pot:
    the player is always taken out of the next pots.  Rows of [hands] are views, so the strength
    and commit read here are the current ones. *)
Definition np_pot_step (worst : Z) (p : pots) (idx : nat) : pots * bool :=
  match nth_error (p_hands p) idx with
  | None => (p, false)
  | Some h =>
    let strength := h_strength h in
    let pot_commit := h_commit h in
    let eligible := map h_idx (filter (fun o => h_strength o =? strength) (p_hands p)) in
    let cut := map (fun o => Z.min (h_commit o) pot_commit) (p_hands p) in
    let split_pot := sumZ cut in
    let k := Z.of_nat (List.length eligible) in
    let split := split_pot / k in
    let remain := split_pot mod k in
    let payouts := fold_left (fun pay i => add_at pay i split) eligible (p_payouts p) in
    let hands1 := map (fun o => mkHand (h_idx o) (h_strength o)
                                       (h_commit o - Z.min (h_commit o) pot_commit))
                      (p_hands p) in
    let hands2 := match nth_error hands1 idx with
                  | Some h' => upd hands1 idx (mkHand (h_idx h') worst (h_commit h'))
                  | None => hands1
                  end in
    let pot := p_pot p - split_pot in
    (mkPots hands2 pot (p_remainder p + remain) payouts, pot =? 0)
  end.
Fixpoint np_pot_loop (worst : Z) (idcs : list nat) (p : pots) : pots :=
  match idcs with
  | [] => p
  | i :: r => let '(p', stop) := np_pot_step worst p i in
              if stop then p' else np_pot_loop worst r p'
  end.

(** engine_numpy.py:694-701: the odd chips; [np.argmin] of an empty array raises ValueError *)
Definition np_remainder (n button : nat) (remainder : Z) (payouts : list Z) : result (list Z) :=
  let involved_players := filter (fun i => negb (nth i payouts 0 =? 0)) (seq 0 (List.length payouts)) in
  let button_shifted_players :=
    map (fun i => Z.of_nat (if Nat.leb i button then i + n else i)) involved_players in
  match button_shifted_players with
  | [] => Err ValueError
  | _ => Ok (add_at payouts (nth (argmin button_shifted_players) involved_players O) remainder)
  end.

(** engine_numpy.py:660-703 after the evaluation of the hands; [np.lexsort] sorts by strength,
    then by commit, and is stable *)
Definition np_split_pots (n button : nat) (worst pot : Z) (strengths commits : list Z)
  : result (list Z) :=
  let hands := sort_by hand_le (zip_hands strengths commits) in
  let p := np_pot_loop worst (seq 0 (List.length hands))
                       (mkPots hands pot 0 (repeat 0 n)) in
  if p_remainder p =? 0 then Ok (p_payouts p)
  else np_remainder n button (p_remainder p) (p_payouts p).
Definition np_eval_round (c : config) (s : state) : result (list Z) :=
  let* strengths := eval_hands c (active s) (hole_cards s) (community_cards s) in
  np_split_pots (num_players c) (button s) (worst_hand c) (pot s) strengths (pot_commits s).

(** engine_numpy.py:631-641, _payouts *)
Definition np_payouts (c : config) (s : state) : result (list Z) :=
  let base := map (fun p => if snd p : bool then 0 else - fst p)
                  (combine (pot_commits s) (active s)) in
  if count_true (active s) =? 1
  then Ok (map (fun p => let '(payout, act, pc) := p in
                         payout + (if act : bool then pot s - pc else 0))
               (combine (combine base (active s)) (pot_commits s)))
  else if Nat.leb (num_streets c) (street s)
  then let* w := np_eval_round c s in Ok (sub_lists w (pot_commits s))
  else Ok base.

(** ** reset, engine_numpy.py:244-316.  [self.button + 1 % self.num_players] is
    [self.button + (1 % self.num_players)] *)
Definition np_reset (c : config) (s : state) (rnd : list nat)
           (reset_button reset_stacks : bool) : state * result obs :=
  let '(act, stk) := reset_active c s reset_stacks in
  let s0 := mkState (action s) act (button s) (community_cards s) (the_deck s)
                    (history s) (hole_cards s) (largest_raise s) (pot s)
                    (pot_commits s) stk (street s) (street_commits s)
                    (street_option s) (street_raises s) in
  if negb reset_stacks && (count_true act <=? 1)
  then (s0, Err TooFewActivePlayersError)
  else
    let b := if reset_button then O else (button s + Nat.modulo 1 (num_players c))%nat in
    let d0 := deck_shuffle rnd (the_deck s) in
    match num_community_cards c with
    | [] =>
      (mkState (action s) act b (community_cards s) d0
               (history s) (hole_cards s) (largest_raise s) (pot s)
               (pot_commits s) stk (street s) (street_commits s)
               (street_option s) (street_raises s), Err IndexError)
    | cc0 :: _ =>
      let '(comm, d1) := deck_draw cc0 d0 in
      let '(holes, d2) := deal_hands (num_players c) (num_hole_cards c) d1 in
      let n := num_players c in
      let s1 := mkState (Some b) act b comm d2 [] holes (big_blind c) 0
                        (repeat 0 n) stk 0 (repeat 0 n) (repeat false n) 0 in
      let s2 := if Nat.ltb 2 n then move_action c s1 else s1 in
      let s3 := np_collect_multiple_bets c s2 (antes c) false in
      let s4 := np_collect_multiple_bets c s3 (blinds c) true in
      let s5 := move_action c (move_action c s4) in
      (s5, observation c s5 false)
    end.

(** ** step, engine_numpy.py:318-418 *)
(** engine_numpy.py:357-363: step on a table without a player to act *)
Definition np_step_idle (c : config) (s : state) : result step_out :=
  if any_true (active s)
  then
    let done := np_done_list c s in
    let* pay := np_payouts c s in
    let* o := observation c s (all_true done) in
    Ok (mkOut o pay done)
  else Err TableResetError.
(** engine_numpy.py:411-418: end of the method *)
Definition np_step_end (c : config) (s : state) : state * result step_out :=
  let done := np_done_list c s in
  match np_payouts c s with
  | Err e => (s, Err e)
  | Ok pay =>
    let s' := if all_true done then finish_hand s pay else s in
    (s', let* o := observation c s' (all_true done) in Ok (mkOut o pay done))
  end.
Definition np_step (c : config) (s : state) (b : pynum) : state * result step_out :=
  match action s with
  | None => (s, np_step_idle c s)
  | Some a =>
    let fold := pynum_neg b in
    match py_round b with
    | Err e => (s, Err e)
    | Ok bet0 =>
      match bet_sizes c s with
      | Err e => (s, Err e)
      | Ok (call, min_raise, max_raise) =>
        let '(bet, folds) := np_settle_bet fold bet0 call min_raise max_raise in
        let s1 := place_bet c s a fold bet folds call in
        let s2 := if all_agreed s1 then next_street c s1 else s1 in
        np_step_end c s2
      end
    end
  end.

(** ** win_probabilities, engine_numpy.py:482-524, with the random samples as an argument: up to
    999 completions of the board are all looked at, otherwise [n] random ones.  The code returns
    the float quotients.  Without any completion [np.min] raises an AxisError, which is a
    ValueError; [reshape] raises ValueError if there are not [n] of them. *)
Definition np_win_probabilities (c : config) (s : state) (n : Z) (samples : list (list card))
  : result (list (Z * Z)) :=
  let missing := sumZ (num_community_cards c)
                 - Z.of_nat (List.length (community_cards s)) in
  let num_comm_combinations := ncr (Z.of_nat (List.length (d_cards (the_deck s)))) missing in
  let* comm_combinations :=
    if num_comm_combinations <? 1000 then combinations (d_cards (the_deck s)) missing
    else Ok (firstn (Z.to_nat n) samples) in
  let n := if num_comm_combinations <? 1000 then num_comm_combinations else n in
  let* hand_strengths := map_res (fun extra => eval_hands c (active s) (hole_cards s)
                                                          (community_cards s ++ extra)) comm_combinations in
  if Nat.eqb (List.length hand_strengths) 0 then Err ValueError
  else if negb (Z.of_nat (List.length hand_strengths) =? n) then Err ValueError
  else
    let won := fold_left (fun won hs => add_lists won (map (fun h => b2z (h =? minZ hs)) hs))
                         hand_strengths (repeat 0 (num_players c)) in
    Ok (map (fun w => (w, sumZ won)) won).

(** ** Histories of calls; an assignment to [stacks] is one of an array *)
Definition np_apply_op (c : config) (s : state) (o : op) : state :=
  match o with
  | OReset rnd rb rs => fst (np_reset c s rnd rb rs)
  | OStep b => fst (np_step c s b)
  | OTrick cs => match deck_trick cs (the_deck s) with
                 | Ok d => set_deck s d
                 | Err _ => s
                 end
  | OUntrick => set_deck s (deck_untrick (the_deck s))
  | OSetStacks l => set_stacks s l
  end.
Definition np_run (c : config) (s : state) (ops : list op) : state :=
  fold_left (np_apply_op c) ops s.
