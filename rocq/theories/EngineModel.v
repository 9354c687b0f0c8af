(** * EngineModel: clubs/poker/engine.py, class Dealer *)
From Verif Require Import PyBase CardModel EvalModel.

(** ** Configuration *)

(** a constructor argument given as one value or as a list, engine.py:126-135 *)
Inductive inp (A : Type) : Type :=
| Scalar (a : A)
| Listed (l : list A).
Arguments Scalar {A} _.
Arguments Listed {A} _.

(** a raise size as given: an int, "pot", "inf", or any other object (which
    includes the float inf: [float("inf") == "inf"] is false) *)
Inductive raw_raise : Type := RawInt (z : Z) | RawPot | RawInf | RawOther.

(** a number of raises as given: an int, "inf" (or float inf), or an object which
    [float()] rejects.  Ints too large for a float are not modelled. *)
Inductive raw_count : Type := RawCount (z : Z) | RawCountInf | RawCountBad.

(** cleaned raise sizes (engine.py:174-186): int, "pot", float inf *)
Inductive rsize : Type := RInt (z : Z) | RPot | RInf.

(** the constructor arguments, engine.py:122-140 *)
Record raw_config : Type := mkRaw {
  rw_num_players : Z;
  rw_num_streets : Z;
  rw_blinds : inp Z;
  rw_antes : inp Z;
  rw_raise_sizes : inp raw_raise;
  rw_num_raises : inp raw_count;
  rw_num_suits : Z;
  rw_num_ranks : Z;
  rw_num_hole_cards : Z;
  rw_num_community_cards : inp Z;
  rw_num_cards_for_hand : Z;
  rw_mandatory_num_hole_cards : Z;
  rw_start_stack : Z;
  rw_low_end_straight : bool;
  rw_order : option (list string)
}.

(** the attributes fixed by the constructor, engine.py:189-213.  [num_raises] is
    [None] for float inf. *)
Record config : Type := mkConfig {
  num_players : nat;
  num_streets : nat;
  blinds : list Z;
  antes : list Z;
  big_blind : Z;
  raise_sizes : list rsize;
  num_raises : list (option Z);
  num_hole_cards : Z;
  num_community_cards : list Z;
  start_stack : Z;
  the_evaluator : evaluator
}.

(** the attributes changed by reset and step, engine.py:206-229; [action = None]
    stands for -1 *)
Record state : Type := mkState {
  action : option nat;
  active : list bool;
  button : nat;
  community_cards : list card;
  the_deck : deck;
  history : list (nat * Z * bool);
  hole_cards : list (list card);
  largest_raise : Z;
  pot : Z;
  pot_commits : list Z;
  stacks : list Z;
  street : nat;
  street_commits : list Z;
  street_option : list bool;
  street_raises : Z
}.

(** engine.py:142-149, check_inp; [[var] * n] is empty for a negative [n] *)
Definition check_inp {A} (var : inp A) (expect_num : Z) : result (list A) :=
  match var with
  | Listed l => if Z.of_nat (List.length l) =? expect_num then Ok l
                else Err InvalidConfigError
  | Scalar a => Ok (repeat a (Z.to_nat expect_num))
  end.

(** engine.py:174-186, clean_rs *)
Definition clean_rs (r : raw_raise) : result rsize :=
  match r with
  | RawInf => Ok RInf
  | RawPot => Ok RPot
  | RawInt z => Ok (RInt z)
  | RawOther => Err InvalidRaiseSizeError
  end.

(** engine.py:195, float(raise_num) *)
Definition clean_count (r : raw_count) : result (option Z) :=
  match r with
  | RawCount z => Ok (Some z)
  | RawCountInf => Ok None
  | RawCountBad => Err ValueError
  end.

(** engine.py:122-234, Dealer.__init__; the last test is POS_DICT[num_players] in
    ascii_viewer.py:98.  The shuffle of the new deck draws from [rnd]. *)
Definition Dealer (rnd : list nat) (w : raw_config) : result (config * state) :=
  let* bl := check_inp (rw_blinds w) (rw_num_players w) in
  let* an := check_inp (rw_antes w) (rw_num_players w) in
  let* rs := check_inp (rw_raise_sizes w) (rw_num_streets w) in
  let* nr := check_inp (rw_num_raises w) (rw_num_streets w) in
  let* cc := check_inp (rw_num_community_cards w) (rw_num_streets w) in
  let* bb := get bl 1 in
  let* crs := map_res clean_rs rs in
  let* cnr := map_res clean_count nr in
  let* dk := Deck rnd (rw_num_suits w) (rw_num_ranks w) in
  let* ev := Evaluator (rw_num_suits w) (rw_num_ranks w) (rw_num_cards_for_hand w)
                       (rw_mandatory_num_hole_cards w) (rw_low_end_straight w)
                       (rw_order w) in
  let n := Z.to_nat (rw_num_players w) in
  if (rw_num_players w <? 2) || (10 <? rw_num_players w) then Err KeyError
  else
    Ok (mkConfig n (Z.to_nat (rw_num_streets w)) bl an bb crs cnr
                 (rw_num_hole_cards w) cc (rw_start_stack w) ev,
        mkState None (repeat false n) 0 [] dk [] [] 0 0 (repeat 0 n)
                (repeat (rw_start_stack w) n) 0 (repeat 0 n) (repeat false n) 0).

(** ** Helpers on states *)

Definition set_action (s : state) (a : option nat) : state :=
  mkState a (active s) (button s) (community_cards s) (the_deck s) (history s)
          (hole_cards s) (largest_raise s) (pot s) (pot_commits s) (stacks s)
          (street s) (street_commits s) (street_option s) (street_raises s).

(** an index [i] of a Python list of length [num_players], [-1] being the last *)
Definition act_idx (c : config) (s : state) : nat :=
  match action s with Some a => a | None => num_players c - 1 end.

(** engine.py:737-746, _move_action: [k] seats still to look at, [i] seats after
    [a0]; returns the new action and street_option *)
Fixpoint move_loop (n a0 : nat) (act : list bool) (k i : nat) (a : nat)
         (opt : list bool) : nat * list bool :=
  match k with
  | O => (a, opt)
  | S k' =>
    let a' := Nat.modulo (a0 + i) n in
    if nth a' act false then (a', opt)
    else move_loop n a0 act k' (S i) a' (upd opt a' true)
  end.
Definition move_action (c : config) (s : state) : state :=
  let a0 := act_idx c s in
  let '(a, opt) := move_loop (num_players c) a0 (active s) (num_players c) 1 a0
                             (street_option s) in
  mkState (Some a) (active s) (button s) (community_cards s) (the_deck s)
          (history s) (hole_cards s) (largest_raise s) (pot s) (pot_commits s)
          (stacks s) (street s) (street_commits s) opt (street_raises s).

(** [bets[-a:] + bets[:-a]] for a non-negative [a], engine.py:593 *)
Definition roll (a : nat) (bets : list Z) : list Z :=
  match a with
  | O => bets
  | S _ => skipn (List.length bets - a) bets ++ firstn (List.length bets - a) bets
  end.

Definition add_lists (a b : list Z) : list Z :=
  map (fun p => fst p + snd p) (combine a b).
Definition sub_lists (a b : list Z) : list Z :=
  map (fun p => fst p - snd p) (combine a b).

(** engine.py:594-597: the chips really taken from each seat *)
Definition forced_bets (s : state) (bets : list Z) : list Z :=
  map (fun p => let '(stack, act, bet) := p in
                if (0 <? stack) && act then bet else 0)
      (combine (combine (stacks s) (active s)) bets).

(** engine.py:589-607, _collect_multiple_bets *)
Definition collect_multiple_bets (c : config) (s : state) (bets : list Z)
           (to_street : bool) : state :=
  let b := forced_bets s (roll (act_idx c s) bets) in
  mkState (action s) (active s) (button s) (community_cards s) (the_deck s)
          (history s) (hole_cards s) (largest_raise s)
          (pot s + sumZ b)
          (add_lists (pot_commits s) b)
          (sub_lists (stacks s) b)
          (street s)
          (if to_street then add_lists (street_commits s) b else street_commits s)
          (street_option s) (street_raises s).

(** ** Reads *)

(** engine.py:545-572, _bet_sizes *)
Definition bet_sizes (c : config) (s : state) : result (Z * Z * Z) :=
  let i := act_idx c s in
  let stack := nth i (stacks s) 0 in
  let call := maxZ (street_commits s) - nth i (street_commits s) 0 in
  let* raise_size := get (raise_sizes c) (street s) in
  let '(min_raise, max_raise) :=
    match raise_size with
    | RInt z => (z + call, z + call)
    | RPot => (Z.max (big_blind c) (largest_raise s + call), pot s + call * 2)
    | RInf => (Z.max (big_blind c) (largest_raise s + call), stack)
    end in
  let* cap := get (num_raises c) (street s) in
  let capped := match cap with Some k => k <=? street_raises s | None => false end in
  let '(min_raise, max_raise) := if capped then (0, 0) else (min_raise, max_raise) in
  let '(min_raise, max_raise) :=
    if negb (street_raises s =? 0) && (call <? largest_raise s)
    then (0, 0) else (min_raise, max_raise) in
  Ok (Z.min call stack, Z.min min_raise stack, Z.min max_raise stack).

(** engine.py:749-756, argmin; [minimum = None] is float inf *)
Fixpoint argmin_loop (l : list Z) (idx : nat) (minimum : option Z) (best : nat) : nat :=
  match l with
  | [] => best
  | v :: r =>
    if match minimum with None => true | Some m => v <? m end
    then argmin_loop r (S idx) (Some v) idx
    else argmin_loop r (S idx) minimum best
  end.
Definition argmin (values : list Z) : nat := argmin_loop values 0 None 0.

(** engine.py:574-587, _clean_bet ([round] of an int is the int) *)
Definition clean_bet (bet call min_raise max_raise : Z) : Z :=
  let bet := Z.max 0 bet in
  let idx := argmin (map (fun v => Z.abs (v - bet)) [0; call; min_raise; max_raise]) in
  match idx with
  | 1%nat => call
  | 2%nat | 3%nat => Z.min max_raise (Z.max min_raise bet)
  | _ => 0
  end.

(** engine.py:526-543, _all_agreed *)
Definition all_agreed (s : state) : bool :=
  all_true (street_option s)
  && all_true (map (fun p => let '(sc, stack, act) := p in
                             (sc =? maxZ (street_commits s)) || (stack =? 0) || negb act)
                   (combine (combine (street_commits s) (stacks s)) (active s))).

(** engine.py:618-625, _done *)
Definition done_list (c : config) (s : state) : list bool :=
  if Nat.leb (num_streets c) (street s) || (count_true (active s) <=? 1)
  then repeat true (num_players c)
  else map (fun p => negb (fst p) || (snd p =? 0)) (combine (active s) (stacks s)).

(** engine.py:672-687, _eval_hands *)
Definition worst_hand (c : config) : Z := t_max_rank (e_table (the_evaluator c)) + 1.
Definition eval_hands (c : config) (act : list bool) (hole : list (list card))
           (community : list card) : result (list Z) :=
  map_res (fun p => if nth p act false
                    then let* h := get hole p in evaluate (the_evaluator c) h community
                    else Ok (worst_hand c))
          (seq 0 (num_players c)).

(** ** Showdown, engine.py:689-735 *)

(** [player_idx, hand_strength, pot_commit] *)
Record hand3 : Type := mkHand { h_idx : nat; h_strength : Z; h_commit : Z }.

(** operator.itemgetter(1, 2) as sort key, engine.py:698 *)
Definition hand_le (a b : hand3) : bool :=
  (h_strength a <? h_strength b)
  || ((h_strength a =? h_strength b) && (h_commit a <=? h_commit b)).

Definition add_at (l : list Z) (i : nat) (v : Z) : list Z := upd l i (nth i l 0 + v).

(** the variables of the loop on engine.py:705-728 *)
Record pots : Type := mkPots {
  p_hands : list hand3;
  p_pot : Z;
  p_remainder : Z;
  p_payouts : list Z
}.

(** one iteration, engine.py:706-728; the flag is [True] for the [break] on
    line 728.  Entries of [hands] are mutable lists, so the strength and commit read
    here are the current ones. *)
Definition pot_step (worst : Z) (p : pots) (hand_idx : nat) : pots * bool :=
  match nth_error (p_hands p) hand_idx with
  | None => (p, false)
  | Some h =>
    let strength := h_strength h in
    let pot_commit := h_commit h in
    let eligible := map h_idx (filter (fun o => h_strength o =? strength) (p_hands p)) in
    let cut := map (fun o => Z.min (h_commit o) pot_commit) (p_hands p) in
    let split_pot := sumZ cut in
    if split_pot =? 0 then (p, false)
    else
      let k := Z.of_nat (List.length eligible) in
      let split := split_pot / k in
      let remain := split_pot mod k in
      let payouts := fold_left (fun pay i => add_at pay i split) eligible (p_payouts p) in
      let hands1 := map (fun o => mkHand (h_idx o) (h_strength o)
                                         (h_commit o - Z.min (h_commit o) pot_commit))
                        (p_hands p) in
      let hands2 := match nth_error hands1 hand_idx with
                    | Some h' => upd hands1 hand_idx (mkHand (h_idx h') worst (h_commit h'))
                    | None => hands1
                    end in
      let pot := p_pot p - split_pot in
      (mkPots hands2 pot (p_remainder p + remain) payouts, pot =? 0)
  end.

Fixpoint pot_loop (worst : Z) (idcs : list nat) (p : pots) : pots :=
  match idcs with
  | [] => p
  | i :: r => let '(p', stop) := pot_step worst p i in
              if stop then p' else pot_loop worst r p'
  end.

(** engine.py:730-734; [n - player_idx + 1] iterations are left *)
Fixpoint remainder_loop (n button : nat) (k player_idx : nat) (remainder : Z)
         (payouts : list Z) : result (list Z) :=
  match k with
  | O => Ok payouts
  | S k' =>
    let* v := get payouts (player_idx + Nat.modulo button n) in
    if negb (v =? 0)
    then let* _ := get payouts player_idx in Ok (add_at payouts player_idx remainder)
    else remainder_loop n button k' (S player_idx) remainder payouts
  end.

Definition zip_hands (strengths commits : list Z) : list hand3 :=
  map (fun p => mkHand (fst (fst p)) (snd (fst p)) (snd p))
      (combine (combine (seq 0 (List.length strengths)) strengths) commits).

(** engine.py:689-735 after the evaluation of the hands *)
Definition split_pots (n button : nat) (worst pot : Z) (strengths commits : list Z)
  : result (list Z) :=
  let hands := sort_by hand_le (zip_hands strengths commits) in
  let p := pot_loop worst (seq 0 (List.length hands))
                    (mkPots hands pot 0 (repeat 0 n)) in
  if p_remainder p =? 0 then Ok (p_payouts p)
  else remainder_loop n button n 1 (p_remainder p) (p_payouts p).

Definition eval_round (c : config) (s : state) : result (list Z) :=
  let* strengths := eval_hands c (active s) (hole_cards s) (community_cards s) in
  split_pots (num_players c) (button s) (worst_hand c) (pot s) strengths (pot_commits s).

(** engine.py:647-670, _payouts *)
Definition payouts (c : config) (s : state) : result (list Z) :=
  let base := map (fun p => if snd p : bool then 0 else - fst p)
                  (combine (pot_commits s) (active s)) in
  if count_true (active s) =? 1
  then Ok (map (fun p => let '(payout, act, pc) := p in
                         payout + (if act : bool then pot s - pc else 0))
               (combine (combine base (active s)) (pot_commits s)))
  else if Nat.leb (num_streets c) (street s)
  then let* w := eval_round c s in Ok (sub_lists w (pot_commits s))
  else Ok base.

(** ** Observations, engine.py:627-645 *)
Record obs : Type := mkObs {
  o_action : option nat;
  o_active : list bool;
  o_button : nat;
  o_call : Z;
  o_community_cards : list card;
  o_hole_cards : list card;
  o_max_raise : Z;
  o_min_raise : Z;
  o_pot : Z;
  o_stacks : list Z;
  o_street_commits : list Z
}.
Definition observation (c : config) (s : state) (done : bool) : result obs :=
  let* bs := if done then Ok (0, 0, 0) else bet_sizes c s in
  let '(call, min_raise, max_raise) := bs in
  let* hole := match action s with
               | Some a => get (hole_cards s) a
               | None => get_last (hole_cards s)
               end in
  Ok (mkObs (action s) (active s) (button s) call (community_cards s) hole
            max_raise min_raise (pot s) (stacks s) (street_commits s)).

(** ** reset, engine.py:247-319 *)

(** engine.py:297-299: deal [k] hands of [num_hole_cards] cards *)
Fixpoint deal_hands (k : nat) (num : Z) (d : deck) : list (list card) * deck :=
  match k with
  | O => ([], d)
  | S k' => let '(h, d1) := deck_draw num d in
            let '(hs, d2) := deal_hands k' num d1 in
            (h :: hs, d2)
  end.

(** engine.py:280-288 *)
Definition reset_active (c : config) (s : state) (reset_stacks : bool)
  : list bool * list Z :=
  if reset_stacks
  then (repeat true (num_players c), repeat (start_stack c) (num_players c))
  else (map (fun x => 0 <? x) (stacks s), stacks s).

(** The state after an exception keeps the assignments made before it. *)
Definition reset (c : config) (s : state) (rnd : list nat)
           (reset_button reset_stacks : bool) : state * result obs :=
  let '(act, stk) := reset_active c s reset_stacks in
  let s0 := mkState (action s) act (button s) (community_cards s) (the_deck s)
                    (history s) (hole_cards s) (largest_raise s) (pot s)
                    (pot_commits s) stk (street s) (street_commits s)
                    (street_option s) (street_raises s) in
  if negb reset_stacks && (count_true act <=? 1)
  then (s0, Err TooFewActivePlayersError)
  else
    let b := if reset_button then O else Nat.modulo (button s + 1) (num_players c) in
    let d0 := deck_shuffle rnd (the_deck s) in
    match num_community_cards c with
    | [] =>
      (mkState (action s) act b (community_cards s) d0
               (history s) (hole_cards s) (largest_raise s) (pot s)
               (pot_commits s) stk (street s) (street_commits s)
               (street_option s) (street_raises s), Err IndexError)
    | cc0 :: _ =>
      let '(comm, d1) := deck_draw cc0 d0 in
      let '(holes, d2) := deal_hands (num_players c) (num_hole_cards c) d1 in
      let n := num_players c in
      let s1 := mkState (Some b) act b comm d2 [] holes (big_blind c) 0
                        (repeat 0 n) stk 0 (repeat 0 n) (repeat false n) 0 in
      let s2 := if Nat.ltb 2 n then move_action c s1 else s1 in
      let s3 := collect_multiple_bets c s2 (antes c) false in
      let s4 := collect_multiple_bets c s3 (blinds c) true in
      let s5 := move_action c (move_action c s4) in
      (s5, observation c s5 false)
    end.

(** ** step, engine.py:321-429 *)

(** engine.py:366-372: the bet finally taken from the acting player and whether the
    player is taken out of the hand *)
Definition settle_bet (fold : bool) (bet call min_raise max_raise : Z) : Z * bool :=
  let bet := clean_bet bet call min_raise max_raise in
  if negb (call =? 0) && ((bet <? call) || fold) then (0, true) else (bet, false).

(** engine.py:366-384: everything from the fold test to _move_action *)
Definition place_bet (c : config) (s : state) (a : nat) (fold : bool)
           (bet : Z) (folds : bool) (call : Z) : state :=
  let act := if folds then upd (active s) a false else active s in
  let is_raise := negb (bet =? 0) && (largest_raise s <=? bet - call) in
  let lr := if is_raise then bet - call else largest_raise s in
  let sr := if is_raise then street_raises s + 1 else street_raises s in
  (* _collect_bet, engine.py:609-616 *)
  let taken := Z.min (nth a (stacks s) 0) bet in
  let s1 := mkState (Some a) act (button s) (community_cards s) (the_deck s)
                    (history s ++ [(a, bet, fold)])
                    (hole_cards s) lr
                    (pot s + taken)
                    (add_at (pot_commits s) a taken)
                    (add_at (stacks s) a (- taken))
                    (street s)
                    (add_at (street_commits s) a taken)
                    (upd (street_option s) a true)
                    sr in
  move_action c s1.

(** engine.py:393-411: the [while True] loop; every iteration increases the street,
    so [num_streets + 1] iterations are enough ([street_loop_enough] in
    EngineFacts.v shows the first branch is never reached) *)
Fixpoint street_loop (c : config) (fuel : nat) (s : state) : state :=
  match fuel with
  | O => s
  | S f =>
    let st := S (street s) in
    let s1 := mkState (action s) (active s) (button s) (community_cards s) (the_deck s)
                      (history s) (hole_cards s) (largest_raise s) (pot s)
                      (pot_commits s) (stacks s) st (street_commits s)
                      (street_option s) (street_raises s) in
    let full_streets := Nat.leb (num_streets c) st in
    let all_in := map (fun p => fst p && (snd p =? 0)) (combine (active s) (stacks s)) in
    let all_all_in := count_true (active s) - count_true all_in <=? 1 in
    if full_streets then s1
    else
      let '(cards, d) := deck_draw (nth st (num_community_cards c) 0) (the_deck s) in
      let s2 := mkState (action s) (active s) (button s) (community_cards s ++ cards) d
                        (history s) (hole_cards s) (largest_raise s) (pot s)
                        (pot_commits s) (stacks s) st (street_commits s)
                        (street_option s) (street_raises s) in
      if all_all_in then street_loop c f s2 else s2
  end.

(** engine.py:388-415: what happens when all players agree *)
Definition next_street (c : config) (s : state) : state :=
  let s1 := move_action c (set_action s (Some (button s))) in
  let s2 := street_loop c (S (num_streets c)) s1 in
  mkState (action s2) (active s2) (button s2) (community_cards s2) (the_deck s2)
          (history s2) (hole_cards s2) (largest_raise s2) (pot s2) (pot_commits s2)
          (stacks s2) (street s2) (repeat 0 (num_players c))
          (map negb (active s2)) 0.

(** engine.py:419-427 *)
Definition finish_hand (s : state) (pay : list Z) : state :=
  mkState None (active s) (button s) (community_cards s) (the_deck s) (history s)
          (hole_cards s) (largest_raise s) 0 (pot_commits s)
          (add_lists (add_lists (stacks s) pay) (pot_commits s))
          (street s) (street_commits s) (street_option s) (street_raises s).

Record step_out : Type := mkOut {
  out_obs : obs;
  out_payouts : list Z;
  out_done : list bool
}.

(** engine.py:355-361: step on a table without a player to act *)
Definition step_idle (c : config) (s : state) : result step_out :=
  if any_true (active s)
  then
    let done := done_list c s in
    let* pay := payouts c s in
    let* o := observation c s (all_true done) in
    Ok (mkOut o pay done)
  else Err TableResetError.

(** engine.py:416-429: end of the method *)
Definition step_end (c : config) (s : state) : state * result step_out :=
  let done := done_list c s in
  match payouts c s with
  | Err e => (s, Err e)
  | Ok pay =>
    let s' := if all_true done then finish_hand s pay else s in
    (s', let* o := observation c s' (all_true done) in Ok (mkOut o pay done))
  end.

Definition step (c : config) (s : state) (b : pynum) : state * result step_out :=
  match action s with
  | None => (s, step_idle c s)
  | Some a =>
    let fold := pynum_neg b in
    match py_round b with
    | Err e => (s, Err e)
    | Ok bet0 =>
      match bet_sizes c s with
      | Err e => (s, Err e)
      | Ok (call, min_raise, max_raise) =>
        let '(bet, folds) := settle_bet fold bet0 call min_raise max_raise in
        let s1 := place_bet c s a fold bet folds call in
        let s2 := if all_agreed s1 then next_street c s1 else s1 in
        step_end c s2
      end
    end
  end.

(** ** win_probabilities, engine.py:496-524: the numerators [hands_won] and the
    common denominator [num_won]; the code returns the float quotients *)
Definition minZ (l : list Z) : Z :=
  match l with [] => 0 | x :: r => fold_left Z.min r x end.
Definition win_counts (c : config) (s : state) : result (list Z) :=
  let missing := sumZ (num_community_cards c)
                 - Z.of_nat (List.length (community_cards s)) in
  let* combos := combinations (d_cards (the_deck s)) missing in
  fold_res (fun won extra =>
              let* hs := eval_hands c (active s) (hole_cards s)
                                    (community_cards s ++ extra) in
              let best := minZ hs in
              Ok (add_lists won (map (fun h => b2z (h =? best)) hs)))
           combos (repeat 0 (num_players c)).
Definition win_probabilities (c : config) (s : state) : result (list (Z * Z)) :=
  let* won := win_counts c s in
  let num_won := sumZ won in
  if num_won =? 0 then Err ZeroDivisionError
  else Ok (map (fun w => (w, num_won)) won).

(** ** Histories of calls *)

(** What a user can do with a dealer between two observations.  [SetStacks] is the
    assignment [dealer.stacks = l] made by the test-suite and by gym wrappers. *)
Inductive op : Type :=
| OReset (rnd : list nat) (reset_button reset_stacks : bool)
| OStep (bet : pynum)
| OTrick (cards : list card)
| OUntrick
| OSetStacks (l : list Z).

Definition set_deck (s : state) (d : deck) : state :=
  mkState (action s) (active s) (button s) (community_cards s) d (history s)
          (hole_cards s) (largest_raise s) (pot s) (pot_commits s) (stacks s)
          (street s) (street_commits s) (street_option s) (street_raises s).
Definition set_stacks (s : state) (l : list Z) : state :=
  mkState (action s) (active s) (button s) (community_cards s) (the_deck s) (history s)
          (hole_cards s) (largest_raise s) (pot s) (pot_commits s) l
          (street s) (street_commits s) (street_option s) (street_raises s).

Definition apply_op (c : config) (s : state) (o : op) : state :=
  match o with
  | OReset rnd rb rs => fst (reset c s rnd rb rs)
  | OStep b => fst (step c s b)
  | OTrick cs => match deck_trick cs (the_deck s) with
                 | Ok d => set_deck s d
                 | Err _ => s
                 end
  | OUntrick => set_deck s (deck_untrick (the_deck s))
  | OSetStacks l => set_stacks s l
  end.

Definition run (c : config) (s : state) (ops : list op) : state :=
  fold_left (apply_op c) ops s.

Definition run_steps (c : config) (s : state) (bets : list pynum) : state :=
  fold_left (fun s b => fst (step c s b)) bets s.
