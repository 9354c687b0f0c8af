(** * SeatsSpec: the same table with every player moved [r] seats on *)
From Verif Require Import PyBase CardModel EvalModel EngineModel EngineSpec ShowSpec HandEnd.

(** the player of seat [i] moves to this one of the [n] seats *)
Definition t_seat (n r i : nat) : nat := Nat.modulo (i + r) n.
(** what is listed by seats, after the move: the last [r] entries come first *)
Definition t_list {A} (r : nat) (l : list A) : list A :=
  skipn (List.length l - r) l ++ firstn (List.length l - r) l.

(** the table: turn and button, everything listed by seats, and the seats in the history *)
Definition t_entry (n r : nat) (e : nat * Z * bool) : nat * Z * bool := let '(i, bet, fold) := e in (t_seat n r i, bet, fold).
Definition t_state (n r : nat) (s : state) : state :=
  mkState (option_map (t_seat n r) (action s)) (t_list r (active s)) (t_seat n r (button s)) (community_cards s) (the_deck s)
          (map (t_entry n r) (history s)) (t_list r (hole_cards s)) (largest_raise s) (pot s) (t_list r (pot_commits s))
          (t_list r (stacks s)) (street s) (t_list r (street_commits s)) (t_list r (street_option s)) (street_raises s).

(** an observation; after a hand it shows the cards of the last seat, [last] *)
Definition t_obs (n r : nat) (last : list card) (o : obs) : obs :=
  mkObs (option_map (t_seat n r) (o_action o)) (t_list r (o_active o)) (t_seat n r (o_button o)) (o_call o) (o_community_cards o)
        (match o_action o with Some _ => o_hole_cards o | None => last end)
        (o_max_raise o) (o_min_raise o) (o_pot o) (t_list r (o_stacks o)) (t_list r (o_street_commits o)).
Definition t_out (n r : nat) (last : list card) (o : step_out) : step_out :=
  mkOut (t_obs n r last (out_obs o)) (t_list r (out_payouts o)) (t_list r (out_done o)).

(** a showdown, if there is one on the table [s], without odd chips (which go by the numbers of the
    seats, C35), uncovered folds or irregular ties (where the numbers of the seats can decide, C34_exact) *)
Definition level_showdown (c : config) (s : state) : Prop :=
  2 <= count_true (active s) -> (num_streets c <= street s)%nat ->
  covered_folds (show_of c s) /\ regular_ties (show_of c s) /\
  forall pots, side_pots (show_of c s) 0 pots -> odd_chips pots = 0.
(** all showdowns reached with the bets [bs], one after the other, are such *)
Fixpoint level_hand (c : config) (s : state) (bs : list pynum) : Prop :=
  match bs with
  | [] => True
  | b :: r => in_progress s /\ level_showdown c (fst (step c s b)) /\ level_hand c (fst (step c s b)) r
  end.

(** the deck [d'] is the deck [d] with the hands of the [n] players moved: the same community cards
    come first, then the hands, then the same rest *)
Definition t_deal (r n : nat) (community each : Z) (d d' : deck) : Prop :=
  exists first hands rest,
    List.length first = Z.to_nat community /\ List.length hands = n /\ Forall (fun h => List.length h = Z.to_nat each) hands /\
    d_cards d = first ++ List.concat hands ++ rest /\
    d' = mkDeck (d_num_ranks d) (d_num_suits d) (d_full d) (d_tricked d) (d_top d) (d_bottom d)
                (first ++ List.concat (t_list r hands) ++ rest).
