(** * SuiteChecks: the project's own test-suite (/repo/test), run on the model

    These are tests of the model, not properties: each [Example] transcribes one test function of /repo/test, and
    says that the model gives the values its assertions ask for.  They tie the model to behaviour that the
    authors of the program have written down.  Tests of what is not modelled (the texts of [repr], HTTP, looks of
    the images) are left out, see the end of the file.

    Tests that seed Python's generator with 42 use the permutations that [random.shuffle] of the Python standard
    library then makes; they are written as insertion positions, as [shuf] (PyBase.v) reads them. *)
From Coq Require Import PeanoNat.
From Verif Require Import PyBase CardModel CardOpsModel EvalModel EngineModel ConfigsModel AsciiModel SvgModel RenderModel EvalTextModel FloatModel PercentModel NumpyModel.

Definition cards (l : list string) : list card :=
  flat_map (fun s => match Card (ustr s) with Ok c => [c] | Err _ => [] end) l.
Definition raises {A} (e : exn) (r : result A) : bool := match r with Err e' => exn_eqb e e' | Ok _ => false end.
Definition same_list (a b : list Z) : bool := (List.length a =? List.length b)%nat && forallb (fun p => fst p =? snd p) (combine a b).

(** ** Test programs for a dealer *)
Definition on_obs : Type := obs -> bool.
Definition on_out : Type := obs -> list Z -> list bool -> bool.
Definition any_obs : on_obs := fun _ => true.
Definition any_out : on_out := fun _ _ _ => true.
Definition with_obs (f : on_obs) : on_out := fun o _ _ => f o.
Inductive line : Type :=
| Reset (rnd : list nat) (rb rs : bool) (f : on_obs)
| Step (b : pynum) (f : on_out)
| Until (b : pynum) (f : on_out)          (* while True: step(b), until all(done) *)
| Trick (l : list string)
| Stacks (f : list Z -> list Z)
| Reset_raises (e : exn)
| Step_raises (b : pynum) (e : exn).
(** the two dealers *)
Record api : Type := mkApi {
  a_reset : config -> state -> list nat -> bool -> bool -> state * result obs;
  a_step : config -> state -> pynum -> state * result step_out }.
Definition lists : api := mkApi reset step.
Definition arrays : api := mkApi np_reset np_step.
Section run.
Context (a : api) (c : config).
Fixpoint until (fuel : nat) (s : state) (b : pynum) (f : on_out) : state * bool :=
  match fuel with
  | O => (s, false)
  | S n =>
    match a_step a c s b with
    | (s', Ok x) => if all_true (out_done x) then (s', f (out_obs x) (out_payouts x) (out_done x)) else until n s' b f
    | (s', Err _) => (s', false)
    end
  end.
Fixpoint run (s : state) (l : list line) : bool :=
  match l with
  | [] => true
  | Reset rnd rb rs f :: r =>
    match a_reset a c s rnd rb rs with (s', Ok o) => f o && run s' r | (_, Err _) => false end
  | Step b f :: r =>
    match a_step a c s b with
    | (s', Ok x) => f (out_obs x) (out_payouts x) (out_done x) && run s' r
    | (_, Err _) => false
    end
  | Until b f :: r => let '(s', ok) := until 200 s b f in ok && run s' r
  | Trick l :: r =>
    match deck_trick (cards l) (the_deck s) with Ok d => run (set_deck s d) r | Err _ => false end
  | Stacks f :: r => run (set_stacks s (f (stacks s))) r
  | Reset_raises e :: r => let '(s', x) := a_reset a c s [] false false in raises e x && run s' r
  | Step_raises b e :: r => let '(s', x) := a_step a c s b in raises e x && run s' r
  end.
End run.
Definition test (a : api) (rnd : list nat) (w : raw_config) (l : list line) : bool :=
  match Dealer rnd w with Ok (c, s) => run a c s l | Err _ => false end.
Definition bet (z : Z) : line := Step (PyInt z) any_out.
Definition bet_ (z : Z) (f : on_obs) : line := Step (PyInt z) (with_obs f).
Definition pot_is (z : Z) : on_obs := fun o => o_pot o =? z.
Definition call_is (z : Z) : on_obs := fun o => o_call o =? z.
Definition min_is (z : Z) : on_obs := fun o => o_min_raise o =? z.
Definition max_is (z : Z) : on_obs := fun o => o_max_raise o =? z.
Definition commit_is (i : nat) (z : Z) : on_obs := fun o => nth i (o_street_commits o) (-1) =? z.
Definition action_is (z : Z) : on_obs := fun o => (match o_action o with Some a => Z.of_nat a | None => -1 end) =? z.
Definition button_is (n : nat) : on_obs := fun o => (o_button o =? n)%nat.
Definition commits_are_pot : on_obs := fun o => sumZ (o_street_commits o) =? o_pot o.
Definition stacks_are (l : list Z) : on_obs := fun o => same_list (o_stacks o) l.
Definition all_ (l : list on_obs) : on_obs := fun o => forallb (fun f => f o) l.
Definition pays (l : list Z) : on_out := fun _ p _ => (sumZ p =? 0) && same_list p l.
Definition over (f : on_obs) (g : on_out) : on_out := fun o p d => all_true d && f o && g o p d.
Definition add_at (i : nat) (z : Z) (l : list Z) : list Z := upd l i (nth i l 0 + z).
Definition both (t : api -> bool) : bool := t lists && t arrays.
(** random.seed(42) and then: the first and the second shuffle of 52 cards *)
Definition seed_42_1 : list nat := [21; 48; 37; 3; 15; 37; 38; 43; 38; 0; 15; 7; 25; 28; 33; 33; 4; 32; 16; 5; 20; 2; 19; 0; 4; 0; 8; 20; 7; 4; 12; 4; 12; 3; 15; 8; 4; 12; 0; 0; 11; 8; 3; 1; 1; 4; 0; 4; 1; 2; 0; 0]%nat.
Definition seed_42_2 : list nat := [7; 6; 39; 7; 38; 45; 33; 14; 22; 3; 25; 24; 32; 0; 30; 1; 3; 23; 31; 13; 14; 16; 15; 24; 27; 1; 2; 12; 5; 14; 12; 3; 8; 2; 5; 16; 13; 3; 4; 11; 11; 4; 2; 0; 2; 2; 0; 2; 3; 0; 1; 0]%nat.
Definition seed_42_3 : list nat := [11; 24; 25; 23; 26; 20; 6; 1; 31; 32; 8; 2; 12; 38; 20; 26; 26; 11; 2; 11; 29; 2; 2; 15; 12; 21; 0; 14; 3; 16; 9; 16; 3; 2; 11; 11; 15; 8; 7; 2; 7; 8; 1; 0; 4; 6; 4; 2; 2; 0; 0; 0]%nat.

(** ** test/test_engine/test_bets.py *)
(** test_bets.py:4-9 *)
Example suite_bet_cleaning : forallb id [clean_bet 0 2 4 200 =? 0; clean_bet (-1) 2 4 200 =? 0; clean_bet 1 0 4 200 =? 0; clean_bet 20 2 4 200 =? 20; clean_bet 2000 0 4 200 =? 200] = true.
Proof. vm_compute. reflexivity. Qed.

(** test_bets.py:12-43 *)
Example suite_limit_bet_size : both (fun a => test a [] LIMIT_HOLDEM_SIX_PLAYER
  [Reset [] true true any_obs;
  Step (PyFloat (21#10)) (with_obs (all_ [pot_is 5; commits_are_pot]));
  bet_ 10 (all_ [pot_is 9; commits_are_pot]);
  bet 6;
  bet_ 8 (all_ [pot_is 23; max_is 0; call_is 7]);
  bet 7;
  bet_ (-1) (all_ [commits_are_pot; pot_is 30; fun o => negb (all_true (o_active o))])]) = true.
Proof. vm_compute. reflexivity. Qed.

(** test_bets.py:46-58 *)
Example suite_all_in_bet_size : both (fun a => test a [] NO_LIMIT_HOLDEM_TWO_PLAYER
  [Stacks (fun l => add_at 1 150 (add_at 0 (-150) l));
  Reset [] true false any_obs;
  bet_ 100 (pot_is 52)]) = true.
Proof. vm_compute. reflexivity. Qed.

(** test_bets.py:61-93 *)
Example suite_incomplete_raise : both (fun a => test a [] NO_LIMIT_HOLDEM_SIX_PLAYER
  [Stacks (fun l => add_at 2 190 (add_at 1 (-190) l));
  Reset [] true false any_obs;
  bet (-1);
  bet (-1);
  bet (-1);
  bet_ 8 (all_ [pot_is 11; call_is 7; min_is 9; max_is 9]);
  bet_ 9 (all_ [pot_is 20; call_is 8; min_is 14]);
  bet_ 8 (all_ [pot_is 28; call_is 2; min_is 0; max_is 0])]) = true.
Proof. vm_compute. reflexivity. Qed.

(** test_bets.py:96-117 *)
Example suite_pot_limit_bet_size : both (fun a => test a [] POT_LIMIT_OMAHA_SIX_PLAYER
  [Reset [] true true (all_ [min_is 4; max_is 7]);
  bet_ 4 (all_ [pot_is 7; call_is 4; min_is 6; max_is 15]);
  bet 4;
  bet 4]) = true.
Proof. vm_compute. reflexivity. Qed.

(** test_bets.py:120-152 *)
Example suite_bet_rounding : both (fun a => test a [] NO_LIMIT_HOLDEM_NINE_PLAYER
  [Reset [] true true any_obs;
  bet_ 1 (commit_is 3 0);
  bet_ 6 (commit_is 4 6);
  bet_ 3 (all_ [commit_is 5 0; fun o => negb (nth 5 (o_active o) true)]);
  bet_ 4 (commit_is 6 6);
  bet_ 8 (commit_is 7 6);
  bet_ 9 (commit_is 8 10)]) = true.
Proof. vm_compute. reflexivity. Qed.

(** test_bets.py:155-169 *)
Example suite_big_blind_raise_chance : both (fun a => test a [] NO_LIMIT_HOLDEM_SIX_PLAYER
  [Reset [] true true any_obs;
  bet 2;
  bet 2;
  bet 2;
  bet 2;
  bet_ 2 (all_ [action_is 2; call_is 0; min_is 2])]) = true.
Proof. vm_compute. reflexivity. Qed.

(** ** test/test_engine/test_end_round.py *)
(** test_end_round.py:9-30 *)
Example suite_all_but_one_fold : both (fun a => test a [] NO_LIMIT_HOLDEM_SIX_PLAYER
  [Reset [] true true any_obs;
  bet (-1);
  bet (-1);
  bet (-1);
  bet (-1);
  Step (PyInt (-1)) (over (all_ [pot_is 0; stacks_are [200; 199; 201; 200; 200; 200]]) (pays [0; -1; 1; 0; 0; 0]))]) = true.
Proof. vm_compute. reflexivity. Qed.

(** test_end_round.py:33-54 and 81-114 *)
Example suite_all_all_in : both (fun a => test a seed_42_1 NO_LIMIT_HOLDEM_SIX_PLAYER
  [Reset seed_42_2 true true any_obs;
  bet 200;
  bet 200;
  bet 200;
  bet 200;
  bet 200;
  Step (PyInt 200) (over (all_ [pot_is 0; stacks_are [0; 0; 0; 0; 0; 1200]]) (pays [-200; -200; -200; -200; -200; 1000]));
  Reset_raises TooFewActivePlayersError]) = true.
Proof. vm_compute. reflexivity. Qed.

(** test_end_round.py:57-78 *)
Example suite_bet_after_round_end : both (fun a => test a seed_42_1 NO_LIMIT_HOLDEM_SIX_PLAYER
  [Reset seed_42_2 true true any_obs;
  bet 200;
  bet 200;
  bet 200;
  bet 200;
  bet 200;
  Step (PyInt 200) (over (all_ [call_is 0; min_is 0; max_is 0; action_is (-1)]) any_out);
  Step (PyInt 200) (over (all_ [call_is 0; min_is 0; max_is 0; action_is (-1)]) any_out)]) = true.
Proof. vm_compute. reflexivity. Qed.

(** ** test/test_engine/test_multi_round.py *)
(** test_multi_round.py:6-29 *)
Example suite_button_move_two : both (fun a => test a seed_42_1 NO_LIMIT_HOLDEM_TWO_PLAYER
  [Reset seed_42_2 true false (all_ [button_is 0; action_is 0]);
  Until (PyInt 0) any_out;
  Reset seed_42_3 false true (all_ [button_is 1; action_is 1])]) = true.
Proof. vm_compute. reflexivity. Qed.

(** test_multi_round.py:31-49 *)
Example suite_button_move_six : both (fun a => test a seed_42_1 NO_LIMIT_HOLDEM_SIX_PLAYER
  [Reset seed_42_2 true true (all_ [button_is 0; action_is 3]);
  Until (PyInt 0) any_out;
  Reset seed_42_3 false true (all_ [button_is 1; action_is 4])]) = true.
Proof. vm_compute. reflexivity. Qed.

(** test_multi_round.py:52-73 *)
Example suite_inactive_players : both (fun a => test a seed_42_1 NO_LIMIT_HOLDEM_SIX_PLAYER
  [Reset seed_42_2 true true any_obs;
  bet 200;
  bet 200;
  Until (PyInt (-1)) any_out;
  Reset seed_42_3 false false (all_ [button_is 1; action_is 5])]) = true.
Proof. vm_compute. reflexivity. Qed.

(** ** test/test_engine/test_payout.py *)
(** test_payout.py:4-71 *)
Example suite_split_pot : both (fun a => test a [] NO_LIMIT_HOLDEM_NINE_PLAYER
  [Trick ["6c"; "8s"; "Ac"; "Ad"; "Kd"; "2h"; "Th"; "9c"; "Js"; "Jc"; "6h"; "8d"; "5c"; "7d"; "Qh"; "2c"; "3d"; "4s"; "4d"; "5h"; "7c"; "Ac"; "Kh"]%string;
  Reset [] true true any_obs;
  bet (-1);
  bet 5;
  bet 5;
  bet 5;
  bet (-1);
  bet (-1);
  bet 5;
  bet 4;
  bet_ (-1) (pot_is 27);
  bet 4;
  bet (-1);
  bet 4;
  bet 4;
  bet_ 4 (pot_is 43);
  Until (PyInt 0) (pays [12; -9; -2; 0; -5; 13; -9; 0; 0])]) = true.
Proof. vm_compute. reflexivity. Qed.

(** test_payout.py:74-132 *)
Example suite_all_in : both (fun a => test a [] NO_LIMIT_HOLDEM_NINE_PLAYER
  [Trick ["6c"; "8s"; "Ac"; "Ad"; "Kd"; "2h"; "Th"; "9c"; "Js"; "Jc"; "6h"; "8d"; "5c"; "7d"; "Qh"; "2c"; "3d"; "4s"; "4d"; "5h"; "7c"; "Ac"; "Kh"]%string;
  Stacks (fun l => add_at 1 180 (add_at 0 (-180) l));
  Reset [] true false any_obs;
  bet (-1);
  bet 50;
  bet 0;
  bet (-1);
  bet (-1);
  bet (-1);
  bet 20;
  bet 49;
  bet_ (-1) (pot_is 122);
  Until (PyInt 0) (pays [42; 10; -2; 0; -50; 0; 0; 0; 0])]) = true.
Proof. vm_compute. reflexivity. Qed.

(** test_payout.py:135-201 *)
Example suite_all_in_split_pot : both (fun a => test a [] NO_LIMIT_HOLDEM_NINE_PLAYER
  [Trick ["6c"; "8s"; "Ac"; "Ad"; "Kd"; "2h"; "Th"; "9c"; "6d"; "8h"; "6h"; "8d"; "5c"; "7d"; "Qh"; "2c"; "3d"; "4s"; "4d"; "5h"; "7c"; "Ac"; "Kh"]%string;
  Stacks (fun l => add_at 7 165 (add_at 5 (-165) (add_at 1 180 (add_at 0 (-180) l))));
  Reset [] true false any_obs;
  bet (-1);
  bet 45;
  bet 35;
  bet (-1);
  bet (-1);
  bet (-1);
  bet 20;
  bet 44;
  bet_ (-1) (pot_is 147);
  Until (PyInt 0) (pays [7; -45; -2; 0; 26; 14; 0; 0; 0])]) = true.
Proof. vm_compute. reflexivity. Qed.

(** ** test/test_engine/test_misc.py *)
(** test_misc.py:9-36 *)
Example suite_game : both (fun a => test a [] LEDUC_TWO_PLAYER
  [Trick ["Qs"; "Ks"; "Qh"]%string;
  Reset [] true true any_obs;
  bet 2;
  bet 4;
  bet 2;
  bet 0;
  bet 2;
  Step (PyInt 2) (over any_obs (fun _ p _ => (nth 1 p 0 <? nth 0 p 0) && (nth 0 p 0 =? 7)))]) = true.
Proof. vm_compute. reflexivity. Qed.

(** test_misc.py:39-57 *)
Example suite_heads_up : both (fun a => test a [] NO_LIMIT_HOLDEM_TWO_PLAYER
  [Reset [] true true (all_ [action_is 0; call_is 1; min_is 3; max_is 199]);
  bet_ 1 (all_ [call_is 0; min_is 2; max_is 198])]) = true.
Proof. vm_compute. reflexivity. Qed.

(** test_misc.py:60-75 *)
Example suite_reset : both (fun a => test a [] NO_LIMIT_HOLDEM_SIX_PLAYER
  [Reset [] true true (action_is 3);
  Until (PyInt 0) any_out;
  Reset [] false false (action_is 4);
  Until (PyInt 0) any_out;
  Reset [] false false (action_is 5);
  Until (PyInt 0) any_out;
  Reset [] false false (action_is 0);
  Until (PyInt 0) any_out;
  Reset [] false false (action_is 1);
  Until (PyInt 0) any_out;
  Reset [] false false (action_is 2);
  Until (PyInt 0) any_out;
  Reset [] false false (action_is 3)]) = true.
Proof. vm_compute. reflexivity. Qed.

(** test_misc.py:78-130 *)
Definition two_player (bl an : inp Z) (rs : inp raw_raise) (nr : inp raw_count) (cc : inp Z) : raw_config :=
  mkRaw 2 4 bl an rs nr 4 13 2 cc 5 0 200 true None.
Definition a_blinds : inp Z := Listed [1; 2].
Definition a_cards : inp Z := Listed [0; 3; 1; 1].
Example suite_init : forallb id [
  raises InvalidConfigError (Dealer [] (two_player (Listed [0]) (Scalar 0) (Scalar RawInf) (Scalar RawCountInf) a_cards));
  raises InvalidConfigError (Dealer [] (two_player a_blinds (Listed [0]) (Scalar RawInf) (Scalar RawCountInf) a_cards));
  raises InvalidConfigError (Dealer [] (two_player a_blinds (Scalar 0) (Listed [RawInt 0]) (Scalar RawCountInf) a_cards));
  raises InvalidConfigError (Dealer [] (two_player a_blinds (Scalar 0) (Scalar RawInf) (Listed [RawCount 0]) a_cards));
  raises InvalidConfigError (Dealer [] (two_player a_blinds (Scalar 0) (Scalar RawInf) (Scalar RawCountInf) (Listed [0])));
  match Dealer [] (two_player (Scalar 0) (Scalar 0) (Scalar (RawInt 0)) (Scalar (RawCount 0)) (Scalar 0)) with
  | Ok (c, _) =>
    same_list (blinds c) [0; 0] && same_list (antes c) [0; 0] && same_list (num_community_cards c) [0; 0; 0; 0] &&
    same_list (map (fun r => match r with RInt z => z | _ => -1 end) (raise_sizes c)) [0; 0; 0; 0] &&
    same_list (map (fun r => match r with Some z => z | None => -1 end) (num_raises c)) [0; 0; 0; 0]
  | Err _ => false
  end;
  raises InvalidRaiseSizeError (Dealer [] (two_player a_blinds (Scalar 0) (Scalar RawOther) (Scalar RawCountInf) a_cards))] = true.
Proof. vm_compute. reflexivity. Qed.
(** test_misc.py:133-145, without the text of [repr] *)
Example suite_str : match Dealer [] NO_LIMIT_HOLDEM_TWO_PLAYER with
  | Ok (c, s) => match dealer_str c s with Ok t => (List.length t =? 1242)%nat | Err _ => false end
  | Err _ => false
  end = true.
Proof. vm_compute. reflexivity. Qed.

(** test_misc.py:148-155 *)
Example suite_init_step : both (fun a => test a [] NO_LIMIT_HOLDEM_TWO_PLAYER
  [Step_raises (PyInt 0) TableResetError]) = true.
Proof. vm_compute. reflexivity. Qed.

(** ** test/test_poker/test_card.py *)
(** test_card.py:8-22 *)
Example suite_draw : match Deck [] 2 3 with
  | Ok d0 =>
    let '(a, d1) := deck_draw 1 d0 in let '(b, d2) := deck_draw 3 d1 in let '(c, d3) := deck_draw 4 d2 in let '(d, _) := deck_draw 1 d3 in
    same_list (map (fun l => Z.of_nat (List.length l)) [a; b; c; d]) [1; 3; 2; 0]
  | Err _ => false
  end = true.
Proof. vm_compute. reflexivity. Qed.
(** test_card.py:25-43, with the shuffles of 52, 50, 50 and 52 cards that follow random.seed(42) *)
Example suite_trick : match Deck ([21; 48; 37; 3; 15; 37; 38; 43; 38; 0; 15; 7; 25; 28; 33; 33; 4; 32; 16; 5; 20; 2; 19; 0; 4; 0; 8; 20; 7; 4; 12; 4; 12; 3; 15; 8; 4; 12; 0; 0; 11; 8; 3; 1; 1; 4; 0; 4; 1; 2; 0; 0]%nat) 4 13 with
  | Ok d0 =>
    match deck_trick (cards ["Ah"; "2s"]%string) d0 with
    | Ok d1 =>
      let '(a, d2) := deck_draw 2 (deck_shuffle ([7; 6; 37; 7; 36; 43; 31; 13; 18; 3; 7; 21; 30; 2; 28; 4; 7; 21; 29; 2; 18; 12; 3; 22; 25; 1; 14; 6; 11; 12; 7; 9; 5; 3; 6; 14; 11; 3; 7; 9; 9; 0; 4; 3; 2; 1; 3; 0; 1; 0]%nat) d1) in
      let '(b, d3) := deck_draw 2 (deck_shuffle ([9; 22; 23; 21; 24; 18; 6; 22; 29; 30; 2; 21; 13; 36; 2; 24; 24; 2; 1; 1; 27; 4; 0; 1; 10; 19; 1; 12; 8; 14; 0; 14; 3; 7; 9; 9; 13; 0; 7; 1; 0; 6; 4; 0; 3; 4; 1; 0; 0; 0]%nat) d2) in
      let '(e, _) := deck_draw 2 (deck_shuffle ([49; 22; 19; 26; 15; 2; 37; 19; 10; 29; 41; 35; 29; 2; 8; 21; 32; 7; 13; 26; 19; 7; 4; 20; 3; 12; 12; 4; 1; 22; 6; 5; 17; 11; 3; 5; 5; 1; 8; 5; 8; 3; 1; 5; 2; 4; 5; 1; 3; 1; 0; 0]%nat) (deck_untrick d3)) in
      same_list (map c_int a) (map c_int (cards ["Ah"; "2s"]%string)) && same_list (map c_int b) (map c_int (cards ["Ah"; "2s"]%string)) &&
      forallb (fun p => negb (card_eqb (fst p) (snd p))) (combine e (cards ["Ah"; "2s"]%string)) && (List.length e =? 2)%nat
    | Err _ => false
    end
  | Err _ => false
  end = true.
Proof. vm_compute. reflexivity. Qed.
(** test_card.py:46-61 *)
Example suite_invalid_init : forallb id [
  raises InvalidRankError (Card (ustr "1s")); raises InvalidRankError (Card (ustr "1t")); raises InvalidRankError (Deck [] 0 0); raises InvalidRankError (Deck [] 2 14);
  raises InvalidSuitError (Card (ustr "At")); raises InvalidSuitError (Deck [] 0 1); raises InvalidSuitError (Deck [] 5 1)] = true.
Proof. vm_compute. reflexivity. Qed.

(** test_card.py:64-77 *)
Example suite_ops : match cards ["Ac"%string] with
  | card :: _ =>
    let i := c_int card in
    forallb id [
      match py_and (OCard card) (OCard card) with Ok v => negb (v =? 0) | Err _ => false end;
      match py_and (OCard card) (OInt i) with Ok v => negb (v =? 0) | Err _ => false end;
      match py_or (OCard card) (OCard card) with Ok v => negb (v =? 0) | Err _ => false end;
      match py_or (OCard card) (OInt i) with Ok v => negb (v =? 0) | Err _ => false end;
      match py_lshift (OCard card) (OInt 0) with Ok v => v =? i | Err _ => false end;
      match py_lshift (OInt i) (OInt 0) with Ok v => v =? i | Err _ => false end;
      match py_rshift (OCard card) (OInt 0) with Ok v => v =? i | Err _ => false end;
      match py_rshift (OInt i) (OInt 0) with Ok v => v =? i | Err _ => false end;
      match py_eq (OCard card) (OInt 0) with Some r => raises NotImplementedError r | None => false end]
  | [] => false
  end = true.
Proof. vm_compute. reflexivity. Qed.

(** ** test/test_poker/test_evaluator.py *)
(** test_evaluator.py:6-13 *)
Example suite_evaluator_init : forallb id [
  raises InvalidHandSizeError (Evaluator 4 13 0 0 true None); raises InvalidHandSizeError (Evaluator 4 13 6 0 true None);
  raises InvalidOrderError (LookupTable 4 13 5 true (Some ["lala"%string]))] = true.
Proof. vm_compute. reflexivity. Qed.
(** test_evaluator.py:16-36, without the text of [repr] *)
Example suite_evaluator_str : match Evaluator 4 13 5 0 true None with
  | Ok e => same_list (evaluator_text e) (ustr "straight flush (0.0015%) > four of a kind (0.0240%) > full house (0.1441%) > flush (0.1965%) > straight (0.3925%) > three of a kind (2.1128%) > two pair (4.7539%) > pair (42.2569%) > high card (50.1177%)")
  | Err _ => false
  end = true.
Proof. vm_compute. reflexivity. Qed.
(** test_evaluator.py:39-48 *)
Example suite_hand_rank : match Evaluator 4 13 5 0 true None with
  | Ok e =>
    match get_rank_class e 0, get_rank_class e 7462 with
    | Ok a, Ok b => String.eqb (class_name a) "straight flush" && String.eqb (class_name b) "high card"
    | _, _ => false
    end && raises InvalidHandRankError (get_rank_class e (-1)) && raises InvalidHandRankError (get_rank_class e 7463)
  | Err _ => false
  end = true.
Proof. vm_compute. reflexivity. Qed.

(** [evaluator.evaluate(hole, board) < evaluator.evaluate(hole', board')], or [==] *)
Definition compares (r : result evaluator) (l : list ((Z -> Z -> bool) * list string * list string * list string * list string)) : bool :=
  match r with
  | Err _ => false
  | Ok e => forallb (fun t => let '(f, h, b, h', b') := t in
              match evaluate e (cards h) (cards b), evaluate e (cards h') (cards b') with Ok x, Ok y => f x y | _, _ => false end) l
  end.

(** test_evaluator.py:55-87 *)
Example suite_evaluator_1_card : forallb id [
  compares (Evaluator 1 3 1 0 true None)
   [(Z.ltb, ["As"], [], ["Ks"], [])%string;
    (Z.ltb, ["As"], ["Qs"], ["Ks"], ["Qs"])%string;
    (Z.eqb, ["Qs"], ["As"], ["Ks"], ["As"])%string];
  compares (Evaluator 1 3 1 1 true None)
   [(Z.ltb, ["Ks"], ["As"], ["Qs"], ["As"])%string];
  compares (Evaluator 2 3 1 0 true None)
   [(Z.eqb, ["Ah"], [], ["As"], [])%string]] = true.
Proof. vm_compute. reflexivity. Qed.

(** test_evaluator.py:90-110 *)
Example suite_evaluator_2_card : forallb id [
  compares (Evaluator 1 3 2 0 true None)
   [(Z.ltb, ["Ks"], ["As"], ["Qs"], ["As"])%string];
  compares (Evaluator 2 3 2 0 true None)
   [(Z.ltb, ["Qs"], ["Qh"], ["Ks"], ["Qh"])%string;
    (Z.ltb, ["Ah"], ["Qs"], ["Ks"], ["Qs"])%string]] = true.
Proof. vm_compute. reflexivity. Qed.

(** test_evaluator.py:113-184 *)
Example suite_evaluator_3_card : forallb id [
  compares (Evaluator 1 13 3 0 true None)
   [(Z.ltb, ["Js"], ["9s"; "Ts"], ["Qs"], ["9s"; "Ts"])%string;
    (Z.ltb, ["Ks"], ["5s"; "Ts"], ["Qs"], ["5s"; "Ts"])%string;
    (Z.ltb, ["As"], ["Qs"; "Ks"], ["As"], ["2s"; "3s"])%string];
  compares (Evaluator 2 13 3 0 true None)
   [(Z.ltb, ["Js"], ["9s"; "Ts"], ["Jc"], ["9s"; "Ts"])%string;
    (Z.ltb, ["Jc"], ["9s"; "Ts"], ["9c"], ["9s"; "Ts"])%string;
    (Z.ltb, ["7c"], ["7s"; "Ts"], ["As"], ["7s"; "Ts"])%string;
    (Z.ltb, ["9s"], ["7s"; "Ts"], ["Ac"], ["7s"; "Ts"])%string];
  compares (Evaluator 4 13 3 0 true None)
   [(Z.ltb, ["Js"], ["9s"; "Ts"], ["Jc"], ["9s"; "Ts"])%string;
    (Z.ltb, ["Jc"], ["9s"; "Ts"], ["9c"], ["9s"; "Ts"])%string;
    (Z.ltb, ["As"], ["7s"; "Ts"], ["7c"], ["7s"; "Ts"])%string;
    (Z.ltb, ["7c"], ["7s"; "Ts"], ["Ac"], ["7s"; "Ts"])%string]] = true.
Proof. vm_compute. reflexivity. Qed.

(** test_evaluator.py:187-282 *)
Example suite_evaluator_4_card : forallb id [
  compares (Evaluator 1 13 4 0 true None)
   [(Z.ltb, ["Js"; "Ts"], ["8s"; "9s"], ["Qs"; "3s"], ["8s"; "9s"])%string;
    (Z.ltb, ["Ks"; "2s"], ["5s"; "Ts"], ["Qs"; "3s"], ["5s"; "Ts"])%string;
    (Z.ltb, ["As"], ["Js"; "Qs"; "Ks"], ["As"], ["2s"; "3s"; "4s"])%string];
  compares (Evaluator 2 13 4 0 true None)
   [(Z.ltb, ["Js"; "Ts"], ["8s"; "9s"], ["8h"; "9h"], ["8s"; "9s"])%string;
    (Z.ltb, ["8s"; "9h"], ["8h"; "9s"], ["Js"; "Ts"], ["8h"; "9s"])%string;
    (Z.ltb, ["Js"; "Ts"], ["8h"; "9h"], ["4h"; "6h"], ["8h"; "9h"])%string;
    (Z.ltb, ["8s"; "7s"], ["9s"; "Ts"], ["Th"; "2s"], ["9s"; "Ts"])%string;
    (Z.ltb, ["8s"; "7h"], ["8h"; "9h"], ["Th"; "2s"], ["8h"; "9h"])%string];
  compares (Evaluator 4 13 4 0 true None)
   [(Z.ltb, ["As"; "Ac"], ["Kh"; "Ah"; "Ad"], ["Jh"; "Qh"], ["Kh"; "Ah"; "Ad"])%string;
    (Z.ltb, ["Jh"; "Qh"], ["Kh"; "Ah"], ["As"; "Ac"], ["Kh"; "Ah"])%string;
    (Z.ltb, ["As"; "Ac"], ["Kh"; "Ah"], ["Jd"; "Qd"], ["Kh"; "Ah"])%string;
    (Z.ltb, ["Jd"; "Qd"], ["Kh"; "Ah"], ["As"; "Kc"], ["Kh"; "Ah"])%string;
    (Z.ltb, ["9h"; "Qh"], ["9s"; "Qs"], ["8s"; "7s"], ["9s"; "Qs"])%string;
    (Z.ltb, ["8s"; "7s"], ["9s"; "Qs"], ["9h"; "2h"], ["9s"; "Qs"])%string;
    (Z.ltb, ["8s"; "7h"], ["8h"; "Ts"], ["Ah"; "2s"], ["8h"; "Ts"])%string]] = true.
Proof. vm_compute. reflexivity. Qed.

(** test_evaluator.py:285-459 *)
Example suite_evaluator_5_card : forallb id [
  compares (Evaluator 1 13 5 0 true None)
   [(Z.ltb, ["Js"; "Ts"], ["7s"; "8s"; "9s"], ["Qs"; "3s"], ["7s"; "8s"; "9s"])%string;
    (Z.ltb, ["Ks"; "2s"], ["4s"; "5s"; "Ts"], ["Qs"; "3s"], ["4s"; "5s"; "Ts"])%string;
    (Z.ltb, ["As"], ["Ts"; "Js"; "Qs"; "Ks"], ["As"], ["2s"; "3s"; "4s"; "5s"])%string];
  compares (Evaluator 2 13 5 0 true None)
   [(Z.ltb, ["Js"; "Ts"], ["7s"; "8s"; "9s"], ["Jh"; "Th"], ["7s"; "8s"; "9s"])%string;
    (Z.ltb, ["Js"; "Ts"], ["7s"; "8s"; "9s"], ["7h"; "8h"], ["7s"; "8s"; "9s"])%string;
    (Z.ltb, ["7h"; "8h"], ["7s"; "8s"; "2s"], ["Js"; "Ts"], ["7s"; "8s"; "2s"])%string;
    (Z.ltb, ["8s"; "7s"], ["9s"; "Ts"; "As"], ["Th"; "2s"], ["9s"; "Ts"; "As"])%string;
    (Z.ltb, ["8s"; "7h"], ["8h"; "9h"; "As"], ["Th"; "2s"], ["8h"; "9h"; "As"])%string];
  compares (Evaluator 3 13 5 0 true None)
   [(Z.ltb, ["Jh"; "Qh"], ["Th"; "Kh"; "Ah"; "Ad"], ["Kc"; "Kd"], ["Th"; "Kh"; "Ah"; "Ad"])%string;
    (Z.ltb, ["Kc"; "Kd"], ["Th"; "Kh"; "Ah"; "Ad"], ["Ac"; "Qh"], ["Th"; "Kh"; "Ah"; "Ad"])%string;
    (Z.ltb, ["Ac"; "Qh"], ["Th"; "Kh"; "Ah"; "Ad"], ["Qc"; "Jd"], ["Th"; "Kh"; "Ah"; "Ad"])%string;
    (Z.ltb, ["Jd"; "Td"], ["Qh"; "Kh"; "Ah"], ["Qd"; "Kd"], ["Qh"; "Kh"; "Ah"])%string;
    (Z.ltb, ["Qd"; "Kd"], ["Qh"; "Kh"; "Ah"], ["Qc"; "Td"], ["Qh"; "Kh"; "Ah"])%string;
    (Z.ltb, ["8s"; "7h"], ["8h"; "9h"; "Ts"], ["Ah"; "2s"], ["8h"; "9h"; "Ts"])%string];
  compares (Evaluator 4 13 5 0 true None)
   [(Z.ltb, ["Jh"; "Qh"], ["Th"; "Kh"; "Ah"; "Ad"], ["As"; "Ac"], ["Th"; "Kh"; "Ah"; "Ad"])%string;
    (Z.ltb, ["As"; "Ac"], ["Kh"; "Ah"; "Ad"], ["Kc"; "Kd"], ["Kh"; "Ah"; "Ad"])%string;
    (Z.ltb, ["Kc"; "Kd"], ["Kh"; "Ah"; "Ad"; "2h"], ["Th"; "5h"], ["Kh"; "Ah"; "Ad"; "2h"])%string;
    (Z.ltb, ["Th"; "5h"], ["Qh"; "Kh"; "Ah"], ["Jd"; "Td"], ["Qh"; "Kh"; "Ah"])%string;
    (Z.ltb, ["Jd"; "Td"], ["Qh"; "Kh"; "Ah"], ["Qd"; "Qc"], ["Qh"; "Kh"; "Ah"])%string;
    (Z.ltb, ["Qd"; "Qc"], ["Qh"; "Kh"; "Ah"], ["Kd"; "Ad"], ["Qh"; "Kh"; "Ah"])%string;
    (Z.ltb, ["9h"; "Qh"], ["9s"; "Qs"; "8d"], ["8s"; "7s"], ["9s"; "Qs"; "8d"])%string;
    (Z.ltb, ["8s"; "7h"], ["8h"; "9h"; "Ts"], ["Ah"; "2s"], ["8h"; "9h"; "Ts"])%string]] = true.
Proof. vm_compute. reflexivity. Qed.

(** test_evaluator.py:462-477 *)
Example suite_evaluator_short_deck : forallb id [
  compares (Evaluator 4 9 5 0 true (Some ["sf"%string; "fk"%string; "fl"%string; "fh"%string; "st"%string; "tk"%string; "tp"%string; "pa"%string; "hc"%string]))
   [(Z.ltb, ["8h"; "7h"], ["Jh"; "9h"; "Ah"; "Ac"], ["Jd"; "As"], ["Jh"; "9h"; "Ah"; "Ac"])%string]] = true.
Proof. vm_compute. reflexivity. Qed.

(** test_evaluator.py:480-494 *)
Example suite_evaluator_mandatory_hole_cards : forallb id [
  compares (Evaluator 4 13 5 2 true None)
   [(Z.ltb, ["Th"; "Jc"; "2c"; "5c"], ["9s"; "8c"; "7d"; "6c"; "5d"], ["Ah"; "Qc"; "2h"; "5s"], ["9s"; "8c"; "7d"; "6c"; "5d"])%string]] = true.
Proof. vm_compute. reflexivity. Qed.

(** ** test/test_render/test_ascii.py, test/test_engine/test_render.py *)
Fixpoint starts (p t : list Z) : bool :=
  match p, t with [], _ => true | x :: p', y :: t' => (x =? y) && starts p' t' | _ :: _, [] => false end.
Fixpoint contains (p t : list Z) : bool :=
  starts p t || match t with [] => false | _ :: r => contains p r end.
Definition table_of (act all_in : list bool) (done : bool) (holes : list (list string)) (pays : list Z) (prev : option (nat * Z * bool)) (st : Z) : rconfig :=
  mkRConfig 0 act all_in [] 0 done (map cards holes) 10 pays prev [10; 20] [st; st].
Definition draws (w : rconfig) (yes no : list (list Z)) : bool :=
  match ASCIIViewer 2 2 5 with
  | Err _ => false
  | Ok v => match parse_string v w with Err _ => false | Ok t => forallb (fun p => contains p t) yes && forallb (fun p => negb (contains p t)) no end
  end.
Definition aces : list (list Z) := [ustr "A" ++ [9829]; ustr "A" ++ [9830]].
Definition kings : list (list Z) := [ustr "K" ++ [9829]; ustr "K" ++ [9830]].
Definition two_hands : list (list string) := [["Ah"; "Ad"]; ["Kh"; "Kd"]]%string.
(** test_ascii.py:7-9 *)
Example suite_ascii_init : (String.length ascii_table =? 1061)%nat = true.
Proof. reflexivity. Qed.
(** test_ascii.py:12-148 *)
Example suite_ascii_render : forallb id [
  draws (table_of [true; true] [false; false] false two_hands [0; 0] (Some (1%nat, 10, false)) 100) (aces ++ [ustr "??"; ustr "20"]) kings;
  draws (table_of [true; false] [false; false] false two_hands [0; 0] (Some (1%nat, 10, false)) 100) (aces ++ [ustr "20"]) [ustr "??"];
  draws (table_of [true; true] [false; true] false two_hands [0; 0] (Some (1%nat, 10, false)) 100) (aces ++ [ustr "20"; ustr "A"]) kings;
  draws (table_of [true; true] [false; false] false two_hands [0; 0] (Some (1%nat, 200, false)) 100) (aces ++ [ustr "20"; ustr "Player 2 bet 200 Action on Player 1"]) kings;
  draws (table_of [true; true] [false; false] false two_hands [0; 0] (Some (1%nat, 0, true)) 100) (aces ++ [ustr "20"; ustr "Player 2 folded Action on Player 1"]) kings;
  draws (table_of [true; true] [false; false] false two_hands [0; 0] (Some (1%nat, 0, false)) 100) (aces ++ [ustr "20"; ustr "Player 2 checked Action on Player 1"]) kings;
  draws (table_of [true; true] [false; false] true two_hands [2; 2] None 100) (aces ++ kings ++ [ustr "Players 1, 2 won 2, 2 respectively"]) [];
  draws (table_of [true; true] [false; false] true two_hands [10; 0] None 100) (aces ++ kings ++ [ustr "Player 1 won 10"]) []] = true.
Proof. vm_compute. reflexivity. Qed.
(** test_render.py:51-64; the dealer of this test has six players *)
Example suite_render_ascii :
  match ASCIIViewer 6 2 5 with
  | Ok v => match parse_string v (table_of [true; true] [false; false] false [["Ah"; "Ad"]; []]%string [0; 0] (Some (1%nat, 10, false)) 200) with
            | Ok t => contains (ustr "A" ++ [9829] ++ ustr ",A" ++ [9830] ++ ustr " 200") t && contains (ustr "??") t && contains (ustr "Action on Player 1") t
            | Err _ => false
            end
  | Err _ => false
  end = true.
Proof. vm_compute. reflexivity. Qed.

(** test_render.py:67-90: the drawing has six players *)
Fixpoint players_in (e : elem) : nat :=
  match e with Elem _ a kids =>
    ((if String.eqb (a_class a) "player" then 1 else 0) + list_sum (map players_in kids))%nat end.
Example suite_render_human : match base_svg 6 2 5 (fun _ => (0, 0)) (fun _ => (0, 0)) with
  | Ok e => (players_in e =? 6)%nat
  | Err _ => false
  end = true.
Proof. vm_compute. reflexivity. Qed.
(** test_graphic.py:24-27: the patterns *)
Example suite_svg_patterns : (List.length (with_tag "pattern" patterns_file) =? 7)%nat = true.
Proof. vm_compute. reflexivity. Qed.

(** Left out: test_card.py:80-85 ([test_str_repr]), test_evaluator.py:50-52 (the clock),
    test_misc.py:158-185 (nine players before the flop: too many boards to count here), test_render.py:46-48 (an unknown
    render mode: theorem C57_first), test_viewer.py (the abstract class), the rest of test_graphic.py (attributes of
    elements, HTTP; its [assert pytest.approx(x, 0)] hold for any x). *)
