(** * PropReset: C40-C42 *)
From Coq Require Import ZifyBool ZifyNat Arith Permutation.
From Verif Require Import PyBase PyFacts CardModel CardSpec CardProofs DeckSpec DeckProofs EvalModel EngineModel EngineSpec EngineFacts BetFacts MoneyFacts EngineDemo PropRound.

(** ** C40 API misuse raises the documented errors *)

(** step before the first reset: [ops] contains no reset *)
Theorem C40_step_before_reset : forall w rnd c s0 ops b, Dealer rnd w = Ok (c, s0) ->
  Forall (fun o => match o with OReset _ _ _ => False | _ => True end) ops ->
  let s := run c s0 ops in
  snd (step c s b) = Err TableResetError /\ fst (step c s b) = s.
Proof.
  intros w rnd c s0 ops b H F. cbv zeta.
  assert (G : forall ops s, action s = None -> active s = repeat false (num_players c) ->
     Forall (fun o => match o with OReset _ _ _ => False | _ => True end) ops ->
     action (run c s ops) = None /\ active (run c s ops) = repeat false (num_players c)).
  { clear. induction ops as [|o ops IH]; intros s Ha Ht F; [auto|]. inversion F as [|? ? F1 F2]; subst.
    change (run c s (o :: ops)) with (run c (apply_op c s o) ops). apply IH; [| |exact F2];
      destruct o as [rnd rb rs|x|cs| |l]; cbn [apply_op]; try contradiction; try assumption.
    - unfold step. rewrite Ha. exact Ha.
    - destruct (deck_trick cs (the_deck s)); exact Ha.
    - unfold step. rewrite Ha. exact Ht.
    - destruct (deck_trick cs (the_deck s)); exact Ht. }
  pose proof (Dealer_inv _ _ _ _ H) as B. destruct (G ops s0) as [G1 G2]; [rewrite (bd_state _ _ _ _ B); reflexivity|rewrite (bd_state _ _ _ _ B); reflexivity|exact F|].
  unfold step, step_idle. rewrite G1, G2. replace (any_true (repeat false (num_players c))) with false; [split; reflexivity|].
  symmetry. destruct (any_true _) eqn:E; [|reflexivity]. apply any_true_spec in E. destruct E as [i E].
  destruct (Nat.lt_ge_cases i (num_players c)) as [Hi|Hi]; [rewrite nth_repeat_lt in E by exact Hi|rewrite nth_overflow in E by (rewrite repeat_length; exact Hi)]; discriminate.
Qed.
Print Assumptions C40_step_before_reset.
Example C40_example : exists c s, Dealer [] no_limit_3 = Ok (c, s) /\
  Forall (fun o => match o with OReset _ _ _ => False | _ => True end) [OTrick [demo_card 3]; OStep (PyInt 3); OSetStacks [1; 2; 3]].
Proof.
  destruct (Dealer [] no_limit_3) as [[c s]|] eqn:E; [|exfalso; vm_compute in E; discriminate]. exists c, s. split; [reflexivity|]. repeat constructor.
Qed.

(** reset without [reset_stacks] *)
Lemma count_filter {A} (f : A -> bool) l : count_true (map f l) = Z.of_nat (List.length (filter f l)).
Proof. induction l as [|x l IH]; [reflexivity|]. cbn [map filter]. rewrite count_true_cons, IH. destruct (f x); cbn [b2z List.length]; lia. Qed.
Definition players_with_chips (s : state) : nat := List.length (filter (fun x => 0 <? x) (stacks s)).

Theorem C40_too_few : forall c s rnd rb, reachable c s ->
  (snd (reset c s rnd rb false) = Err TooFewActivePlayersError <-> (players_with_chips s < 2)%nat) /\
  snd (reset c s rnd rb true) <> Err TooFewActivePlayersError /\
  (* no other error, if the game has a street *)
  (num_streets c <> O -> (2 <= players_with_chips s)%nat -> is_ok (snd (reset c s rnd rb false)) = true) /\
  (num_streets c <> O -> is_ok (snd (reset c s rnd rb true)) = true).
Proof.
  intros c s rnd rb R. pose proof (reachable_cfg c s R) as W. pose proof (reachable_wf c s R) as I.
  assert (N : count_true (fst (reset_active c s false)) = Z.of_nat (players_with_chips s)) by apply count_filter.
  assert (Z : snd (reset c s rnd rb false) = Err TooFewActivePlayersError <-> count_true (fst (reset_active c s false)) <= 1).
  { pose proof (reset_spec c s rnd rb false W I) as Q. cbv zeta in Q. split; intros H.
    - destruct Q as [(_ & E & _)|[(_ & E)|(_ & _ & E & _)]]; [exact E|congruence|rewrite H in E; discriminate].
    - unfold reset. destruct (reset_active c s false) as [act stk]. cbn [fst] in H. replace (negb false && (count_true act <=? 1)) with true by (cbn [negb andb]; lia). reflexivity. }
  split; [|split; [|split]].
  - rewrite Z, N. lia.
  - intros H. destruct (reset_spec c s rnd rb true W I) as [(E & _)|[(_ & E)|(_ & _ & E & _)]]; [discriminate|congruence|rewrite H in E; discriminate].
  - intros H0 H2. destruct (reset_spec c s rnd rb false W I) as [(_ & E & _)|[(E & _)|(_ & _ & E & _)]]; [lia|contradiction|exact E].
  - intros H0. destruct (reset_spec c s rnd rb true W I) as [(E & _)|[(E & _)|(_ & _ & E & _)]]; [discriminate|contradiction|exact E].
Qed.
Print Assumptions C40_too_few.
Example C40_few_example : exists c s, fair c s /\ stacks s = [0; 7; 0] /\ snd (reset c s [] true false) = Err TooFewActivePlayersError.
Proof. play no_limit_3 [OSetStacks [0; 7; 0]] c s E. split; [exact (played_fair _ _ _ _ E)|]. plays E. Qed.

(** A reset that raises in the middle of a hand takes everybody who is all in out of that hand,
    which can then be continued: seat 0 is all in with the better card, seat 1 has still to call;
    after the failed reset seat 1 calls and takes the pot without a showdown *)
Definition heads_up := demo 2 1 [1; 2] [0; 0] [RawInf] [RawCountInf] [0] 20.
Theorem C40_failed_reset_corrupts_hand : exists c s, fair c s /\ action s = Some 1%nat /\
  active s = [true; true] /\ stacks s = [0; 18] /\ pot_commits s = [20; 2] /\
  (* without the reset seat 0 wins *)
  stacks (fst (step c s (PyInt 18))) = [40; 0] /\
  let s1 := fst (reset c s [] true false) in
  snd (reset c s [] true false) = Err TooFewActivePlayersError /\
  active s1 = [false; true] /\ action s1 = Some 1%nat /\
  stacks (fst (step c s1 (PyInt 18))) = [0; 40].
Proof.
  play heads_up ([OTrick [demo_card 51; demo_card 0]; new_hand] ++ bets [19]) c s E. split; [exact (played_fair _ _ _ _ E)|]. cbv zeta. plays E.
Qed.
Print Assumptions C40_failed_reset_corrupts_hand.

(** ** C41 Reset *)
Theorem C41_reset : forall c s rnd rb rs, fair c s -> is_ok (snd (reset c s rnd rb rs)) = true ->
  let n := num_players c in
  let s' := fst (reset c s rnd rb rs) in
  let stack i := if rs then start_stack c else stack_of s i in
  (* the button *)
  button s' = (if rb then O else ((button s + 1) mod n)%nat) /\
  (* the players *)
  List.length (active s') = n /\
  (forall i, (i < n)%nat -> (is_active s' i <-> rs = true \/ 0 < stack_of s i)) /\
  (* the turn *)
  (exists a, action s' = Some a /\ (a < n)%nat /\ is_active s' a) /\
  (* forced bets: none from inactive players, never negative; no chips vanish *)
  List.length (stacks s') = n /\ List.length (pot_commits s') = n /\
  (forall i, (i < n)%nat -> 0 <= committed s' i /\ stack_of s' i + committed s' i = stack i /\
     (~ is_active s' i -> committed s' i = 0 /\ stack_of s' i = stack i)) /\
  all_chips s' = (if rs then Z.of_nat n * start_stack c else sumZ (stacks s)) /\
  (* a clean table *)
  history s' = [] /\ street s' = O.
Proof.
  intros c s rnd rb rs F H. cbv zeta. pose proof (fair_money c s F) as M. pose proof (mo_cfg _ _ M) as W. pose proof (mo_wf _ _ M) as Iw.
  destruct (reset_spec c s rnd rb rs W Iw) as [(_ & _ & E)|[(_ & E)|(_ & _ & _ & E)]]; [rewrite E in H; discriminate|rewrite E in H; discriminate|].
  pose proof (reset_wf c s rnd rb rs W Iw (or_intror H)) as I'.
  destruct (reset_money_exact c s rnd rb rs E W (mo_sane _ _ M) Iw) as [R1 R2].
  destruct (re_turn _ _ _ _ _ _ E) as (a & T1 & T2 & T3).
  split; [apply E|]. split; [apply I'|]. split; [|split; [|split; [|split; [|split; [|split; [|split]]]]]].
  - intros i Hi. unfold is_active, stack_of. rewrite (re_active _ _ _ _ _ _ E). destruct rs.
    + rewrite nth_repeat_lt by exact Hi. intuition.
    + rewrite (map_nth_lt _ _ _ _ 0) by (rewrite (wf_stacks _ _ Iw); exact Hi). split; [right; lia|]. intros [X|X]; [discriminate|lia].
  - exists a. auto.
  - apply I'.
  - apply I'.
  - intros i Hi. split; [apply R1|]. split; [rewrite Z.add_comm; now apply R2|]. intros Hn.
    destruct (re_money _ _ _ _ _ _ E) as (st & ante & blind & M1 & M2 & M3 & M4 & M5 & M6 & M7 & M8 & M9 & M10).
    specialize (R2 i Hi). unfold is_active in Hn. destruct (M7 i Hi) as (N1 & N2 & N3). cbv zeta in *.
    destruct (nth i (active (fst (reset c s rnd rb rs))) false); [exfalso; now apply Hn|]. rewrite andb_false_r in N1, N2.
    assert (X : committed (fst (reset c s rnd rb rs)) i = 0) by (unfold committed; rewrite M8, add_lists_nth by congruence; lia).
    split; [exact X|]. lia.
  - unfold all_chips. rewrite (wf_pot _ _ I') by congruence. rewrite <- add_lists_sum by (rewrite (wf_stacks _ _ I'), (wf_commits _ _ I'); reflexivity).
    transitivity (sumZ (if rs then repeat (start_stack c) (num_players c) else stacks s)).
    + f_equal. apply nth_ext_Z; [rewrite (add_lists_length _ _ (num_players c)) by apply I'; destruct rs; [now rewrite repeat_length|symmetry; apply Iw]|].
      intros i. destruct (Nat.lt_ge_cases i (num_players c)) as [Hi|Hi].
      * rewrite add_lists_nth by (rewrite (wf_stacks _ _ I'), (wf_commits _ _ I'); reflexivity). specialize (R2 i Hi). unfold committed, stack_of in R2.
        destruct rs; [rewrite nth_repeat_lt by exact Hi|]; lia.
      * rewrite !nth_overflow; [reflexivity| |rewrite (add_lists_length _ _ (num_players c)) by apply I'; exact Hi].
        destruct rs; [now rewrite repeat_length|rewrite (wf_stacks _ _ Iw); exact Hi].
    + destruct rs; [|reflexivity]. generalize (num_players c). intros k. induction k as [|k IH]; [reflexivity|]. cbn [repeat]. rewrite sumZ_cons, IH. lia.
  - apply E.
  - apply E.
Qed.
Print Assumptions C41_reset.

(** the cards: the first community cards from the top of the shuffled deck, then one hand after the other *)
Theorem C41_cards : forall c s rnd rb rs, reachable c s -> is_ok (snd (reset c s rnd rb rs)) = true ->
  let n := num_players c in
  let s' := fst (reset c s rnd rb rs) in
  let cards := d_cards (deck_shuffle rnd (the_deck s)) in
  let first := Z.to_nat (nth 0 (num_community_cards c) 0) in
  let h := Z.to_nat (num_hole_cards c) in
  community_cards s' = firstn first cards /\
  List.length (hole_cards s') = n /\
  (forall i, (i < n)%nat -> nth i (hole_cards s') [] = firstn h (skipn (first + i * h) cards)) /\
  d_cards (the_deck s') = skipn (first + n * h) cards /\
  ((first + n * h <= List.length cards)%nat -> forall i, (i < n)%nat -> List.length (nth i (hole_cards s') []) = h).
Proof.
  intros c s rnd rb rs R H. cbv zeta. pose proof (reachable_cfg c s R) as W. pose proof (reachable_wf c s R) as I.
  destruct (reset_spec c s rnd rb rs W I) as [(_ & _ & E)|[(_ & E)|(N0 & _ & _ & E)]]; [rewrite E in H; discriminate|rewrite E in H; discriminate|].
  assert (E0 : comm_total c 0 = Z.to_nat (nth 0 (num_community_cards c) 0)).
  { destruct (num_community_cards c) as [|x l] eqn:Ec; [rewrite <- (cw_comm _ W), Ec in N0; now destruct N0|]. now apply (comm_total_0 c x l). }
  rewrite <- E0. split; [apply E|]. split; [apply E|]. split; [apply E|]. split; [rewrite (re_deck _ _ _ _ _ _ E); reflexivity|].
  intros Hd i Hi. rewrite (re_hole_nth _ _ _ _ _ _ E i Hi), firstn_length, skipn_length.
  assert (X : (i * Z.to_nat (num_hole_cards c) + Z.to_nat (num_hole_cards c) <= num_players c * Z.to_nat (num_hole_cards c))%nat) by nia.
  lia.
Qed.
Print Assumptions C41_cards.
Example C41_example : exists c s, fair c s /\ stacks s = [7; 0; 3; 9] /\ is_ok (snd (reset c s [] false false)) = true /\
  let s' := fst (reset c s [] false false) in
  button s = 0%nat /\ button s' = 1%nat /\ active s' = [true; false; true; true] /\ action s' = Some 0%nat /\ stacks s' = [7; 0; 2; 7] /\ pot_commits s' = [0; 0; 1; 2] /\
  map (@List.length card) (hole_cards s') = [1; 1; 1; 1]%nat.
Proof. play no_limit_4 (new_hand :: bets [2; 2; 2] ++ [OSetStacks [7; 0; 3; 9]]) c s E. split; [exact (played_fair _ _ _ _ E)|]. cbv zeta. plays E. Qed.

(** ** C42 Blind positions *)
Lemma reset_positions : forall c s rnd rb rs, cfg_wf c -> wf c s -> is_ok (snd (reset c s rnd rb rs)) = true ->
  let n := num_players c in
  let s' := fst (reset c s rnd rb rs) in
  let stack i := if rs then start_stack c else stack_of s i in
  exists start, (start < n)%nat /\ is_active s' start /\
    (n = 2%nat -> start = button s') /\
    ((2 < n)%nat -> next_in_hand n (active s') (button s') start) /\
    (* the first to act is the second player in the hand after [start] *)
    (exists second a, next_in_hand n (active s') start second /\ action s' = Some a /\ next_in_hand n (active s') second a) /\
    forall k, (k < n)%nat ->
      let seat := ((start + k) mod n)%nat in
      let ante := if (0 <? stack seat) && nth seat (active s') false then nth k (antes c) 0 else 0 in
      let blind := if (0 <? stack seat - ante) && nth seat (active s') false then nth k (blinds c) 0 else 0 in
      committed s' seat = ante + blind /\ street_committed s' seat = blind.
Proof.
  intros c s rnd rb rs W I H. cbv zeta. pose proof (cw_two _ W) as H2.
  destruct (reset_spec c s rnd rb rs W I) as [(_ & _ & E)|[(_ & E)|(N0 & _ & _ & E)]]; [rewrite E in H; discriminate|rewrite E in H; discriminate|].
  destruct (re_money _ _ _ _ _ _ E) as (st & ante & blind & M1 & M2 & M3 & M4 & M5 & M6 & M7 & M8 & M9 & M10).
  exists st. split; [exact M1|]. split; [exact M2|]. split; [|split; [|split]].
  - intros En. rewrite En in M3. exact M3.
  - intros Hn. destruct (Nat.ltb_spec 2 (num_players c)); [exact M3|lia].
  - destruct M4 as (x & X1 & _ & a & X2 & X3). exists x, a. auto.
  - intros k Hk. set (n := num_players c) in *. set (i := ((st + k) mod n)%nat).
    assert (Hi : (i < n)%nat) by (apply Nat.mod_upper_bound; lia).
    assert (D : forall l, due n st i l = nth k l 0).
    { intros l. unfold due. f_equal. subst i. destruct (Nat.lt_ge_cases (st + k) n) as [X|X].
      - rewrite (Nat.mod_small (st + k)) by exact X. replace (st + k + n - st)%nat with (k + 1 * n)%nat by lia. rewrite Nat.mod_add, Nat.mod_small by lia. reflexivity.
      - assert (Em : ((st + k) mod n = st + k - n)%nat).
        { replace (st + k)%nat with ((st + k - n) + 1 * n)%nat by lia. rewrite Nat.mod_add by lia. rewrite Nat.mod_small by lia. lia. }
        rewrite Em. replace (st + k - n + n - st)%nat with k by lia. now apply Nat.mod_small. }
    destruct (M7 i Hi) as (N1 & N2 & _). cbv zeta in *. rewrite D in N1, N2. unfold stack_of. rewrite <- N1.
    unfold committed, street_committed. rewrite M8, M9, add_lists_nth by congruence. rewrite <- N2. auto.
Qed.
(** the [k]-th seat clockwise from [start] posts the [k]-th ante, if its player is in the hand and has
    chips, then the [k]-th blind, if chips are left *)
Theorem C42_positions : forall c s rnd rb rs, reachable c s -> is_ok (snd (reset c s rnd rb rs)) = true ->
  let n := num_players c in
  let s' := fst (reset c s rnd rb rs) in
  let stack i := if rs then start_stack c else stack_of s i in
  exists start, (start < n)%nat /\ is_active s' start /\
    (n = 2%nat -> start = button s') /\
    ((2 < n)%nat -> next_in_hand n (active s') (button s') start) /\
    (* the first to act is the second player in the hand after [start] *)
    (exists second a, next_in_hand n (active s') start second /\ action s' = Some a /\ next_in_hand n (active s') second a) /\
    forall k, (k < n)%nat ->
      let seat := ((start + k) mod n)%nat in
      let ante := if (0 <? stack seat) && nth seat (active s') false then nth k (antes c) 0 else 0 in
      let blind := if (0 <? stack seat - ante) && nth seat (active s') false then nth k (blinds c) 0 else 0 in
      committed s' seat = ante + blind /\ street_committed s' seat = blind.
Proof.
  intros c s rnd rb rs R. exact (reset_positions c s rnd rb rs (reachable_cfg c s R) (reachable_wf c s R)).
Qed.
Print Assumptions C42_positions.
Example C42_example : exists c s, fair c s /\ stacks s = [9; 9; 0; 9; 0] /\ is_ok (snd (reset c s [] true false)) = true /\
  let s' := fst (reset c s [] true false) in
  button s' = 0%nat /\ active s' = [true; true; false; true; false] /\ blinds c = [1; 2; 3; 4; 0] /\ pot_commits s' = [0; 1; 0; 3; 0] /\ action s' = Some 0%nat.
Proof.
  play (demo 5 1 [1; 2; 3; 4; 0] [0; 0; 0; 0; 0] [RawInf] [RawCountInf] [0] 20) [OSetStacks [9; 9; 0; 9; 0]] c s E.
  split; [exact (played_fair _ _ _ _ E)|]. cbv zeta. plays E.
Qed.
