(** * PropSide: properties of the showdown (C34, C35, C36) *)
From Coq Require Import ZifyBool ZifyNat Arith Permutation.
From Verif Require Import PyBase PyFacts CardModel EvalModel EngineModel EngineSpec EngineFacts BetFacts EngineDemo MoneyFacts PropRound ShowSpec ShowFacts SideFacts SideExists HandEnd.

Lemma show_of_same c s b z : settled c s b z -> show_of c (fst (step c s b)) = show_of c z.
Proof.
  intros Z. destruct (se_same _ _ _ _ Z) as (E1 & E2 & E3 & E4 & E5 & E6). unfold show_of, committed. now rewrite E1, E2, E5, E6.
Qed.
(** the showdown, for regular ties *)
Lemma settled_show c s b z : settled c s b z -> count_true (active z) <> 1 -> (num_streets c <= street z)%nat ->
  covered_folds (show_of c z) -> regular_ties (show_of c z) ->
  (exists e, eval_hands c (active z) (hole_cards z) (community_cards z) = Err e /\ payouts c z = Err e) \/
  (exists pots, side_pots (show_of c z) 0 pots /\
    (forall i, (i < num_players c)%nat -> is_active z i -> evaluate (the_evaluator c) (nth i (hole_cards z) []) (community_cards z) = Ok (sd_rank (show_of c z) i)) /\
    0 <= odd_chips pots /\
    let base := map (share pots) (seq 0 (num_players c)) in
    payouts c z = if odd_chips pots =? 0 then Ok (sub_lists base (pot_commits z))
                  else match first_after (button z) (num_players c) base with
                       | Some q => Ok (sub_lists (add_at base (q - button z) (odd_chips pots)) (pot_commits z))
                       | None => Err IndexError
                       end).
Proof.
  intros Z Hc Hs Cov Reg.
  destruct (show_payouts c z Hc Hs (se_commits _ _ _ _ Z) (se_hole _ _ _ _ Z) (se_button _ _ _ _ Z) (se_nonneg _ _ _ _ Z) (or_introl (se_pot _ _ _ _ Z))) as [E|(st & E & G & T & P)]; [now left|right].
  cbv zeta in *. exists (pots_of c z st). destruct (eval_hands_spec c z st (se_hole _ _ _ _ Z) E) as [Ls Hst]. split; [|split; [|split]].
  - apply show_side with (n := num_players c); try assumption; try reflexivity; [apply Z| |].
    + intros i Hi Ai. destruct (Hst i Hi) as [H _]. destruct (H Ai) as (H1 & H2 & _). auto.
    + intros i Hi Ai. destruct (Hst i Hi) as [_ H]. now apply H.
  - intros i Hi Ai. destruct (Hst i Hi) as [H _]. destruct (H Ai) as (H1 & H2 & H3). congruence.
  - eapply odd_nonneg. exact G.
  - exact P.
Qed.
Lemma base_nth pots n i : (i < n)%nat -> nth i (map (share pots) (seq 0 n)) 0 = share pots i.
Proof. intros H. rewrite (map_nth_lt _ _ _ _ 0%nat) by (now rewrite seq_length). now rewrite seq_nth. Qed.
Lemma base_length pots n : List.length (map (share pots) (seq 0 n)) = n.
Proof. now rewrite map_length, seq_length. Qed.

(** ** C34 Side pots *)
Theorem C34_partial : forall c s b, fair c s -> in_progress s ->
  let s' := fst (step c s b) in
  action s' = None -> 2 <= count_true (active s') -> (num_streets c <= street s')%nat ->
  covered_folds (show_of c s') -> regular_ties (show_of c s') ->
  exists out pots, snd (step c s b) = Ok out /\
    (* the ranks of the showdown are those of the evaluator *)
    (forall i, (i < num_players c)%nat -> is_active s' i ->
       evaluate (the_evaluator c) (nth i (hole_cards s') []) (community_cards s') = Ok (sd_rank (show_of c s') i)) /\
    side_pots (show_of c s') 0 pots /\
    (* every player gets the shares of the side pots, and one of them the odd chips *)
    (exists q, (q < num_players c)%nat /\ forall i, (i < num_players c)%nat ->
       nth i (out_payouts out) 0 + committed s' i = share pots i + (if Nat.eqb i q then odd_chips pots else 0)) /\
    (* nobody's shares exceed what everybody put in up to the player's own amount *)
    (forall i, (i < num_players c)%nat ->
       share pots i <= sumZ (map (fun j => Z.min (committed s' j) (committed s' i)) (seq 0 (num_players c)))).
Proof.
  intros c s b F Hp. cbv zeta. intros Hn Hc Hs Cov Reg. destruct (step_ended c s b F Hp Hn) as (z & pay & o & E).
  pose proof (en_settled _ _ _ _ _ _ E) as Z. pose proof (show_of_same _ _ _ _ Z) as Sh. rewrite Sh in *.
  destruct (se_same _ _ _ _ Z) as (E1 & E2 & E3 & E4 & E5 & E6). rewrite E1 in Hc. rewrite E3 in Hs.
  destruct (settled_show c s b z Z ltac:(lia) Hs Cov Reg) as [(e & _ & X)|(pots & SP & Ev & On & P)]; [rewrite (en_pay _ _ _ _ _ _ E) in X; discriminate|].
  cbv zeta in P. exists (mkOut o pay (done_list c z)), pots. split; [apply E|].
  split; [intros i Hi Ai; unfold is_active in Ai; rewrite E1 in Ai; rewrite E5, E6; now apply Ev|]. split; [exact SP|]. cbn [out_payouts].
  assert (Ec : forall i, committed (fst (step c s b)) i = committed z i) by (intros i; unfold committed; now rewrite E2).
  pose proof (se_players _ _ _ _ Z) as Hpl. pose proof (se_commits _ _ _ _ Z) as Lc. split.
  - rewrite (en_pay _ _ _ _ _ _ E) in P. destruct (odd_chips pots =? 0) eqn:E0.
    + injection P as ->. exists 0%nat. split; [lia|]. intros i Hi. rewrite Ec, sub_lists_nth by (now rewrite base_length). rewrite base_nth by exact Hi.
      unfold committed. destruct (Nat.eqb i 0); lia.
    + destruct (first_after _ _ _) as [q|] eqn:Eq; [|discriminate]. injection P as ->. apply first_after_spec in Eq. exists (q - button z)%nat. split; [lia|].
      intros i Hi. rewrite Ec, sub_lists_nth by (now rewrite add_at_length, base_length). rewrite add_at_nth by (rewrite base_length; lia).
      unfold committed. destruct (Nat.eqb_spec i (q - button z)) as [->|]; rewrite ?base_nth by lia; lia.
  - intros i Hi. pose proof (side_pots_own _ _ _ SP i (se_nonneg _ _ _ _ Z i)) as H. cbn [show_of sd_put] in H. etransitivity; [exact H|]. apply Z.eq_le_incl.
    unfold chips_between. cbn [show_of sd_players sd_put]. f_equal. apply map_ext. intros j. rewrite !Ec. pose proof (se_nonneg _ _ _ _ Z j). lia.
Qed.
Print Assumptions C34_partial.

(** seats 0 to 2 tie; they have put in 10, 10 and 20 chips, seat 3 has put in 20: seat 1 gets half of
    the last 20 chips, of which it has put in none *)
Definition side_game := demo 4 1 [0; 0; 0; 0] [0; 0; 0; 0] [RawInf] [RawCountInf] [0] 20.
Definition side_ops := [OTrick [demo_card 48; demo_card 49; demo_card 50; demo_card 0]; OSetStacks [10; 10; 20; 20]; OReset [] true false] ++ bets [20; 20; 20].
Theorem C34_refuted : ~ forall c s b, fair c s -> in_progress s ->
  let s' := fst (step c s b) in
  action s' = None -> 2 <= count_true (active s') -> (num_streets c <= street s')%nat ->
  covered_folds (show_of c s') ->
  exists out pots, snd (step c s b) = Ok out /\ side_pots (show_of c s') 0 pots /\
    exists q, forall i, (i < num_players c)%nat ->
       nth i (out_payouts out) 0 + committed s' i = share pots i + (if Nat.eqb i q then odd_chips pots else 0).
Proof.
  intros H.
  assert (K : exists c s, fair c s /\ action s = Some 2%nat /\ action (fst (step c s (PyInt 20))) = None /\
    active (fst (step c s (PyInt 20))) = [true; true; true; true] /\ street (fst (step c s (PyInt 20))) = 1%nat /\ num_streets c = 1%nat /\ num_players c = 4%nat /\
    pot_commits (fst (step c s (PyInt 20))) = [10; 10; 20; 20] /\
    match snd (step c s (PyInt 20)) with Ok out => Some (out_payouts out) | Err _ => None end = Some [3; 14; 3; -20] /\
    share (pots_fun 5 (show_of c (fst (step c s (PyInt 20)))) 0) 2 = 33 /\ odd_chips (pots_fun 5 (show_of c (fst (step c s (PyInt 20)))) 0) = 1).
  { play side_game side_ops c s E. split; [exact (played_fair _ _ _ _ E)|]. plays E. }
  destruct K as (c & s & F & K1 & K2 & K3 & K4 & K5 & K6 & K7 & K8 & K9 & K10). specialize (H c s (PyInt 20) F). cbv zeta in H.
  destruct H as (out & pots & H1 & H2 & q & H3).
  - unfold in_progress. rewrite K1. discriminate.
  - exact K2.
  - rewrite K3. cbn. lia.
  - rewrite K4, K5. lia.
  - intros i Hi Ii. cbn [show_of sd_in sd_players] in *. rewrite K6 in Hi. rewrite K3 in Ii. exfalso.
    destruct i as [|[|[|[|i]]]]; try discriminate Ii. lia.
  - pose proof (pots_fun_players (show_of c (fst (step c s (PyInt 20))))) as SP. cbn [show_of sd_players] in SP. rewrite K6 in SP.
    destruct (side_pots_unique _ _ _ H2 _ SP) as [U1 U2]. rewrite H1 in K8. injection K8 as K8.
    specialize (H3 2%nat ltac:(lia)). rewrite K8 in H3. unfold committed in H3. rewrite K7 in H3.
    rewrite (U2 2%nat), U1, K9, K10 in H3. cbn [nth] in H3. destruct (Nat.eqb 2 q); lia.
Qed.
Print Assumptions C34_refuted.

(** all-in players with different stacks; the tied seats 0 and 3 have put in 10 and 20 *)
Example C34_example : exists c s, fair c s /\ in_progress s /\
  let s' := fst (step c s (PyInt 20)) in
  action s' = None /\ count_true (active s') = 4 /\ (street s' = 1 /\ num_streets c = 1)%nat /\ covered_folds (show_of c s') /\ regular_ties (show_of c s') /\
  pots_fun 5 (show_of c s') 0 = [([2%nat], 20); ([0%nat; 3%nat], 15); ([3%nat], 20)] /\ stacks s' = [7; 1; 21; 27].
Proof.
  play side_game ([OTrick [demo_card 44; demo_card 8; demo_card 48; demo_card 45]; OSetStacks [10; 21; 5; 20]; OReset [] true false] ++ bets [20; 20; 20]) c s E.
  split; [exact (played_fair _ _ _ _ E)|]. split; [unfold in_progress; assert (X : action s = Some 2%nat) by by_play E; rewrite X; discriminate|].
  cbv zeta. split; [by_play E|]. split; [by_play E|]. split; [plays E|]. split; [apply covered_foldsb_ok; by_play E|]. split; [apply regular_tiesb_ok; by_play E|]. plays E.
Qed.

(** ** C35 Odd chips *)
Lemma side_share_nonneg d a pots i : side_pots d a pots -> 0 <= share pots i.
Proof.
  intros SP. induction SP as [a N|a w x r Hw (k & Hk & Ek) Hb Hr IH]; [unfold share; cbn; lia|]. unfold share. cbn [map fst snd]. rewrite sumZ_cons. fold (share r i).
  assert (Hab : a < x) by (pose proof (proj1 (proj2 Hw k) Hk) as [(_ & _ & K) _]; lia).
  destruct (existsb _ _); [|lia].
  assert (X : 0 <= chips_between d a x) by (apply chips_mono; lia). pose proof (Z.div_pos _ (Z.of_nat (List.length w)) X ltac:(destruct w; [destruct Hk|cbn; lia])). lia.
Qed.
(** the first seat clockwise after the button with positive winnings *)
Definition first_winner (n button : nat) (won : nat -> Z) (q : nat) : Prop :=
  exists i, (1 <= i <= n)%nat /\ q = Nat.modulo (button + i) n /\ 0 < won q /\
    forall j, (1 <= j < i)%nat -> won (Nat.modulo (button + j) n) = 0.

(** exactly: the first winning seat after the button without going past the last seat, moved down
    by the position of the button; if there is none, the step raises and the hand does not end *)
Theorem C35_exact : forall c s b, fair c s -> in_progress s ->
  let s' := fst (step c s b) in
  (street s < num_streets c)%nat -> (num_streets c <= street s')%nat -> 2 <= count_true (active s') ->
  covered_folds (show_of c s') -> regular_ties (show_of c s') ->
  (forall i, (i < num_players c)%nat -> is_active s' i ->
     is_ok (evaluate (the_evaluator c) (nth i (hole_cards s') []) (community_cards s')) = true) ->
  exists pots, side_pots (show_of c s') 0 pots /\ 0 <= odd_chips pots /\
    ((odd_chips pots = 0 /\ action s' = None /\ exists out, snd (step c s b) = Ok out /\
        forall i, (i < num_players c)%nat -> nth i (out_payouts out) 0 = share pots i - committed s' i) \/
     (0 < odd_chips pots /\ action s' = None /\ exists out q, snd (step c s b) = Ok out /\
        (button s' < q < num_players c)%nat /\ 0 < share pots q /\ (forall j, (button s' < j < q)%nat -> share pots j = 0) /\
        forall i, (i < num_players c)%nat -> nth i (out_payouts out) 0 = share pots i - committed s' i + (if Nat.eqb i (q - button s') then odd_chips pots else 0)) \/
     (0 < odd_chips pots /\ action s' <> None /\ snd (step c s b) = Err IndexError /\
        forall j, (button s' < j < num_players c)%nat -> share pots j = 0)).
Proof.
  intros c s b F Hp. cbv zeta. intros Hs0 Hs Hc Cov Reg Ev.
  destruct (step_settled c s b F Hp) as [(_ & E & _)|(z & Z)]; [rewrite E in Hs; lia|].
  rewrite (show_of_same _ _ _ _ Z) in *.
  destruct (se_same _ _ _ _ Z) as (E1 & E2 & E3 & E4 & E5 & E6). rewrite E1 in Hc. rewrite E3 in Hs.
  destruct (settled_show c s b z Z ltac:(lia) Hs Cov Reg) as [(e & X & _)|(pots & SP & _ & On & P)].
  { exfalso. unfold eval_hands in X.
    assert (Y : forall l, incl l (seq 0 (num_players c)) -> map_res (fun p => if nth p (active z) false then let* h := get (hole_cards z) p in evaluate (the_evaluator c) h (community_cards z) else Ok (worst_hand c)) l <> Err e).
    { induction l as [|x l IH]; intros Hl; [discriminate|]. cbn [map_res]. assert (Hx : (x < num_players c)%nat) by (specialize (Hl x (or_introl eq_refl)); apply in_seq in Hl; lia).
      assert (Hl' : incl l (seq 0 (num_players c))) by (intros y Hy; apply Hl; now right). specialize (IH Hl').
      destruct (nth x (active z) false) eqn:Ax.
      - unfold get. rewrite (nth_error_nth' _ []) by (rewrite (se_hole _ _ _ _ Z); exact Hx). cbn [bind].
        specialize (Ev x Hx). unfold is_active in Ev. rewrite E1, E5, E6 in Ev. specialize (Ev Ax).
        destruct (evaluate (the_evaluator c) (nth x (hole_cards z) []) (community_cards z)); [|discriminate]. cbn [bind].
        destruct (map_res _ l); [discriminate|cbn [bind]; congruence].
      - cbn [bind]. destruct (map_res _ l); [discriminate|cbn [bind]; congruence]. }
    apply (Y _ (incl_refl _) X). }
  cbv zeta in P. exists pots. split; [exact SP|]. split; [exact On|]. rewrite E4.
  assert (Ec : forall i, committed (fst (step c s b)) i = committed z i) by (intros i; unfold committed; now rewrite E2).
  pose proof (se_players _ _ _ _ Z) as Hpl. pose proof (se_commits _ _ _ _ Z) as Lc.
  assert (D : all_true (done_list c z) = true).
  { unfold done_list. replace (Nat.leb (num_streets c) (street z)) with true by lia. cbn [orb]. rewrite all_true_spec, repeat_length. intros i Hi. now apply nth_repeat_lt. }
  assert (Good : forall pay, payouts c z = Ok pay -> action (fst (step c s b)) = None /\ exists o, snd (step c s b) = Ok (mkOut o pay (done_list c z))).
  { intros pay Hpay. rewrite (se_step _ _ _ _ Z). unfold step_end. rewrite Hpay, D. cbn [fst snd]. split; [reflexivity|].
    destruct (finish_obs c z pay) as (o & ->); [rewrite (se_hole _ _ _ _ Z); lia|]. cbn [bind]. eauto. }
  destruct (odd_chips pots =? 0) eqn:E0.
  - left. destruct (Good _ P) as (G1 & o & G2). split; [lia|]. split; [exact G1|]. eexists. split; [exact G2|]. cbn [out_payouts]. intros i Hi.
    rewrite Ec, sub_lists_nth by (now rewrite base_length). now rewrite base_nth by exact Hi.
  - right. destruct (first_after _ _ _) as [q|] eqn:Eq.
    + left. destruct (Good _ P) as (G1 & o & G2). split; [lia|]. split; [exact G1|]. eexists. exists q. split; [exact G2|]. cbn [out_payouts].
      apply first_after_spec in Eq. destruct Eq as (Q1 & Q2 & Q3). rewrite base_nth in Q2 by lia.
      assert (Nn : 0 <= share pots q).
      { exact (side_share_nonneg _ _ _ q SP). }
      split; [exact Q1|]. split; [lia|]. split; [intros j Hj; specialize (Q3 j Hj); now rewrite base_nth in Q3 by lia|].
      intros i Hi. rewrite Ec, sub_lists_nth by (now rewrite add_at_length, base_length). rewrite add_at_nth by (rewrite base_length; lia).
      unfold committed. destruct (Nat.eqb_spec i (q - button z)) as [->|]; rewrite ?base_nth by lia; lia.
    + right. split; [lia|]. assert (Es : step c s b = (z, Err IndexError)) by (rewrite (se_step _ _ _ _ Z); unfold step_end; now rewrite P).
      assert (Es1 : fst (step c s b) = z) by now rewrite Es. assert (Es2 : snd (step c s b) = Err IndexError) by now rewrite Es.
      split; [rewrite Es1; apply Z|]. split; [exact Es2|]. intros j Hj.
      destruct (Z.eq_dec (share pots j) 0) as [E'|E']; [exact E'|exfalso].
      assert (X : find (fun q => negb (nth q (map (share pots) (seq 0 (num_players c))) 0 =? 0)) (seq (S (button z)) (num_players c - S (button z))) = None) by exact Eq.
      apply find_none with (x := j) in X; [|apply in_seq; lia]. rewrite base_nth in X by lia. lia.
Qed.
Print Assumptions C35_exact.
(** right when the button is at seat 0 *)
Theorem C35_partial : forall c s b, fair c s -> in_progress s ->
  let s' := fst (step c s b) in
  (street s < num_streets c)%nat -> (num_streets c <= street s')%nat -> 2 <= count_true (active s') ->
  covered_folds (show_of c s') -> regular_ties (show_of c s') ->
  (forall i, (i < num_players c)%nat -> is_active s' i ->
     is_ok (evaluate (the_evaluator c) (nth i (hole_cards s') []) (community_cards s')) = true) ->
  button s' = O ->
  exists pots out, side_pots (show_of c s') 0 pots /\ action s' = None /\ snd (step c s b) = Ok out /\
    (odd_chips pots = 0 \/ exists q, first_winner (num_players c) (button s') (share pots) q) /\
    forall q, (odd_chips pots <> 0 -> first_winner (num_players c) (button s') (share pots) q) ->
    forall i, (i < num_players c)%nat ->
      nth i (out_payouts out) 0 = share pots i - committed s' i + (if Nat.eqb i q then odd_chips pots else 0).
Proof.
  intros c s b F Hp. cbv zeta. intros Hs0 Hs Hc Cov Reg Ev Hb.
  destruct (C35_exact c s b F Hp Hs0 Hs Hc Cov Reg Ev) as (pots & SP & On & [(O & A & out & Ho & P)|[(O & A & out & q & Ho & Q1 & Q2 & Q3 & P)|(O & A & Ho & P)]]).
  - exists pots, out. split; [exact SP|]. split; [exact A|]. split; [exact Ho|]. split; [now left|]. intros q _ i Hi. rewrite (P i Hi), O. destruct (Nat.eqb i q); lia.
  - exists pots, out. split; [exact SP|]. split; [exact A|]. split; [exact Ho|]. rewrite Hb in *.
    assert (Fq : first_winner (num_players c) 0 (share pots) q).
    { exists q. split; [lia|]. rewrite Nat.mod_small by lia. split; [reflexivity|]. split; [exact Q2|]. intros j Hj. rewrite Nat.mod_small by lia. apply Q3. lia. }
    split; [right; now exists q|]. intros q' Hq' i Hi.
    assert (q' = q).
    { specialize (Hq' ltac:(lia)). destruct Hq' as (k & K1 & K2 & K3 & K4). assert (Hk : (k <= q)%nat).
      { destruct (Nat.le_gt_cases k q) as [L|L]; [exact L|exfalso]. specialize (K4 q ltac:(lia)). rewrite Nat.mod_small in K4 by lia. cbn [Nat.add] in K4. lia. }
      rewrite Nat.mod_small in K2 by lia. cbn [Nat.add] in K2. destruct (Nat.eq_dec k q) as [E|E]; [congruence|]. specialize (Q3 k ltac:(lia)). rewrite K2 in K3. lia. }
    subst q'. rewrite (P i Hi). now rewrite Nat.sub_0_r.
  - exfalso. rewrite Hb in P. destruct (side_pots_positive _ _ _ SP O) as (i & j & Hij & Hi & Hj & Pi & Pj). cbn [show_of sd_players] in Hi, Hj.
    destruct i as [|i]; [|rewrite (P (S i)) in Pi by lia; lia]. destruct j as [|j]; [congruence|]. rewrite (P (S j)) in Pj by lia. lia.
Qed.
Print Assumptions C35_partial.

(** button at seat 1; seats 0 to 2 tie: the odd chip belongs to seat 2 but goes to seat 1 *)
Definition odd_game := demo 4 1 [1; 2; 0; 0] [0; 0; 0; 0] [RawInf] [RawCountInf] [0] 20.
Definition odd_ops := [OReset [] true true; OTrick [demo_card 51; demo_card 48; demo_card 49; demo_card 0]; OReset [] false true] ++ bets [7; 7; 7].
Theorem C35_refuted : ~ forall c s b, fair c s -> in_progress s ->
  let s' := fst (step c s b) in
  action s' = None -> 2 <= count_true (active s') -> (num_streets c <= street s')%nat ->
  covered_folds (show_of c s') -> regular_ties (show_of c s') ->
  exists out pots, snd (step c s b) = Ok out /\ side_pots (show_of c s') 0 pots /\
    forall q, first_winner (num_players c) (button s') (share pots) q ->
      nth q (out_payouts out) 0 = share pots q - committed s' q + odd_chips pots.
Proof.
  intros H.
  assert (K : exists c s, fair c s /\ action s = Some 3%nat /\ action (fst (step c s (PyInt 7))) = None /\
    active (fst (step c s (PyInt 7))) = [true; true; true; true] /\ street (fst (step c s (PyInt 7))) = 1%nat /\ num_streets c = 1%nat /\ num_players c = 4%nat /\
    pot_commits (fst (step c s (PyInt 7))) = [7; 7; 7; 7] /\ button (fst (step c s (PyInt 7))) = 1%nat /\
    match snd (step c s (PyInt 7)) with Ok out => Some (out_payouts out) | Err _ => None end = Some [2; 3; 2; -7] /\
    share (pots_fun 5 (show_of c (fst (step c s (PyInt 7)))) 0) 2 = 9 /\ odd_chips (pots_fun 5 (show_of c (fst (step c s (PyInt 7)))) 0) = 1 /\
    covered_foldsb (show_of c (fst (step c s (PyInt 7)))) = true /\ regular_tiesb (show_of c (fst (step c s (PyInt 7)))) = true).
  { play odd_game odd_ops c s E. split; [exact (played_fair _ _ _ _ E)|]. plays E. }
  destruct K as (c & s & F & K1 & K2 & K3 & K4 & K5 & K6 & K7 & K8 & K9 & K10 & K11 & K12 & K13). specialize (H c s (PyInt 7) F). cbv zeta in H.
  destruct H as (out & pots & H1 & H2 & H3).
  - unfold in_progress. rewrite K1. discriminate.
  - exact K2.
  - rewrite K3. cbn. lia.
  - rewrite K4, K5. lia.
  - now apply covered_foldsb_ok.
  - now apply regular_tiesb_ok.
  - pose proof (pots_fun_players (show_of c (fst (step c s (PyInt 7))))) as SP. cbn [show_of sd_players] in SP. rewrite K6 in SP.
    destruct (side_pots_unique _ _ _ H2 _ SP) as [U1 U2]. rewrite H1 in K9. injection K9 as K9.
    specialize (H3 2%nat). rewrite K9, K6, K8, U1, (U2 2%nat), K10, K11 in H3. unfold committed in H3. rewrite K7 in H3. cbn [nth] in H3.
    assert (X : first_winner 4 1 (share pots) 2).
    { exists 1%nat. split; [lia|]. split; [reflexivity|]. split; [rewrite (U2 2%nat), K10; lia|]. intros j Hj. lia. }
    specialize (H3 X). lia.
Qed.
Print Assumptions C35_refuted.

(** the same hand with the button at seat 0: the odd chip goes to seat 1, as it should *)
Example C35_example : exists c s, fair c s /\ in_progress s /\
  let s' := fst (step c s (PyInt 5)) in
  ((street s = 0 /\ street s' = 1 /\ num_streets c = 1)%nat /\ count_true (active s') = 4 /\ button s' = O) /\
  covered_folds (show_of c s') /\ regular_ties (show_of c s') /\
  (map (fun h => is_ok (evaluate (the_evaluator c) h (community_cards s'))) (hole_cards s') = [true; true; true; true] /\
   pots_fun 5 (show_of c s') 0 = [([0%nat; 1%nat; 2%nat], 28)] /\
   match snd (step c s (PyInt 5)) with Ok out => Some (out_payouts out) | Err _ => None end = Some [2; 3; 2; -7]).
Proof.
  play odd_game ([OTrick [demo_card 51; demo_card 48; demo_card 49; demo_card 0]; OReset [] true true] ++ bets [7; 7; 6]) c s E.
  split; [exact (played_fair _ _ _ _ E)|]. split; [unfold in_progress; assert (X : action s = Some 2%nat) by by_play E; rewrite X; discriminate|].
  cbv zeta. split; [plays E|]. split; [apply covered_foldsb_ok; by_play E|]. split; [apply regular_tiesb_ok; by_play E|]. plays E.
Qed.
(** a hand that has gone past its last street is stuck: every step raises and changes nothing *)
Theorem C35_stuck : forall c s b, reachable c s -> in_progress s -> (num_streets c <= street s)%nat ->
  fst (step c s b) = s /\ is_ok (snd (step c s b)) = false.
Proof.
  intros c s b R P H. destruct (step_anatomy c s b P) as [(_ & E1 & E2)|(s1 & H1 & _)]; [auto|exfalso].
  apply after_bet_effect in H1. destruct H1 as (a & call & mi & ma & bet & folds & B).
  pose proof (bet_sizes_street c s _ (reachable_cfg c s R) (be_sizes _ _ _ _ _ _ _ _ _ _ B)). lia.
Qed.
Print Assumptions C35_stuck.
(** button at seat 1, the winners are seats 0 and 1: the step raises and the hand cannot be finished *)
Definition stuck_ops := [OReset [] true true; OTrick [demo_card 51; demo_card 48; demo_card 4; demo_card 0]; OReset [] false true] ++ bets [7; 7; -1].
Theorem C35_stuck_reached : exists c s, fair c s /\ in_progress s /\ snd (step c s (PyInt (-1))) = Err IndexError /\
  let s' := fst (step c s (PyInt (-1))) in
  in_progress s' /\ pot s' = 17 /\ forall bs, run_steps c s' bs = s'.
Proof.
  assert (K : exists c s, fair c s /\ action s = Some 3%nat /\
    snd (step c s (PyInt (-1))) = Err IndexError /\ action (fst (step c s (PyInt (-1)))) = Some 0%nat /\ pot (fst (step c s (PyInt (-1)))) = 17 /\
    num_streets c = 1%nat /\ street (fst (step c s (PyInt (-1)))) = 1%nat).
  { play odd_game stuck_ops c s E. split; [exact (played_fair _ _ _ _ E)|]. plays E. }
  destruct K as (c & s & F & K1 & K2 & K3 & K4 & K5 & K6). exists c, s. split; [exact F|]. split; [unfold in_progress; rewrite K1; discriminate|].
  split; [exact K2|]. cbv zeta. assert (P : in_progress (fst (step c s (PyInt (-1))))) by (unfold in_progress; rewrite K3; discriminate).
  split; [exact P|]. split; [exact K4|].
  assert (R : reachable c (fst (step c s (PyInt (-1))))) by exact (reach_op c s (OStep (PyInt (-1))) (fair_reachable _ _ F) I).
  intros bs. induction bs as [|b bs IH]; [reflexivity|]. change (run_steps c (fst (step c s (PyInt (-1)))) (b :: bs)) with (run_steps c (fst (step c (fst (step c s (PyInt (-1)))) b)) bs).
  destruct (C35_stuck c _ b R P ltac:(rewrite K5, K6; lia)) as [E _]. now rewrite E.
Qed.
Print Assumptions C35_stuck_reached.

(** ** C36 Folded players win nothing *)
(** when the hand does not go to showdown *)
Theorem C36_no_showdown : forall c s b, fair c s -> in_progress s ->
  let s' := fst (step c s b) in
  action s' = None -> count_true (active s') = 1 \/ (street s' < num_streets c)%nat ->
  exists out, snd (step c s b) = Ok out /\
    forall i, (i < num_players c)%nat -> ~ is_active s' i -> nth i (out_payouts out) 0 = - committed s' i.
Proof.
  intros c s b F Hp. cbv zeta. intros Hn Hc. destruct (step_ended c s b F Hp Hn) as (z & pay & o & E).
  pose proof (en_settled _ _ _ _ _ _ E) as Z. destruct (se_same _ _ _ _ Z) as (E1 & E2 & E3 & _). exists (mkOut o pay (done_list c z)). split; [apply E|].
  cbn [out_payouts]. unfold is_active, committed. rewrite E1, E2, E3 in *. intros i Hi Ai. apply not_true_is_false in Ai.
  destruct (Z.eq_dec (count_true (active z)) 1) as [C|C].
  - destruct (payouts_fold c z C (se_active _ _ _ _ Z) (se_commits _ _ _ _ Z)) as (pay' & P' & H). rewrite (en_pay _ _ _ _ _ _ E) in P'. injection P' as <-.
    rewrite (H i Hi), Ai. reflexivity.
  - destruct (payouts_early c z C ltac:(lia) (se_active _ _ _ _ Z) (se_commits _ _ _ _ Z)) as (pay' & P' & H). rewrite (en_pay _ _ _ _ _ _ E) in P'. injection P' as <-.
    rewrite (H i Hi), Ai. reflexivity.
Qed.
Print Assumptions C36_no_showdown.
(** at a showdown: when the folded players are covered, and the button is at seat 0 *)
Lemma showdown_folded c s b z pay o i : ended c s b z pay o -> count_true (active z) <> 1 -> (num_streets c <= street z)%nat ->
  covered_folds (show_of c z) -> button z = O -> (i < num_players c)%nat -> nth i (active z) false = false -> nth i pay 0 = - committed z i.
Proof.
  intros E Hc Hs Cov Hb Hi Ai. pose proof (en_settled _ _ _ _ _ _ E) as Z.
  destruct (show_payouts c z Hc Hs (se_commits _ _ _ _ Z) (se_hole _ _ _ _ Z) (se_button _ _ _ _ Z) (se_nonneg _ _ _ _ Z) (or_introl (se_pot _ _ _ _ Z))) as [(e & _ & X)|(st & X & G & T & P)];
    [rewrite (en_pay _ _ _ _ _ _ E) in X; discriminate|].
  cbv zeta in *. destruct (eval_hands_spec c z st (se_hole _ _ _ _ Z) X) as [Ls Hst].
  assert (Sh : forall j, (j < num_players c)%nat -> nth j (active z) false = false -> share (pots_of c z st) j = 0).
  { intros j Hj Aj. apply (show_out (show_of c z) (worst_hand c) st (pot_commits z) (num_players c) j); try assumption; try reflexivity; [apply Z| |].
    - intros k Hk Ak. destruct (Hst k Hk) as [H _]. now apply H.
    - intros k Hk Ak. destruct (Hst k Hk) as [_ H]. now apply H. }
  rewrite (en_pay _ _ _ _ _ _ E) in P. destruct (odd_chips (pots_of c z st) =? 0) eqn:E0.
  - injection P as ->. rewrite sub_lists_nth by (rewrite base_length; symmetry; apply Z). rewrite base_nth by exact Hi. rewrite (Sh i Hi Ai). unfold committed. lia.
  - destruct (first_after _ _ _) as [q|] eqn:Eq; [|discriminate]. injection P as ->. apply first_after_spec in Eq. destruct Eq as (Q1 & Q2 & _).
    rewrite base_nth in Q2 by lia. rewrite Hb, Nat.sub_0_r. assert (q <> i) by (intros ->; apply Q2; now apply Sh).
    rewrite sub_lists_nth by (rewrite add_at_length, base_length; symmetry; apply Z). rewrite add_at_nth by (rewrite base_length; lia).
    replace (Nat.eqb i q) with false by lia. rewrite base_nth by exact Hi. rewrite (Sh i Hi Ai). unfold committed. lia.
Qed.
Theorem C36_covered : forall c s b, fair c s -> in_progress s ->
  let s' := fst (step c s b) in
  action s' = None -> covered_folds (show_of c s') -> button s' = O ->
  exists out, snd (step c s b) = Ok out /\
    forall i, (i < num_players c)%nat -> ~ is_active s' i -> nth i (out_payouts out) 0 = - committed s' i.
Proof.
  intros c s b F Hp. cbv zeta. intros Hn Cov Hb. destruct (step_ended c s b F Hp Hn) as (z & pay & o & E).
  pose proof (en_settled _ _ _ _ _ _ E) as Z. destruct (se_same _ _ _ _ Z) as (E1 & E2 & E3 & E4 & _).
  destruct (Z.eq_dec (count_true (active z)) 1) as [C|C]; [apply C36_no_showdown; try assumption; left; rewrite E1; exact C|].
  destruct (Nat.lt_ge_cases (street z) (num_streets c)) as [L|L]; [apply C36_no_showdown; try assumption; right; rewrite E3; exact L|].
  exists (mkOut o pay (done_list c z)). split; [apply E|]. cbn [out_payouts]. intros i Hi Ai. apply not_true_is_false in Ai. rewrite E1 in Ai.
  replace (committed (fst (step c s b)) i) with (committed z i) by (unfold committed; now rewrite E2).
  rewrite (show_of_same _ _ _ _ Z) in Cov. rewrite E4 in Hb. now apply (showdown_folded c s b z pay o).
Qed.
Print Assumptions C36_covered.
(** with the button elsewhere it may fail: the button is at seat 1, seats 0 and 2 tie, and the odd
    chip goes to seat 1, who has folded without putting anything in *)
Definition fold_game := demo 4 1 [1; 3; 0; 0] [0; 0; 0; 0] [RawInf] [RawCountInf] [0] 20.
Definition fold_ops := [OReset [] true true; OTrick [demo_card 51; demo_card 10; demo_card 48; demo_card 0]; OReset [] false true] ++ bets [7; -1; 6].
Theorem C36_refuted : ~ forall c s b, fair c s -> in_progress s ->
  let s' := fst (step c s b) in
  action s' = None ->
  exists out, snd (step c s b) = Ok out /\
    forall i, (i < num_players c)%nat -> ~ is_active s' i -> nth i (out_payouts out) 0 = - committed s' i.
Proof.
  intros H.
  assert (K : exists c s, fair c s /\ action s = Some 3%nat /\ action (fst (step c s (PyInt (-1)))) = None /\ num_players c = 4%nat /\
    active (fst (step c s (PyInt (-1)))) = [true; false; true; false] /\ pot_commits (fst (step c s (PyInt (-1)))) = [7; 0; 7; 3] /\
    match snd (step c s (PyInt (-1))) with Ok out => Some (out_payouts out) | Err _ => None end = Some [1; 1; 1; -3]).
  { play fold_game fold_ops c s E. split; [exact (played_fair _ _ _ _ E)|]. plays E. }
  destruct K as (c & s & F & K1 & K2 & K3 & K4 & K5 & K6). specialize (H c s (PyInt (-1)) F). cbv zeta in H.
  destruct H as (out & H1 & H2); [unfold in_progress; rewrite K1; discriminate|exact K2|]. rewrite H1 in K6. injection K6 as K6.
  specialize (H2 1%nat). unfold is_active, committed in H2. rewrite K3, K4, K5, K6 in H2. cbn [nth] in H2. specialize (H2 ltac:(lia) ltac:(discriminate)). lia.
Qed.
Print Assumptions C36_refuted.
(** and when a folded player's ante exceeds everything the others have put in: the button is at
    seat 0, and seat 2, who folded with 11 chips in, takes 2 of them back *)
Definition ante_game := demo 3 1 [1; 2; 0] [0; 9; 0] [RawInf] [RawCountInf] [0] 20.
Definition ante_ops := [OTrick [demo_card 10; demo_card 51; demo_card 48]; OReset [] true true] ++ bets [2; 5; -1].
Theorem C36_refuted_antes : exists c s out, fair c s /\ in_progress s /\ 
  let s' := fst (step c s (PyInt 3)) in
  action s' = None /\ button s' = O /\ snd (step c s (PyInt 3)) = Ok out /\ ~ is_active s' 2 /\ committed s' 2 = 11 /\ nth 2 (out_payouts out) 0 = -9.
Proof.
  assert (K : exists c s, fair c s /\ action s = Some 0%nat /\ action (fst (step c s (PyInt 3))) = None /\ button (fst (step c s (PyInt 3))) = 0%nat /\
    active (fst (step c s (PyInt 3))) = [true; true; false] /\ pot_commits (fst (step c s (PyInt 3))) = [6; 6; 11] /\
    match snd (step c s (PyInt 3)) with Ok out => Some (out_payouts out) | Err _ => None end = Some [-6; 15; -9]).
  { play ante_game ante_ops c s E. split; [exact (played_fair _ _ _ _ E)|]. plays E. }
  destruct K as (c & s & F & K1 & K2 & K3 & K4 & K5 & K6). destruct (snd (step c s (PyInt 3))) as [out|] eqn:Eo; [|discriminate K6].
  injection K6 as K6. exists c, s, out. split; [exact F|]. split; [unfold in_progress; rewrite K1; discriminate|]. cbv zeta. rewrite Eo.
  split; [exact K2|]. split; [exact K3|]. split; [reflexivity|]. unfold is_active, committed. rewrite K4, K5, K6. cbn [nth]. split; [discriminate|]. split; reflexivity.
Qed.
Print Assumptions C36_refuted_antes.
(** the same hand with the button at seat 0: the odd chip goes to seat 1, one of the winners *)
Example C36_example : exists c s, fair c s /\ in_progress s /\
  let s' := fst (step c s (PyInt (-1))) in
  action s' = None /\ covered_folds (show_of c s') /\ button s' = O /\ active s' = [false; true; false; true] /\
  pot_commits s' = [0; 7; 3; 7] /\ street s' = num_streets c /\ stacks s' = [20; 22; 17; 21].
Proof.
  play fold_game ([OTrick [demo_card 10; demo_card 51; demo_card 0; demo_card 48]; OReset [] true true] ++ bets [7; -1; 6]) c s E.
  split; [exact (played_fair _ _ _ _ E)|]. split; [unfold in_progress; assert (X : action s = Some 2%nat) by by_play E; rewrite X; discriminate|].
  cbv zeta. split; [by_play E|]. split; [apply covered_foldsb_ok; by_play E|]. splits; try by_play E.
  assert (X : street (fst (step c s (PyInt (-1)))) = 1%nat) by by_play E. assert (Y : num_streets c = 1%nat) by by_play E. rewrite X. symmetry. exact Y.
Qed.
