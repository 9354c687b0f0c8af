(** * PropNumpyBetter: property C89 (at the array dealer a better hand never pays less) *)
From Coq Require Import ZifyBool ZifyNat Arith.
From Verif Require Import PyBase PyFacts CardModel EvalModel EngineModel EngineSpec EngineFacts BetFacts EngineDemo MoneyFacts
  PropRound ShowSpec ShowFacts SideFacts SideExists HandEnd PropSide PropHidden PropBetter
  NumpyModel NumpySpec NumpyFacts PropNumpy PropNumpyHidden.

Lemma np_step_end_same c z : active (fst (np_step_end c z)) = active z /\ pot_commits (fst (np_step_end c z)) = pot_commits z /\
  street (fst (np_step_end c z)) = street z /\ hole_cards (fst (np_step_end c z)) = hole_cards z /\ community_cards (fst (np_step_end c z)) = community_cards z.
Proof. destruct (np_step_end_cases c z) as [(e & _ & ->)|[(pay & _ & _ & ->)|(pay & _ & _ & ->)]]; splits; reflexivity. Qed.
Lemma np_same_commits c s t b : in_progress s -> same_play s t -> action (fst (np_step c s b)) = None ->
  active (fst (np_step c t b)) = active (fst (np_step c s b)) /\ pot_commits (fst (np_step c t b)) = pot_commits (fst (np_step c s b)).
Proof.
  intros Hp Q As. destruct (np_same_step c s t b Hp Q) as [(_ & X & _)|(z & k & d & E1 & E2)]; [rewrite X in As; contradiction|].
  rewrite E1, E2. destruct (np_step_end_same c z) as (-> & -> & _). destruct (np_step_end_same c (recard z k d (hole_cards t))) as (-> & -> & _). split; reflexivity.
Qed.

(** ** C89 At the array dealer a better hand never pays less *)
(** As C84 for the list dealer, but with any ties: the same bets by the same players at two tables,
    everybody but [i] shows the same cards and [i] shows a hand at least as good (a smaller rank) at
    the second table.  If the side pots can be divided at both tables then [i] is paid at least as
    much at the second, and nobody else is paid more. *)
Theorem C89_partial : forall c s t b i, np_fair c s -> np_fair c t -> in_progress s -> same_play s t ->
  let s' := fst (np_step c s b) in let t' := fst (np_step c t b) in
  action s' = None -> action t' = None -> 2 <= count_true (active s') ->
  community_cards t' = community_cards s' ->
  (forall j, j <> i -> nth j (hole_cards t') [] = nth j (hole_cards s') []) ->
  (forall v v', evaluate (the_evaluator c) (nth i (hole_cards s') []) (community_cards s') = Ok v ->
     evaluate (the_evaluator c) (nth i (hole_cards t') []) (community_cards t') = Ok v' -> v' <= v) ->
  (i < num_players c)%nat -> is_active s' i -> covered_folds (show_of c s') ->
  (forall pots, side_pots (show_of c s') 0 pots -> odd_chips pots = 0) ->
  (forall pots, side_pots (show_of c t') 0 pots -> odd_chips pots = 0) ->
  exists out out', snd (np_step c s b) = Ok out /\ snd (np_step c t b) = Ok out' /\
    nth i (out_payouts out) 0 <= nth i (out_payouts out') 0 /\
    forall j, (j < num_players c)%nat -> j <> i -> nth j (out_payouts out') 0 <= nth j (out_payouts out) 0.
Proof.
  intros c s t b i Fs Ft Hp Q. cbv zeta. intros As At Hc Hk Hh Hv Hi Ai Cov L3 L3'.
  assert (Hp' : in_progress t) by (unfold in_progress; now rewrite (sm_action _ _ Q)).
  destruct (np_same_commits c s t b Hp Q As) as [Sa Sc].
  assert (Hc' : 2 <= count_true (active (fst (np_step c t b)))) by now rewrite Sa.
  assert (Cov' : covered_folds (show_of c (fst (np_step c t b)))).
  { unfold covered_folds in *. cbn [show_of sd_players sd_in sd_put] in *. unfold committed in *. now rewrite Sa, Sc. }
  destruct (C66_partial c s b Fs Hp As Hc Cov) as (out & pots & H1 & H2 & H3 & (q & _ & _ & H4) & _).
  destruct (C66_partial c t b Ft Hp' At Hc' Cov') as (out' & pots' & H1' & H2' & H3' & (q' & _ & _ & H4') & _).
  exists out, out'. split; [exact H1|]. split; [exact H1'|].
  assert (Ai' : is_active (fst (np_step c t b)) i) by (unfold is_active in *; now rewrite Sa).
  assert (Im : improved i (show_of c (fst (np_step c s b))) (show_of c (fst (np_step c t b)))).
  { split.
    - reflexivity.
    - intros j. cbn [show_of sd_in]. now rewrite Sa.
    - intros j. cbn [show_of sd_put]. unfold committed. now rewrite Sc.
    - intros j Nj. cbn [show_of sd_rank]. now rewrite Hk, Hh.
    - apply Hv; [now apply H2|now apply H2']. }
  assert (Pn : forall j, 0 <= sd_put (show_of c (fst (np_step c s b))) j).
  { intros j. cbn [show_of sd_put]. destruct (np_step_ended c s b (np_fair_money c s Fs) Hp As) as (z & pay & o & En). pose proof (ne_settled _ _ _ _ _ _ En) as Z.
    unfold committed. destruct (np_same _ _ _ _ Z) as (_ & -> & _). apply (ns_nonneg _ _ _ _ Z). }
  destruct (improved_shares i _ _ Im pots pots' Pn H3 H3') as [M1 M2]. specialize (M1 (L3' _ H3')). specialize (M2 (L3 _ H3)).
  assert (P : forall j, (j < num_players c)%nat -> nth j (out_payouts out) 0 = share pots j - committed (fst (np_step c s b)) j).
  { intros j Hj. specialize (H4 j Hj). rewrite (L3 _ H3) in H4. destruct (Nat.eqb j q); lia. }
  assert (P' : forall j, (j < num_players c)%nat -> nth j (out_payouts out') 0 = share pots' j - committed (fst (np_step c s b)) j).
  { intros j Hj. specialize (H4' j Hj). rewrite (L3' _ H3') in H4'. unfold committed in *. rewrite Sc in H4'. destruct (Nat.eqb j q'); lia. }
  split; [rewrite P, P' by exact Hi; lia|]. intros j Hj Nj. rewrite P, P' by exact Hj. specialize (M2 j Nj). lia.
Qed.
Print Assumptions C89_partial.

Lemma np_fair_run_steps c bs : forall s, np_fair c s -> np_fair c (np_run_steps c s bs).
Proof.
  induction bs as [|b bs IH]; intros s F; [exact F|]. change (np_run_steps c s (b :: bs)) with (np_run_steps c (fst (np_step c s b)) bs).
  apply IH. exact (np_fair_op c s (OStep b) F I I).
Qed.
(** The same for a whole hand: [bs] are the bets before the last one. *)
Theorem C89_hand_partial : forall c s t bs b i, np_fair c s -> np_fair c t -> in_progress s -> same_play s t ->
  Forall (fun r => is_ok r = true) (np_replies c s bs) -> in_progress (np_run_steps c s bs) ->
  let s' := np_run_steps c s (bs ++ [b]) in let t' := np_run_steps c t (bs ++ [b]) in
  action s' = None -> action t' = None -> 2 <= count_true (active s') ->
  community_cards t' = community_cards s' ->
  (forall j, j <> i -> nth j (hole_cards t') [] = nth j (hole_cards s') []) ->
  (forall v v', evaluate (the_evaluator c) (nth i (hole_cards s') []) (community_cards s') = Ok v ->
     evaluate (the_evaluator c) (nth i (hole_cards t') []) (community_cards t') = Ok v' -> v' <= v) ->
  (i < num_players c)%nat -> is_active s' i -> covered_folds (show_of c s') ->
  (forall pots, side_pots (show_of c s') 0 pots -> odd_chips pots = 0) ->
  (forall pots, side_pots (show_of c t') 0 pots -> odd_chips pots = 0) ->
  stack_of s' i <= stack_of t' i /\
  forall j, (j < num_players c)%nat -> j <> i -> stack_of t' j <= stack_of s' j.
Proof.
  intros c s t bs b i Fs Ft Hp Q Ok1 Hp1. cbv zeta.
  assert (Ap : forall x, np_run_steps c x (bs ++ [b]) = fst (np_step c (np_run_steps c x bs) b)) by (intros x; unfold np_run_steps; rewrite fold_left_app; reflexivity).
  rewrite !Ap. clear Ap. intros As At Hc Hk Hh Hv Hi Ai Cov Ls Lt.
  destruct (C88_run c bs s t Hp Q Ok1 Hp1) as [Q1 _]. pose proof (np_fair_run_steps c bs s Fs) as F1. pose proof (np_fair_run_steps c bs t Ft) as F2.
  set (u := np_run_steps c s bs) in *. set (v := np_run_steps c t bs) in *. clearbody u v. clear Fs Ft Hp Q Ok1 s t.
  destruct (C89_partial c u v b i F1 F2 Hp1 Q1 As At Hc Hk Hh Hv Hi Ai Cov Ls Lt) as (out & out' & H1 & H2 & H3 & H4).
  assert (Hp2 : in_progress v) by (unfold in_progress; now rewrite (sm_action _ _ Q1)).
  destruct (np_step_ended c u b (np_fair_money c u F1) Hp1 As) as (z & pay & o & En). destruct (np_step_ended c v b (np_fair_money c v F2) Hp2 At) as (z' & pay' & o' & En').
  assert (St : forall j, (j < num_players c)%nat -> stack_of (fst (np_step c v b)) j - nth j (out_payouts out') 0 = stack_of (fst (np_step c u b)) j - nth j (out_payouts out) 0).
  { intros j Hj. rewrite (np_ended_stack _ _ _ _ _ _ j En Hj), (np_ended_stack _ _ _ _ _ _ j En' Hj).
    rewrite (ne_out _ _ _ _ _ _ En) in H1. rewrite (ne_out _ _ _ _ _ _ En') in H2. injection H1 as <-. injection H2 as <-. cbn [out_payouts].
    pose proof (np_each c u b z j (np_fair_money c u F1) (ne_settled _ _ _ _ _ _ En)) as X1. pose proof (np_each c v b z' j (np_fair_money c v F2) (ne_settled _ _ _ _ _ _ En')) as X2.
    unfold stack_of, committed in *. rewrite (sm_stacks _ _ Q1), (sm_commits _ _ Q1) in X2. lia. }
  split; [specialize (St i Hi); lia|]. intros j Hj Nj. specialize (H4 j Hj Nj). specialize (St j Hj). lia.
Qed.
Print Assumptions C89_hand_partial.

(** The cards of players who have folded make no difference at all. *)
Theorem C89_folded : forall c s t b out, np_fair c s -> np_fair c t -> in_progress s -> same_play s t ->
  let s' := fst (np_step c s b) in let t' := fst (np_step c t b) in
  community_cards t' = community_cards s' ->
  (forall j, is_active s' j -> nth_error (hole_cards t') j = nth_error (hole_cards s') j) ->
  snd (np_step c s b) = Ok out ->
  same_play s' t' /\ (action s' = None -> exists out', snd (np_step c t b) = Ok out' /\ out_payouts out' = out_payouts out /\ out_done out' = out_done out).
Proof.
  intros c s t b out Fs Ft Hp Q. cbv zeta. intros Hk Hh Ho.
  assert (Hp' : in_progress t) by (unfold in_progress; now rewrite (sm_action _ _ Q)).
  destruct (np_same_step c s t b Hp Q) as [(X & _)|(z & k & d & E1 & E2)]; [rewrite Ho in X; discriminate X|].
  assert (P : np_payouts c (recard z k d (hole_cards t)) = np_payouts c z).
  { rewrite E1, E2 in Hk, Hh. destruct (np_step_end_same c z) as (Q1 & Q2 & Q3 & Q4 & Q5). destruct (np_step_end_same c (recard z k d (hole_cards t))) as (_ & _ & _ & R4 & R5).
    rewrite Q5, R5 in Hk. rewrite Q4, R4 in Hh. unfold is_active in Hh. rewrite Q1 in Hh. cbn [recard community_cards hole_cards] in Hk, Hh. subst k.
    unfold np_payouts, np_eval_round. cbn [recard active hole_cards community_cards pot_commits pot street button].
    replace (eval_hands c (active z) (hole_cards t) (community_cards z)) with (eval_hands c (active z) (hole_cards z) (community_cards z)); [reflexivity|].
    unfold eval_hands. induction (seq 0 (num_players c)) as [|j l IH]; [reflexivity|]. cbn [map_res]. rewrite IH.
    destruct (nth j (active z) false) eqn:Aj; [|reflexivity]. unfold get. now rewrite (Hh j Aj). }
  assert (St : same_play (fst (np_step c s b)) (fst (np_step c t b))).
  { rewrite E1, E2. unfold np_step_end. rewrite P. change (np_done_list c (recard z k d (hole_cards t))) with (np_done_list c z).
    destruct (np_payouts c z) as [pay|e]; [|apply recard_same_play]. destruct (all_true (np_done_list c z)); cbn [fst]; [|apply recard_same_play]. split; reflexivity. }
  split; [exact St|]. intros An. destruct (np_step_ended c t b (np_fair_money c t Ft) Hp' ltac:(now rewrite (sm_action _ _ St))) as (z' & pay' & o' & En).
  destruct (np_step_ended c s b (np_fair_money c s Fs) Hp An) as (y & pay & o & Es).
  eexists. split; [apply En|]. rewrite (ne_out _ _ _ _ _ _ Es) in Ho. injection Ho as <-. cbn [out_payouts out_done]. split; [|reflexivity].
  pose proof (ne_out _ _ _ _ _ _ Es) as Eo. pose proof (ne_out _ _ _ _ _ _ En) as Eo'. rewrite E1 in Eo. rewrite E2 in Eo'. unfold np_step_end in Eo, Eo'. rewrite P in Eo'.
  destruct (np_payouts c z) as [py|e]; [|discriminate Eo]. cbn [snd] in Eo, Eo'.
  match type of Eo with bind ?x _ = _ => destruct x as [o1|]; [|discriminate Eo] end. match type of Eo' with bind ?x _ = _ => destruct x as [o2|]; [|discriminate Eo'] end.
  cbn [bind] in Eo, Eo'. injection Eo as _ <- _. injection Eo' as _ <- _. reflexivity.
Qed.
Print Assumptions C89_folded.

(** *** Examples *)
Lemma even_check c s : odd_chips (pots_fun (S (num_players c)) (show_of c s) 0) = 0 -> forall pots, side_pots (show_of c s) 0 pots -> odd_chips pots = 0.
Proof. intros H pots SP. destruct (side_pots_unique _ _ _ SP _ (pots_fun_players (show_of c s))) as [-> _]. exact H. Qed.
Definition np_last_out (c : config) (s : state) (b : Z) : option (list Z) := match snd (np_step c s (PyInt b)) with Ok out => Some (out_payouts out) | Err _ => None end.
Definition np_better_deal (e : nat) := better_deal 51 0 48 e.
(** the hands of C84_example *)
Example C89_example : exists c s t b, np_fair c s /\ np_fair c t /\ in_progress s /\ same_play s t /\
  let s' := fst (np_step c s b) in let t' := fst (np_step c t b) in
  action s' = None /\ action t' = None /\ 2 <= count_true (active s') /\
  community_cards t' = community_cards s' /\
  (forall j, j <> 3%nat -> nth j (hole_cards t') [] = nth j (hole_cards s') []) /\
  (forall v v', evaluate (the_evaluator c) (nth 3 (hole_cards s') []) (community_cards s') = Ok v ->
     evaluate (the_evaluator c) (nth 3 (hole_cards t') []) (community_cards t') = Ok v' -> v' <= v) /\
  (3 < num_players c)%nat /\ is_active s' 3 /\ covered_folds (show_of c s') /\
  (forall pots, side_pots (show_of c s') 0 pots -> odd_chips pots = 0) /\
  (forall pots, side_pots (show_of c t') 0 pots -> odd_chips pots = 0) /\
  np_last_out c s 12 = Some [6; -12; 18; -12] /\ np_last_out c t 12 = Some [2; -12; 5; 5] /\ b = PyInt 12.
Proof.
  assert (K : exists c s0, np_fair c s0 /\
    let s := np_run c s0 (np_better_deal 44) in let t := np_run c s0 (np_better_deal 49) in
    let s' := fst (np_step c s (PyInt 12)) in let t' := fst (np_step c t (PyInt 12)) in
    (np_all_allowed c s0 (np_better_deal 44) = true /\ np_all_allowed c s0 (np_better_deal 49) = true) /\
    (play_of s = better_play /\ play_of t = better_play /\ action s = Some 2%nat /\ num_players c = 4%nat) /\
    (action s' = None /\ action t' = None /\ active s' = [true; true; true; true] /\ community_cards s' = [] /\ community_cards t' = []) /\
    (hole_cards s' = [[demo_card 51]; [demo_card 0]; [demo_card 48]; [demo_card 44]] /\ hole_cards t' = [[demo_card 51]; [demo_card 0]; [demo_card 48]; [demo_card 49]]) /\
    (match evaluate (the_evaluator c) [demo_card 44] [], evaluate (the_evaluator c) [demo_card 49] [] with Ok v, Ok v' => v' <? v | _, _ => false end = true) /\
    covered_foldsb (show_of c s') = true /\ odd_chips (pots_fun 5 (show_of c s') 0) = 0 /\ odd_chips (pots_fun 5 (show_of c t') 0) = 0 /\ 
    np_last_out c s 12 = Some [6; -12; 18; -12] /\ np_last_out c t 12 = Some [2; -12; 5; 5]).
  { np_play side_game (@nil op) c s0 E. split; [exact (np_played_fair _ _ _ _ E)|]. cbv zeta. np_plays E. }
  destruct K as (c & s0 & F & (A1 & A2) & (B1 & B1' & B2 & B3) & (C1 & C2 & C3 & C6 & C7) & (D1 & D2) & G & L1 & L3 & M3 & P1 & P2).
  pose proof (np_fair_run c s0 (np_better_deal 44) F A1) as Fs. pose proof (np_fair_run c s0 (np_better_deal 49) F A2) as Ft.
  set (s := np_run c s0 (np_better_deal 44)) in *. set (t := np_run c s0 (np_better_deal 49)) in *. clearbody s t. clear A1 A2 F s0.
  rewrite <- B1 in B1'. clear B1. rename B1' into B1.
  exists c, s, t, (PyInt 12). split; [exact Fs|]. split; [exact Ft|]. split; [unfold in_progress; rewrite B2; discriminate|].
  split; [clear - B1; unfold play_of in B1; injection B1 as Q1 Q2 Q3 Q4 Q5 Q6 Q7 Q8 Q9 Q10 Q11 Q12; split; assumption|]. cbv zeta.
  split; [exact C1|]. split; [exact C2|]. split; [rewrite C3; cbn; lia|]. split; [now rewrite C6, C7|].
  split; [intros j Nj; rewrite D1, D2; destruct j as [|[|[|[|j]]]]; try reflexivity; now destruct Nj|].
  split. { rewrite D1, D2, C6, C7. cbn [nth]. intros v v' V V'. rewrite V, V' in G. lia. }
  split; [rewrite B3; lia|]. split; [unfold is_active; rewrite C3; reflexivity|]. split; [now apply covered_foldsb_ok|].
  split; [apply even_check; rewrite B3; exact L3|]. split; [apply even_check; rewrite B3; exact M3|].
  split; [exact P1|]. split; [exact P2|reflexivity].
Qed.

(** Without the divisibility of the pots the claim is false: seat 3 holds a queen and, at the second
    table, a king like seat 2.  Now they share the side pot, in which seat 1 has no chips, and the
    odd chip of this side pot goes to seat 1. *)
Definition np_side_deal (e : nat) := [OTrick [demo_card 0; demo_card 51; demo_card 44; demo_card e]; OSetStacks [10; 5; 10; 10]; OReset [] true false] ++ bets [20; 20; 20].
Definition np_side_play : option nat * list bool * nat * list (nat * Z * bool) * Z * (Z * list Z * list Z * nat) * (list Z * list bool * Z) :=
  (Some 2%nat, [true; true; true; true], 0%nat, [(3%nat, 10, false); (0%nat, 10, false); (1%nat, 5, false)], 10, (25, [10; 5; 0; 10], [0; 0; 10; 0], 0%nat),
   ([10; 5; 0; 10], [true; true; false; true], 1)).
Theorem C89_refuted : ~ forall c s t b i, np_fair c s -> np_fair c t -> in_progress s -> same_play s t ->
  let s' := fst (np_step c s b) in let t' := fst (np_step c t b) in
  action s' = None -> action t' = None -> 2 <= count_true (active s') ->
  community_cards t' = community_cards s' ->
  (forall j, j <> i -> nth j (hole_cards t') [] = nth j (hole_cards s') []) ->
  (forall v v', evaluate (the_evaluator c) (nth i (hole_cards s') []) (community_cards s') = Ok v ->
     evaluate (the_evaluator c) (nth i (hole_cards t') []) (community_cards t') = Ok v' -> v' <= v) ->
  (i < num_players c)%nat -> is_active s' i -> covered_folds (show_of c s') ->
  exists out out', snd (np_step c s b) = Ok out /\ snd (np_step c t b) = Ok out' /\
    nth i (out_payouts out) 0 <= nth i (out_payouts out') 0 /\
    forall j, (j < num_players c)%nat -> j <> i -> nth j (out_payouts out') 0 <= nth j (out_payouts out) 0.
Proof.
  intros H.
  assert (K : exists c s0, np_fair c s0 /\
    let s := np_run c s0 (np_side_deal 40) in let t := np_run c s0 (np_side_deal 45) in
    let s' := fst (np_step c s (PyInt 20)) in let t' := fst (np_step c t (PyInt 20)) in
    (np_all_allowed c s0 (np_side_deal 40) = true /\ np_all_allowed c s0 (np_side_deal 45) = true) /\
    (play_of s = np_side_play /\ play_of t = np_side_play /\ action s = Some 2%nat /\ num_players c = 4%nat) /\
    (action s' = None /\ action t' = None /\ active s' = [true; true; true; true] /\ community_cards s' = [] /\ community_cards t' = []) /\
    (hole_cards s' = [[demo_card 0]; [demo_card 51]; [demo_card 44]; [demo_card 40]] /\ hole_cards t' = [[demo_card 0]; [demo_card 51]; [demo_card 44]; [demo_card 45]]) /\
    (match evaluate (the_evaluator c) [demo_card 40] [], evaluate (the_evaluator c) [demo_card 45] [] with Ok v, Ok v' => v' <? v | _, _ => false end = true) /\
    covered_foldsb (show_of c s') = true /\ odd_chips (pots_fun 5 (show_of c s') 0) = 0 /\ odd_chips (pots_fun 5 (show_of c t') 0) = 1 /\ 
    np_last_out c s 20 = Some [-10; 15; 5; -10] /\ np_last_out c t 20 = Some [-10; 16; -3; -3]).
  { np_play side_game (@nil op) c s0 E. split; [exact (np_played_fair _ _ _ _ E)|]. cbv zeta. np_plays E. }
  destruct K as (c & s0 & F & (A1 & A2) & (B1 & B1' & B2 & B3) & (C1 & C2 & C3 & C6 & C7) & (D1 & D2) & G & L1 & L3 & M3 & P1 & P2).
  pose proof (np_fair_run c s0 (np_side_deal 40) F A1) as Fs. pose proof (np_fair_run c s0 (np_side_deal 45) F A2) as Ft.
  set (s := np_run c s0 (np_side_deal 40)) in *. set (t := np_run c s0 (np_side_deal 45)) in *. clearbody s t. clear A1 A2 F s0.
  rewrite <- B1 in B1'. clear B1. rename B1' into B1.
  specialize (H c s t (PyInt 20) 3%nat Fs Ft). cbv zeta in H. destruct H as (out & out' & H1 & H2 & _ & H3).
  - unfold in_progress. rewrite B2. discriminate.
  - clear - B1. unfold play_of in B1. injection B1 as Q1 Q2 Q3 Q4 Q5 Q6 Q7 Q8 Q9 Q10 Q11 Q12. split; assumption.
  - exact C1.
  - exact C2.
  - rewrite C3. cbn. lia.
  - now rewrite C6, C7.
  - intros j Nj. rewrite D1, D2. destruct j as [|[|[|[|j]]]]; try reflexivity. now destruct Nj.
  - rewrite D1, D2, C6, C7. cbn [nth]. intros v v' V V'. rewrite V, V' in G. lia.
  - rewrite B3. lia.
  - unfold is_active. rewrite C3. reflexivity.
  - now apply covered_foldsb_ok.
  - unfold np_last_out in P1, P2. rewrite H1 in P1. rewrite H2 in P2. injection P1 as P1. injection P2 as P2. specialize (H3 1%nat). rewrite P1, P2, B3 in H3. cbn [nth] in H3. lia.
Qed.
Print Assumptions C89_refuted.
