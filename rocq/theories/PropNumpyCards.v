(** * PropNumpyCards: the cards of the dealer on arrays (C75) *)
From Coq Require Import ZifyBool ZifyNat Arith Permutation Sorted.
From Verif Require Import PyBase PyFacts CardModel CardSpec CardProofs DeckSpec DeckProofs EvalModel EvalSpec EvalFinal EngineModel EngineSpec EngineFacts BetFacts EngineDemo MoneyFacts ConfigsModel
  PropEval PropConfig ShowSpec ShowFacts SideFacts SideExists HandEnd PropRound PropReset PropShow PropSide PropTerm PropBetting SolventSpec SolventFacts PropSolvent PropWin ExampleModel PropExample
  NumpyModel NumpySpec NumpyFacts PropNumpy PropNumpyAfter.

(** ** C75 Cards *)
Lemma cards_inv_wrap ns nr c s : cards_inv ns nr (wrap c s) <-> cards_inv ns nr s.
Proof. split; intros [C1 C2 C3]; split; assumption. Qed.
Lemma np_step_cards c s b : money c (wrap c s) ->
  let s' := fst (np_step c s b) in let t' := fst (step c (wrap c s) b) in
  hole_cards s' = hole_cards t' /\ community_cards s' = community_cards t' /\ the_deck s' = the_deck t' /\ street s' = street t'.
Proof.
  intros M. cbv zeta. destruct (action s) as [a|] eqn:Ea.
  - assert (Hp : in_progress s) by (unfold in_progress; congruence).
    destruct (np_both c s b M Hp) as [(-> & -> & _)|(z & Z & E)]; [splits; reflexivity|]. rewrite (ns_step _ _ _ _ Z), E.
    destruct (np_step_end_cases c z) as [(e & _ & ->)|[(pay & _ & _ & ->)|(pay & _ & _ & ->)]];
      destruct (step_end_cases c (wrap c z)) as [(e' & _ & ->)|[(pay' & _ & _ & ->)|(pay' & _ & _ & ->)]]; cbn [fst]; splits; reflexivity.
  - unfold np_step, step. change (action (wrap c s)) with (action s). rewrite Ea. splits; reflexivity.
Qed.
Lemma np_no_streets c s : np_fair c s -> num_streets c = O -> community_cards s = [] /\ hole_cards s = [] /\ action s = None.
Proof.
  intros F E0. pose proof (mo_cfg _ _ (np_fair_money c s F)) as W. induction F as [w rnd s H Hs|s o F IH Ho Hn].
  - apply Dealer_inv in H. rewrite (bd_state _ _ _ _ H). splits; reflexivity.
  - destruct IH as (J1 & J2 & J3). destruct o as [rnd rb rs|b|cs| |l]; cbn [np_apply_op].
    + assert (Ecc : num_community_cards c = []) by (apply length_zero_iff_nil; rewrite (cw_comm _ W); exact E0).
      unfold np_reset. rewrite Ecc. destruct (reset_active c s rs) as [act stk]. destruct (negb rs && _); auto.
    + unfold np_step. rewrite J3. auto.
    + destruct (deck_trick cs (the_deck s)); auto.
    + auto.
    + auto.
Qed.
Lemma np_cards_op ns nr c s o : np_fair c s -> np_allowed c s o ->
  match o with OTrick cs => NoDup (map c_int cs) | _ => True end ->
  cards_inv ns nr s -> cards_inv ns nr (np_apply_op c s o).
Proof.
  intros F Ho Hd C. pose proof (np_fair_money c s F) as M. pose proof (mo_cfg _ _ M) as W. pose proof (mo_wf _ _ M) as Iw.
  assert (Hz : num_streets c = O -> community_cards (wrap c s) = [] /\ hole_cards (wrap c s) = []).
  { intros E0. destruct (np_no_streets c s F E0) as (X & Y & _). auto. }
  assert (Al : allowed c (wrap c s) o).
  { destruct o as [rnd rb rs|b|cs| |l]; try exact I; [now apply np_allowed_wrap|exact Ho]. }
  pose proof (cards_inv_op ns nr c (wrap c s) o W Iw Al Hd Hz (proj2 (cards_inv_wrap ns nr c s) C)) as X.
  destruct o as [rnd rb rs|b|cs| |l]; cbn [np_apply_op apply_op] in *.
  - destruct (np_reset_wrap c s rnd rb rs W) as [E _]. rewrite <- E in X. exact (proj1 (cards_inv_wrap ns nr c _) X).
  - destruct (np_step_cards c s b M) as (E1 & E2 & E3 & _). destruct X as [X1 X2 X3]. split; rewrite ?E1, ?E2, ?E3; assumption.
  - change (the_deck (wrap c s)) with (the_deck s) in X. destruct (deck_trick cs (the_deck s)); destruct X as [X1 X2 X3]; split; assumption.
  - destruct X as [X1 X2 X3]; split; assumption.
  - destruct X as [X1 X2 X3]; split; assumption.
Qed.
Lemma dealer_cards rnd w c s : Dealer rnd w = Ok (c, s) -> cards_inv (Z.to_nat (rw_num_suits w)) (Z.to_nat (rw_num_ranks w)) s.
Proof.
  intros H. pose proof (Dealer_inv _ _ _ _ H) as B. destruct (new_deck_inv _ _ _ _ (bd_deck _ _ _ _ B)) as [D1 D2 D3]. cbn [fst snd] in *.
  split; try assumption. rewrite (bd_state _ _ _ _ B). cbn. exact D3.
Qed.
Lemma cards_inv_distinct ns nr s : cards_inv ns nr s -> NoDup (map c_int (community_cards s ++ List.concat (hole_cards s) ++ d_cards (the_deck s))).
Proof.
  intros [G1 _ G3]. eapply Permutation_NoDup; [apply Permutation_map, Permutation_sym; exact G3|].
  pose proof (dw_s _ _ _ G1). pose proof (dw_r _ _ _ G1). apply deck_cards_NoDup; lia.
Qed.
(** Table, hands and deck hold every card of the deck exactly once *)
Theorem C75_no_card_twice : forall w rnd c s0 ops, Dealer rnd w = Ok (c, s0) -> sane c -> np_all_allowed c s0 ops = true -> distinct_trick_ops ops ->
  let s := np_run c s0 ops in
  let cards := community_cards s ++ List.concat (hole_cards s) ++ d_cards (the_deck s) in
  Permutation cards (deck_cards (Z.to_nat (rw_num_suits w)) (Z.to_nat (rw_num_ranks w))) /\ NoDup (map c_int cards).
Proof.
  intros w rnd c s0 ops H Sn A D. cbv zeta. set (ns := Z.to_nat (rw_num_suits w)). set (nr := Z.to_nat (rw_num_ranks w)).
  assert (G : forall ops s, np_fair c s -> cards_inv ns nr s -> np_all_allowed c s ops = true -> distinct_trick_ops ops -> cards_inv ns nr (np_run c s ops)).
  { clear. induction ops as [|o ops IH]; intros s F C A D; [exact C|].
    pose proof (np_fair_run c s [o] F) as F1. cbn [np_all_allowed] in A, F1. destruct (np_allowedb c s o) eqn:Ea; [|discriminate A].
    inversion D as [|? ? D1 D2]; subst. change (np_run c s (o :: ops)) with (np_run c (np_apply_op c s o) ops).
    apply IH; [now apply F1| |exact A|exact D2]. apply np_cards_op; try assumption.
    destruct o as [rnd rb rs|b|cs| |l]; cbn in *; try exact I.
    - destruct (action s) eqn:Eq; [now right|now left].
    - apply andb_true_iff in Ea. now apply Nat.eqb_eq. }
  pose proof (G ops s0 (np_fair_new c w rnd s0 H Sn) (dealer_cards rnd w c s0 H) A D) as C.
  split; [apply C|now apply (cards_inv_distinct ns nr)].
Qed.
Print Assumptions C75_no_card_twice.
(** during a hand nobody's cards change, and the board only grows: by the next cards of the deck, as many as the streets reached say *)
Lemma np_comm_run c bs : forall s, np_fair c s ->
  hole_cards (np_run_steps c s bs) = hole_cards s /\ (street s <= street (np_run_steps c s bs))%nat /\
  community_cards (np_run_steps c s bs) = community_cards s ++
    firstn (comm_total c (street (np_run_steps c s bs)) - comm_total c (street s)) (d_cards (the_deck s)) /\
  d_cards (the_deck (np_run_steps c s bs)) = skipn (comm_total c (street (np_run_steps c s bs)) - comm_total c (street s)) (d_cards (the_deck s)).
Proof.
  induction bs as [|b bs IH]; intros s F.
  { cbn [np_run_steps fold_left]. rewrite Nat.sub_diag. cbn [firstn skipn]. rewrite app_nil_r. splits; reflexivity || lia. }
  change (np_run_steps c s (b :: bs)) with (np_run_steps c (fst (np_step c s b)) bs).
  pose proof (np_fair_money c s F) as M. pose proof (mo_cfg _ _ M) as W.
  destruct (IH (fst (np_step c s b)) (np_fair_op c s (OStep b) F I I)) as (I1 & I2 & I3 & I4).
  destruct (np_step_cards c s b M) as (E1 & E2 & E3 & E4). destruct (comm_run c [b] W (wrap c s)) as [K1 K2].
  change (run_steps c (wrap c s) [b]) with (fst (step c (wrap c s) b)) in K1, K2. rewrite <- E2, <- E4 in K1. rewrite <- E3, <- E4 in K2.
  cbn [wrap set_button community_cards the_deck street] in K1, K2.
  pose proof (step_street_mono c (wrap c s) b W) as M1. rewrite <- E4 in M1. cbn [wrap set_button street] in M1.
  assert (Eh : hole_cards (fst (np_step c s b)) = hole_cards s) by (rewrite E1; exact (step_hole_same c (wrap c s) b W)).
  set (s' := fst (np_step c s b)) in *. set (t := np_run_steps c s' bs) in *.
  split; [now rewrite I1|]. split; [lia|]. rewrite I3, I4, K1, K2.
  pose proof (comm_total_mono c _ _ M1). pose proof (comm_total_mono c _ _ I2).
  rewrite <- app_assoc, firstn_skipn_comp, skipn_skipn_comp.
  replace (comm_total c (street s') - comm_total c (street s) + (comm_total c (street t) - comm_total c (street s')))%nat
    with (comm_total c (street t) - comm_total c (street s))%nat by lia. auto.
Qed.
Theorem C75_hand : forall c s bs, np_fair c s ->
  let s' := np_run_steps c s bs in
  hole_cards s' = hole_cards s /\
  exists k, community_cards s' = community_cards s ++ firstn k (d_cards (the_deck s)) /\ d_cards (the_deck s') = skipn k (d_cards (the_deck s)).
Proof.
  intros c s bs F. cbv zeta. destruct (np_comm_run c bs s F) as (H1 & _ & H3 & H4). split; [exact H1|]. eexists. split; [exact H3|exact H4].
Qed.
Print Assumptions C75_hand.
(** the deal: everybody gets [num_hole_cards] cards, also a player without chips; the first cards of the board come before the hands *)
Theorem C75_deal : forall c s rnd rb rs, np_fair c s -> is_ok (snd (np_reset c s rnd rb rs)) = true ->
  let s' := fst (np_reset c s rnd rb rs) in
  let k := Z.to_nat (num_hole_cards c) in let b := Z.to_nat (hd 0 (num_community_cards c)) in
  let deck := d_cards (deck_shuffle rnd (the_deck s)) in
  community_cards s' = firstn b deck /\ List.length (hole_cards s') = num_players c /\
  (forall i, (i < num_players c)%nat -> nth i (hole_cards s') [] = firstn k (skipn (b + i * k) deck)) /\
  d_cards (the_deck s') = skipn (b + num_players c * k) deck.
Proof.
  intros c s rnd rb rs F H. cbv zeta. pose proof (np_fair_money c s F) as M. pose proof (mo_cfg _ _ M) as W. pose proof (mo_wf _ _ M) as Iw.
  destruct (np_reset_wrap c s rnd rb rs W) as [E1 E2].
  assert (H' : is_ok (snd (reset c (wrap c s) rnd rb rs)) = true) by (rewrite <- E2; destruct (snd (np_reset c s rnd rb rs)); [reflexivity|discriminate H]).
  destruct (reset_spec c (wrap c s) rnd rb rs W Iw) as [(_ & _ & E)|[(_ & E)|(_ & _ & _ & E)]]; [rewrite E in H'; discriminate H'|rewrite E in H'; discriminate H'|].
  rewrite <- E1 in E. set (s' := fst (np_reset c s rnd rb rs)) in *.
  assert (Ct : comm_total c 0 = Z.to_nat (hd 0 (num_community_cards c))).
  { unfold comm_total. destruct (num_community_cards c) as [|x l]; [reflexivity|]. cbn [firstn map list_sum hd fold_right]. lia. }
  split; [rewrite <- Ct; exact (re_comm _ _ _ _ _ _ E)|]. split; [exact (re_hole_len _ _ _ _ _ _ E)|]. rewrite <- Ct. split.
  - intros i Hi. exact (re_hole_nth _ _ _ _ _ _ E i Hi).
  - change (the_deck s') with (the_deck (wrap c s')). rewrite (re_deck _ _ _ _ _ _ E). reflexivity.
Qed.
Print Assumptions C75_deal.
(** on every street the board has the cards configured for the streets so far, if the deck is large enough *)
Theorem C75_board : forall c s rnd rb rs bs, np_fair c s -> is_ok (snd (np_reset c s rnd rb rs)) = true ->
  let s1 := np_run_steps c (fst (np_reset c s rnd rb rs)) bs in
  let on_board k := list_sum (map Z.to_nat (firstn (S k) (num_community_cards c))) in
  (on_board (street s1) + num_players c * Z.to_nat (num_hole_cards c) <= List.length (d_cards (deck_shuffle rnd (the_deck s))))%nat ->
  List.length (community_cards s1) = on_board (street s1).
Proof.
  intros c s rnd rb rs bs F H. cbv zeta.
  pose proof (np_fair_op c s (OReset rnd rb rs) F (or_intror H) I) as F1. cbn [np_apply_op] in F1.
  destruct (C75_deal c s rnd rb rs F H) as (D1 & _ & _ & D4). cbv zeta in D1, D4.
  destruct (np_comm_run c bs _ F1) as (_ & M1 & -> & _).
  assert (S0 : street (fst (np_reset c s rnd rb rs)) = O).
  { pose proof (np_fair_money c s F) as M. destruct (np_reset_wrap c s rnd rb rs (mo_cfg _ _ M)) as [E1 E2].
    change (street (wrap c (fst (np_reset c s rnd rb rs))) = O). rewrite E1.
    assert (H' : is_ok (snd (reset c (wrap c s) rnd rb rs)) = true) by (rewrite <- E2; destruct (snd (np_reset c s rnd rb rs)); [reflexivity|discriminate H]).
    destruct (reset_spec c (wrap c s) rnd rb rs (mo_cfg _ _ M) (mo_wf _ _ M)) as [(_ & _ & E)|[(_ & E)|(_ & _ & _ & E)]]; [rewrite E in H'; discriminate H'|rewrite E in H'; discriminate H'|exact (re_street _ _ _ _ _ _ E)]. }
  rewrite S0 in *. set (s1 := np_run_steps c (fst (np_reset c s rnd rb rs)) bs) in *.
  change (list_sum (map Z.to_nat (firstn (S (street s1)) (num_community_cards c)))) with (comm_total c (street s1)).
  assert (Ct : comm_total c 0 = Z.to_nat (hd 0 (num_community_cards c))).
  { unfold comm_total. destruct (num_community_cards c) as [|x l]; [reflexivity|]. cbn [firstn map list_sum hd fold_right]. lia. }
  pose proof (comm_total_mono c _ _ M1) as Hm.
  rewrite app_length, firstn_length, D1, firstn_length, D4, skipn_length, <- Ct. intros Hd.
  revert Hd Hm. generalize (num_players c * Z.to_nat (num_hole_cards c))%nat, (List.length (d_cards (deck_shuffle rnd (the_deck s)))), (comm_total c (street s1)), (comm_total c 0). intros h x y z Hd Hm. lia.
Qed.
Print Assumptions C75_board.
Example C75_example : distinct_trick_ops C30_ops /\ exists c s0, Dealer [] no_limit_3 = Ok (c, s0) /\ sane c /\ np_all_allowed c s0 C30_ops = true.
Proof.
  split; [apply C30_example|].
  destruct (Dealer [] no_limit_3) as [[c s0]|] eqn:E; [|exfalso; vm_compute in E; discriminate E]. exists c, s0. split; [reflexivity|].
  assert (H : match Dealer [] no_limit_3 with Ok (c, s0) => saneb c && np_all_allowed c s0 C30_ops | Err _ => false end = true) by (vm_compute; reflexivity).
  rewrite E in H. apply andb_true_iff in H. destruct H as [H1 H2]. split; [now apply saneb_sane|exact H2].
Qed.
Example C75_board_example : exists c s, np_fair c s /\ is_ok (snd (np_reset c s [] true true)) = true /\ num_community_cards c = [0; 3; 1] /\
  (let s0 := fst (np_reset c s [] true true) in
   List.length (d_cards (deck_shuffle [] (the_deck s))) = 52%nat /\
   let s1 := np_run_steps c s0 (map PyInt [2; 2; 1; 0]) in
   street s1 = 1%nat /\ List.length (community_cards s1) = 3%nat /\
   let s2 := np_run_steps c s1 (map PyInt [0; 0; 0; 0]) in
   street s2 = 2%nat /\ List.length (community_cards s2) = 4%nat).
Proof. np_play no_limit_4 (@nil op) c s E. split; [exact (np_played_fair _ _ _ _ E)|]. cbv zeta. np_plays E. Qed.
