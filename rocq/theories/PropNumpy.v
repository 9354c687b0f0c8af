(** * PropNumpy: properties of the dealer on arrays, engine_numpy.py (C65 to C71) *)
From Coq Require Import ZifyBool ZifyNat Arith Permutation.
From Verif Require Import PyBase PyFacts CardModel EvalModel EngineModel EngineSpec EngineFacts BetFacts EngineDemo MoneyFacts ShowSpec ShowFacts SideFacts SideExists HandEnd PropRound PropReset PropShow PropSide PropTerm PropBetting SolventSpec SolventFacts PropWin NumpyModel NumpySpec NumpyFacts.

(** ** Concrete games *)
Definition np_played (w : raw_config) (ops : list op) : result (config * state) :=
  let* cs := Dealer [] w in
  let '(c, s) := cs in
  if np_all_allowed c s ops && saneb c then Ok (c, np_run c s ops) else Err TypeError.
Lemma np_fair_run c s ops : np_fair c s -> np_all_allowed c s ops = true -> np_fair c (np_run c s ops).
Proof.
  revert s; induction ops as [|o ops IH]; intros s R H; [exact R|]. cbn [np_all_allowed] in H.
  destruct (np_allowedb c s o) eqn:E; [|discriminate H]. cbn. apply IH; [|exact H]. apply np_fair_op; [exact R| |].
  - destruct o as [rnd rb rs|b|cs| |l]; cbn in *; try exact I.
    + destruct (action s) eqn:Ea; [now right|now left].
    + apply andb_true_iff in E. now apply PeanoNat.Nat.eqb_eq.
  - destruct o as [rnd rb rs|b|cs| |l]; try exact I. cbn in E. apply andb_true_iff in E. destruct E as [_ E].
    rewrite forallb_forall in E. apply Forall_forall. intros x Hx. apply E in Hx. lia.
Qed.
Lemma np_played_fair w ops c s : np_played w ops = Ok (c, s) -> np_fair c s.
Proof.
  unfold np_played. destruct (Dealer [] w) as [[c0 s0]|] eqn:E; [|discriminate]. cbn [bind].
  destruct (np_all_allowed c0 s0 ops && saneb c0) eqn:A; [|discriminate]. intros H. injection H as <- <-.
  apply andb_true_iff in A. destruct A as [A1 A2].
  apply np_fair_run; try assumption. eapply np_fair_new; [exact E|now apply saneb_sane].
Qed.
Lemma np_played_fact {A} w ops c s (f : config -> state -> A) v : np_played w ops = Ok (c, s) ->
  match np_played w ops with Ok (c, s) => Some (f c s) | Err _ => None end = Some v -> f c s = v.
Proof. intros ->. congruence. Qed.
Ltac np_by_play E :=
  lazymatch type of E with np_played ?w ?ops = Ok (?c, ?s) =>
    lazymatch goal with |- ?l = ?v =>
      let p := eval pattern c, s in l in
      lazymatch p with ?f c s => apply (np_played_fact w ops c s f v E); vm_compute; reflexivity end end end.
Ltac np_play w ops c s E :=
  destruct (np_played w ops) as [[c s]|] eqn:E; [exists c, s|exfalso; vm_compute in E; discriminate E].
Ltac np_plays E := splits; np_by_play E.

(** ** More about a step *)
Lemma np_same c s b z : np_settled c s b z ->
  let s' := fst (np_step c s b) in
  active s' = active z /\ pot_commits s' = pot_commits z /\ street s' = street z /\ button s' = button s /\
  hole_cards s' = hole_cards z /\ community_cards s' = community_cards z.
Proof.
  intros Z. cbv zeta. rewrite (ns_step _ _ _ _ Z), <- (ns_button _ _ _ _ Z).
  destruct (np_step_end_cases c z) as [(e & _ & ->)|[(pay & _ & _ & ->)|(pay & _ & _ & ->)]]; cbn [fst]; splits; reflexivity.
Qed.
Lemma np_show_same c s b z : np_settled c s b z -> show_of c (fst (np_step c s b)) = show_of c z.
Proof.
  intros Z. destruct (np_same _ _ _ _ Z) as (E1 & E2 & E3 & E4 & E5 & E6). unfold show_of, committed. now rewrite E1, E2, E5, E6.
Qed.
Lemma np_each c s b z i : money c (wrap c s) -> np_settled c s b z -> stack_of z i + committed z i = stack_of s i + committed s i.
Proof.
  intros M Z. destruct (ns_after _ _ _ _ Z) as (s1 & H1 & Ez). pose proof (mo_cfg _ _ M) as W. pose proof (mo_wf _ _ M) as I.
  destruct (after_bet_effect _ _ _ _ H1) as (a & call & mi & ma & bet & folds & B). pose proof (settle_keep c s1 W) as K.
  pose proof (be_turn _ _ _ _ _ _ _ _ _ _ B) as Ta. destruct (wf_turn _ _ I a Ta) as [La _].
  change (stack_of (wrap c z) i + committed (wrap c z) i = stack_of (wrap c s) i + committed (wrap c s) i). rewrite Ez.
  unfold stack_of, committed. rewrite (sk_stacks _ _ K), (sk_commits _ _ K), (be_stacks _ _ _ _ _ _ _ _ _ _ B), (be_commits _ _ _ _ _ _ _ _ _ _ B).
  pose proof (wf_stacks _ _ I) as Ls. pose proof (wf_commits _ _ I) as Lc.
  rewrite !add_at_nth by lia. destruct (Nat.eqb_spec i a) as [Ei|Ei]; lia.
Qed.
(** a step that is taken and leaves the hand in progress *)
Lemma np_going c s b z : np_settled c s b z -> in_progress (fst (np_step c s b)) -> fst (np_step c s b) = z.
Proof.
  intros Z. rewrite (ns_step _ _ _ _ Z). intros P.
  destruct (np_step_end_cases c z) as [(e & _ & E)|[(pay & _ & _ & E)|(pay & _ & _ & E)]]; rewrite E in *; try reflexivity. now destruct P.
Qed.

(** ** C65 Chips *)
Theorem C65_step : forall c s b, np_fair c s -> all_chips (fst (np_step c s b)) = all_chips s.
Proof.
  intros c s b F. pose proof (np_fair_money c s F) as M. destruct (action s) as [a|] eqn:Ea; [|unfold np_step; now rewrite Ea].
  assert (Hp : in_progress s) by (unfold in_progress; congruence).
  destruct (action (fst (np_step c s b))) as [a'|] eqn:Ea'.
  - destruct (np_step_settled c s b M Hp) as [(_ & -> & _)|(z & Z)]; [reflexivity|].
    rewrite (np_going _ _ _ _ Z) by (unfold in_progress; congruence). apply Z.
  - destruct (np_step_ended c s b M Hp Ea') as (z & pay & o & E). pose proof (np_ended_sum _ _ _ _ _ _ E) as X.
    unfold all_chips in *. rewrite X, (ne_state _ _ _ _ _ _ E). cbn [finish_hand pot]. lia.
Qed.
Print Assumptions C65_step.
(** any number of bets *)
Theorem C65_bets : forall c s bs, np_fair c s -> all_chips (np_run_steps c s bs) = all_chips s.
Proof.
  intros c s bs. revert s; induction bs as [|b bs IH]; intros s F; [reflexivity|]. change (np_run_steps c s (b :: bs)) with (np_run_steps c (fst (np_step c s b)) bs).
  pose proof (np_fair_op c s (OStep b) F I I) as F'. cbn [np_apply_op] in F'. rewrite (IH _ F'). now apply C65_step.
Qed.
Print Assumptions C65_bets.
(** a reset takes the chips from the stacks, or from new stacks *)
Theorem C65_reset : forall c s rnd rb rs, np_fair c s -> is_ok (snd (np_reset c s rnd rb rs)) = true ->
  all_chips (fst (np_reset c s rnd rb rs)) = if rs then Z.of_nat (num_players c) * start_stack c else sumZ (stacks s).
Proof.
  intros c s rnd rb rs F H. pose proof (np_fair_money c s F) as M. pose proof (mo_cfg _ _ M) as W. pose proof (mo_wf _ _ M) as I.
  destruct (np_reset_wrap c s rnd rb rs W) as [E1 E2].
  change (all_chips (fst (np_reset c s rnd rb rs))) with (all_chips (wrap c (fst (np_reset c s rnd rb rs)))). rewrite E1.
  assert (H' : is_ok (snd (reset c (wrap c s) rnd rb rs)) = true) by (rewrite <- E2; destruct (snd (np_reset c s rnd rb rs)); [reflexivity|discriminate]).
  destruct (reset_spec c (wrap c s) rnd rb rs W I) as [(_ & _ & E)|[(_ & E)|(_ & _ & _ & E)]]; [rewrite E in H'; discriminate|rewrite E in H'; discriminate|].
  destruct (reset_money_exact c (wrap c s) rnd rb rs E W (mo_sane _ _ M) I) as [_ R].
  pose proof (reset_wf c (wrap c s) rnd rb rs W I (or_intror H')) as I'. set (t := fst (reset c (wrap c s) rnd rb rs)) in *.
  assert (Pt : pot t = sumZ (pot_commits t)).
  { apply (wf_pot _ _ I'). destruct (re_turn _ _ _ _ _ _ E) as (a & Ta & _). unfold in_progress. rewrite Ta. discriminate. }
  unfold all_chips. rewrite Pt. rewrite (sum_by_seat (stacks t) (stack_of t) (num_players c) (wf_stacks _ _ I')) by reflexivity.
  rewrite (sum_by_seat (pot_commits t) (committed t) (num_players c) (wf_commits _ _ I')) by reflexivity.
  assert (G : forall l, (forall i, In i l -> (i < num_players c)%nat) ->
    sumZ (map (stack_of t) l) + sumZ (map (committed t) l) = sumZ (map (fun i => if rs then start_stack c else stack_of (wrap c s) i) l)).
  { induction l as [|x l IH]; intros Hl; [reflexivity|]. cbn [map]. rewrite !sumZ_cons. rewrite <- IH by (intros i Hi; apply Hl; now right).
    rewrite <- (R x) by (apply Hl; now left). lia. }
  rewrite G by (intros i Hi; apply in_seq in Hi; lia). destruct rs.
  - clear. generalize 0%nat. induction (num_players c) as [|n IH]; intros k; [reflexivity|]. cbn [seq map]. rewrite sumZ_cons, IH. lia.
  - change (stacks s) with (stacks (wrap c s)). symmetry. apply sum_by_seat; [apply I|reflexivity].
Qed.
Print Assumptions C65_reset.
(** The payouts of every hand that ends sum to zero: there is no exception for hands without chips behind. *)
Theorem C65_payouts : forall c s b, np_fair c s -> in_progress s ->
  let s' := fst (np_step c s b) in
  action s' = None ->
  exists out, snd (np_step c s b) = Ok out /\ List.length (out_payouts out) = num_players c /\ sumZ (out_payouts out) = 0 /\
    forall i, (i < num_players c)%nat ->
      (* nobody loses more than has been put in *)
      - committed s' i <= nth i (out_payouts out) 0 /\
      (* the stack, with what was put in before, changes by the payout *)
      stack_of s' i = stack_of s i + committed s i + nth i (out_payouts out) 0 /\
      (0 <= stack_of s i -> 0 <= stack_of s' i).
Proof.
  intros c s b F Hp. cbv zeta. intros Hn. pose proof (np_fair_money c s F) as M. destruct (np_step_ended c s b M Hp Hn) as (z & pay & o & E).
  pose proof (ne_settled _ _ _ _ _ _ E) as Z. destruct (ne_total _ _ _ _ _ _ E) as [T1 T2].
  eexists. split; [apply E|]. cbn [out_payouts]. split; [apply E|]. split; [exact T1|]. intros i Hi.
  destruct (np_same _ _ _ _ Z) as (_ & E2 & _). assert (Ec : committed (fst (np_step c s b)) i = committed z i) by (unfold committed; now rewrite E2).
  rewrite Ec. rewrite (np_ended_stack _ _ _ _ _ _ i E Hi). pose proof (np_each c s b z i M Z). pose proof (ns_keep _ _ _ _ Z i). specialize (T2 i).
  split; [exact T2|]. split; lia.
Qed.
Print Assumptions C65_payouts.
(** the hand of C20_refuted: the stake of the seat that folds stays in the pot, and is paid out at the end *)
Example C65_example :
  (exists c s, np_fair c s /\ action s = Some 1%nat /\ all_chips s = 15 /\ pot_commits s = [5; 1; 5] /\
    stacks (fst (np_step c s (PyInt (-1)))) = [0; 4; 0] /\ action (fst (np_step c s (PyInt (-1)))) = Some 2%nat) /\
  (exists c s, np_fair c s /\ action s = Some 2%nat /\
    action (fst (np_step c s (PyInt 0))) = None /\ sumZ (stacks (fst (np_step c s (PyInt 0)))) = 15 /\ stack_of (fst (np_step c s (PyInt 0))) 1 = 4).
Proof.
  split.
  - np_play short_game (new_hand :: bets [5]) c s E. split; [exact (np_played_fair _ _ _ _ E)|]. np_plays E.
  - np_play short_game (new_hand :: bets [5; -1]) c s E. split; [exact (np_played_fair _ _ _ _ E)|]. np_plays E.
Qed.

(** ** C66 Side pots *)
Lemma np_covered_show c s b z : np_settled c s b z -> count_true (active z) <> 1 -> (num_streets c <= street z)%nat -> covered_folds (show_of c z) ->
  (exists e, eval_hands c (active z) (hole_cards z) (community_cards z) = Err e /\ np_payouts c z = Err e) \/
  (exists pots, side_pots (show_of c z) 0 pots /\
    (forall i, (i < num_players c)%nat -> is_active z i -> evaluate (the_evaluator c) (nth i (hole_cards z) []) (community_cards z) = Ok (sd_rank (show_of c z) i)) /\
    let base := map (share pots) (seq 0 (num_players c)) in
    ((odd_chips pots = 0 /\ np_payouts c z = Ok (sub_lists base (pot_commits z))) \/
     (0 < odd_chips pots /\ exists q, (q < num_players c)%nat /\ 0 < share pots q /\
        (forall j, (j < num_players c)%nat -> 0 < share pots j -> (shifted (num_players c) (button z) q <= shifted (num_players c) (button z) j)%nat) /\
        np_payouts c z = Ok (sub_lists (add_at base q (odd_chips pots)) (pot_commits z))))).
Proof.
  intros Z Hc Hs Cov.
  destruct (np_show_payouts c z Hc Hs (ns_commits _ _ _ _ Z) (ns_hole _ _ _ _ Z) (ns_nonneg _ _ _ _ Z) (ns_pot _ _ _ _ Z)) as [E|(st & E & G & T & P)]; [now left|right].
  cbv zeta in *. exists (np_pots_of c z st). destruct (eval_hands_spec c z st (ns_hole _ _ _ _ Z) E) as [Ls Hst].
  assert (SP : side_pots (show_of c z) 0 (np_pots_of c z st)).
  { apply np_show_side with (n := num_players c); try assumption; try reflexivity; [apply Z| |].
    + intros i Hi Ai. destruct (Hst i Hi) as [H _]. destruct (H Ai) as (H1 & H2 & _). auto.
    + intros i Hi Ai. destruct (Hst i Hi) as [_ H]. now apply H. }
  split; [exact SP|]. split; [intros i Hi Ai; destruct (Hst i Hi) as [H _]; destruct (H Ai) as (H1 & H2 & H3); congruence|].
  destruct P as [P|[(P1 & P2 & _)|P]]; [now left|exfalso|now right].
  destruct (side_pots_positive _ _ _ SP P1) as (i & j & _ & Hi & _ & Pi & _). cbn [show_of sd_players] in Hi. rewrite (P2 i Hi) in Pi. lia.
Qed.
(** For every showdown, with any ties: no hypothesis on them is needed, other than for the dealer on lists (C34) *)
Theorem C66_partial : forall c s b, np_fair c s -> in_progress s ->
  let s' := fst (np_step c s b) in
  action s' = None -> 2 <= count_true (active s') -> covered_folds (show_of c s') ->
  exists out pots, snd (np_step c s b) = Ok out /\
    (forall i, (i < num_players c)%nat -> is_active s' i ->
       evaluate (the_evaluator c) (nth i (hole_cards s') []) (community_cards s') = Ok (sd_rank (show_of c s') i)) /\
    side_pots (show_of c s') 0 pots /\
    (exists q, (q < num_players c)%nat /\ (odd_chips pots <> 0 -> 0 < share pots q) /\ forall i, (i < num_players c)%nat ->
       nth i (out_payouts out) 0 + committed s' i = share pots i + (if Nat.eqb i q then odd_chips pots else 0)) /\
    (* nothing for those who have folded *)
    (forall i, (i < num_players c)%nat -> ~ is_active s' i -> nth i (out_payouts out) 0 = - committed s' i) /\
    (forall i, (i < num_players c)%nat ->
       share pots i <= sumZ (map (fun j => Z.min (committed s' j) (committed s' i)) (seq 0 (num_players c)))).
Proof.
  intros c s b F Hp. cbv zeta. intros Hn Hc Cov. pose proof (np_fair_money c s F) as M. destruct (np_step_ended c s b M Hp Hn) as (z & pay & o & E).
  pose proof (ne_settled _ _ _ _ _ _ E) as Z. rewrite (np_show_same _ _ _ _ Z) in *.
  destruct (np_same _ _ _ _ Z) as (E1 & E2 & E3 & E4 & E5 & E6). rewrite E1 in *. rewrite E5, E6.
  assert (Hs : (num_streets c <= street z)%nat) by (destruct (ne_how _ _ _ _ _ _ E); [assumption|lia]).
  destruct (np_covered_show c s b z Z ltac:(lia) Hs Cov) as [(e & _ & X)|(pots & SP & Ev & P)]; [rewrite (ne_pay _ _ _ _ _ _ E) in X; discriminate|].
  cbv zeta in P. exists (mkOut o pay (repeat true (num_players c))), pots. split; [apply E|].
  split; [intros i Hi Ai; unfold is_active in Ai; rewrite E1 in Ai; now apply Ev|]. split; [exact SP|]. cbn [out_payouts].
  assert (Ec : forall i, committed (fst (np_step c s b)) i = committed z i) by (intros i; unfold committed; now rewrite E2).
  pose proof (cw_two _ (mo_cfg _ _ M)) as Hpl. pose proof (ns_commits _ _ _ _ Z) as Lc. rewrite (ne_pay _ _ _ _ _ _ E) in P.
  assert (Ex : exists q, (q < num_players c)%nat /\ (odd_chips pots <> 0 -> 0 < share pots q) /\ forall i, (i < num_players c)%nat ->
       nth i pay 0 + committed z i = share pots i + (if Nat.eqb i q then odd_chips pots else 0)).
  { destruct P as [(P1 & P)|(P1 & q & Q1 & Q2 & Q3 & P)].
    + injection P as ->. exists 0%nat. split; [lia|]. split; [lia|]. intros i Hi. rewrite sub_lists_nth by (now rewrite base_length). rewrite base_nth by exact Hi.
      unfold committed. destruct (Nat.eqb i 0); lia.
    + injection P as ->. exists q. split; [exact Q1|]. split; [intros _; exact Q2|].
      intros i Hi. rewrite sub_lists_nth by (now rewrite add_at_length, base_length). rewrite add_at_nth by (rewrite base_length; lia).
      unfold committed. destruct (Nat.eqb_spec i q) as [Ei|Ei]; rewrite ?base_nth by lia; lia. }
  split; [|split].
  - destruct Ex as (q & Q1 & Q2 & Q3). exists q. split; [exact Q1|]. split; [exact Q2|]. intros i Hi. rewrite Ec. now apply Q3.
  - intros i Hi Ai. unfold is_active in Ai. rewrite E1 in Ai. rewrite Ec. destruct Ex as (q & Q1 & Q2 & Q3). specialize (Q3 i Hi).
    assert (Ni : share pots i = 0) by (apply (side_pots_out _ _ _ SP); cbn [show_of sd_in]; now destruct (nth i (active z) false)).
    destruct (Nat.eqb_spec i q) as [Ei|Ei]; [|lia]. rewrite <- Ei in Q2. lia.
  - intros i Hi. pose proof (side_pots_own _ _ _ SP i (ns_nonneg _ _ _ _ Z i)) as H. cbn [show_of sd_put] in H. etransitivity; [exact H|]. apply Z.eq_le_incl.
    unfold chips_between. cbn [show_of sd_players sd_put]. f_equal. apply map_ext. intros j. rewrite !Ec. pose proof (ns_nonneg _ _ _ _ Z j). lia.
Qed.
Print Assumptions C66_partial.
(** with an ante of one seat only, the seat that has folded is the largest: the chips that nobody else has put in are shared
    with it *)
Theorem C66_refuted : ~ forall c s b out i, np_fair c s -> in_progress s ->
  let s' := fst (np_step c s b) in
  action s' = None -> snd (np_step c s b) = Ok out -> (i < num_players c)%nat -> ~ is_active s' i ->
  nth i (out_payouts out) 0 = - committed s' i.
Proof.
  intros H.
  assert (K : exists c s, np_fair c s /\ action s = Some 0%nat /\ action (fst (np_step c s (PyInt 3))) = None /\ num_players c = 3%nat /\
    active (fst (np_step c s (PyInt 3))) = [true; true; false] /\ pot_commits (fst (np_step c s (PyInt 3))) = [6; 6; 11] /\
    match snd (np_step c s (PyInt 3)) with Ok out => Some (out_payouts out) | Err _ => None end = Some [-5; 15; -10]).
  { np_play ante_game ante_ops c s E. split; [exact (np_played_fair _ _ _ _ E)|]. np_plays E. }
  destruct K as (c & s & F & K1 & K2 & K3 & K4 & K5 & K6). destruct (snd (np_step c s (PyInt 3))) as [out|] eqn:Eo; [|discriminate K6].
  injection K6 as K6. specialize (H c s (PyInt 3) out 2%nat F). cbv zeta in H. unfold is_active, committed in H. rewrite K3, K4, K5, K6 in H.
  cbn [nth] in H. assert (X : -10 = -11); [|discriminate X]. apply H; [unfold in_progress; rewrite K1; discriminate|exact K2|exact Eo|lia|discriminate].
Qed.
Print Assumptions C66_refuted.
(** the hand of C34_refuted is paid right: seats 0 to 2 tie, and seat 2 gets the last 20 chips of the side pot *)
Example C66_example : exists c s, np_fair c s /\ action s = Some 2%nat /\
  let s' := fst (np_step c s (PyInt 20)) in
  action s' = None /\ count_true (active s') = 4 /\ covered_foldsb (show_of c s') = true /\ regular_tiesb (show_of c s') = false /\
  pot_commits s' = [10; 10; 20; 20] /\
  match snd (np_step c s (PyInt 20)) with Ok out => Some (out_payouts out) | Err _ => None end = Some [3; 4; 13; -20].
Proof. np_play side_game side_ops c s E. split; [exact (np_played_fair _ _ _ _ E)|]. cbv zeta. np_plays E. Qed.

(** *** without debts and with equal antes everybody who has folded is covered *)
Lemma np_solvent_fair c s : np_solvent c s -> np_fair c s.
Proof.
  induction 1 as [w rnd s H Hs|s o S IH Ho Hn]; [eapply np_fair_new; eassumption|].
  apply np_fair_op; [exact IH|exact Ho|]. destruct o; try exact I. apply Hn.
Qed.
Lemma np_solvent_nonneg c s : np_solvent c s -> no_debts s.
Proof.
  intros S. induction S as [w rnd s H Hs|s o S IH Ho Hn].
  - exact (solvent_nonneg c s (solvent_new c w rnd s H Hs)).
  - pose proof (np_solvent_fair c s S) as F. destruct o as [rnd rb rs|b|cs| |l]; cbn [np_apply_op] in *.
    + exact Hn.
    + pose proof (np_fair_money c s F) as M. destruct (action s) as [a|] eqn:Ea; [|unfold np_step; now rewrite Ea].
      assert (Hp : in_progress s) by (unfold in_progress; congruence).
      destruct (np_step_settled c s b M Hp) as [(_ & -> & _)|(z & Z)]; [exact IH|]. intros i.
      destruct (action (fst (np_step c s b))) as [a'|] eqn:Ea'.
      * rewrite (np_going _ _ _ _ Z) by (unfold in_progress; congruence). apply Z, IH.
      * destruct (C65_payouts c s b F Hp Ea') as (out & _ & _ & _ & H).
        destruct (Nat.lt_ge_cases i (num_players c)) as [Hi|Hi]; [destruct (H i Hi) as (_ & _ & H3); apply H3, IH|].
        pose proof (np_step_money c s b M) as M'. change (0 <= stack_of (wrap c (fst (np_step c s b))) i). rewrite (stack_out c); [lia|apply M'|exact Hi].
    + destruct (deck_trick cs (the_deck s)); exact IH.
    + exact IH.
    + destruct Hn as [_ Hn]. intros i. unfold stack_of. cbn [set_stacks stacks]. rewrite Forall_forall in Hn.
      destruct (Nat.lt_ge_cases i (List.length l)) as [Hi|Hi]; [apply Hn; now apply nth_In|rewrite nth_overflow by exact Hi; lia].
Qed.
Lemma covered_wrap c s B : covered c (wrap c s) B <-> covered c s B.
Proof. split; intros [C1 C2 C3]; split; assumption. Qed.
Lemma np_settled_covered c s b z B : np_solvent c s -> in_progress s -> covered c s B -> np_settled c s b z -> exists B', covered c z B'.
Proof.
  intros S Hp C Z. pose proof (np_fair_money c s (np_solvent_fair c s S)) as M. pose proof (np_solvent_nonneg c s S) as N.
  pose proof (mo_cfg _ _ M) as W. pose proof (mo_wf _ _ M) as Iw. destruct (ns_after _ _ _ _ Z) as (s1 & H1 & Ez).
  destruct (after_bet_wf c _ b s1 W Iw H1) as (A1 & A2 & A3 & A4 & A5 & _).
  destruct (after_bet_money c _ b s1 M H1) as (_ & _ & K3).
  destruct (settle_covered c s1 B) as (B' & C'); try assumption; [intros i; apply K3; exact (N i)| |].
  - apply (after_bet_covered c (wrap c s) b s1 B); try assumption. now apply covered_wrap.
  - exists B'. rewrite <- Ez in C'. now apply covered_wrap.
Qed.
Lemma np_solvent_covered c s : equal_antes c -> np_solvent c s -> in_progress s -> exists B, covered c s B.
Proof.
  intros Eq S. induction S as [w rnd s H Hs|s o S IH Ho Hn].
  - apply Dealer_inv in H. rewrite (bd_state _ _ _ _ H). intros P. exfalso. now apply P.
  - pose proof (np_fair_money c s (np_solvent_fair c s S)) as M. pose proof (mo_cfg _ _ M) as W. pose proof (mo_wf _ _ M) as Iw.
    destruct o as [rnd rb rs|b|cs| |l]; cbn [np_apply_op] in *.
    + intros P. destruct (np_reset_wrap c s rnd rb rs W) as [E1 E2].
      assert (Hok : is_ok (snd (reset c (wrap c s) rnd rb rs)) = true).
      { pose proof (np_allowed_wrap c s rnd rb rs W Ho) as [Ho'|Ho']; [|exact Ho'].
        destruct (is_ok (snd (reset c (wrap c s) rnd rb rs))) eqn:Eok; [reflexivity|exfalso]. apply P.
        change (action (fst (np_reset c s rnd rb rs))) with (action (wrap c (fst (np_reset c s rnd rb rs)))). rewrite E1.
        destruct (reset_failed c (wrap c s) rnd rb rs W Iw Eok) as [-> _]. exact Ho'. }
      destruct (reset_covered c (wrap c s) rnd rb rs M Eq Hok) as (B & C). exists B. rewrite <- E1 in C. now apply covered_wrap.
    + intros P. destruct (action s) as [a|] eqn:Ea; [|unfold np_step in P; rewrite Ea in P; now apply P in Ea].
      assert (Ps : in_progress s) by (unfold in_progress; congruence). destruct (IH Ps) as (B & C).
      destruct (np_step_settled c s b M Ps) as [(_ & -> & _)|(z & Z)]; [now exists B|].
      rewrite (np_going _ _ _ _ Z P). now apply (np_settled_covered c s b z B).
    + intros P. destruct (deck_trick cs (the_deck s)); [|now apply IH]. destruct (IH P) as (B & [C1 C2 C3]). exists B. now split.
    + intros P. destruct (IH P) as (B & [C1 C2 C3]). exists B. now split.
    + intros P. exfalso. apply P. apply Hn.
Qed.
Lemma np_step_covered c s b z : equal_antes c -> np_solvent c s -> in_progress s -> np_settled c s b z -> covered_folds (show_of c z).
Proof.
  intros Eq S Hp Z. destruct (np_solvent_covered c s Eq S Hp) as (B & C). destruct (np_settled_covered c s b z B S Hp C Z) as (B' & C').
  apply (covered_show c z B' C'). pose proof (np_fair_money c s (np_solvent_fair c s S)) as M. pose proof (mo_cfg _ _ M) as W. pose proof (mo_wf _ _ M) as Iw.
  destruct (ns_after _ _ _ _ Z) as (s1 & H1 & Ez). change (street_commits z) with (street_commits (wrap c z)). rewrite Ez.
  destruct (after_bet_wf c _ b s1 W Iw H1) as (A1 & A2 & A3 & A4 & A5 & A6 & A7 & A8 & A9 & A10 & A11).
  destruct (settle_wf c s1 W A1 A2 A3 A4 A5 A6 A7 A8 A9 A10) as (_ & B1 & B2 & B3 & B4 & B5 & B6 & B7 & B8 & B9). assumption.
Qed.
(** every showdown of a table without debts and with equal antes *)
Theorem C66_solvent : forall c s b, equal_antes c -> np_solvent c s -> in_progress s ->
  let s' := fst (np_step c s b) in
  action s' = None -> 2 <= count_true (active s') ->
  exists out pots, snd (np_step c s b) = Ok out /\ side_pots (show_of c s') 0 pots /\
    (exists q, (q < num_players c)%nat /\ (odd_chips pots <> 0 -> 0 < share pots q) /\ forall i, (i < num_players c)%nat ->
       nth i (out_payouts out) 0 + committed s' i = share pots i + (if Nat.eqb i q then odd_chips pots else 0)) /\
    (forall i, (i < num_players c)%nat -> ~ is_active s' i -> nth i (out_payouts out) 0 = - committed s' i).
Proof.
  intros c s b Eq S Hp. cbv zeta. intros Hn Hc. pose proof (np_solvent_fair c s S) as F. pose proof (np_fair_money c s F) as M.
  destruct (np_step_ended c s b M Hp Hn) as (z & pay & o & E). pose proof (ne_settled _ _ _ _ _ _ E) as Z.
  pose proof (np_step_covered c s b z Eq S Hp Z) as Cov. rewrite <- (np_show_same _ _ _ _ Z) in Cov.
  destruct (C66_partial c s b F Hp Hn Hc Cov) as (out & pots & P1 & _ & P3 & P4 & P5 & _). exists out, pots. auto.
Qed.
Print Assumptions C66_solvent.
(** histories without debts, by computation *)
Definition np_solvent_opb (c : config) (s : state) (o : op) : bool :=
  match o with
  | OReset rnd rb rs => forallb (Z.leb 0) (stacks (fst (np_reset c s rnd rb rs)))
  | OSetStacks l => match action s with None => forallb (Z.leb 0) l | Some _ => false end
  | _ => true
  end.
Fixpoint np_all_solvent (c : config) (s : state) (ops : list op) : bool :=
  match ops with
  | [] => true
  | o :: r => if np_allowedb c s o && np_solvent_opb c s o then np_all_solvent c (np_apply_op c s o) r else false
  end.
Lemma np_solvent_run c s ops : np_solvent c s -> np_all_solvent c s ops = true -> np_solvent c (np_run c s ops).
Proof.
  revert s; induction ops as [|o ops IH]; intros s R H; [exact R|]. cbn [np_all_solvent] in H.
  destruct (np_allowedb c s o) eqn:E; [|discriminate H]. destruct (np_solvent_opb c s o) eqn:E2; [|discriminate H].
  cbn. apply IH; [|exact H]. apply np_solvent_op; [exact R| |].
  - destruct o as [rnd rb rs|b|cs| |l]; cbn in *; try exact I.
    + destruct (action s) eqn:Ea; [now right|now left].
    + apply andb_true_iff in E. now apply PeanoNat.Nat.eqb_eq.
  - destruct o as [rnd rb rs|b|cs| |l]; cbn [np_solvent_opb] in *; try exact I; [now apply forallb_no_debts|].
    destruct (action s); [discriminate E2|]. split; [reflexivity|]. rewrite forallb_forall in E2. apply Forall_forall. intros x Hx. apply E2 in Hx. lia.
Qed.
Lemma np_played_solvent w ops c s : np_played w ops = Ok (c, s) ->
  match Dealer [] w with Ok (c0, s0) => np_all_solvent c0 s0 ops | Err _ => false end = true -> np_solvent c s.
Proof.
  unfold np_played. destruct (Dealer [] w) as [[c0 s0]|] eqn:E; [|discriminate]. cbn [bind].
  destruct (np_all_allowed c0 s0 ops && saneb c0) eqn:A; [|discriminate]. intros H. injection H as <- <-. intros Hs.
  apply andb_true_iff in A. destruct A as [A1 A2]. apply np_solvent_run; try assumption. eapply np_solvent_new; [exact E|now apply saneb_sane].
Qed.
(** two side pots and ties, in a hand played after another one *)
Example C66_solvent_example : exists c s, np_solvent c s /\ equal_antes c /\ in_progress s /\
  let s' := fst (np_step c s (PyInt 20)) in
  action s' = None /\ count_true (active s') = 4 /\ pot_commits s' = [10; 10; 20; 20] /\ stacks s' = [13; 14; 33; 0].
Proof.
  np_play side_game (new_hand :: bets [0; 0; 0; 0] ++ side_ops) c s E. split; [apply (np_played_solvent _ _ _ _ E); vm_compute; reflexivity|].
  split; [exists 0; assert (X : antes c = [0; 0; 0; 0]) by np_by_play E; rewrite X; repeat constructor|].
  split; [unfold in_progress; assert (X : action s = Some 2%nat) by np_by_play E; rewrite X; discriminate|].
  cbv zeta. np_plays E.
Qed.

(** ** C67 Odd chips *)
Lemma first_winner_unique n button won x y : first_winner n button won x -> first_winner n button won y -> x = y.
Proof.
  intros (i & Hi & Ei & Pi & Bi) (j & Hj & Ej & Pj & Bj). destruct (lt_eq_lt_dec i j) as [[H|H]|H]; [|congruence|].
  - rewrite Ei in Pi. rewrite (Bj i ltac:(lia)) in Pi. lia.
  - rewrite Ej in Pj. rewrite (Bi j ltac:(lia)) in Pj. lia.
Qed.
Lemma shifted_first n b won q : (0 < n)%nat -> (q < n)%nat -> 0 < won q -> (forall j, 0 <= won j) ->
  (forall j, (j < n)%nat -> 0 < won j -> (shifted n b q <= shifted n b j)%nat) -> first_winner n (Nat.min b (n - 1)) won q.
Proof.
  intros Hn Hq Pq N L. set (b' := Nat.min b (n - 1)).
  assert (S : forall i, (i < n)%nat -> shifted n b i = if Nat.leb i b' then (i + n)%nat else i).
  { intros i Hi. unfold shifted. destruct (Nat.leb_spec i b), (Nat.leb_spec i b'); subst b'; try reflexivity; lia. }
  assert (Hb : (b' < n)%nat) by (subst b'; lia). clearbody b'.
  assert (Md : forall k, (k <= n)%nat -> ((b' + k) mod n = if Nat.ltb (b' + k) n then b' + k else b' + k - n)%nat).
  { intros k Hk. destruct (Nat.ltb_spec (b' + k) n) as [H|H]; [now apply Nat.mod_small|].
    replace (b' + k)%nat with (b' + k - n + 1 * n)%nat by lia. rewrite Nat.mod_add by lia. rewrite Nat.mod_small by lia. lia. }
  exists (if Nat.leb q b' then q + n - b' else q - b')%nat. split; [destruct (Nat.leb_spec q b'); lia|]. split; [|split; [exact Pq|]].
  - rewrite Md by (destruct (Nat.leb_spec q b'); lia). destruct (Nat.leb_spec q b'); [destruct (Nat.ltb_spec (b' + (q + n - b')) n)|destruct (Nat.ltb_spec (b' + (q - b')) n)]; lia.
  - intros j Hj. assert (Hj' : (j <= n)%nat) by (destruct (Nat.leb_spec q b'); lia). rewrite Md by exact Hj'.
    set (p := if Nat.ltb (b' + j) n then (b' + j)%nat else (b' + j - n)%nat). assert (Hp : (p < n)%nat) by (subst p; destruct (Nat.ltb_spec (b' + j) n); lia).
    destruct (Z.eq_dec (won p) 0) as [E|E]; [exact E|exfalso]. specialize (N p). specialize (L p Hp ltac:(lia)). rewrite !S in L by assumption.
    subst p. destruct (Nat.ltb_spec (b' + j) n), (Nat.leb_spec q b'); destruct (Nat.leb_spec (b' + j) b'), (Nat.leb_spec (b' + j - n) b'); lia.
Qed.
(** exactly: the odd chips go to the first seat with a share after the button, and to the first of all seats with a share once
    the counter of the button has reached the number of players *)
Theorem C67_exact : forall c s b, np_fair c s -> in_progress s ->
  let n := num_players c in
  let s' := fst (np_step c s b) in
  (street s < num_streets c)%nat -> (num_streets c <= street s')%nat -> 2 <= count_true (active s') -> covered_folds (show_of c s') ->
  (forall i, (i < n)%nat -> is_active s' i ->
     is_ok (evaluate (the_evaluator c) (nth i (hole_cards s') []) (community_cards s')) = true) ->
  exists pots out, side_pots (show_of c s') 0 pots /\ action s' = None /\ snd (np_step c s b) = Ok out /\
    (odd_chips pots = 0 \/ exists q, first_winner n (Nat.min (button s') (n - 1)) (share pots) q) /\
    forall q, (odd_chips pots <> 0 -> first_winner n (Nat.min (button s') (n - 1)) (share pots) q) ->
    forall i, (i < n)%nat ->
      nth i (out_payouts out) 0 = share pots i - committed s' i + (if Nat.eqb i q then odd_chips pots else 0).
Proof.
  intros c s b F Hp. cbv zeta. intros Hs0 Hs Hc Cov Ev. pose proof (np_fair_money c s F) as M. pose proof (cw_two _ (mo_cfg _ _ M)) as H2.
  destruct (np_step_settled c s b M Hp) as [(_ & E & _)|(z & Z)]; [rewrite E in Hs; lia|].
  rewrite (np_show_same _ _ _ _ Z) in *. destruct (np_same _ _ _ _ Z) as (E1 & E2 & E3 & E4 & E5 & E6). unfold is_active in Ev. rewrite E1, E5, E6 in *. rewrite E3 in Hs.
  rewrite E4, <- (ns_button _ _ _ _ Z).
  assert (Ec : forall i, committed (fst (np_step c s b)) i = committed z i) by (intros i; unfold committed; now rewrite E2).
  pose proof (ns_commits _ _ _ _ Z) as Lc.
  destruct (np_covered_show c s b z Z ltac:(lia) Hs Cov) as [(e & X & _)|(pots & SP & _ & P)].
  { exfalso. revert X. unfold eval_hands. destruct (map_res_all (fun p => if nth p (active z) false then let* h := get (hole_cards z) p in evaluate (the_evaluator c) h (community_cards z) else Ok (worst_hand c)) (seq 0 (num_players c))) as (r & ->); [|discriminate].
    intros x Hx. apply in_seq in Hx. destruct (nth x (active z) false) eqn:Ax; [|reflexivity]. unfold get.
    rewrite (nth_error_nth' _ []) by (rewrite (ns_hole _ _ _ _ Z); lia). cbn [bind]. apply Ev; [lia|exact Ax]. }
  cbv zeta in P. exists pots.
  assert (Good : forall pay, np_payouts c z = Ok pay -> action (fst (np_step c s b)) = None /\ exists o, snd (np_step c s b) = Ok (mkOut o pay (repeat true (num_players c)))).
  { intros pay Hpay. destruct (np_settled_ends c s b z pay Z H2 (or_introl Hs) Hpay) as (o & E). split; [rewrite (ne_state _ _ _ _ _ _ E); reflexivity|]. exists o. apply E. }
  assert (N : forall j, 0 <= share pots j) by (intros j; exact (side_share_nonneg _ _ _ j SP)).
  destruct P as [(P1 & P)|(P1 & q & Q1 & Q2 & Q3 & P)]; destruct (Good _ P) as (G1 & o & G2); eexists; (split; [exact SP|]; split; [exact G1|]; split; [exact G2|]); cbn [out_payouts].
  - split; [now left|]. intros q _ i Hi. rewrite Ec, sub_lists_nth by (now rewrite base_length). rewrite base_nth by exact Hi. unfold committed. rewrite P1. destruct (Nat.eqb i q); lia.
  - assert (Fq : first_winner (num_players c) (Nat.min (button z) (num_players c - 1)) (share pots) q) by (apply shifted_first; try assumption; lia).
    split; [right; now exists q|]. intros q' Hq' i Hi. rewrite <- (first_winner_unique _ _ _ _ _ Fq (Hq' ltac:(lia))).
    rewrite Ec, sub_lists_nth by (now rewrite add_at_length, base_length). rewrite add_at_nth by (rewrite base_length; lia).
    unfold committed. destruct (Nat.eqb_spec i q) as [Ei|Ei]; rewrite ?base_nth by lia; lia.
Qed.
Print Assumptions C67_exact.
(** right until the button has passed the last seat: other than for the dealer on lists (C35) the button can be at any seat *)
Theorem C67_partial : forall c s b, np_fair c s -> in_progress s ->
  let s' := fst (np_step c s b) in
  (street s < num_streets c)%nat -> (num_streets c <= street s')%nat -> 2 <= count_true (active s') -> covered_folds (show_of c s') ->
  (forall i, (i < num_players c)%nat -> is_active s' i ->
     is_ok (evaluate (the_evaluator c) (nth i (hole_cards s') []) (community_cards s')) = true) ->
  (button s' < num_players c)%nat ->
  exists pots out, side_pots (show_of c s') 0 pots /\ action s' = None /\ snd (np_step c s b) = Ok out /\
    (odd_chips pots = 0 \/ exists q, first_winner (num_players c) (button_seat c s') (share pots) q) /\
    forall q, (odd_chips pots <> 0 -> first_winner (num_players c) (button_seat c s') (share pots) q) ->
    forall i, (i < num_players c)%nat ->
      nth i (out_payouts out) 0 = share pots i - committed s' i + (if Nat.eqb i q then odd_chips pots else 0).
Proof.
  intros c s b F Hp. cbv zeta. intros Hs0 Hs Hc Cov Ev Hb. unfold button_seat. rewrite Nat.mod_small by exact Hb.
  pose proof (C67_exact c s b F Hp Hs0 Hs Hc Cov Ev) as X. cbv zeta in X. now rewrite Nat.min_l in X by lia.
Qed.
Print Assumptions C67_partial.
(** fourth hand after the first: the button is back at seat 0; seats 0 to 2 tie: the odd chip belongs to seat 1 but goes to seat 0 *)
Definition round_ops := [new_hand; OReset [] false true; OReset [] false true; OReset [] false true; OTrick [demo_card 51; demo_card 48; demo_card 49; demo_card 0]; OReset [] false true] ++ bets [7; 7; 7].
Theorem C67_refuted : ~ forall c s b, np_fair c s -> in_progress s ->
  let s' := fst (np_step c s b) in
  action s' = None -> 2 <= count_true (active s') -> (num_streets c <= street s')%nat -> covered_folds (show_of c s') ->
  exists out pots, snd (np_step c s b) = Ok out /\ side_pots (show_of c s') 0 pots /\
    forall q, first_winner (num_players c) (button_seat c s') (share pots) q ->
      nth q (out_payouts out) 0 = share pots q - committed s' q + odd_chips pots.
Proof.
  intros H.
  assert (K : exists c s, np_fair c s /\ action s = Some 2%nat /\ action (fst (np_step c s (PyInt 7))) = None /\
    active (fst (np_step c s (PyInt 7))) = [true; true; true; true] /\ street (fst (np_step c s (PyInt 7))) = 1%nat /\ num_streets c = 1%nat /\ num_players c = 4%nat /\
    pot_commits (fst (np_step c s (PyInt 7))) = [7; 7; 7; 7] /\ button_seat c (fst (np_step c s (PyInt 7))) = 0%nat /\
    match snd (np_step c s (PyInt 7)) with Ok out => Some (out_payouts out) | Err _ => None end = Some [3; 2; 2; -7] /\
    share (pots_fun 5 (show_of c (fst (np_step c s (PyInt 7)))) 0) 1 = 9 /\ odd_chips (pots_fun 5 (show_of c (fst (np_step c s (PyInt 7)))) 0) = 1 /\
    covered_foldsb (show_of c (fst (np_step c s (PyInt 7)))) = true).
  { np_play odd_game round_ops c s E. split; [exact (np_played_fair _ _ _ _ E)|]. np_plays E. }
  destruct K as (c & s & F & K1 & K2 & K3 & K4 & K5 & K6 & K7 & K8 & K9 & K10 & K11 & K12). specialize (H c s (PyInt 7) F). cbv zeta in H.
  destruct H as (out & pots & H1 & H2 & H3).
  - unfold in_progress. rewrite K1. discriminate.
  - exact K2.
  - rewrite K3. cbn. lia.
  - rewrite K4, K5. lia.
  - now apply covered_foldsb_ok.
  - pose proof (pots_fun_players (show_of c (fst (np_step c s (PyInt 7))))) as SP. cbn [show_of sd_players] in SP. rewrite K6 in SP.
    destruct (side_pots_unique _ _ _ H2 _ SP) as [U1 U2]. rewrite H1 in K9. injection K9 as K9.
    specialize (H3 1%nat). rewrite K9, K6, K8, U1, (U2 1%nat), K10, K11 in H3. unfold committed in H3. rewrite K7 in H3. cbn [nth] in H3.
    assert (X : first_winner 4 0 (share pots) 1).
    { exists 1%nat. split; [lia|]. split; [reflexivity|]. split; [rewrite (U2 1%nat), K10; lia|]. intros j Hj. lia. }
    specialize (H3 X). lia.
Qed.
Print Assumptions C67_refuted.
(** the hand of C35_refuted is paid right: button at seat 1, the odd chip goes to seat 2 *)
Example C67_example : exists c s, np_fair c s /\ action s = Some 3%nat /\ street s = 0%nat /\
  let s' := fst (np_step c s (PyInt 7)) in
  action s' = None /\ street s' = 1%nat /\ num_streets c = 1%nat /\ count_true (active s') = 4 /\ covered_foldsb (show_of c s') = true /\ button s' = 1%nat /\ num_players c = 4%nat /\
  match snd (np_step c s (PyInt 7)) with Ok out => Some (out_payouts out) | Err _ => None end = Some [2; 2; 3; -7].
Proof. np_play odd_game odd_ops c s E. split; [exact (np_played_fair _ _ _ _ E)|]. cbv zeta. np_plays E. Qed.

(** ** C68 The two dealers *)
(** what a call returns: the same observation, up to the number of the button, and the same payouts; or the same exception *)
Definition same_result (c : config) (r1 r2 : result step_out) : Prop :=
  match r1, r2 with
  | Ok o1, Ok o2 => wrap_obs c (out_obs o1) = out_obs o2 /\ out_payouts o1 = out_payouts o2
  | Err e1, Err e2 => e1 = e2
  | _, _ => False
  end.
Theorem C68_reset : forall c s rnd rb rs, np_fair c s ->
  wrap c (fst (np_reset c s rnd rb rs)) = fst (reset c (wrap c s) rnd rb rs) /\
  map_ok (wrap_obs c) (snd (np_reset c s rnd rb rs)) = snd (reset c (wrap c s) rnd rb rs).
Proof. intros c s rnd rb rs F. exact (np_reset_wrap c s rnd rb rs (mo_cfg _ _ (np_fair_money c s F))). Qed.
Print Assumptions C68_reset.

(** a step of both: raised before anything changed, or both at the end of the step with the same table *)
Lemma np_both c s b : money c (wrap c s) -> in_progress s ->
  (fst (np_step c s b) = s /\ fst (step c (wrap c s) b) = wrap c s /\ same_result c (snd (np_step c s b)) (snd (step c (wrap c s) b))) \/
  (exists z, np_settled c s b z /\ step c (wrap c s) b = step_end c (wrap c z)).
Proof.
  intros M Hp. destruct (np_step_settled c s b M Hp) as [(H1 & E1 & _)|(z & Z)].
  - left. split; [exact E1|].
    destruct (step_anatomy c (wrap c s) b Hp) as [(_ & E2 & _)|(s1 & H2 & _)]; [|congruence]. split; [exact E2|].
    clear E1 E2. unfold in_progress in Hp. revert H1. unfold after_bet, np_step, step. change (action (wrap c s)) with (action s). rewrite wrap_bet_sizes.
    destruct (action s) as [a|]; [|exfalso; now apply Hp]. destruct (py_round b); [|intros _; reflexivity].
    destruct (bet_sizes c s) as [[[x y] w]|]; [|intros _; reflexivity]. destruct (settle_bet _ _ _ _ _). discriminate.
  - right. exists z. split; [exact Z|]. destruct (ns_after _ _ _ _ Z) as (s1 & H1 & ->).
    destruct (step_anatomy c (wrap c s) b Hp) as [(H2 & _)|(s2 & H2 & E2)]; [congruence|]. rewrite E2. congruence.
Qed.
(** every step leaves the same cards, bets and players in the hand at both *)
Theorem C68_fields : forall c s b, np_fair c s -> in_progress s ->
  let s' := fst (np_step c s b) in let t' := fst (step c (wrap c s) b) in
  active s' = active t' /\ hole_cards s' = hole_cards t' /\ community_cards s' = community_cards t' /\ the_deck s' = the_deck t' /\
  history s' = history t' /\ pot_commits s' = pot_commits t' /\ street s' = street t' /\ street_commits s' = street_commits t' /\
  street_raises s' = street_raises t' /\ largest_raise s' = largest_raise t' /\ button_seat c s' = button t'.
Proof.
  intros c s b F Hp. cbv zeta. pose proof (np_fair_money c s F) as M.
  destruct (np_both c s b M Hp) as [(-> & -> & _)|(z & Z & E)]; [splits; reflexivity|]. rewrite (ns_step _ _ _ _ Z), E.
  destruct (np_step_end_cases c z) as [(e & _ & ->)|[(pay & _ & _ & ->)|(pay & _ & _ & ->)]];
    destruct (step_end_cases c (wrap c z)) as [(e' & _ & ->)|[(pay' & _ & _ & ->)|(pay' & _ & _ & ->)]]; cbn [fst]; splits; reflexivity.
Qed.
Print Assumptions C68_fields.
Lemma np_end_same c z : all_true (np_done_list c z) = all_true (done_list c (wrap c z)) -> np_payouts c z = payouts c (wrap c z) ->
  wrap c (fst (np_step_end c z)) = fst (step_end c (wrap c z)) /\ same_result c (snd (np_step_end c z)) (snd (step_end c (wrap c z))).
Proof.
  intros D P. unfold np_step_end, step_end. rewrite P. destruct (payouts c (wrap c z)) as [pay|e]; [|split; reflexivity]. rewrite D.
  destruct (all_true (done_list c (wrap c z))); cbn [fst snd]; (split; [reflexivity|]).
  - change (finish_hand (wrap c z) pay) with (wrap c (finish_hand z pay)). rewrite observation_wrap. destruct (observation c (finish_hand z pay) true); split; reflexivity || reflexivity.
  - rewrite observation_wrap. destruct (observation c z false); split; reflexivity || reflexivity.
Qed.
(** before the showdown the two dealers do the same, unless the dealer on lists cuts the hand short (C39) *)
Theorem C68_step : forall c s b, np_fair c s -> in_progress s ->
  let s' := fst (np_step c s b) in let t' := fst (step c (wrap c s) b) in
  count_true (active s') = 1 \/ (street s' < num_streets c)%nat ->
  (action t' = None -> cut_short c t' = false) ->
  wrap c s' = t' /\ same_result c (snd (np_step c s b)) (snd (step c (wrap c s) b)).
Proof.
  intros c s b F Hp. cbv zeta. intros Hs Hc. pose proof (np_fair_money c s F) as M.
  destruct (np_both c s b M Hp) as [(-> & -> & S)|(z & Z & E)]; [split; [reflexivity|exact S]|].
  destruct (np_same _ _ _ _ Z) as (E1 & _ & E3 & _). rewrite E1, E3 in Hs. rewrite (ns_step _ _ _ _ Z), E in *.
  apply np_end_same; [|now apply np_payouts_wrap].
  pose proof (np_done_all c z (ns_active _ _ _ _ Z)) as D1. pose proof (done_all c (wrap c z) (mo_cfg _ _ M) (ns_active _ _ _ _ Z) (ns_stacks _ _ _ _ Z)) as D2.
  change (active (wrap c z)) with (active z) in D2. change (street (wrap c z)) with (street z) in D2.
  destruct (all_true (np_done_list c z)) eqn:A1.
  - symmetry. apply D2. destruct (proj1 D1 eq_refl); auto.
  - destruct (all_true (done_list c (wrap c z))) eqn:A2; [exfalso|reflexivity].
    assert (N : ~ ((num_streets c <= street z)%nat \/ count_true (active z) <= 1)) by (intros X; apply D1 in X; discriminate X).
    unfold step_end in Hc. rewrite <- (np_payouts_wrap c z Hs), (np_payouts_same c z Hs) in Hc. 
    assert (X : exists pay, payouts c z = Ok pay).
    { destruct (payouts c z) as [pay|e] eqn:Ep; [now exists pay|exfalso]. rewrite <- (np_payouts_same c z Hs) in Ep. apply np_payouts_err in Ep. lia. }
    destruct X as (pay & X). rewrite X, A2 in Hc. cbn [fst] in Hc. specialize (Hc eq_refl). unfold cut_short in Hc. cbn [finish_hand active street wrap set_button] in Hc. lia.
Qed.
Print Assumptions C68_step.
(** at a showdown: with the button at seat 0, covered folds and regular ties (for other cases see C34_refuted and C35_refuted) *)
Theorem C68_showdown_partial : forall c s b, np_fair c s -> in_progress s -> button s = O ->
  let s' := fst (np_step c s b) in let t' := fst (step c (wrap c s) b) in
  2 <= count_true (active s') -> (num_streets c <= street s')%nat ->
  covered_folds (show_of c s') -> regular_ties (show_of c s') ->
  wrap c s' = t' /\ same_result c (snd (np_step c s b)) (snd (step c (wrap c s) b)).
Proof.
  intros c s b F Hp Hb. cbv zeta. intros Hc Hs Cov Reg. pose proof (np_fair_money c s F) as M. pose proof (cw_two _ (mo_cfg _ _ M)) as H2.
  destruct (np_both c s b M Hp) as [(-> & -> & S)|(z & Z & E)]; [split; [reflexivity|exact S]|].
  rewrite (np_show_same _ _ _ _ Z) in *. destruct (np_same _ _ _ _ Z) as (E1 & _ & E3 & _). rewrite E1 in Hc. rewrite E3 in Hs. rewrite (ns_step _ _ _ _ Z), E.
  assert (Bz : button z = O) by (rewrite (ns_button _ _ _ _ Z); exact Hb).
  assert (Wz : wrap c z = z) by (apply wrap_small; lia). rewrite Wz.
  pose proof (np_end_same c z) as G. rewrite Wz in G. apply G; clear G.
  - unfold np_done_list, done_list. now replace (Nat.leb (num_streets c) (street z)) with true by lia.
  - destruct (np_covered_show c s b z Z ltac:(lia) Hs Cov) as [(e & X & P)|(pots & SP & _ & P)];
      (destruct (show_payouts c z ltac:(lia) Hs (ns_commits _ _ _ _ Z) (ns_hole _ _ _ _ Z) ltac:(lia) (ns_nonneg _ _ _ _ Z) (or_introl (ns_pot _ _ _ _ Z))) as [(e' & X' & P')|(st & X' & G & T & P')]).
    + congruence.
    + congruence.
    + exfalso. destruct (np_show_payouts c z ltac:(lia) Hs (ns_commits _ _ _ _ Z) (ns_hole _ _ _ _ Z) (ns_nonneg _ _ _ _ Z) (ns_pot _ _ _ _ Z)) as [(e & _ & Y)|(st & Y & _)]; [|congruence].
      cbv zeta in P. rewrite Y in P. destruct P as [(_ & P)|(_ & q & _ & _ & _ & P)]; discriminate P.
    + cbv zeta in *. destruct (eval_hands_spec c z st (ns_hole _ _ _ _ Z) X') as [Ls Hst].
      assert (SP' : side_pots (show_of c z) 0 (pots_of c z st)).
      { apply show_side with (n := num_players c); try assumption; try reflexivity; [apply Z| |].
        - intros i Hi Ai. destruct (Hst i Hi) as [H _]. destruct (H Ai) as (H1 & H3 & _). auto.
        - intros i Hi Ai. destruct (Hst i Hi) as [_ H]. now apply H. }
      destruct (side_pots_unique _ _ _ SP' _ SP) as [U1 U2].
      assert (Eb : map (share (pots_of c z st)) (seq 0 (num_players c)) = map (share pots) (seq 0 (num_players c))) by (apply map_ext; exact U2).
      rewrite Eb, U1, Bz in P'. rewrite P'. destruct P as [(P1 & ->)|(P1 & q & Q1 & Q2 & Q3 & ->)]; [now rewrite P1|].
      replace (odd_chips pots =? 0) with false by lia.
      assert (N : forall j, 0 <= share pots j) by (intros j; exact (side_share_nonneg _ _ _ j SP)).
      destruct (first_after 0 (num_players c) (map (share pots) (seq 0 (num_players c)))) as [x|] eqn:Ex.
      * apply first_after_spec in Ex. destruct Ex as (X1 & X2 & X3). rewrite base_nth in X2 by lia. rewrite Nat.sub_0_r.
        assert (x = q); [|now subst]. rewrite Bz in Q3. unfold shifted in Q3.
        pose proof (Q3 x ltac:(lia) ltac:(pose proof (N x); lia)) as Q4.
        destruct (Nat.leb_spec q 0) as [L1|L1]; destruct (Nat.leb_spec x 0) as [L2|L2]; try lia.
        destruct (Nat.eq_dec x q) as [Y|Y]; [exact Y|]. specialize (X3 q ltac:(lia)). rewrite base_nth in X3 by lia. lia.
      * exfalso. destruct (side_pots_positive _ _ _ SP P1) as (i & j & Hij & Hi & Hj & Pi & Pj). cbn [show_of sd_players] in Hi, Hj.
        assert (Y : forall k, (0 < k < num_players c)%nat -> share pots k = 0).
        { intros k Hk. unfold first_after in Ex. apply find_none with (x := k) in Ex; [|apply in_seq; lia]. rewrite base_nth in Ex by lia. lia. }
        destruct i as [|i]; [|rewrite (Y (S i)) in Pi by lia; lia]. destruct j as [|j]; [congruence|]. rewrite (Y (S j)) in Pj by lia. lia.
Qed.
Print Assumptions C68_showdown_partial.
(** they differ when nobody has chips behind: the dealer on lists ends the hand without paying it out *)
Theorem C68_refuted : ~ forall c s b, np_fair c s -> in_progress s -> wrap c (fst (np_step c s b)) = fst (step c (wrap c s) b).
Proof.
  intros H.
  assert (K : exists c s, np_fair c s /\ action s = Some 1%nat /\ action (fst (np_step c s (PyInt (-1)))) = Some 2%nat /\ action (fst (step c (wrap c s) (PyInt (-1)))) = None).
  { np_play short_game (new_hand :: bets [5]) c s E. split; [exact (np_played_fair _ _ _ _ E)|]. np_plays E. }
  destruct K as (c & s & F & K1 & K2 & K3). specialize (H c s (PyInt (-1)) F ltac:(unfold in_progress; rewrite K1; discriminate)).
  apply (f_equal action) in H. cbn [wrap set_button action] in H. rewrite K2, K3 in H. discriminate H.
Qed.
Print Assumptions C68_refuted.
(** the second hand of three players with the button at seat 3 of 3, that is seat 0: a raise on the first street *)
Example C68_example :
  (exists c s, np_fair c s /\ in_progress s /\ button s = 3%nat /\ button (wrap c s) = 0%nat /\
    let s' := fst (np_step c s (PyInt 6)) in let t' := fst (step c (wrap c s) (PyInt 6)) in
    street s' = 0%nat /\ num_streets c = 2%nat /\ action t' = Some 1%nat /\ pot s' = 9) /\
  (exists c s, np_fair c s /\ in_progress s /\ button s = 0%nat /\
    let s' := fst (np_step c s (PyInt 7)) in
    count_true (active s') = 4 /\ street s' = 1%nat /\ num_streets c = 1%nat /\ covered_foldsb (show_of c s') = true /\ regular_tiesb (show_of c s') = true).
Proof.
  split.
  - assert (K : exists c s, np_fair c s /\ action s = Some 0%nat /\ button s = 3%nat /\ button (wrap c s) = 0%nat /\
      street (fst (np_step c s (PyInt 6))) = 0%nat /\ num_streets c = 2%nat /\ action (fst (step c (wrap c s) (PyInt 6))) = Some 1%nat /\ pot (fst (np_step c s (PyInt 6))) = 9).
    { np_play no_limit_3 [new_hand; OReset [] false true; OReset [] false true; OReset [] false true] c s E. split; [exact (np_played_fair _ _ _ _ E)|]. np_plays E. }
    destruct K as (c & s & F & K1 & K). exists c, s. split; [exact F|]. split; [unfold in_progress; rewrite K1; discriminate|]. cbv zeta. exact K.
  - assert (K : exists c s, np_fair c s /\ action s = Some 2%nat /\ button s = 0%nat /\
      count_true (active (fst (np_step c s (PyInt 7)))) = 4 /\ street (fst (np_step c s (PyInt 7))) = 1%nat /\ num_streets c = 1%nat /\
      covered_foldsb (show_of c (fst (np_step c s (PyInt 7)))) = true /\ regular_tiesb (show_of c (fst (np_step c s (PyInt 7)))) = true).
    { np_play odd_game ([OTrick [demo_card 51; demo_card 48; demo_card 49; demo_card 0]; new_hand] ++ bets [7; 7; 7]) c s E. split; [exact (np_played_fair _ _ _ _ E)|]. np_plays E. }
    destruct K as (c & s & F & K1 & K). exists c, s. split; [exact F|]. split; [unfold in_progress; rewrite K1; discriminate|]. cbv zeta. exact K.
Qed.

(** ** C69 The end of a hand *)
(** a hand ends when one player is left or all streets are over, and only then *)
Theorem C69_ends : forall c s b out, np_fair c s -> in_progress s ->
  let s' := fst (np_step c s b) in
  snd (np_step c s b) = Ok out ->
  (action s' = None <-> count_true (active s') = 1 \/ (num_streets c <= street s')%nat) /\
  (* [done]: everybody at the end, before that those who are not in the hand *)
  out_done out = (match action s' with None => repeat true (num_players c) | Some _ => map negb (active s') end).
Proof.
  intros c s b out F Hp. cbv zeta. intros Ho. pose proof (np_fair_money c s F) as M.
  destruct (np_step_settled c s b M Hp) as [(_ & _ & E)|(z & Z)]; [rewrite Ho in E; discriminate E|].
  destruct (np_same _ _ _ _ Z) as (E1 & _ & E3 & _). rewrite E1, E3. pose proof (ns_count _ _ _ _ Z) as Hc. pose proof (ns_turn _ _ _ _ Z) as Ht.
  pose proof (np_done_all c z (ns_active _ _ _ _ Z)) as D. rewrite (ns_step _ _ _ _ Z) in *. unfold np_step_end in *.
  destruct (np_payouts c z) as [pay|e]; [|discriminate Ho]. destruct (all_true (np_done_list c z)) eqn:A; cbn [fst snd] in *.
  - split; [|cbn [finish_hand action]].
    + split; [intros _|reflexivity]. destruct (proj1 D eq_refl); [now right|left; lia].
    + destruct (observation c (finish_hand z pay) true); [|discriminate Ho]. injection Ho as <-. cbn [out_done]. apply np_done_true. destruct (proj1 D eq_refl); lia.
  - assert (N : ~ ((num_streets c <= street z)%nat \/ count_true (active z) <= 1)) by (intros X; apply D in X; discriminate X).
    split; [split; intros X; exfalso; [now apply Ht|lia]|].
    destruct (observation c z false); [|discriminate Ho]. injection Ho as <-. cbn [out_done].
    destruct (action z) as [x|] eqn:Ea; [|exfalso; now apply Ht].
    unfold np_done_list. now replace (Nat.leb (num_streets c) (street z) || (count_true (active z) <=? 1)) with false by lia.
Qed.
Print Assumptions C69_ends.
(** before a showdown no step with a finite bet raises *)
Theorem C69_returns : forall c s b, np_fair c s -> in_progress s -> (street s < num_streets c)%nat -> is_ok (py_round b) = true ->
  let s' := fst (np_step c s b) in
  count_true (active s') = 1 \/ (street s' < num_streets c)%nat -> is_ok (snd (np_step c s b)) = true.
Proof.
  intros c s b F Hp Hs Hb. cbv zeta. intros H. pose proof (np_fair_money c s F) as M. pose proof (mo_cfg _ _ M) as W.
  destruct (np_step_settled c s b M Hp) as [(X & _ & _)|(z & Z)].
  - exfalso. unfold after_bet in X. change (action (wrap c s)) with (action s) in X. unfold in_progress in Hp. destruct (action s) as [a|]; [|now apply Hp].
    destruct (py_round b); [|discriminate Hb]. destruct (bet_sizes_ok c (wrap c s) W Hs) as [[[x y] w] Y]. rewrite Y in X. destruct (settle_bet _ _ _ _ _). discriminate X.
  - destruct (np_same _ _ _ _ Z) as (E1 & _ & E3 & _). rewrite E1, E3 in H. rewrite (ns_step _ _ _ _ Z). unfold np_step_end.
    destruct (np_payouts c z) as [pay|e] eqn:Ep; [|exfalso; apply np_payouts_err in Ep; lia]. cbn [snd].
    pose proof (cw_two _ W) as H2. pose proof (np_done_all c z (ns_active _ _ _ _ Z)) as D. destruct (all_true (np_done_list c z)).
    + destruct (finish_obs c z pay) as (o & ->); [rewrite (ns_hole _ _ _ _ Z); lia|reflexivity].
    + assert (N : ~ ((num_streets c <= street z)%nat \/ count_true (active z) <= 1)) by (intros X; apply D in X; discriminate X).
      pose proof (ns_money _ _ _ _ Z ltac:(lia)) as Mz. pose proof (ns_turn _ _ _ _ Z) as Ht. destruct (action z) as [a|] eqn:Ea; [|now destruct Ht].
      destruct (wf_turn _ _ (mo_wf _ _ Mz) a Ea) as [La _]. unfold observation. destruct (bet_sizes_ok c z W ltac:(lia)) as [[[x y] w] ->]. cbn [bind].
      rewrite Ea. unfold get. rewrite (nth_error_nth' _ []) by (rewrite (ns_hole _ _ _ _ Z); exact La). reflexivity.
Qed.
Print Assumptions C69_returns.

(** *** every hand comes to an end *)
Lemma np_ring c s : np_fair c s -> in_progress s -> ring (num_players c) (active s) (street_option s) None.
Proof.
  induction 1 as [w rnd s H Hs|s o F IH Ho Hn]; intros Hp.
  - apply Dealer_inv in H. rewrite (bd_state _ _ _ _ H) in Hp. exfalso. now apply Hp.
  - pose proof (np_fair_money c s F) as M. pose proof (mo_cfg _ _ M) as W. pose proof (mo_wf _ _ M) as Iw.
    destruct o as [rnd rb rs|b|cs| |l]; cbn [np_apply_op] in *.
    + destruct (np_reset_wrap c s rnd rb rs W) as [E _].
      change (ring (num_players c) (active (wrap c (fst (np_reset c s rnd rb rs)))) (street_option (wrap c (fst (np_reset c s rnd rb rs)))) None). rewrite E.
      apply reset_ring; try assumption. pose proof (np_allowed_wrap c s rnd rb rs W Ho) as [Ho'|Ho']; [|exact Ho'].
      destruct (is_ok (snd (reset c (wrap c s) rnd rb rs))) eqn:Eok; [reflexivity|exfalso]. apply Hp.
      change (action (wrap c (fst (np_reset c s rnd rb rs))) = None). rewrite E. destruct (reset_failed c (wrap c s) rnd rb rs W Iw Eok) as [-> _]. exact Ho'.
    + destruct (action s) as [a|] eqn:Ha; [|unfold np_step in *; rewrite Ha in *; now apply IH].
      assert (Hps : in_progress s) by (unfold in_progress; congruence).
      destruct (np_step_settled c s b M Hps) as [(_ & -> & _)|(z & Z)]; [now apply IH|]. rewrite (np_going _ _ _ _ Z Hp).
      destruct (ns_after _ _ _ _ Z) as (s1 & H1 & Ez). change (ring (num_players c) (active (wrap c z)) (street_option (wrap c z)) None). rewrite Ez.
      apply settle_ring; [exact W|apply (after_bet_wf c _ b s1 W Iw H1)|]. apply (after_bet_ring c _ b s1 W Iw H1). now apply IH.
    + destruct (deck_trick cs (the_deck s)); now apply IH.
    + now apply IH.
    + now apply IH.
Qed.
Lemma np_run_idle c s bs : action s = None -> np_run_steps c s bs = s.
Proof.
  intros H. induction bs as [|b bs IH]; [reflexivity|]. change (np_run_steps c s (b :: bs)) with (np_run_steps c (fst (np_step c s b)) bs).
  assert (E : fst (np_step c s b) = s) by (unfold np_step; now rewrite H). now rewrite E.
Qed.
Lemma np_stuck c s b : money c (wrap c s) -> in_progress s -> (num_streets c <= street s)%nat -> fst (np_step c s b) = s /\ is_ok (snd (np_step c s b)) = false.
Proof.
  intros M P H. destruct (np_step_settled c s b M P) as [(_ & E1 & E2)|(z & Z)]; [auto|exfalso].
  destruct (ns_after _ _ _ _ Z) as (s1 & H1 & _). apply after_bet_effect in H1. destruct H1 as (a & call & mi & ma & bet & folds & B).
  pose proof (bet_sizes_street c _ _ (mo_cfg _ _ M) (be_sizes _ _ _ _ _ _ _ _ _ _ B)) as X. cbn [wrap set_button street] in X. lia.
Qed.
Lemma np_stuck_run c s bs : money c (wrap c s) -> in_progress s -> (num_streets c <= street s)%nat -> np_run_steps c s bs = s.
Proof.
  intros M P H. induction bs as [|b bs IH]; [reflexivity|]. change (np_run_steps c s (b :: bs)) with (np_run_steps c (fst (np_step c s b)) bs).
  destruct (np_stuck c s b M P H) as [-> _]. exact IH.
Qed.
Lemma np_ends_within c bs : forall s a k, np_fair c s -> action s = Some a -> (S k <= num_players c)%nat -> rest_from c (wrap c s) a (S k) ->
  Forall (fun b => is_ok (py_round b) = true) bs ->
  moves_left c (wrap c s) * Z.of_nat (num_players c) + Z.of_nat k < Z.of_nat (List.length bs) ->
  action (np_run_steps c s bs) = None \/ (in_progress (np_run_steps c s bs) /\ (num_streets c <= street (np_run_steps c s bs))%nat).
Proof.
  induction bs as [|b bs IH]; intros s a k F Ha Hk Q R H.
  - exfalso. cbn [List.length] in H. assert (0 <= moves_left c (wrap c s)); [|nia]. unfold moves_left.
    pose proof (count_true_nonneg (active (wrap c s))). pose proof (abs_sum_nonneg (stacks (wrap c s))). lia.
  - inversion R as [|? ? R1 R2]; subst. pose proof (np_fair_money c s F) as M. pose proof (mo_cfg _ _ M) as W.
    assert (Hp : in_progress s) by (unfold in_progress; congruence).
    destruct (Nat.lt_ge_cases (street s) (num_streets c)) as [Lt|Ge]; [|right; rewrite (np_stuck_run c s _ M Hp Ge); auto].
    change (np_run_steps c s (b :: bs)) with (np_run_steps c (fst (np_step c s b)) bs).
    destruct (np_step_settled c s b M Hp) as [(X & _ & _)|(z & Z)].
    { exfalso. unfold after_bet in X. change (action (wrap c s)) with (action s) in X. rewrite Ha in X. destruct (py_round b); [|discriminate R1].
      destruct (bet_sizes_ok c (wrap c s) W Lt) as [[[x y] w] Y]. rewrite Y in X. destruct (settle_bet _ _ _ _ _). discriminate X. }
    set (s' := fst (np_step c s b)) in *.
    destruct (action s') as [a'|] eqn:Ea'; [|left; rewrite np_run_idle; exact Ea'].
    assert (Hp' : in_progress s') by (unfold in_progress; congruence).
    assert (F' : np_fair c s') by exact (np_fair_op c s (OStep b) F I I).
    assert (Ez : s' = z) by (exact (np_going _ _ _ _ Z Hp')).
    cbn [List.length] in H. rewrite Nat2Z.inj_succ in H. destruct (ns_after _ _ _ _ Z) as (s1 & H1 & E1).
    pose proof (settle_uses c (wrap c s) b a k s1 M (np_ring c s F Hp) Ha H1 Q) as U. rewrite <- E1, <- Ez in U.
    destruct U as [D|(D & Dk & a'' & T & Q')].
    + apply (IH s' a' (num_players c - 1)%nat); try assumption; [lia|intros d Hd; lia|nia].
    + change (action (wrap c s')) with (action s') in T. rewrite Ea' in T. injection T as <-. apply (IH s' a' (k - 1)%nat); try assumption; [lia|replace (S (k - 1)) with k by lia; exact Q'|nia].
Qed.
(** After [longest] finite bets (PropTerm.v) the hand is over, or it stands at a showdown that cannot be paid out, from where only
    a reset leads on *)
Theorem C69_finite : forall c s bs, np_fair c s -> Forall (fun b => is_ok (py_round b) = true) bs ->
  longest c s <= Z.of_nat (List.length bs) ->
  let s' := np_run_steps c s bs in
  action s' = None \/
  (in_progress s' /\ (num_streets c <= street s')%nat /\ forall b, fst (np_step c s' b) = s' /\ is_ok (snd (np_step c s' b)) = false).
Proof.
  intros c s bs F Hb H. cbv zeta. destruct (action s) as [a|] eqn:Ha; [|left; now rewrite np_run_idle].
  pose proof (cw_two _ (mo_cfg _ _ (np_fair_money c s F))) as H2.
  destruct (np_ends_within c bs s a (num_players c - 1) F Ha ltac:(lia) ltac:(intros d Hd; lia) Hb) as [T|[T1 T2]].
  - unfold longest in H. unfold moves_left. cbn [wrap set_button stacks active street] in *. nia.
  - now left.
  - right. split; [exact T1|]. split; [exact T2|]. intros b. apply np_stuck; try assumption. apply np_fair_money.
    clear - F. revert s F; induction bs as [|b bs IH]; intros s F; [exact F|]. exact (IH _ (np_fair_op c s (OStep b) F I I)).
Qed.
Print Assumptions C69_finite.
Example C69_example : exists c s, np_fair c s /\ in_progress s /\ longest c s = 87 /\
  Forall (fun b => is_ok (py_round b) = true) (repeat (PyInt 3) 87) /\
  action (np_run_steps c s (repeat (PyInt 3) 87)) = None /\ action (np_run_steps c s (repeat (PyInt 3) 2)) <> None.
Proof.
  assert (K : exists c s, np_fair c s /\ action s = Some 1%nat /\ longest c s = 87 /\
    action (np_run_steps c s (repeat (PyInt 3) 87)) = None /\ action (np_run_steps c s (repeat (PyInt 3) 2)) = Some 1%nat).
  { np_play term_game (new_hand :: bets [4]) c s E. split; [exact (np_played_fair _ _ _ _ E)|]. np_plays E. }
  destruct K as (c & s & F & K1 & K2 & K3 & K4). exists c, s. split; [exact F|]. split; [unfold in_progress; rewrite K1; discriminate|].
  split; [exact K2|]. split; [apply Forall_forall; intros b Hb; apply repeat_spec in Hb; now rewrite Hb|]. split; [exact K3|rewrite K4; discriminate].
Qed.
(** the hand that is stuck at the dealer on lists is paid out *)
Example C69_stuck_example : exists c s, np_fair c s /\ action s = Some 3%nat /\ button s = 1%nat /\
  action (fst (np_step c s (PyInt (-1)))) = None /\ is_ok (snd (np_step c s (PyInt (-1)))) = true /\
  snd (step c s (PyInt (-1))) = Err IndexError.
Proof. np_play odd_game stuck_ops c s E. split; [exact (np_played_fair _ _ _ _ E)|]. np_plays E. Qed.
Lemma firstn_cut {A} (l : list A) k : firstn k l = firstn (Nat.min k (List.length l)) l.
Proof. destruct (Nat.le_ge_cases k (List.length l)) as [H|H]; [now rewrite Nat.min_l|]. rewrite Nat.min_r by exact H. now rewrite firstn_all2, firstn_all by exact H. Qed.
Definition ranked_all (c : config) (s : state) (bs : list pynum) : bool :=
  forallb (fun k => forallb (fun i => let t := np_run_steps c s (firstn k bs) in
    is_ok (evaluate (the_evaluator c) (nth i (hole_cards t) []) (community_cards t)) || Nat.ltb (street t) (num_streets c))
    (seq 0 (num_players c))) (seq 0 (S (List.length bs))).
Lemma ranked_all_ok c s bs : ranked_all c s bs = true ->
  forall k i, let t := np_run_steps c s (firstn k bs) in (i < num_players c)%nat ->
     is_active t i -> (num_streets c <= street t)%nat ->
     is_ok (evaluate (the_evaluator c) (nth i (hole_cards t) []) (community_cards t)) = true.
Proof.
  intros H k i. cbv zeta. intros Hi _ Hs. unfold ranked_all in H. rewrite firstn_cut in *. set (m := Nat.min k (List.length bs)) in *.
  rewrite forallb_forall in H. specialize (H m ltac:(apply in_seq; lia)). rewrite forallb_forall in H. specialize (H i ltac:(apply in_seq; lia)).
  cbv zeta in H. apply orb_true_iff in H. destruct H as [H|H]; [exact H|lia].
Qed.
