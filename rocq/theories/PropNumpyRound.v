(** * PropNumpyRound: C95 (the course of a hand at the dealer on arrays) *)
From Coq Require Import ZifyBool ZifyNat Arith.
From Verif Require Import PyBase PyFacts CardModel CardSpec CardProofs DeckSpec DeckProofs EvalModel EngineModel EngineSpec EngineFacts BetFacts MoneyFacts SolventSpec NumpyModel NumpySpec NumpyFacts EngineDemo PropRound PropNumpy PropNumpyEnds PropNumpyAfter PropExact PropNumpyBets.

(** a bet at the array dealer: nothing happens, or the bet is placed, the betting settled and the step ended *)
Record np_parts (c : config) (s : state) (b : pynum) (a : nat) (z s1 : state) (call mi ma bet : Z) (folds : bool) : Prop := mkNpParts {
  pp_settled : np_settled c s b z;
  pp_after : after_bet c (wrap c s) b = Some s1;
  pp_wrap : wrap c z = settle c s1;
  pp_bet : bet_effect c (wrap c s) b a call mi ma bet folds s1;
  pp_history : history (fst (np_step c s b)) = history z;
  pp_deck : the_deck (fst (np_step c s b)) = the_deck z;
  pp_going : in_progress (fst (np_step c s b)) -> fst (np_step c s b) = z
}.
Lemma np_take c s b a : np_fair c s -> action s = Some a ->
  fst (np_step c s b) = s \/ exists z s1 call mi ma bet folds, np_parts c s b a z s1 call mi ma bet folds.
Proof.
  intros F Ha. pose proof (np_fair_money c s F) as M. assert (Hp : in_progress s) by (unfold in_progress; rewrite Ha; discriminate).
  destruct (np_both c s b M Hp) as [(E & _)|(z & Z & _)]; [now left|right].
  destruct (ns_after _ _ _ _ Z) as (s1 & H1 & Ez). destruct (after_bet_effect _ _ _ _ H1) as (a' & call & mi & ma & bet & folds & B).
  pose proof (be_turn _ _ _ _ _ _ _ _ _ _ B) as X. change (action (wrap c s)) with (action s) in X. rewrite Ha in X. injection X as <-.
  exists z, s1, call, mi, ma, bet, folds. split; try assumption;
    rewrite (ns_step _ _ _ _ Z); destruct (np_step_end_cases c z) as [(e & _ & Y)|[(pay & _ & _ & Y)|(pay & _ & _ & Y)]]; rewrite Y; try reflexivity.
  cbn [finish_hand action]. intros X. exfalso. now apply X.
Qed.
Lemma np_run_idle c bs : forall s, action s = None -> np_run_steps c s bs = s.
Proof. induction bs as [|b bs IH]; intros s H; [reflexivity|]. change (np_run_steps c s (b :: bs)) with (np_run_steps c (fst (np_step c s b)) bs). unfold np_step. rewrite H. cbn [fst]. now apply IH. Qed.
Lemma np_fair_step c s b : np_fair c s -> np_fair c (fst (np_step c s b)).
Proof. intros F. apply (np_fair_op c s (OStep b)); [exact F|exact I|exact I]. Qed.
Lemma np_fair_run c bs : forall s, np_fair c s -> np_fair c (np_run_steps c s bs).
Proof. induction bs as [|b bs IH]; intros s F; [exact F|]. change (np_run_steps c s (b :: bs)) with (np_run_steps c (fst (np_step c s b)) bs). apply IH. now apply np_fair_step. Qed.
Lemma np_street_mono c s b : np_fair c s -> (street s <= street (fst (np_step c s b)))%nat.
Proof.
  intros F. destruct (action s) as [a|] eqn:Ha; [|unfold np_step; rewrite Ha; apply le_n].
  destruct (np_take c s b a F Ha) as [->|(z & s1 & call & mi & ma & bet & folds & P)]; [apply le_n|].
  destruct (np_same _ _ _ _ (pp_settled _ _ _ _ _ _ _ _ _ _ _ P)) as (_ & _ & E & _). rewrite E. change (street z) with (street (wrap c z)). rewrite (pp_wrap _ _ _ _ _ _ _ _ _ _ _ P).
  change (street s) with (street (wrap c s)). rewrite <- (be_street _ _ _ _ _ _ _ _ _ _ (pp_bet _ _ _ _ _ _ _ _ _ _ _ P)).
  destruct (settle_cases c s1 (mo_cfg _ _ (np_fair_money c s F))) as [[_ E2]|[_ E2]]; [rewrite E2; lia|]. rewrite (se_street _ _ _ (ne_street _ _ _ E2)). destruct (all_all_in s1); lia.
Qed.
Lemma np_run_street_mono c bs : forall s, np_fair c s -> (street s <= street (np_run_steps c s bs))%nat.
Proof.
  induction bs as [|b bs IH]; intros s F; [apply le_n|]. change (np_run_steps c s (b :: bs)) with (np_run_steps c (fst (np_step c s b)) bs).
  etransitivity; [apply (np_street_mono c s b F)|]. apply IH. now apply np_fair_step.
Qed.

(** ** A street ends only when betting is settled *)
Lemma np_inv_start c s0 : np_street_start c s0 -> in_progress s0 -> street_inv c (wrap c s0) (wrap c s0).
Proof.
  intros H Hp. split; [exists []; now rewrite app_nil_r|intros j _; unfold on_street; lia| |].
  2:{ intros j Hj. unfold acted_since in Hj. rewrite skipn_all in Hj. destruct Hj. }
  intros j Ho Ha. exfalso. destruct H as [(s & rnd & rb & rs & F & -> & H)|(s & b & F & -> & H)]; pose proof (np_fair_money c s F) as M.
  - destruct (C68_reset c s rnd rb rs F) as [E1 E2].
    assert (H' : is_ok (snd (reset c (wrap c s) rnd rb rs)) = true) by (rewrite <- E2; destruct (snd (np_reset c s rnd rb rs)); [reflexivity|discriminate H]).
    rewrite E1 in Ho, Ha. destruct (reset_spec c (wrap c s) rnd rb rs (mo_cfg _ _ M) (mo_wf _ _ M)) as [(_ & _ & E)|[(_ & E)|(_ & _ & _ & E)]];
      [rewrite E in H'; discriminate H'|rewrite E in H'; discriminate H'|]. apply (re_option _ _ _ _ _ _ E) in Ho. unfold is_active in Ha. rewrite Ho in Ha. discriminate Ha.
  - destruct (action s) as [a|] eqn:Ha'; [|exfalso; apply H; unfold np_step; rewrite Ha'; reflexivity].
    destruct (np_take c s b a F Ha') as [E|(z & s1 & call & mi & ma & bet & folds & P)]; [apply H; rewrite E; reflexivity|].
    rewrite (pp_going _ _ _ _ _ _ _ _ _ _ _ P Hp) in *. rewrite (pp_wrap _ _ _ _ _ _ _ _ _ _ _ P) in Ho, Ha.
    destruct (settle_cases c s1 (mo_cfg _ _ M)) as [[_ E2]|[_ E2]].
    + apply H. change (street z) with (street (wrap c z)). rewrite (pp_wrap _ _ _ _ _ _ _ _ _ _ _ P), E2. exact (be_street _ _ _ _ _ _ _ _ _ _ (pp_bet _ _ _ _ _ _ _ _ _ _ _ P)).
    + rewrite (ne_option _ _ _ E2) in Ho. unfold is_active in Ha. rewrite (se_active _ _ _ (ne_street _ _ _ E2)) in Ha.
      destruct (Nat.lt_ge_cases j (List.length (active s1))) as [Hj|Hj].
      * rewrite (map_nth_lt _ _ _ _ false) in Ho by exact Hj. rewrite Ha in Ho. discriminate Ho.
      * rewrite nth_overflow in Ha by exact Hj. discriminate Ha.
Qed.
Lemma np_inv_run c s0 bs : forall s, np_fair c s -> street_inv c (wrap c s0) (wrap c s) -> street (np_run_steps c s bs) = street s ->
  in_progress (np_run_steps c s bs) -> street_inv c (wrap c s0) (wrap c (np_run_steps c s bs)).
Proof.
  induction bs as [|b bs IH]; intros s F J Es Hp; [exact J|].
  change (np_run_steps c s (b :: bs)) with (np_run_steps c (fst (np_step c s b)) bs) in *.
  pose proof (np_fair_step c s b F) as F'. pose proof (np_street_mono c s b F) as M1. pose proof (np_run_street_mono c bs _ F') as M2.
  assert (Es' : street (fst (np_step c s b)) = street s) by lia. pose proof (np_fair_money c s F) as M.
  apply IH; [exact F'| |lia|exact Hp].
  destruct (action s) as [a|] eqn:Ha; [|unfold np_step; rewrite Ha; exact J].
  destruct (np_take c s b a F Ha) as [->|(z & s1 & call & mi & ma & bet & folds & P)]; [exact J|].
  assert (Hp' : in_progress (fst (np_step c s b))).
  { intros E. apply Hp. rewrite np_run_idle by exact E. exact E. }
  rewrite (pp_going _ _ _ _ _ _ _ _ _ _ _ P Hp') in *. rewrite (pp_wrap _ _ _ _ _ _ _ _ _ _ _ P).
  pose proof (street_inv_bet c (wrap c s0) (wrap c s) b s1 (mo_wf _ _ M) J (pp_after _ _ _ _ _ _ _ _ _ _ _ P)) as J1.
  destruct (settle_cases c s1 (mo_cfg _ _ M)) as [[_ E2]|[_ E2]]; [rewrite E2; exact J1|].
  exfalso. change (street z) with (street (wrap c z)) in Es'. rewrite (pp_wrap _ _ _ _ _ _ _ _ _ _ _ P), (se_street _ _ _ (ne_street _ _ _ E2)), (be_street _ _ _ _ _ _ _ _ _ _ (pp_bet _ _ _ _ _ _ _ _ _ _ _ P)) in Es'.
  change (street (wrap c s)) with (street s) in Es'. destruct (all_all_in s1); lia.
Qed.

(** The street began at [s0]; the bets [bs] were made on it; the bet [b] ends it. Then everybody
    still in the hand has acted on it and has matched the largest amount or has no chips left. *)
Theorem C95_settled : forall c s0 bs b, np_street_start c s0 ->
  let s := np_run_steps c s0 bs in
  let s' := fst (np_step c s b) in
  in_progress s -> street s = street s0 -> street s' <> street s ->
  forall j, (j < num_players c)%nat -> is_active s' j ->
    acted_since s0 s' j /\
    ((forall k, (k < num_players c)%nat -> on_street s0 s' k <= on_street s0 s' j) \/ stack_of s j - np_put_in c s b j = 0).
Proof.
  intros c s0 bs b H. cbv zeta. intros Hp Es Hs j Hj Aj.
  assert (Hp0 : in_progress s0).
  { intros E. apply Hp. rewrite np_run_idle by exact E. exact E. }
  destruct (np_street_start_raises c s0 H Hp0) as [F0 _].
  pose proof (np_inv_run c s0 bs s0 F0 (np_inv_start c s0 H Hp0) Es Hp) as J.
  pose proof (np_fair_run c bs s0 F0) as Fs. set (s := np_run_steps c s0 bs) in *. pose proof (np_fair_money c s Fs) as M.
  pose proof (mo_cfg _ _ M) as W.
  destruct (action s) as [a|] eqn:Ha; [|exfalso; now apply Hp].
  destruct (np_take c s b a Fs Ha) as [E|(z & s1 & call & mi & ma & bet & folds & P)]; [exfalso; apply Hs; rewrite E; reflexivity|].
  pose proof (pp_after _ _ _ _ _ _ _ _ _ _ _ P) as H1. pose proof (pp_bet _ _ _ _ _ _ _ _ _ _ _ P) as B. pose proof (pp_wrap _ _ _ _ _ _ _ _ _ _ _ P) as Ez.
  destruct (np_same _ _ _ _ (pp_settled _ _ _ _ _ _ _ _ _ _ _ P)) as (Ea & Ec & Et & _). pose proof (pp_history _ _ _ _ _ _ _ _ _ _ _ P) as Eh.
  pose proof (street_inv_bet c (wrap c s0) (wrap c s) b s1 (mo_wf _ _ M) J H1) as [_ Jc Jo _].
  destruct (after_bet_wf c (wrap c s) b s1 W (mo_wf _ _ M) H1) as (A1 & A2 & A3 & A4 & A5 & _).
  destruct (wf_turn _ _ (mo_wf _ _ M) a Ha) as [La _]. pose proof (settle_keep c s1 W) as K.
  assert (Ag : all_agreed s1 = true).
  { destruct (settle_cases c s1 W) as [[_ E2]|[E2 _]]; [|exact E2]. exfalso. apply Hs. rewrite Et. change (street z) with (street (wrap c z)). rewrite Ez, E2.
    exact (be_street _ _ _ _ _ _ _ _ _ _ B). }
  unfold all_agreed in Ag. apply andb_true_iff in Ag. destruct Ag as [G1 G2]. rewrite all_true_spec in G1, G2.
  assert (Aj1 : is_active s1 j).
  { unfold is_active in *. rewrite Ea in Aj. change (active z) with (active (wrap c z)) in Aj. rewrite Ez, (sk_active _ _ K) in Aj. exact Aj. }
  assert (Eh1 : history (fst (np_step c s b)) = history s1) by (rewrite Eh; change (history z) with (history (wrap c z)); rewrite Ez; exact (sk_history _ _ K)).
  assert (Ec1 : pot_commits (fst (np_step c s b)) = pot_commits s1) by (rewrite Ec; change (pot_commits z) with (pot_commits (wrap c z)); rewrite Ez; exact (sk_commits _ _ K)).
  split.
  - unfold acted_since. rewrite Eh1. change (history s0) with (history (wrap c s0)). apply Jo; [|exact Aj1]. apply G1. lia.
  - specialize (G2 j). rewrite map_length, !combine_length in G2. specialize (G2 ltac:(lia)).
    rewrite (map_combine_nth _ _ _ _ _ (0, 0) false) in G2 by (rewrite ?combine_length; lia). rewrite combine_nth_lt in G2 by lia.
    unfold is_active in Aj1. rewrite Aj1 in G2. cbn [negb] in G2. rewrite orb_false_r in G2. apply orb_true_iff in G2.
    assert (Eo : forall k, on_street s0 (fst (np_step c s b)) k = on_street (wrap c s0) s1 k).
    { intros k. unfold on_street, committed. rewrite Ec1. reflexivity. }
    destruct G2 as [G2|G2].
    + left. intros k Hk. rewrite !Eo, <- !Jc by assumption. unfold street_committed.
      pose proof (maxZ_nth_ge (street_commits s1) k ltac:(lia)). lia.
    + right. unfold np_put_in, committed. rewrite Ec1, (be_commits _ _ _ _ _ _ _ _ _ _ B), add_at_nth by (rewrite (wf_commits _ _ (mo_wf _ _ M)); exact La).
      unfold stack_of. rewrite (be_stacks _ _ _ _ _ _ _ _ _ _ B), add_at_nth in G2 by (rewrite (wf_stacks _ _ (mo_wf _ _ M)); exact La).
      change (pot_commits (wrap c s)) with (pot_commits s) in *. change (stacks (wrap c s)) with (stacks s) in *.
      destruct (Nat.eqb_spec j a) as [->|]; lia.
Qed.
Print Assumptions C95_settled.

(** ** Community cards follow the street *)
Lemma np_comm_step c s b : np_fair c s -> let s' := fst (np_step c s b) in
  community_cards s' = community_cards s ++ firstn (comm_total c (street s') - comm_total c (street s)) (d_cards (the_deck s)) /\
  d_cards (the_deck s') = skipn (comm_total c (street s') - comm_total c (street s)) (d_cards (the_deck s)).
Proof.
  intros F. cbv zeta. assert (Z0 : forall t : state, street t = street s -> community_cards t = community_cards s -> the_deck t = the_deck s ->
      community_cards t = community_cards s ++ firstn (comm_total c (street t) - comm_total c (street s)) (d_cards (the_deck s)) /\
      d_cards (the_deck t) = skipn (comm_total c (street t) - comm_total c (street s)) (d_cards (the_deck s))).
  { intros t -> -> ->. rewrite Nat.sub_diag. cbn [firstn skipn]. now rewrite app_nil_r. }
  destruct (action s) as [a|] eqn:Ha; [|apply Z0; unfold np_step; rewrite Ha; reflexivity].
  destruct (np_take c s b a F Ha) as [->|(z & s1 & call & mi & ma & bet & folds & P)]; [now apply Z0|].
  destruct (np_same _ _ _ _ (pp_settled _ _ _ _ _ _ _ _ _ _ _ P)) as (_ & _ & Et & _ & _ & Ek).
  pose proof (pp_wrap _ _ _ _ _ _ _ _ _ _ _ P) as Ez. pose proof (pp_bet _ _ _ _ _ _ _ _ _ _ _ P) as B.
  pose proof (be_street _ _ _ _ _ _ _ _ _ _ B) as B1. pose proof (be_comm _ _ _ _ _ _ _ _ _ _ B) as B2. pose proof (be_deck _ _ _ _ _ _ _ _ _ _ B) as B3.
  change (street (wrap c s)) with (street s) in B1. change (community_cards (wrap c s)) with (community_cards s) in B2. change (the_deck (wrap c s)) with (the_deck s) in B3.
  rewrite Et, Ek, (pp_deck _ _ _ _ _ _ _ _ _ _ _ P). change (street z) with (street (wrap c z)). change (community_cards z) with (community_cards (wrap c z)). change (the_deck z) with (the_deck (wrap c z)). rewrite Ez.
  destruct (settle_cases c s1 (mo_cfg _ _ (np_fair_money c s F))) as [[_ E2]|[_ E2]].
  - apply Z0; rewrite E2; assumption.
  - rewrite <- B1, <- B2, <- B3. rewrite (se_deck _ _ _ (ne_street _ _ _ E2)). cbn [set_cards d_cards]. split; [exact (se_comm _ _ _ (ne_street _ _ _ E2))|reflexivity].
Qed.
Lemma np_comm_run c bs : forall s, np_fair c s -> let s' := np_run_steps c s bs in
  community_cards s' = community_cards s ++ firstn (comm_total c (street s') - comm_total c (street s)) (d_cards (the_deck s)).
Proof.
  cbv zeta. enough (G : forall s, np_fair c s -> let s' := np_run_steps c s bs in
    community_cards s' = community_cards s ++ firstn (comm_total c (street s') - comm_total c (street s)) (d_cards (the_deck s)) /\
    d_cards (the_deck s') = skipn (comm_total c (street s') - comm_total c (street s)) (d_cards (the_deck s))) by (intros s F; now destruct (G s F)).
  induction bs as [|b bs IH]; intros s F; cbv zeta.
  { cbn [np_run_steps fold_left]. rewrite Nat.sub_diag. cbn [firstn skipn]. now rewrite app_nil_r. }
  change (np_run_steps c s (b :: bs)) with (np_run_steps c (fst (np_step c s b)) bs).
  pose proof (np_fair_step c s b F) as F'. destruct (IH _ F') as [-> ->]. clear IH. destruct (np_comm_step c s b F) as [K1 K2]. cbv zeta in K1, K2.
  pose proof (comm_total_mono c _ _ (np_street_mono c s b F)). pose proof (comm_total_mono c _ _ (np_run_street_mono c bs _ F')).
  set (s' := fst (np_step c s b)) in *. rewrite K1, K2.
  rewrite <- app_assoc, firstn_skipn_comp, skipn_skipn_comp.
  replace (comm_total c (street s') - comm_total c (street s) + (comm_total c (street (np_run_steps c s' bs)) - comm_total c (street s')))%nat
    with (comm_total c (street (np_run_steps c s' bs)) - comm_total c (street s))%nat by lia. auto.
Qed.

(** cards on the table stay there, new ones come from the top of the deck, none while the street stays; after
    a new hand and any bets there are as many as the streets reached ask for, if the deck is large enough *)
Theorem C95_board : forall c s, np_fair c s ->
  (forall b, let s' := fst (np_step c s b) in (street s <= street s')%nat /\
    exists k, community_cards s' = community_cards s ++ firstn k (d_cards (the_deck s)) /\
      d_cards (the_deck s') = skipn k (d_cards (the_deck s)) /\ (street s' = street s -> k = 0%nat)) /\
  (forall rnd rb rs bs, is_ok (snd (np_reset c s rnd rb rs)) = true ->
    let s1 := np_run_steps c (fst (np_reset c s rnd rb rs)) bs in
    let on_board k := list_sum (map Z.to_nat (firstn (S k) (num_community_cards c))) in
    (on_board (street s1) + num_players c * Z.to_nat (num_hole_cards c) <= List.length (d_cards (deck_shuffle rnd (the_deck s))))%nat ->
    List.length (community_cards s1) = on_board (street s1)).
Proof.
  intros c s F. split.
  - intros b. cbv zeta. split; [now apply np_street_mono|]. destruct (np_comm_step c s b F) as [K1 K2]. eexists. split; [exact K1|]. split; [exact K2|]. intros ->. lia.
  - intros rnd rb rs bs H. cbv zeta. intros Hd. destruct (np_reset_fresh c s rnd rb rs F H) as (F1 & _). pose proof (np_fair_money c s F) as M.
    destruct (C68_reset c s rnd rb rs F) as [E1 E2].
    assert (H' : is_ok (snd (reset c (wrap c s) rnd rb rs)) = true) by (rewrite <- E2; destruct (snd (np_reset c s rnd rb rs)); [reflexivity|discriminate H]).
    destruct (reset_spec c (wrap c s) rnd rb rs (mo_cfg _ _ M) (mo_wf _ _ M)) as [(_ & _ & E)|[(_ & E)|(_ & _ & _ & E)]];
      [rewrite E in H'; discriminate H'|rewrite E in H'; discriminate H'|].
    pose proof (re_street _ _ _ _ _ _ E) as R1. pose proof (re_comm _ _ _ _ _ _ E) as R2. pose proof (re_deck _ _ _ _ _ _ E) as R3. rewrite <- E1 in R1, R2, R3.
    set (s0 := fst (np_reset c s rnd rb rs)) in *. change (street (wrap c s0)) with (street s0) in R1. change (community_cards (wrap c s0)) with (community_cards s0) in R2. change (the_deck (wrap c s0)) with (the_deck s0) in R3.
    change (the_deck (wrap c s)) with (the_deck s) in *.
    pose proof (np_comm_run c bs s0 F1) as Kc. cbv zeta in Kc. rewrite Kc. clear Kc.
    change (list_sum (map Z.to_nat (firstn (S (street (np_run_steps c s0 bs))) (num_community_cards c)))) with (comm_total c (street (np_run_steps c s0 bs))) in *.
    pose proof (comm_total_mono c _ _ (np_run_street_mono c bs s0 F1)) as Hm. rewrite R1 in *.
    rewrite app_length, firstn_length, R2, firstn_length, R3. cbn [set_cards d_cards]. rewrite skipn_length.
    assert (Hd' : (comm_total c (street (np_run_steps c s0 bs)) + num_players c * Z.to_nat (num_hole_cards c) <= List.length (d_cards (deck_shuffle rnd (the_deck s))))%nat) by exact Hd. clear Hd.
    revert Hd' Hm. generalize (num_players c * Z.to_nat (num_hole_cards c))%nat, (List.length (d_cards (deck_shuffle rnd (the_deck s)))), (comm_total c (street (np_run_steps c s0 bs))), (comm_total c 0). intros h x y w Hd Hm. lia.
Qed.
Print Assumptions C95_board.

(** ** Who is out stays out; the others are not touched *)
Theorem C95_out : forall c s bs i, np_fair c s -> ~ is_active s i ->
  ~ is_active (np_run_steps c s bs) i /\ committed (np_run_steps c s bs) i = committed s i.
Proof.
  intros c s bs i. revert s. induction bs as [|b bs IH]; intros s F Hi; [now split|].
  change (np_run_steps c s (b :: bs)) with (np_run_steps c (fst (np_step c s b)) bs).
  enough (K : ~ is_active (fst (np_step c s b)) i /\ committed (fst (np_step c s b)) i = committed s i).
  { destruct K as [K1 K2]. rewrite <- K2. apply IH; [now apply np_fair_step|exact K1]. }
  destruct (action s) as [a|] eqn:Ha; [|unfold np_step; rewrite Ha; now split].
  destruct (np_step_read c s b a F Ha) as [->|(o & B & Ho & Hb)]; [now split|].
  destruct (np_seen c s b a o B F Ha Ho Hb) as (bet & folds & L & La & Aa & _ & _ & _ & _ & _ & _ & Kc & Ka & _). cbv zeta in *.
  rewrite Kc, Ka. destruct (Nat.eqb_spec i a) as [->|]; [contradiction|]. split; [tauto|lia].
Qed.
Print Assumptions C95_out.
Theorem C95_others : forall c s a b j, np_fair c s -> action s = Some a -> j <> a ->
  let s' := fst (np_step c s b) in
  committed s' j = committed s j /\ (is_active s' j <-> is_active s j) /\ (in_progress s' -> stack_of s' j = stack_of s j).
Proof.
  intros c s a b j F Ha Hj. cbv zeta.
  destruct (np_step_read c s b a F Ha) as [->|(o & B & Ho & Hb)]; [splits; reflexivity|].
  destruct (np_seen c s b a o B F Ha Ho Hb) as (bet & folds & L & La & Aa & _ & _ & _ & _ & _ & _ & Kc & Ka & _ & _ & _ & Ks). cbv zeta in *.
  rewrite Kc, Ka. destruct (Nat.eqb_spec j a) as [|_]; [contradiction|]. splits; [lia|tauto|]. intros Hp. rewrite (Ks Hp). destruct (Nat.eqb_spec j a) as [|_]; [contradiction|]. lia.
Qed.
Print Assumptions C95_others.

(** ** The last player in the hand takes the pot *)
Theorem C95_last : forall c s b w, np_fair c s -> in_progress s ->
  let s' := fst (np_step c s b) in
  only_active c s' w ->
  action s' = None /\
  stack_of s' w = stack_of s w + sumZ (pot_commits s') /\
  (forall j, (j < num_players c)%nat -> j <> w -> stack_of s' j = stack_of s j - np_put_in c s b j) /\
  exists out, snd (np_step c s b) = Ok out /\ out_done out = repeat true (num_players c) /\
    List.length (out_payouts out) = num_players c /\
    (forall j, (j < num_players c)%nat -> j <> w -> nth j (out_payouts out) 0 = - committed s' j) /\
    nth w (out_payouts out) 0 = sumZ (pot_commits s') - committed s' w.
Proof.
  intros c s b w F Hp. cbv zeta. intros Hw. pose proof (np_fair_money c s F) as M. pose proof (mo_wf _ _ M) as I.
  destruct (action s) as [a|] eqn:Ha; [|exfalso; now apply Hp].
  destruct (np_step_read c s b a F Ha) as [E|(o & B & Ho & Hb)].
  { exfalso. rewrite E in Hw. pose proof (only_active_count c s w (wf_active _ _ I) Hw) as X.
    assert (P : action (wrap c s) <> None) by (change (action (wrap c s)) with (action s); rewrite Ha; discriminate).
    pose proof (wf_count _ _ I P) as Y. change (active (wrap c s)) with (active s) in Y. lia. }
  destruct (np_take c s b a F Ha) as [E|(z & s1 & call & mi & ma & bet & folds & P)].
  { exfalso. rewrite E in Hw. pose proof (only_active_count c s w (wf_active _ _ I) Hw) as X.
    assert (P : action (wrap c s) <> None) by (change (action (wrap c s)) with (action s); rewrite Ha; discriminate).
    pose proof (wf_count _ _ I P) as Y. change (active (wrap c s)) with (active s) in Y. lia. }
  pose proof (pp_settled _ _ _ _ _ _ _ _ _ _ _ P) as Z. destruct (np_same _ _ _ _ Z) as (Ea & Ec & _).
  assert (Hw2 : only_active c z w) by (destruct Hw as [Hw1 Hw2]; split; [exact Hw1|]; intros j; rewrite <- Hw2; unfold is_active; now rewrite Ea).
  pose proof (only_active_count c z w (ns_active _ _ _ _ Z) Hw2) as Cn.
  destruct (fold_payouts c z w (ns_active _ _ _ _ Z) (ns_commits _ _ _ _ Z) Hw2) as (pay & P1 & P2 & P3).
  pose proof (cw_two _ (mo_cfg _ _ M)) as H2.
  destruct (np_settled_ends c s b z pay Z H2) as (o' & E); [right; exact Cn|rewrite np_payouts_same by (now left); exact P1|].
  assert (Wa : w <> a).
  { assert (P0 : action (wrap c s) <> None) by (change (action (wrap c s)) with (action s); rewrite Ha; discriminate).
    pose proof (wf_count _ _ I P0) as Y. change (active (wrap c s)) with (active s) in Y. destruct (wf_turn _ _ I a Ha) as [La Aa]. change (active (wrap c s)) with (active s) in Aa.
    pose proof (count_true_upd_false (active s) a Aa) as Y2. destruct (count_true_pos (upd (active s) a false) ltac:(lia)) as (x & _ & Hx).
    destruct (Nat.eq_dec x a) as [->|N]; [rewrite upd_nth_same in Hx by (pose proof (wf_active _ _ I) as X; change (active (wrap c s)) with (active s) in X; lia); discriminate Hx|]. rewrite upd_nth_other in Hx by congruence.
    destruct (np_seen c s b a o B F Ha Ho Hb) as (bet' & folds' & _ & _ & _ & _ & _ & _ & _ & _ & _ & _ & Ka & _). cbv zeta in Ka.
    assert (X : is_active (fst (np_step c s b)) x) by (apply Ka; split; [exact Hx|intros [X _]; contradiction]). apply (proj2 Hw) in X. subst x. exact N. }
  assert (Com : forall j, committed (fst (np_step c s b)) j = committed z j) by (intros j; unfold committed; now rewrite Ec).
  assert (Fin : forall j, (j < num_players c)%nat -> stack_of (fst (np_step c s b)) j = stack_of s j + committed s j + nth j pay 0).
  { intros j Hj. rewrite (np_ended_stack _ _ _ _ _ _ j E Hj). pose proof (np_each c s b z j M Z). lia. }
  assert (Cw : committed z w = committed s w).
  { destruct (np_seen c s b a o B F Ha Ho Hb) as (bet' & folds' & _ & _ & _ & _ & _ & _ & _ & _ & _ & Kc & _). cbv zeta in Kc. specialize (Kc w). rewrite Com in Kc.
    destruct (Nat.eqb_spec w a) as [|_]; [contradiction|]. lia. }
  pose proof (P3 w (proj1 Hw)) as Pw. rewrite Nat.eqb_refl in Pw. rewrite Ec. pose proof (ns_pot _ _ _ _ Z) as Ep. splits.
  - rewrite (ne_state _ _ _ _ _ _ E). reflexivity.
  - rewrite (Fin w (proj1 Hw)). lia.
  - intros j Hj N. rewrite (Fin j Hj), (P3 j Hj). destruct (Nat.eqb_spec j w) as [|_]; [contradiction|]. unfold np_put_in. rewrite Com. lia.
  - eexists. split; [exact (ne_out _ _ _ _ _ _ E)|]. cbn [out_done out_payouts]. splits; [reflexivity|exact P2| |].
    + intros j Hj N. rewrite (P3 j Hj), Com. destruct (Nat.eqb_spec j w) as [|_]; [contradiction|]. reflexivity.
    + rewrite Pw, Com. lia.
Qed.
Print Assumptions C95_last.

(** a hand of three on two streets: the first bet of player 0 is called and the flop is dealt *)
Example C95_met : exists c s, np_fair c s /\ is_ok (snd (np_reset c s [] true true)) = true /\
  let s0 := fst (np_reset c s [] true true) in
  let s1 := np_run_steps c s0 (map PyInt [4; 3]) in let s2 := fst (np_step c s1 (PyInt 2)) in
  street s1 = 0%nat /\ action s1 = Some 2%nat /\ community_cards s1 = [] /\
  street s2 = 1%nat /\ List.length (community_cards s2) = 1%nat /\ pot_commits s2 = [4; 4; 4] /\
  active s2 = [true; true; true] /\ history s2 = [(0%nat, 4, false); (1%nat, 3, false); (2%nat, 2, false)].
Proof. np_play no_limit_3 (@nil op) c s E. split; [exact (np_played_fair _ _ _ _ E)|]. cbv zeta. np_plays E. Qed.
(** then player 1 bets 3, player 2 folds and so does player 0: player 1 takes the pot *)
Example C95_last_met : exists c s, np_fair c s /\ action s = Some 0%nat /\ active s = [true; true; false] /\ stacks s = [16; 13; 16] /\
  let s' := fst (np_step c s (PyInt (-1))) in active s' = [false; true; false] /\ stacks s' = [16; 28; 16] /\ action s' = None.
Proof. np_play no_limit_3 (new_hand :: bets [4; 3; 2; 3; -1]) c s E. split; [exact (np_played_fair _ _ _ _ E)|]. cbv zeta. np_plays E. Qed.

(** ** C74: the limits, and the numbers computed on the way to them *)
Lemma np_solvent_largest c s : np_solvent c s -> in_progress s -> big_blind c <= largest_raise s <= Z.max (big_blind c) (all_chips s).
Proof.
  intros S Hp. split; [exact (mo_largest _ _ (np_fair_money c s (np_solvent_fair c s S)) Hp)|]. revert Hp. induction S as [w rnd s H Hs|s o S IH Ho Hn].
  - apply Dealer_inv in H. rewrite (bd_state _ _ _ _ H). intros P. exfalso. now apply P.
  - pose proof (np_solvent_fair c s S) as F. destruct o as [rnd rb rs|b|cs| |l]; cbn [np_apply_op] in *.
    + intros Hp. pose proof (np_fair_money c s F) as M. pose proof (mo_cfg _ _ M) as W. pose proof (mo_wf _ _ M) as Iw.
      destruct (np_reset_wrap c s rnd rb rs W) as [E1 E2].
      assert (X : largest_raise (fst (np_reset c s rnd rb rs)) = big_blind c); [|lia].
      change (largest_raise (fst (np_reset c s rnd rb rs))) with (largest_raise (wrap c (fst (np_reset c s rnd rb rs)))). rewrite E1.
      destruct (is_ok (snd (reset c (wrap c s) rnd rb rs))) eqn:Eok.
      * destruct (reset_spec c (wrap c s) rnd rb rs W Iw) as [(_ & _ & E)|[(_ & E)|(_ & _ & _ & E)]];
          [rewrite E in Eok; discriminate Eok|rewrite E in Eok; discriminate Eok|exact (re_largest _ _ _ _ _ _ E)].
      * exfalso. destruct (reset_failed c (wrap c s) rnd rb rs W Iw Eok) as [Ef _]. destruct Ho as [Ho|Ho].
        -- apply Hp. change (action (fst (np_reset c s rnd rb rs))) with (action (wrap c (fst (np_reset c s rnd rb rs)))). rewrite E1, Ef. exact Ho.
        -- rewrite <- E2 in Eok. destruct (snd (np_reset c s rnd rb rs)); [discriminate Eok|discriminate Ho].
    + intros Hp. destruct (action s) as [a|] eqn:Ha.
      2:{ exfalso. apply Hp. unfold np_step. rewrite Ha. exact Ha. }
      assert (P : in_progress s) by (unfold in_progress; rewrite Ha; discriminate). specialize (IH P).
      destruct (np_step_read c s b a F Ha) as [->|(o & B & Hob & Hb)]; [exact IH|].
      destruct (np_seen c s b a o B F Ha Hob Hb) as (bet & folds & L & La & Aa & X1 & _ & _ & X4 & _ & _ & _ & _ & _ & Kl & _). cbv zeta in *.
      rewrite (C65_step c s b F), Kl. pose proof (np_solvent_nonneg c s S a) as Na. specialize (X4 Na).
      destruct (np_hand_within c s S P) as [_ B2]. destruct (B2 a) as [B3 _].
      pose proof (li_sane _ _ _ _ _ L Na) as SL. unfold sane_limits in SL. destruct (_ && _); lia.
    + intros P. destruct (deck_trick cs (the_deck s)); exact (IH P).
    + exact IH.
    + intros Hp. exfalso. apply Hp. apply Hn.
Qed.
Theorem C74_limits : forall c s a o, np_solvent c s -> action s = Some a -> observation c s false = Ok o ->
  let m := all_chips s in
  let call := maxZ (street_commits s) - street_committed s a in
  0 <= o_call o <= m /\ 0 <= o_min_raise o <= m /\ 0 <= o_max_raise o <= m /\
  (* before the cuts to the stack: the call, the pot-limit raise, the largest raise with and without the call *)
  0 <= call <= m /\ 0 <= pot s + call * 2 <= 3 * m /\
  big_blind c <= largest_raise s <= Z.max (big_blind c) m /\ big_blind c <= largest_raise s + call <= Z.max (big_blind c) m + m.
Proof.
  intros c s a o S Ha Ho. cbv zeta. pose proof (np_solvent_fair c s S) as F. pose proof (np_fair_money c s F) as M.
  assert (P : in_progress s) by (unfold in_progress; rewrite Ha; discriminate). pose proof (np_solvent_nonneg c s S a) as Na.
  destruct (C93_limits c s a o F Ha Ho Na) as (B1 & B2 & B3 & _). destruct (np_hand_within c s S P) as [W1 W2]. destruct (W2 a) as (W3 & _ & W4).
  destruct (wf_turn _ _ (mo_wf _ _ M) a Ha) as [La _]. pose proof (wf_street _ _ (mo_wf _ _ M)) as Ls. change (street_commits (wrap c s)) with (street_commits s) in Ls.
  pose proof (maxZ_nth_ge (street_commits s) a ltac:(lia)) as G1. pose proof (np_solvent_largest c s S P) as G2.
  assert (G3 : maxZ (street_commits s) <= all_chips s).
  { destruct (In_nth (street_commits s) (maxZ (street_commits s)) 0) as (i & _ & E); [apply maxZ_in; destruct (street_commits s); [cbn in Ls; lia|discriminate]|].
    destruct (W2 i) as (_ & _ & X). unfold street_committed in X. lia. }
  unfold street_committed in *. lia.
Qed.
Print Assumptions C74_limits.
(** a bet of 12 into blinds of 1 and 2 sets a largest raise; the next player has to call 11 and can only go all in *)
Example C74_limits_met : exists c s, np_solvent c s /\ action s = Some 1%nat /\ stacks s = [8; 19; 18] /\ pot s = 15 /\ largest_raise s = 10 /\
  match observation c s false with Ok o => Some (o_call o, o_min_raise o, o_max_raise o) | _ => None end = Some (11, 19, 19).
Proof.
  np_play no_limit_3 (new_hand :: bets [12]) c s E. split; [apply (np_played_solvent _ _ _ _ E); vm_compute; reflexivity|]. np_plays E.
Qed.

(** ** C93: all raises of a street *)
Definition np_raises (c : config) (s : state) (b : pynum) : bool :=
  match action s, observation c s false with
  | Some a, Ok o => (0 <? np_put_in c s b a) && (o_call o <? np_put_in c s b a)
  | _, _ => false
  end.
(** A fixed raise size below the big blind is never counted: five raises on a street with cap 1 *)
Theorem C93_cap_refuted : exists c s bs, np_street_start c s /\ 0 < big_blind c /\
  nth_error (num_raises c) (street s) = Some (Some 1) /\ np_count_on_street (np_raises c) c s bs = 5%nat.
Proof.
  assert (X : exists c s0, np_fair c s0 /\ is_ok (snd (np_reset c s0 [] true true)) = true /\ big_blind c = 2 /\
    nth_error (num_raises c) (street (fst (np_reset c s0 [] true true))) = Some (Some 1) /\
    np_count_on_street (np_raises c) c (fst (np_reset c s0 [] true true)) (map PyInt [2; 2; 2; 2; 2]) = 5%nat).
  { np_play (demo 2 1 [1; 2] [0; 0] [RawInt 1] [RawCount 1] [0] 20) (@nil op) c s E. split; [exact (np_played_fair _ _ _ _ E)|]. np_plays E. }
  destruct X as (c & s & F & H & H1 & H2 & H3). exists c, (fst (np_reset c s [] true true)), (map PyInt [2; 2; 2; 2; 2]).
  split; [left; exists s, [], true, true; auto|]. split; [lia|]. split; [exact H2|exact H3].
Qed.
Print Assumptions C93_cap_refuted.

Lemma np_fair_sane c s : np_fair c s -> sane c.
Proof. intros F. induction F as [w rnd s H Hs|s o F IH Ho Hn]; assumption. Qed.
Lemma np_pot_going c s b a : np_fair c s -> action s = Some a -> in_progress (fst (np_step c s b)) ->
  pot (fst (np_step c s b)) = pot s + np_put_in c s b a.
Proof.
  intros F Ha Hp. destruct (np_take c s b a F Ha) as [E|(z & s1 & call & mi & ma & bet & folds & P)]; [unfold np_put_in; rewrite E; lia|].
  pose proof (np_fair_money c s F) as M. destruct (wf_turn _ _ (mo_wf _ _ M) a Ha) as [La _].
  unfold np_put_in. rewrite (pp_going _ _ _ _ _ _ _ _ _ _ _ P Hp). change (pot z) with (pot (wrap c z)). change (committed z a) with (committed (wrap c z) a). rewrite (pp_wrap _ _ _ _ _ _ _ _ _ _ _ P).
  pose proof (pp_bet _ _ _ _ _ _ _ _ _ _ _ P) as Bt.
  assert (K : pot s1 = pot s + (committed s1 a - committed s a)).
  { rewrite (be_pot _ _ _ _ _ _ _ _ _ _ Bt). unfold committed. rewrite (be_commits _ _ _ _ _ _ _ _ _ _ Bt).
    change (pot_commits (wrap c s)) with (pot_commits s). change (stacks (wrap c s)) with (stacks s). change (pot (wrap c s)) with (pot s).
    rewrite add_at_nth, Nat.eqb_refl by (pose proof (wf_commits _ _ (mo_wf _ _ M)) as X; change (pot_commits (wrap c s)) with (pot_commits s) in X; lia). lia. }
  destruct (settle_cases c s1 (mo_cfg _ _ M)) as [[_ E2]|[_ E2]]; [rewrite E2; exact K|].
  unfold committed in *. rewrite (se_pot _ _ _ (ne_street _ _ _ E2)), (EngineFacts.se_commits _ _ _ (ne_street _ _ _ E2)). exact K.
Qed.

Lemma np_step_fits c s b a o B : np_fair c s -> action s = Some a -> observation c s false = Ok o -> py_round b = Ok B ->
  rule_fits c s -> 0 <= stack_of s a -> let s' := fst (np_step c s b) in
  street s' = street s -> in_progress s' -> rule_fits c s'.
Proof.
  intros F Ha Ho Hb Hf Hst. cbv zeta. intros Hstr Hp. pose proof (np_fair_money c s F) as M.
  assert (P : in_progress s) by (unfold in_progress; rewrite Ha; discriminate). pose proof (mo_largest _ _ M P) as HL. change (largest_raise (wrap c s)) with (largest_raise s) in HL.
  pose proof (sane_bb c (mo_cfg _ _ M) (np_fair_sane c s F)) as Hbb.
  pose proof (np_pot_going c s b a F Ha Hp) as Ep. unfold np_put_in in Ep.
  destruct (np_seen c s b a o B F Ha Ho Hb) as (bet & folds & L & La & Ea & F1 & F2 & F3 & F4 & F5 & F6 & Kc & _ & _ & El & _).
  destruct (bet_sizes_cases c s a _ _ _ Ha (obs_sizes c s o Ho)) as (Ec & rs & cap & Er & Ecap & Cs). cbv zeta in *.
  rewrite Kc, Nat.eqb_refl in Ep. unfold rule_fits in *. rewrite Hstr, El, Ep, Er in *. unfold stack_of in *.
  destruct L as [L1 L2 L3 L4 L5 L6 L7].
  specialize (L6 Hst). destruct L6 as [L6 L6'].
  destruct folds.
  { rewrite (F3 eq_refl). cbn [Z.eqb negb andb]. destruct rs; [exact Hf| |exact Hf]. lia. }
  destruct (F6 eq_refl Hst) as [F7 F8]. specialize (F4 Hst).
  destruct rs as [z| |]; [| |exact I].
  - destruct (negb (bet =? 0) && _) eqn:En; [|exact Hf].
    assert (K : bet = 0 \/ bet = o_call o \/ bet <= z + raw_call s a).
    { rewrite F7, clean_bet_spec. cbv zeta. clear - Cs Ec.
      repeat (match goal with |- context [if ?b then _ else _] => destruct b eqn:? end); destruct Cs as [Cs|Cs]; lia. }
    lia.
  - destruct (negb (bet =? 0) && _) eqn:En; lia.
Qed.
(** a raise that is not full takes the whole stack *)
Lemma np_short_raise c s a o b B : np_fair c s -> action s = Some a -> observation c s false = Ok o -> py_round b = Ok B ->
  (forall z, nth_error (raise_sizes c) (street s) = Some (RInt z) -> largest_raise s <= z) ->
  o_min_raise o <= o_max_raise o ->
  np_raises c s b = true -> np_full_raise c s b = false -> np_put_in c s b a = stack_of s a.
Proof.
  intros F Ha Ho Hb Hz Hmm. unfold np_raises, np_full_raise, np_put_in. rewrite Ha, Ho.
  destruct (np_seen c s b a o B F Ha Ho Hb) as (bet & folds & L & La & Ea & F1 & F2 & F3 & F4 & F5 & F6 & Kc & _).
  rewrite Kc, Nat.eqb_refl.
  intros H1 H2. assert (Hst : 0 <= stack_of s a) by lia. specialize (F4 Hst).
  assert (Ef : folds = false) by (destruct folds; [rewrite F3 in * by reflexivity; lia|reflexivity]).
  destruct (F6 Ef Hst) as [F7 _]. assert (Hbet : o_call o < bet < o_call o + largest_raise s) by lia.
  enough (bet = stack_of s a) by lia.
  destruct (bet_sizes_cases c s a _ _ _ Ha (obs_sizes c s o Ho)) as (Ec & rs & cap & Er & Ecap & Cs). cbv zeta in *.
  destruct L as [L1 L2 L3 L4 L5 L6 L7]. specialize (L6 Hst). destruct L6 as [L6 _].
  assert (X : o_min_raise o <= bet <= o_max_raise o).
  { rewrite F7, clean_bet_spec in *. cbv zeta in *. revert Hbet. clear - Hmm L6 H1.
    repeat (match goal with |- context [if ?b then _ else _] => destruct b eqn:? end); lia. }
  unfold stack_of in *. destruct Cs as [[_ Cs]|[_ Cs]]; [lia|]. destruct rs as [z| |]; [specialize (Hz z Er); lia|lia|lia].
Qed.
(** if the raise rule of the street suits the raises made before it and nobody is in debt, all raises of the street,
    full or not, are at most as many as configured plus one for every player with chips *)
Theorem C93_all_raises : forall c s bs cap, np_street_start c s -> 0 < big_blind c ->
  nth_error (num_raises c) (street s) = Some (Some cap) -> 0 <= cap -> rule_fits c s ->
  (forall j, (j < num_players c)%nat -> 0 <= stack_of s j) ->
  Z.of_nat (np_count_on_street (np_raises c) c s bs) <= cap + Z.of_nat (with_chips c s).
Proof.
  intros c s bs cap H Hbb Hcap H0 Hf Hn.
  destruct (action s) as [a0|] eqn:Ha0.
  2:{ enough (E : np_count_on_street (np_raises c) c s bs = 0%nat) by lia. destruct bs as [|b bs]; [reflexivity|]. cbn [np_count_on_street].
      unfold np_raises, np_step. rewrite Ha0. cbn [fst]. rewrite Ha0, Nat.eqb_refl. reflexivity. }
  destruct (np_street_start_raises c s H ltac:(unfold in_progress; rewrite Ha0; discriminate)) as [F E]. clear a0 Ha0 H.
  enough (G : Z.of_nat (np_count_on_street (np_raises c) c s bs) <= Z.max 0 (cap - street_raises s) + Z.of_nat (with_chips c s)) by lia.
  clear E H0. revert s F Hcap Hf Hn. induction bs as [|b bs IH]; intros s F Hcap Hf Hn; [cbn; lia|]. cbn [np_count_on_street].
  destruct (action s) as [a|] eqn:Ha.
  2:{ unfold np_raises. rewrite Ha. unfold np_step. rewrite Ha. cbn [fst]. rewrite Ha, Nat.eqb_refl. lia. }
  pose proof (np_fair_step c s b F) as F'.
  assert (Hskip : fst (np_step c s b) = s -> np_raises c s b = false).
  { intros E. unfold np_raises, np_put_in. rewrite Ha, E. destruct (observation c s false); lia. }
  pose proof (np_fair_money c s F) as M.
  destruct (np_step_read c s b a F Ha) as [E|(o & B & Ho & Hb)].
  { rewrite (Hskip E), E, Nat.eqb_refl, Ha. exact (IH s F Hcap Hf Hn). }
  destruct (wf_turn _ _ (mo_wf _ _ M) a Ha) as [La _]. pose proof (Hn a La) as Hst.
  destruct (np_step_raises c s b a o B cap F Hbb Ha Ho Hb Hcap) as [K1 K2]. cbv zeta in *.
  destruct (np_seen c s b a o B F Ha Ho Hb) as (bet & folds & _ & _ & _ & X1 & _ & _ & X4 & _ & _ & Kc & _ & _ & _ & _ & Ks). cbv zeta in *.
  pose proof (mo_largest _ _ M ltac:(unfold in_progress; change (action (wrap c s)) with (action s); rewrite Ha; discriminate)) as HL. change (largest_raise (wrap c s)) with (largest_raise s) in HL.
  assert (Pi : np_put_in c s b a = Z.min (stack_of s a) bet) by (unfold np_put_in; rewrite Kc, Nat.eqb_refl; lia).
  assert (Short : np_raises c s b = true -> np_full_raise c s b = false -> np_put_in c s b a = stack_of s a).
  { apply (np_short_raise c s a o b B F Ha Ho Hb).
    - intros z Hz. unfold rule_fits in Hf. now rewrite Hz in Hf.
    - destruct (bet_sizes_cases c s a _ _ _ Ha (obs_sizes c s o Ho)) as (Ec & rs & cp & Er & Ecp & Cs). cbv zeta in *.
      unfold rule_fits in Hf. rewrite Er in Hf. destruct Cs as [[_ Cs]|[_ Cs]]; [lia|].
      assert (Hrc : 0 <= raw_call s a) by (apply raw_call_nonneg; pose proof (wf_street _ _ (mo_wf _ _ M)) as X; change (street_commits (wrap c s)) with (street_commits s) in X; rewrite X; exact La).
      unfold stack_of in *. destruct rs; lia. }
  assert (Pos : np_raises c s b = true -> 0 < np_put_in c s b a) by (unfold np_raises; rewrite Ha, Ho; lia).
  specialize (X4 Hst).
  assert (Rich : 0 < stack_of s a -> (1 <= with_chips c s)%nat).
  { intros Hpos. unfold with_chips. change 1%nat with (List.length [a]). apply NoDup_incl_length; [repeat constructor; intros []|].
    intros x [<-|[]]. apply filter_In. split; [apply in_seq; lia|lia]. }
  assert (Going : in_progress (fst (np_step c s b)) -> forall j, stack_of (fst (np_step c s b)) j = stack_of s j - (if Nat.eqb j a then np_put_in c s b a else 0)).
  { intros Hp j. rewrite Pi. exact (Ks Hp j). }
  assert (Mono : in_progress (fst (np_step c s b)) -> (with_chips c (fst (np_step c s b)) <= with_chips c s)%nat).
  { intros Hp. apply filter_le. intros j _ Hj. rewrite (Going Hp j) in Hj. destruct (Nat.eqb_spec j a) as [Ej|Ej]; [rewrite Ej in *|]; lia. }
  assert (Mono2 : in_progress (fst (np_step c s b)) -> np_raises c s b = true -> np_full_raise c s b = false ->
            (with_chips c (fst (np_step c s b)) < with_chips c s)%nat).
  { intros Hp R1 R2. apply (filter_lt _ _ a); [apply in_seq; lia| | |].
    - specialize (Pos R1). lia.
    - rewrite (Going Hp a), Nat.eqb_refl, (Short R1 R2). lia.
    - intros j _ Hj. rewrite (Going Hp j) in Hj. destruct (Nat.eqb_spec j a) as [Ej|Ej]; [rewrite Ej in *|]; lia. }
  assert (FR : np_full_raise c s b = true -> np_raises c s b = true) by (unfold np_full_raise, np_raises; rewrite Ha, Ho; lia).
  assert (One : np_raises c s b = true -> 1 <= Z.max 0 (cap - street_raises s) + Z.of_nat (with_chips c s)).
  { intros R1. specialize (Pos R1). specialize (Rich ltac:(lia)). lia. }
  destruct (Nat.eqb_spec (street (fst (np_step c s b))) (street s)) as [Es|Es].
  2:{ destruct (np_raises c s b); [specialize (One eq_refl)|]; lia. }
  destruct (action (fst (np_step c s b))) as [a'|] eqn:Ea'.
  2:{ destruct (np_raises c s b); [specialize (One eq_refl)|]; lia. }
  assert (Hp : in_progress (fst (np_step c s b))) by (unfold in_progress; rewrite Ea'; discriminate).
  specialize (K2 Es). specialize (Mono Hp). specialize (Mono2 Hp).
  pose proof (np_step_fits c s b a o B F Ha Ho Hb Hf Hst Es Hp) as Hf'.
  assert (Hn' : forall j, (j < num_players c)%nat -> 0 <= stack_of (fst (np_step c s b)) j).
  { intros j Hj. rewrite (Going Hp j). specialize (Hn j Hj). destruct (Nat.eqb_spec j a) as [Ej|Ej]; [rewrite Ej in *|]; lia. }
  rewrite <- Es in Hcap. specialize (IH _ F' Hcap Hf' Hn').
  destruct (np_full_raise c s b) eqn:Ef; [rewrite (FR eq_refl); specialize (K1 eq_refl); lia|].
  destruct (np_raises c s b); [specialize (Mono2 eq_refl eq_refl)|]; lia.
Qed.
Print Assumptions C93_all_raises.
(** two raises on a street with cap 1: a short one by the player with 3 chips, then a full one *)
Example C93_all_raises_met : exists c s0, np_fair c s0 /\ is_ok (snd (np_reset c s0 [] true false)) = true /\ big_blind c = 2 /\
  nth_error (num_raises c) (street (fst (np_reset c s0 [] true false))) = Some (Some 1) /\
  nth_error (raise_sizes c) (street (fst (np_reset c s0 [] true false))) = Some RInf /\
  stacks (fst (np_reset c s0 [] true false)) = [3; 19; 18] /\ with_chips c (fst (np_reset c s0 [] true false)) = 3%nat /\
  np_count_on_street (np_raises c) c (fst (np_reset c s0 [] true false)) (map PyInt [3; 9; 9; 9]) = 2%nat.
Proof.
  np_play (demo 3 1 [1; 2; 0] [0; 0; 0] [RawInf] [RawCount 1] [0] 20) [OSetStacks [3; 20; 20]] c s E.
  split; [exact (np_played_fair _ _ _ _ E)|]. np_plays E.
Qed.

(** ** C93: players in debt (a forced bet was larger than their stack) *)
Theorem C93_debt : forall c s a o b B, np_fair c s -> action s = Some a -> observation c s false = Ok o -> py_round b = Ok B ->
  stack_of s a < 0 ->
  let s' := fst (np_step c s b) in
  np_put_in c s b a = stack_of s a /\ (in_progress s' -> stack_of s' a = 0) /\
  (~ is_active s' a <-> pynum_neg b = true).
Proof.
  intros c s a o b B F Ha Ho Hb Hst. cbv zeta.
  destruct (np_seen c s b a o B F Ha Ho Hb) as (bet & folds & L & La & Ea & F1 & F2 & F3 & F4 & F5 & F6 & Kc & Ka & _ & _ & _ & Ks). cbv zeta in *.
  pose proof (F5 Hst) as ->. unfold np_put_in. rewrite Kc, Nat.eqb_refl. split; [lia|]. split.
  - intros Hp. rewrite (Ks Hp), Nat.eqb_refl. lia.
  - rewrite Ka. destruct L as [L1 L2 L3 L4 L5 L6 L7]. specialize (L7 Hst). pose proof (pynum_nonneg_round b B Hb) as Hr. unfold stack_of in Hst.
    destruct folds.
    + split; [intros _|intros _ [_ X]; apply X; auto]. destruct F2 as [F2 _]. specialize (F2 eq_refl). destruct F2 as [_ [F2|F2]]; [exact F2|].
      destruct (pynum_neg b); [reflexivity|]. exfalso. specialize (Hr eq_refl). lia.
    + destruct F2 as [_ F2]. split; [intros X; exfalso; apply X; split; [exact Ea|intros [_ Y]; discriminate Y]|].
      intros Hneg. exfalso. enough (Y : false = true) by discriminate Y. apply F2. split; [lia|now left].
Qed.
Print Assumptions C93_debt.
Example C93_debt_met : exists c s, np_fair c s /\ action s = Some 1%nat /\ stack_of s 1 = -1 /\
  is_ok (observation c s false) = true /\ pot_commits s = [1; 2].
Proof.
  np_play (demo 2 1 [1; 2] [0; 0] [RawInf] [RawCountInf] [0] 1) (new_hand :: bets [2]) c s E. split; [exact (np_played_fair _ _ _ _ E)|]. np_plays E.
Qed.
