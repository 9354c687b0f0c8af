(** * PropRound: C28-C31, C33, C39-C42 *)
From Coq Require Import ZifyBool ZifyNat Arith Permutation.
From Verif Require Import PyBase PyFacts CardModel CardSpec CardProofs DeckSpec DeckProofs EvalModel EngineModel EngineSpec EngineFacts BetFacts MoneyFacts EngineDemo.

Definition no_limit_3 := demo 3 2 [1; 2; 0] [0; 0; 0] [RawInf; RawInf] [RawCountInf; RawCountInf] [0; 1] 20.
Definition no_limit_4 := demo 4 3 [1; 2; 0; 0] [0; 0; 0; 0] [RawInf; RawInf; RawInf] [RawCountInf; RawCountInf; RawCountInf] [0; 3; 1] 20.
Definition new_hand := OReset [] true true.
Notation bets l := (map (fun z => OStep (PyInt z)) l).

(** ** C28 A street ends only when betting is settled *)

(** the chips put in by seat [j] on the street that began at [s0] (blinds count) *)
Definition on_street (s0 s : state) (j : nat) : Z := street_committed s0 j + (committed s j - committed s0 j).
(** the seats whose players have acted since [s0] *)
Definition acted_since (s0 s : state) (j : nat) : Prop :=
  In j (map (fun e => fst (fst e)) (skipn (List.length (history s0)) (history s))).

Record street_inv (c : config) (s0 s : state) : Prop := mkStreetInv {
  si_history : exists h, history s = history s0 ++ h;
  si_commits : forall j, (j < num_players c)%nat -> street_committed s j = on_street s0 s j;
  si_option : forall j, nth j (street_option s) false = true -> is_active s j -> acted_since s0 s j;
  si_acted : forall j, acted_since s0 s j -> nth j (street_option s) false = true
}.
Lemma street_inv_start c s0 : street_start c s0 -> in_progress s0 -> street_inv c s0 s0.
Proof.
  intros H Hp. split; [exists []; now rewrite app_nil_r|intros j _; unfold on_street; lia| |].
  2:{ intros j Hj. unfold acted_since in Hj. rewrite skipn_all in Hj. destruct Hj. }
  intros j Ho Ha. exfalso. destruct H as [(s & rnd & rb & rs & F & -> & H)|(s & b & F & -> & H)]; pose proof (fair_money c s F) as M.
  - destruct (reset_spec c s rnd rb rs (mo_cfg _ _ M) (mo_wf _ _ M)) as [(_ & _ & E)|[(_ & E)|(_ & _ & _ & E)]];
      [rewrite E in H; discriminate|rewrite E in H; discriminate|]. apply (re_option _ _ _ _ _ _ E) in Ho. unfold is_active in Ha. congruence.
  - destruct (action s) as [a|] eqn:Ha'; [|exfalso; apply H; unfold step; rewrite Ha'; reflexivity].
    destruct (step_take c s b a (mo_cfg _ _ M) Ha') as [(E & _)|(call & mi & ma & bet & folds & s1 & H1 & P)]; [apply H; rewrite E; reflexivity|].
    destruct (wf_turn _ _ (mo_wf _ _ M) a Ha') as [La _].
    destruct (parts_going _ _ _ _ _ _ _ _ _ _ _ a (mo_cfg _ _ M) (mo_wf _ _ M) La P Hp) as [_ E']. rewrite E' in *.
    destruct (settle_cases c s1 (mo_cfg _ _ M)) as [[_ E2]|[_ E2]].
    + apply H. rewrite E2. exact (be_street _ _ _ _ _ _ _ _ _ _ (sp_bet _ _ _ _ _ _ _ _ _ _ _ P)).
    + rewrite (ne_option _ _ _ E2) in Ho. unfold is_active in Ha. rewrite (se_active _ _ _ (ne_street _ _ _ E2)) in Ha.
      destruct (Nat.lt_ge_cases j (List.length (active s1))) as [Hj|Hj].
      * rewrite (map_nth_lt _ _ _ _ false) in Ho by exact Hj. rewrite Ha in Ho. discriminate.
      * rewrite nth_overflow in Ha by exact Hj. discriminate.
Qed.
(** the invariant right after the bet *)
Lemma street_inv_bet c s0 s b s1 : wf c s -> street_inv c s0 s -> after_bet c s b = Some s1 -> street_inv c s0 s1.
Proof.
  intros I [[h Hh] Hc Ho Hd] H1. apply after_bet_effect in H1. destruct H1 as (a & call & mi & ma & bet & folds & B).
  destruct (wf_turn _ _ I a (be_turn _ _ _ _ _ _ _ _ _ _ B)) as [La Aa].
  assert (Hh1 : history s1 = history s0 ++ (h ++ [(a, bet, pynum_neg b)])).
  { rewrite (be_history _ _ _ _ _ _ _ _ _ _ B), Hh, app_assoc. reflexivity. }
  split.
  - eexists. exact Hh1.
  - intros j Hj. specialize (Hc j Hj). unfold on_street, street_committed, committed in *.
    rewrite (be_street_commits _ _ _ _ _ _ _ _ _ _ B), (be_commits _ _ _ _ _ _ _ _ _ _ B), !add_at_nth by (rewrite ?(wf_street _ _ I), ?(wf_commits _ _ I); exact La).
    destruct (Nat.eqb_spec j a) as [->|]; lia.
  - intros j Hj Aj. unfold acted_since. rewrite Hh1, skipn_app, skipn_all, Nat.sub_diag. cbn [List.app skipn]. rewrite map_app.
    destruct (Nat.eq_dec j a) as [->|Hne]; [apply in_or_app; right; now left|]. apply in_or_app; left.
    apply (be_opt1 _ _ _ _ _ _ _ _ _ _ B) in Hj. destruct Hj as [Hj|Hj]; [|unfold is_active in Aj; congruence].
    rewrite upd_nth_other in Hj by congruence.
    assert (As : is_active s j).
    { unfold is_active in *. rewrite (be_active _ _ _ _ _ _ _ _ _ _ B) in Aj. destruct folds; [|exact Aj]. now rewrite upd_nth_other in Aj by congruence. }
    specialize (Ho j Hj As). unfold acted_since in Ho. rewrite Hh, skipn_app, skipn_all, Nat.sub_diag in Ho. exact Ho.
  - intros j Hj. apply (be_opt2 _ _ _ _ _ _ _ _ _ _ B). unfold acted_since in Hj.
    rewrite Hh1, skipn_app, skipn_all, Nat.sub_diag in Hj. cbn [List.app skipn] in Hj. rewrite map_app in Hj. apply in_app_or in Hj.
    rewrite upd_nth by (rewrite (wf_option _ _ I); exact La). destruct (Nat.eqb_spec j a) as [->|Hn]; [reflexivity|].
    destruct Hj as [Hj|[Hj|[]]]; [|cbn in Hj; congruence]. apply Hd. unfold acted_since. rewrite Hh, skipn_app, skipn_all, Nat.sub_diag. exact Hj.
Qed.
Lemma run_steps_idle c bs : forall s, action s = None -> run_steps c s bs = s.
Proof. induction bs as [|b bs IH]; intros s H; [reflexivity|]. cbn. unfold step at 2. rewrite H. cbn. now apply IH. Qed.
Lemma step_street_mono c s b : cfg_wf c -> (street s <= street (fst (step c s b)))%nat.
Proof.
  intros W. destruct (action s) as [a|] eqn:Ha; [|unfold step; rewrite Ha; cbn; lia].
  destruct (step_take c s b a W Ha) as [(-> & _)|(call & mi & ma & bet & folds & s1 & H1 & P)]; [lia|].
  rewrite (sp_street _ _ _ _ _ _ _ _ _ _ _ P), <- (be_street _ _ _ _ _ _ _ _ _ _ (sp_bet _ _ _ _ _ _ _ _ _ _ _ P)).
  destruct (settle_cases c s1 W) as [[_ E2]|[_ E2]]; [rewrite E2; lia|]. rewrite (se_street _ _ _ (ne_street _ _ _ E2)). destruct (all_all_in s1); lia.
Qed.
Lemma run_street_mono c bs : cfg_wf c -> forall s, (street s <= street (run_steps c s bs))%nat.
Proof.
  intros W. induction bs as [|b bs IH]; intros s; [apply le_n|]. etransitivity; [apply (step_street_mono c s b W)|]. apply IH.
Qed.
Lemma street_inv_run c s0 bs : cfg_wf c -> forall s, reachable c s -> street_inv c s0 s -> street (run_steps c s bs) = street s ->
  in_progress (run_steps c s bs) -> street_inv c s0 (run_steps c s bs).
Proof.
  intros W. induction bs as [|b bs IH]; intros s R J Es Hp; [exact J|].
  change (run_steps c s (b :: bs)) with (run_steps c (fst (step c s b)) bs) in *.
  assert (R' : reachable c (fst (step c s b))) by (apply (reach_op c s (OStep b)); [exact R|exact I]).
  pose proof (step_street_mono c s b W) as M1. pose proof (run_street_mono c bs W (fst (step c s b))) as M2.
  assert (Es' : street (fst (step c s b)) = street s) by lia.
  apply IH; [exact R'| |lia|exact Hp].
  destruct (action s) as [a|] eqn:Ha; [|unfold step; rewrite Ha; exact J].
  destruct (step_take c s b a W Ha) as [(-> & _)|(call & mi & ma & bet & folds & s1 & H1 & P)]; [exact J|].
  assert (Hp' : in_progress (fst (step c s b))).
  { intros E. apply Hp. rewrite run_steps_idle by exact E. exact E. }
  destruct (wf_turn _ _ (reachable_wf c s R) a Ha) as [La _].
  destruct (parts_going _ _ _ _ _ _ _ _ _ _ _ a W (reachable_wf c s R) La P Hp') as [_ E']. rewrite E' in *.
  pose proof (street_inv_bet c s0 s b s1 (reachable_wf c s R) J H1) as J1.
  destruct (settle_cases c s1 W) as [[_ E2]|[_ E2]]; [rewrite E2; exact J1|].
  exfalso. rewrite (se_street _ _ _ (ne_street _ _ _ E2)), (be_street _ _ _ _ _ _ _ _ _ _ (sp_bet _ _ _ _ _ _ _ _ _ _ _ P)) in Es'.
  destruct (all_all_in s1); lia.
Qed.
Lemma fair_run_steps c s bs : fair c s -> fair c (run_steps c s bs).
Proof.
  revert s; induction bs as [|b bs IH]; intros s F; [exact F|]. change (run_steps c s (b :: bs)) with (run_steps c (fst (step c s b)) bs).
  apply IH. apply (fair_op c s (OStep b)); [exact F|exact I|exact I].
Qed.

(** The street began at [s0]; the bets [bs] were made on it; the bet [b] ends it. Then everybody
    still in the hand has acted on it and has matched the largest amount or has no chips left. *)
Theorem C28_settled : forall c s0 bs b, street_start c s0 ->
  let s := run_steps c s0 bs in
  let s' := fst (step c s b) in
  in_progress s -> street s = street s0 -> street s' <> street s ->
  forall j, (j < num_players c)%nat -> is_active s' j ->
    acted_since s0 s' j /\
    ((forall k, (k < num_players c)%nat -> on_street s0 s' k <= on_street s0 s' j) \/ stack_of s j - put_in c s b j = 0).
Proof.
  intros c s0 bs b H. cbv zeta. intros Hp Es Hs j Hj Aj.
  assert (Hp0 : in_progress s0).
  { intros E. apply Hp. rewrite run_steps_idle by exact E. exact E. }
  assert (F0 : fair c s0).
  { destruct H as [(s & rnd & rb & rs & F & -> & H)|(s & x & F & -> & H)].
    - apply (fair_op c s (OReset rnd rb rs)); [exact F|now right|exact I].
    - apply (fair_op c s (OStep x)); [exact F|exact I|exact I]. }
  pose proof (mo_cfg _ _ (fair_money c s0 F0)) as W.
  pose proof (street_inv_run c s0 bs W s0 (fair_reachable c s0 F0) (street_inv_start c s0 H Hp0) Es Hp) as J.
  pose proof (fair_run_steps c s0 bs F0) as Fs. set (s := run_steps c s0 bs) in *. pose proof (fair_money c s Fs) as M.
  destruct (action s) as [a|] eqn:Ha; [|exfalso; now apply Hp].
  destruct (step_take c s b a W Ha) as [(E & _)|(call & mi & ma & bet & folds & s1 & H1 & P)]; [rewrite E in Hs; congruence|].
  pose proof (street_inv_bet c s0 s b s1 (mo_wf _ _ M) J H1) as [_ Jc Jo _].
  destruct (after_bet_wf c s b s1 W (mo_wf _ _ M) H1) as (A1 & A2 & A3 & A4 & A5 & _).
  destruct (wf_turn _ _ (mo_wf _ _ M) a Ha) as [La _].
  assert (Ag : all_agreed s1 = true).
  { destruct (settle_cases c s1 W) as [[_ E2]|[E2 _]]; [|exact E2]. exfalso. apply Hs. rewrite (sp_street _ _ _ _ _ _ _ _ _ _ _ P), E2.
    exact (be_street _ _ _ _ _ _ _ _ _ _ (sp_bet _ _ _ _ _ _ _ _ _ _ _ P)). }
  unfold all_agreed in Ag. apply andb_true_iff in Ag. destruct Ag as [G1 G2]. rewrite all_true_spec in G1, G2.
  assert (Aj1 : is_active s1 j) by (unfold is_active in *; rewrite (sp_active _ _ _ _ _ _ _ _ _ _ _ P) in Aj; exact Aj).
  split.
  - unfold acted_since. rewrite (sp_history _ _ _ _ _ _ _ _ _ _ _ P). apply Jo; [|exact Aj1]. apply G1. lia.
  - specialize (G2 j). rewrite map_length, !combine_length in G2. specialize (G2 ltac:(lia)).
    rewrite (map_combine_nth _ _ _ _ _ (0, 0) false) in G2 by (rewrite ?combine_length; lia). rewrite combine_nth_lt in G2 by lia.
    unfold is_active in Aj1. rewrite Aj1 in G2. cbn [negb] in G2. rewrite orb_false_r in G2. apply orb_true_iff in G2.
    assert (Eo : forall k, on_street s0 (fst (step c s b)) k = on_street s0 s1 k) by (intros k; unfold on_street, committed; now rewrite (sp_commits _ _ _ _ _ _ _ _ _ _ _ P)).
    destruct G2 as [G2|G2].
    + left. intros k Hk. rewrite !Eo, <- !Jc by assumption. unfold street_committed.
      pose proof (maxZ_nth_ge (street_commits s1) k ltac:(lia)). lia.
    + right. unfold put_in. rewrite (parts_committed _ _ _ _ _ _ _ _ _ _ _ j (mo_wf _ _ M) La P). unfold stack_of.
      rewrite (be_stacks _ _ _ _ _ _ _ _ _ _ (sp_bet _ _ _ _ _ _ _ _ _ _ _ P)), add_at_nth in G2 by (rewrite (wf_stacks _ _ (mo_wf _ _ M)); exact La).
      destruct (Nat.eqb_spec j a) as [->|]; lia.
Qed.
Print Assumptions C28_settled.

(** otherwise no community card is dealt; the street number never decreases *)
Theorem C28_unchanged : forall c s b, reachable c s ->
  (street s <= street (fst (step c s b)))%nat /\
  (street (fst (step c s b)) = street s -> community_cards (fst (step c s b)) = community_cards s).
Proof.
  intros c s b R. pose proof (reachable_cfg c s R) as W. split; [now apply step_street_mono|]. intros Es.
  destruct (action s) as [a|] eqn:Ha; [|unfold step; rewrite Ha; reflexivity].
  destruct (step_take c s b a W Ha) as [(-> & _)|(call & mi & ma & bet & folds & s1 & H1 & P)]; [reflexivity|].
  rewrite (sp_street _ _ _ _ _ _ _ _ _ _ _ P) in Es. rewrite (sp_comm _ _ _ _ _ _ _ _ _ _ _ P).
  pose proof (be_street _ _ _ _ _ _ _ _ _ _ (sp_bet _ _ _ _ _ _ _ _ _ _ _ P)) as Es1.
  destruct (settle_cases c s1 W) as [[_ E2]|[_ E2]]; [rewrite E2; exact (be_comm _ _ _ _ _ _ _ _ _ _ (sp_bet _ _ _ _ _ _ _ _ _ _ _ P))|].
  exfalso. rewrite (se_street _ _ _ (ne_street _ _ _ E2)) in Es. destruct (all_all_in s1); lia.
Qed.
Print Assumptions C28_unchanged.

Example C28_example : exists c s, fair c s /\ is_ok (snd (reset c s [] true true)) = true /\
  (let s0 := fst (reset c s [] true true) in
   street_commits s0 = [0; 1; 2] /\
   let s1 := run_steps c s0 (map PyInt [2; 1]) in
   action s1 = Some 2%nat /\ street s1 = 0%nat /\ pot_commits s1 = [2; 2; 2] /\ street (fst (step c s1 (PyInt 0))) = 1%nat).
Proof.
  play no_limit_3 (@nil op) c s E. split; [exact (played_fair _ _ _ _ E)|]. cbv zeta. plays E.
Qed.

(** ** C29 Community cards follow the street *)

(** all cards already on the table stay, new ones come from the top of the deck *)
Theorem C29_grow : forall c s b, reachable c s ->
  exists k, community_cards (fst (step c s b)) = community_cards s ++ firstn k (d_cards (the_deck s)) /\
    d_cards (the_deck (fst (step c s b))) = skipn k (d_cards (the_deck s)).
Proof.
  intros c s b R. pose proof (reachable_cfg c s R) as W.
  destruct (action s) as [a|] eqn:Ha; [|exists O; unfold step; rewrite Ha; cbn; now rewrite app_nil_r].
  destruct (step_take c s b a W Ha) as [(-> & _)|(call & mi & ma & bet & folds & s1 & H1 & P)]; [exists O; cbn; now rewrite app_nil_r|].
  rewrite (sp_comm _ _ _ _ _ _ _ _ _ _ _ P), (sp_deck _ _ _ _ _ _ _ _ _ _ _ P).
  pose proof (sp_bet _ _ _ _ _ _ _ _ _ _ _ P) as B. rewrite <- (be_comm _ _ _ _ _ _ _ _ _ _ B), <- (be_deck _ _ _ _ _ _ _ _ _ _ B).
  destruct (settle_cases c s1 W) as [[_ E2]|[_ E2]]; [exists O; rewrite E2; cbn; now rewrite app_nil_r|].
  eexists. split; [exact (se_comm _ _ _ (ne_street _ _ _ E2))|]. rewrite (se_deck _ _ _ (ne_street _ _ _ E2)). reflexivity.
Qed.
Print Assumptions C29_grow.

Lemma comm_run c bs : cfg_wf c -> forall s, 
  community_cards (run_steps c s bs) = community_cards s ++
    firstn (comm_total c (street (run_steps c s bs)) - comm_total c (street s)) (d_cards (the_deck s)) /\
  d_cards (the_deck (run_steps c s bs)) = skipn (comm_total c (street (run_steps c s bs)) - comm_total c (street s)) (d_cards (the_deck s)).
Proof.
  intros W. induction bs as [|b bs IH]; intros s.
  { cbn. rewrite Nat.sub_diag. cbn. now rewrite app_nil_r. }
  change (run_steps c s (b :: bs)) with (run_steps c (fst (step c s b)) bs).
  destruct (IH (fst (step c s b))) as [-> ->].
  set (s' := fst (step c s b)).
  assert (K : community_cards s' = community_cards s ++ firstn (comm_total c (street s') - comm_total c (street s)) (d_cards (the_deck s)) /\
     d_cards (the_deck s') = skipn (comm_total c (street s') - comm_total c (street s)) (d_cards (the_deck s))).
  { subst s'. assert (Z0 : forall t : state, street t = street s -> community_cards t = community_cards s -> the_deck t = the_deck s ->
      community_cards t = community_cards s ++ firstn (comm_total c (street t) - comm_total c (street s)) (d_cards (the_deck s)) /\
      d_cards (the_deck t) = skipn (comm_total c (street t) - comm_total c (street s)) (d_cards (the_deck s))).
    { intros t -> -> ->. rewrite Nat.sub_diag. cbn. now rewrite app_nil_r. }
    destruct (action s) as [a|] eqn:Ha; [|apply Z0; unfold step; rewrite Ha; reflexivity].
    destruct (step_take c s b a W Ha) as [(-> & _)|(call & mi & ma & bet & folds & s1 & H1 & P)]; [now apply Z0|].
    pose proof (sp_bet _ _ _ _ _ _ _ _ _ _ _ P) as B.
    destruct (settle_cases c s1 W) as [[_ E2]|[_ E2]].
    - apply Z0; [rewrite (sp_street _ _ _ _ _ _ _ _ _ _ _ P), E2; apply B|rewrite (sp_comm _ _ _ _ _ _ _ _ _ _ _ P), E2; apply B|rewrite (sp_deck _ _ _ _ _ _ _ _ _ _ _ P), E2; apply B].
    - rewrite (sp_street _ _ _ _ _ _ _ _ _ _ _ P), (sp_comm _ _ _ _ _ _ _ _ _ _ _ P), (sp_deck _ _ _ _ _ _ _ _ _ _ _ P).
      rewrite (se_deck _ _ _ (ne_street _ _ _ E2)). cbn [set_cards d_cards].
      rewrite <- (be_street _ _ _ _ _ _ _ _ _ _ B), <- (be_comm _ _ _ _ _ _ _ _ _ _ B), <- (be_deck _ _ _ _ _ _ _ _ _ _ B).
      split; [exact (se_comm _ _ _ (ne_street _ _ _ E2))|reflexivity]. }
  destruct K as [-> ->]. pose proof (step_street_mono c s b W) as M1. fold s' in M1.
  pose proof (comm_total_mono c _ _ M1). pose proof (comm_total_mono c _ _ (run_street_mono c bs W s')).
  rewrite <- app_assoc, firstn_skipn_comp, skipn_skipn_comp.
  replace (comm_total c (street s') - comm_total c (street s) + (comm_total c (street (run_steps c s' bs)) - comm_total c (street s')))%nat
    with (comm_total c (street (run_steps c s' bs)) - comm_total c (street s))%nat by lia. auto.
Qed.

(** the number of cards on the table: the sum over the streets reached, as far as the deck [s0]
    had after the reset reaches *)
Theorem C29_board : forall c s rnd rb rs bs, reachable c s -> is_ok (snd (reset c s rnd rb rs)) = true ->
  let s0 := fst (reset c s rnd rb rs) in
  let s1 := run_steps c s0 bs in
  let on_board k := list_sum (map Z.to_nat (firstn (S k) (num_community_cards c))) in
  (on_board (street s1) + num_players c * Z.to_nat (num_hole_cards c) <= List.length (d_cards (deck_shuffle rnd (the_deck s))))%nat ->
  List.length (community_cards s1) = on_board (street s1).
Proof.
  intros c s rnd rb rs bs R H. cbv zeta. intros Hd. pose proof (reachable_cfg c s R) as W.
  destruct (reset_spec c s rnd rb rs W (reachable_wf c s R)) as [(_ & _ & E)|[(_ & E)|(_ & _ & _ & E)]];
    [rewrite E in H; discriminate|rewrite E in H; discriminate|].
  set (s0 := fst (reset c s rnd rb rs)) in *. destruct (comm_run c bs W s0) as [-> _].
  change (list_sum (map Z.to_nat (firstn (S (street (run_steps c s0 bs))) (num_community_cards c)))) with (comm_total c (street (run_steps c s0 bs))) in *.
  pose proof (comm_total_mono c _ _ (run_street_mono c bs W s0)) as Hm. rewrite (re_street _ _ _ _ _ _ E) in *.
  rewrite app_length, firstn_length, (re_comm _ _ _ _ _ _ E), firstn_length, (re_deck _ _ _ _ _ _ E). cbn [set_cards d_cards]. rewrite skipn_length.
  assert (Hd' : (comm_total c (street (run_steps c s0 bs)) + num_players c * Z.to_nat (num_hole_cards c) <= List.length (d_cards (deck_shuffle rnd (the_deck s))))%nat) by exact Hd.
  clear Hd. revert Hd' Hm. generalize (num_players c * Z.to_nat (num_hole_cards c))%nat, (List.length (d_cards (deck_shuffle rnd (the_deck s)))), (comm_total c (street (run_steps c s0 bs))), (comm_total c 0). intros h x y z Hd Hm. lia.
Qed.
Print Assumptions C29_board.

Example C29_example : exists c s, fair c s /\ is_ok (snd (reset c s [] true true)) = true /\ num_community_cards c = [0; 3; 1] /\
  (let s0 := fst (reset c s [] true true) in
   List.length (d_cards (deck_shuffle [] (the_deck s))) = 52%nat /\
   let s1 := run_steps c s0 (map PyInt [2; 2; 1; 0]) in
   street s1 = 1%nat /\ List.length (community_cards s1) = 3%nat /\
   let s2 := run_steps c s1 (map PyInt [0; 0; 0; 0]) in
   street s2 = 2%nat /\ List.length (community_cards s2) = 4%nat).
Proof.
  play no_limit_4 (@nil op) c s E. split; [exact (played_fair _ _ _ _ E)|]. cbv zeta. plays E.
Qed.

(** ** C30 No card is dealt twice *)

Definition distinct_trick_ops (ops : list op) : Prop :=
  Forall (fun o => match o with OTrick cs => NoDup (map c_int cs) | _ => True end) ops.
Record cards_inv (ns nr : nat) (s : state) : Prop := mkCardsInv {
  ci_wf : deck_wf ns nr (the_deck s);
  ci_nodup : d_tricked (the_deck s) = true -> NoDup (d_top (the_deck s));
  ci_perm : Permutation (community_cards s ++ List.concat (hole_cards s) ++ d_cards (the_deck s)) (deck_cards ns nr)
}.
Lemma set_cards_trick d l : d_tricked (set_cards d l) = d_tricked d /\ d_top (set_cards d l) = d_top d.
Proof. split; reflexivity. Qed.
Lemma set_cards_same d : d = set_cards d (d_cards d).
Proof. now destruct d. Qed.
Lemma set_cards_wf ns nr d l : deck_wf ns nr d -> deck_wf ns nr (set_cards d l).
Proof. intros [? ? ? ? ? ?]. split; assumption. Qed.
Lemma cards_inv_op ns nr c s o : cfg_wf c -> wf c s -> allowed c s o ->
  match o with OTrick cs => NoDup (map c_int cs) | _ => True end ->
  (num_streets c = O -> community_cards s = [] /\ hole_cards s = []) ->
  cards_inv ns nr s -> cards_inv ns nr (apply_op c s o).
Proof.
  intros W I Ho Hd Hz [C1 C2 C3]. destruct o as [rnd rb rs|b|cs| |l]; cbn [apply_op].
  - cbn in Ho. destruct (reset_spec c s rnd rb rs W I) as [(E1 & E2 & E3)|[(E1 & E2)|(E1 & E2 & E3 & E)]].
    + rewrite E3 in Ho. destruct Ho as [Ho|Ho]; [|discriminate]. unfold reset. subst rs. cbn [reset_active fst] in *.
      replace (negb false && (count_true (map (fun x => 0 <? x) (stacks s)) <=? 1)) with true by (cbn [negb andb]; lia).
      split; assumption.
    + assert (Ecc : num_community_cards c = []) by (apply length_zero_iff_nil; rewrite (cw_comm _ W); exact E1).
      destruct (Hz E1) as [Z1 Z2]. unfold reset. rewrite Ecc. destruct (reset_active c s rs) as [act stk]. destruct (negb rs && _).
      * split; assumption.
      * split; cbn [fst the_deck community_cards hole_cards]; [now apply shuffle_wf|exact C2|]. rewrite Z1, Z2. cbn.
        now apply shuffle_perm.
    + set (s' := fst (reset c s rnd rb rs)) in *.
      split; rewrite ?(re_deck _ _ _ _ _ _ E); [apply set_cards_wf, shuffle_wf; exact C1|exact C2|].
      rewrite (re_comm _ _ _ _ _ _ E), (re_hole _ _ _ _ _ _ E). cbn [set_cards d_cards].
      rewrite <- (skipn_skipn_comp (comm_total c 0)), firstn_skipn, firstn_skipn. now apply shuffle_perm.
  - destruct (comm_run c [b] W s) as [K1 K2]. change (run_steps c s [b]) with (fst (step c s b)) in *.
    assert (Hh : hole_cards (fst (step c s b)) = hole_cards s /\ (exists l, the_deck (fst (step c s b)) = set_cards (the_deck s) l)).
    { destruct (action s) as [a|] eqn:Ha; [|unfold step; rewrite Ha; split; [reflexivity|exists (d_cards (the_deck s)); apply set_cards_same]].
      destruct (step_take c s b a W Ha) as [(-> & _)|(call & mi & ma & bet & folds & s1 & H1 & P)]; [split; [reflexivity|exists (d_cards (the_deck s)); apply set_cards_same]|].
      pose proof (sp_bet _ _ _ _ _ _ _ _ _ _ _ P) as B. rewrite (sp_hole _ _ _ _ _ _ _ _ _ _ _ P), (be_hole _ _ _ _ _ _ _ _ _ _ B). split; [reflexivity|].
      rewrite (sp_deck _ _ _ _ _ _ _ _ _ _ _ P). destruct (settle_cases c s1 W) as [[_ E2]|[_ E2]].
      - rewrite E2, (be_deck _ _ _ _ _ _ _ _ _ _ B). exists (d_cards (the_deck s)); apply set_cards_same.
      - rewrite (se_deck _ _ _ (ne_street _ _ _ E2)), (be_deck _ _ _ _ _ _ _ _ _ _ B). eexists. reflexivity. }
    destruct Hh as [Hh [l Hl]]. split.
    + rewrite Hl. now apply set_cards_wf.
    + rewrite Hl. exact C2.
    + rewrite K1, K2, Hh. eapply perm_trans; [|exact C3]. rewrite <- app_assoc. apply Permutation_app_head.
      set (k := (comm_total c (street (fst (step c s b))) - comm_total c (street s))%nat).
      rewrite <- (firstn_skipn k (d_cards (the_deck s))) at 3. rewrite !app_assoc. apply Permutation_app_tail. apply Permutation_app_comm.
  - destruct (deck_trick cs (the_deck s)) as [d'|] eqn:Et; [|split; assumption].
    split; cbn [set_deck the_deck community_cards hole_cards].
    + now apply (trick_wf ns nr cs (the_deck s)).
    + intros _. unfold deck_trick in Et. destruct (map_res _ cs) as [idcs|] eqn:Em; [|discriminate]. cbn [bind] in Et. injection Et as <-. cbn [d_top].
      exact (trick_nodup_idcs ns nr _ _ _ C1 Em Hd).
    + unfold deck_trick in Et. destruct (map_res _ cs) as [idcs|] eqn:Em; [|discriminate]. cbn [bind] in Et. injection Et as <-. exact C3.
  - split; cbn [set_deck the_deck community_cards hole_cards]; [now apply untrick_wf|discriminate|exact C3].
  - split; assumption.
Qed.
Lemma no_streets_no_cards c s : reachable c s -> num_streets c = O -> community_cards s = [] /\ hole_cards s = [] /\ action s = None.
Proof.
  intros R E0. pose proof (reachable_cfg c s R) as W. induction R as [w rnd s H|s o R IH Ho].
  - apply Dealer_inv in H. rewrite (bd_state _ _ _ _ H). repeat split.
  - destruct IH as (J1 & J2 & J3). destruct o as [rnd rb rs|b|cs| |l]; cbn [apply_op].
    + assert (Ecc : num_community_cards c = []) by (apply length_zero_iff_nil; rewrite (cw_comm _ W); exact E0).
      unfold reset. rewrite Ecc. destruct (reset_active c s rs) as [act stk]. destruct (negb rs && _); auto.
    + unfold step. rewrite J3. auto.
    + destruct (deck_trick cs (the_deck s)); auto.
    + auto.
    + auto.
Qed.
Theorem C30_no_card_twice : forall w rnd c s0 ops, Dealer rnd w = Ok (c, s0) -> all_allowed c s0 ops = true -> distinct_trick_ops ops ->
  let s := run c s0 ops in
  let cards := community_cards s ++ List.concat (hole_cards s) ++ d_cards (the_deck s) in
  Permutation cards (deck_cards (Z.to_nat (rw_num_suits w)) (Z.to_nat (rw_num_ranks w))) /\ NoDup (map c_int cards).
Proof.
  intros w rnd c s0 ops H A D. cbv zeta. set (ns := Z.to_nat (rw_num_suits w)). set (nr := Z.to_nat (rw_num_ranks w)).
  pose proof (built_cfg_wf _ _ _ _ H) as W.
  assert (C0 : cards_inv ns nr s0).
  { pose proof (Dealer_inv _ _ _ _ H) as B. destruct (new_deck_inv _ _ _ _ (bd_deck _ _ _ _ B)) as [D1 D2 D3]. cbn [fst snd] in *.
    split; try assumption. rewrite (bd_state _ _ _ _ B). cbn. exact D3. }
  assert (R0 : reachable c s0) by (eapply reach_new; exact H).
  assert (G : forall ops s, reachable c s -> cards_inv ns nr s -> all_allowed c s ops = true -> distinct_trick_ops ops -> cards_inv ns nr (run c s ops)).
  { clear - W. induction ops as [|o ops IH]; intros s R C A D; [exact C|]. cbn [all_allowed] in A. destruct (allowedb c s o) eqn:Ea; [|discriminate].
    inversion D as [|? ? D1 D2]; subst. change (run c s (o :: ops)) with (run c (apply_op c s o) ops).
    assert (Al : allowed c s o).
    { destruct o as [rnd rb rs|b|cs| |l]; cbn in *; try exact I.
      - destruct (action s) eqn:Eq; [now right|now left].
      - now apply Nat.eqb_eq in Ea. }
    apply IH; [now apply reach_op| |exact A|exact D2].
    apply cards_inv_op; try assumption; [exact (reachable_wf c s R)|]. intros E0. destruct (no_streets_no_cards c s R E0) as (X & Y & _). auto. }
  specialize (G ops s0 R0 C0 A D). destruct G as [G1 _ G3]. split; [exact G3|].
  eapply Permutation_NoDup; [apply Permutation_map, Permutation_sym; exact G3|].
  pose proof (dw_s _ _ _ G1). pose proof (dw_r _ _ _ G1). apply deck_cards_NoDup; lia.
Qed.
Print Assumptions C30_no_card_twice.

(** three players; a tricked deck; a full street, a fold, a new hand *)
Definition C30_ops : list op :=
  [OTrick [demo_card 7; demo_card 3; demo_card 30; demo_card 5]; new_hand] ++ bets [2; 1; 0; 5; 9; -1] ++ [OReset [3; 1; 4]%nat false false] ++ bets [2; 2].
Example C30_example : distinct_trick_ops C30_ops /\ exists c s0, Dealer [] no_limit_3 = Ok (c, s0) /\ all_allowed c s0 C30_ops = true.
Proof.
  split.
  - vm_compute. repeat constructor; cbn; intuition discriminate.
  - destruct (Dealer [] no_limit_3) as [[c s0]|] eqn:E; [|exfalso; vm_compute in E; discriminate]. exists c, s0. split; [reflexivity|].
    assert (H : match Dealer [] no_limit_3 with Ok (c, s0) => all_allowed c s0 C30_ops | Err _ => false end = true) by (vm_compute; reflexivity).
    rewrite E in H. exact H.
Qed.

(** ** C31 Turn order *)

Lemma settle_next c s b a s1 : cfg_wf c -> wf c s -> action s = Some a -> after_bet c s b = Some s1 ->
  forall a', action (settle c s1) = Some a' ->
  (street (settle c s1) = street s -> next_in_hand (num_players c) (active (settle c s1)) a a') /\
  (street (settle c s1) <> street s -> next_in_hand (num_players c) (active (settle c s1)) (button s) a').
Proof.
  intros W I Ha H1 a' Ha'. destruct (wf_turn _ _ I a Ha) as [La Ea].
  destruct (after_bet_effect c s b s1 H1) as (a0 & call & mi & ma & bet & folds & B).
  assert (Ea0 : a0 = a) by (pose proof (be_turn _ _ _ _ _ _ _ _ _ _ B) as X; rewrite Ha in X; now injection X). subst a0.
  destruct (after_bet_wf c s b s1 W I H1) as (A1 & A2 & A3 & A4 & A5 & A6 & A7 & A8 & A9 & (x & A10 & A11 & A12) & _).
  rewrite (sk_active _ _ (settle_keep c s1 W)), <- (be_button _ _ _ _ _ _ _ _ _ _ B).
  destruct (settle_cases c s1 W) as [[_ E2]|[_ E2]].
  - rewrite E2 in *. split; [|intros X; exfalso; apply X; exact (be_street _ _ _ _ _ _ _ _ _ _ B)].
    intros _. destruct (be_next _ _ _ _ _ _ _ _ _ _ B x La A11 A12) as (y & Y1 & _ & _ & Y2). congruence.
  - split.
    + intros X. exfalso. rewrite (se_street _ _ _ (ne_street _ _ _ E2)), (be_street _ _ _ _ _ _ _ _ _ _ B) in X. destruct (all_all_in s1); lia.
    + intros _. destruct (ne_turn _ _ _ E2 x A11 A12 A6) as (y & Y1 & _ & _ & Y2). congruence.
Qed.
(** the step of seat [a] is accepted and the hand goes on *)
Theorem C31_next : forall c s b a a', reachable c s -> action s = Some a ->
  let s' := fst (step c s b) in
  is_ok (snd (step c s b)) = true -> action s' = Some a' ->
  (street s' = street s -> next_in_hand (num_players c) (active s') a a') /\
  (street s' <> street s -> next_in_hand (num_players c) (active s') (button s') a').
Proof.
  intros c s b a a' R Ha. cbv zeta. intros Hok Ha'. pose proof (reachable_cfg c s R) as W. pose proof (reachable_wf c s R) as I.
  destruct (wf_turn _ _ I a Ha) as [La Ea].
  destruct (step_take c s b a W Ha) as [(_ & E & _)|(call & mi & ma & bet & folds & s1 & H1 & P)]; [congruence|].
  destruct (parts_going _ _ _ _ _ _ _ _ _ _ _ a W I La P ltac:(unfold in_progress; congruence)) as [_ E'].
  rewrite (sp_button _ _ _ _ _ _ _ _ _ _ _ P), (be_button _ _ _ _ _ _ _ _ _ _ (sp_bet _ _ _ _ _ _ _ _ _ _ _ P)). rewrite E' in *. exact (settle_next c s b a s1 W I Ha H1 a' Ha').
Qed.
Print Assumptions C31_next.
Theorem C31_in_hand : forall c s a, reachable c s -> action s = Some a -> (a < num_players c)%nat /\ is_active s a.
Proof. intros c s a R Ha. exact (wf_turn _ _ (reachable_wf c s R) a Ha). Qed.
Print Assumptions C31_in_hand.
(** next_in_hand determines the seat *)
Theorem C31_unique : forall n act a x y, next_in_hand n act a x -> next_in_hand n act a y -> x = y.
Proof.
  intros n act a x y (i & Hi & -> & Ai & Bi) (j & Hj & -> & Aj & Bj).
  destruct (lt_eq_lt_dec i j) as [[H|H]|H]; [|now subst|].
  - rewrite (Bj i ltac:(lia)) in Ai. discriminate.
  - rewrite (Bi j ltac:(lia)) in Aj. discriminate.
Qed.
Print Assumptions C31_unique.
(** seat 3 opens, seat 0 folds, seats 1 and 2 call; on the flop seat 1 begins (the button is seat 0) *)
Example C31_example : exists c s, fair c s /\ action s = Some 3%nat /\ button s = 0%nat /\
  is_ok (snd (step c s (PyInt 4))) = true /\
  let s1 := run_steps c s (map PyInt [4; -1; 4]) in
  action (run_steps c s (map PyInt [4])) = Some 0%nat /\
  action (run_steps c s (map PyInt [4; -1])) = Some 1%nat /\
  action s1 = Some 2%nat /\ street s1 = 0%nat /\
  street (fst (step c s1 (PyInt 2))) = 1%nat /\ action (fst (step c s1 (PyInt 2))) = Some 1%nat.
Proof.
  play no_limit_4 [new_hand] c s E. split; [exact (played_fair _ _ _ _ E)|]. cbv zeta. plays E.
Qed.

(** ** C33 Last player standing takes the pot *)
Definition only_active (c : config) (s : state) (w : nat) : Prop := (w < num_players c)%nat /\ forall j, is_active s j <-> j = w.

Lemma only_active_count c s w : List.length (active s) = num_players c -> only_active c s w -> count_true (active s) = 1.
Proof.
  intros L [Hw H]. pose proof (count_true_any (active s) w (proj2 (H w) eq_refl)) as H1.
  destruct (Z.eq_dec (count_true (active s)) 1) as [E|E]; [exact E|exfalso].
  assert (K : count_true (upd (active s) w false) = count_true (active s) - 1) by (apply count_true_upd_false; now apply H).
  destruct (count_true_pos (upd (active s) w false) ltac:(lia)) as (j & _ & Hj).
  destruct (Nat.eq_dec j w) as [->|Hn].
  - rewrite upd_nth_same in Hj by lia. discriminate.
  - rewrite upd_nth_other in Hj by congruence. apply H in Hj. contradiction.
Qed.
Lemma fold_payouts c s w : List.length (active s) = num_players c -> List.length (pot_commits s) = num_players c ->
  only_active c s w -> exists pay, payouts c s = Ok pay /\ List.length pay = num_players c /\
   forall j, (j < num_players c)%nat -> nth j pay 0 = if Nat.eqb j w then pot s - committed s w else - committed s j.
Proof.
  intros La Lc H. unfold payouts. rewrite (proj2 (Z.eqb_eq _ _) (only_active_count c s w La H)).
  eexists. split; [reflexivity|]. split; [rewrite map_length, !combine_length, map_length, combine_length; lia|].
  intros j Hj. rewrite (map_combine_nth _ _ _ _ _ (0, false) 0) by (rewrite ?combine_length, ?map_length, ?combine_length; lia).
  rewrite combine_nth_lt by (rewrite ?map_length, ?combine_length; lia).
  rewrite (map_combine_nth _ _ _ _ _ 0 false) by lia. cbn [fst snd]. destruct H as [Hw H]. specialize (H j). unfold is_active in H. unfold committed.
  destruct (Nat.eqb_spec j w) as [->|Hn].
  - rewrite (proj2 H eq_refl). lia.
  - destruct (nth j (active s) false); [exfalso; apply Hn; now apply H|lia].
Qed.

Theorem C33_last_player : forall c s b w, reachable c s -> in_progress s ->
  let s' := fst (step c s b) in
  only_active c s' w ->
  action s' = None /\
  stack_of s' w = stack_of s w + sumZ (pot_commits s') /\
  (forall j, (j < num_players c)%nat -> j <> w -> stack_of s' j = stack_of s j - put_in c s b j) /\
  (* if the last to fold had no debts, nothing was put in by folding, so the winner gets the pot of [s] *)
  (fair c s -> (forall a, action s = Some a -> 0 <= stack_of s a) -> pot_commits s' = pot_commits s /\ sumZ (pot_commits s') = pot s) /\
  exists out, snd (step c s b) = Ok out /\ out_done out = repeat true (num_players c) /\
    List.length (out_payouts out) = num_players c /\
    (forall j, (j < num_players c)%nat -> j <> w -> nth j (out_payouts out) 0 = - committed s' j) /\
    nth w (out_payouts out) 0 = sumZ (pot_commits s') - committed s' w.
Proof.
  intros c s b w R Hp. cbv zeta. intros Hw. pose proof (reachable_cfg c s R) as W. pose proof (reachable_wf c s R) as I.
  destruct (action s) as [a|] eqn:Ha; [|exfalso; now apply Hp].
  destruct (wf_turn _ _ I a Ha) as [La Ea].
  assert (Hc : 2 <= count_true (active s)) by (apply I; congruence).
  destruct (step_take c s b a W Ha) as [(E & _)|(call & mi & ma & bet & folds & s1 & H1 & P)].
  { exfalso. rewrite E in Hw. pose proof (only_active_count c s w (wf_active _ _ I) Hw). lia. }
  pose proof (sp_bet _ _ _ _ _ _ _ _ _ _ _ P) as B.
  destruct (after_bet_wf c s b s1 W I H1) as (A1 & A2 & A3 & A4 & A5 & A6 & A7 & A8 & A9 & A10 & _).
  pose proof (settle_keep c s1 W) as K.
  assert (Hf : folds = true).
  { destruct folds; [reflexivity|exfalso]. pose proof (only_active_count c _ w ltac:(rewrite (sp_active _ _ _ _ _ _ _ _ _ _ _ P); exact A1) Hw) as X.
    rewrite (sp_active _ _ _ _ _ _ _ _ _ _ _ P), (be_active _ _ _ _ _ _ _ _ _ _ B) in X. lia. }
  assert (Hb : bet = 0).
  { destruct (be_round _ _ _ _ _ _ _ _ _ _ B) as (z & _ & Hz). unfold settle_bet in Hz. destruct (negb _ && _); injection Hz; congruence. }
  subst folds bet.
  assert (Hwa : w <> a).
  { intros ->. pose proof (proj2 (proj2 Hw a) eq_refl) as X. apply (parts_active _ _ _ _ _ _ _ _ _ _ _ a I La Ea P) in X. tauto. }
  assert (Hw2 : only_active c (settle c s1) w).
  { destruct Hw as [Hw1 Hw2]. split; [exact Hw1|]. intros j. rewrite <- Hw2. unfold is_active. now rewrite (sk_active _ _ K), (sp_active _ _ _ _ _ _ _ _ _ _ _ P). }
  destruct (fold_payouts c (settle c s1) w ltac:(rewrite (sk_active _ _ K); exact A1) ltac:(rewrite (sk_commits _ _ K); exact A2) Hw2) as (pay & P1 & P2 & P3).
  assert (Cn : count_true (active (settle c s1)) = 1) by (apply (only_active_count c _ w); [rewrite (sk_active _ _ K); exact A1|exact Hw2]).
  assert (Dn : done_list c (settle c s1) = repeat true (num_players c)).
  { unfold done_list. replace (count_true (active (settle c s1)) <=? 1) with true by lia. now rewrite orb_true_r. }
  assert (Dt : all_true (done_list c (settle c s1)) = true).
  { rewrite Dn. apply all_true_spec. intros i Hi. rewrite repeat_length in Hi. now apply nth_repeat_lt. }
  assert (Es : fst (step c s b) = finish_hand (settle c s1) pay).
  { destruct (sp_end _ _ _ _ _ _ _ _ _ _ _ P) as [[_ X]|[(_ & e & X & _)|(pay' & X & _ & Y)]]; [congruence|congruence|].
    rewrite Y. congruence. }
  assert (Est : forall j, nth j (stacks (settle c s1)) 0 = stack_of s j - if Nat.eqb j a then Z.min (stack_of s a) 0 else 0).
  { intros j. rewrite (sk_stacks _ _ K), (be_stacks _ _ _ _ _ _ _ _ _ _ B), add_at_nth by (rewrite (wf_stacks _ _ I); exact La).
    unfold stack_of. destruct (Nat.eqb_spec j a) as [->|]; lia. }
  assert (Epc : pot_commits (fst (step c s b)) = pot_commits (settle c s1)) by (rewrite (sk_commits _ _ K); apply P).
  assert (Epot : pot (settle c s1) = sumZ (pot_commits (fst (step c s b)))) by (rewrite Epc, (sk_pot _ _ K), (sk_commits _ _ K); exact A8).
  assert (Efin : forall j, (j < num_players c)%nat -> stack_of (fst (step c s b)) j = nth j (stacks (settle c s1)) 0 + nth j pay 0 + committed (settle c s1) j).
  { intros j Hj. rewrite Es. unfold stack_of, committed. cbn [finish_hand stacks].
    rewrite !add_lists_nth; rewrite ?(add_lists_length _ _ (num_players c)); rewrite ?(sk_stacks _ _ K), ?(sk_commits _ _ K); congruence. }
  assert (Hcom : forall j, committed (settle c s1) j = committed (fst (step c s b)) j) by (intros j; unfold committed; now rewrite Epc).
  split; [rewrite Es; reflexivity|]. split; [|split; [|split]].
  - rewrite Efin, Est, P3 by apply Hw. rewrite Nat.eqb_refl. destruct (Nat.eqb_spec w a); [contradiction|]. lia.
  - intros j Hj Hn. rewrite Efin, Est, P3 by exact Hj. destruct (Nat.eqb_spec j w); [contradiction|].
    unfold put_in. rewrite (parts_committed _ _ _ _ _ _ _ _ _ _ _ j I La P). lia.
  - intros F Hst. pose proof (Hst a eq_refl) as Hs.
    assert (X : pot_commits (fst (step c s b)) = pot_commits s).
    { rewrite (sp_commits _ _ _ _ _ _ _ _ _ _ _ P), (be_commits _ _ _ _ _ _ _ _ _ _ B). unfold stack_of in Hs. replace (Z.min (nth a (stacks s) 0) 0) with 0 by lia.
      unfold add_at. replace (nth a (pot_commits s) 0 + 0) with (nth a (pot_commits s) 0) by lia. apply upd_self. }
    split; [exact X|]. rewrite X. symmetry. apply I. congruence.
  - destruct (step_anatomy c s b ltac:(congruence)) as [(X & _)|(s1' & X & Y)]; [congruence|]. assert (s1' = s1) by congruence. subst s1'.
    assert (Z : snd (step c s b) = snd (step_end c (settle c s1))) by now rewrite Y. rewrite Z. clear Z.
    unfold step_end at 1. rewrite P1, Dt. cbn [snd]. unfold observation at 1. cbn [bind finish_hand action hole_cards].
    destruct (get_last (hole_cards (settle c s1))) as [hole|e] eqn:Eh.
    + cbn [bind]. eexists. split; [reflexivity|]. cbn [out_done out_payouts]. split; [exact Dn|]. split; [exact P2|]. rewrite <- Epot.
      split; [|rewrite P3 by apply Hw; rewrite Nat.eqb_refl, Hcom; reflexivity].
      intros j Hj Hn. rewrite P3 by exact Hj. destruct (Nat.eqb_spec j w); [contradiction|]. rewrite Hcom. reflexivity.
    + exfalso. unfold get_last in Eh. rewrite (sk_hole _ _ K) in Eh. destruct (rev (hole_cards s1)) as [|x l] eqn:En; [|discriminate].
      apply (f_equal (@List.length _)) in En. rewrite rev_length in En. cbn in En. pose proof (cw_two _ W). lia.
Qed.
Print Assumptions C33_last_player.
Example C33_example : exists c s, fair c s /\ in_progress s /\ pot s = 10 /\ stacks s = [18; 19; 13] /\ action s = Some 0%nat /\
  active (fst (step c s (PyInt (-1)))) = [false; false; true] /\ stacks (fst (step c s (PyInt (-1)))) = [18; 19; 23].
Proof.
  play no_limit_3 (new_hand :: bets [2; -1; 5]) c s E.
  split; [exact (played_fair _ _ _ _ E)|]. split; [intros X|]; [|plays E].
  assert (Y : action s = Some 0%nat) by by_play E. rewrite Y in X. discriminate X.
Qed.

(** ** C39 A hand ends only by fold or showdown *)

(** the claim fails: three players with 5 chips, blinds 1 and 5.  Seat 0 goes all in, the small
    blind folds; the big blind is all in already but has not acted, and the hand is declared over
    on the first street of two, with two players in it and no showdown *)
Definition short_game := demo 3 2 [1; 5; 0] [0; 0; 0] [RawInf; RawInf] [RawCountInf; RawCountInf] [0; 1] 5.
Theorem C39_refuted : ~ forall c s b, fair c s -> in_progress s ->
  let s' := fst (step c s b) in
  action s' = None -> count_true (active s') <= 1 \/ (num_streets c <= street s')%nat.
Proof.
  intros H.
  assert (K : exists c s, fair c s /\ action s = Some 1%nat /\ action (fst (step c s (PyInt (-1)))) = None /\
    count_true (active (fst (step c s (PyInt (-1))))) = 2 /\ street (fst (step c s (PyInt (-1)))) = O /\ num_streets c = 2%nat).
  { play short_game (new_hand :: bets [5]) c s E. split; [exact (played_fair _ _ _ _ E)|]. plays E. }
  destruct K as (c & s & F & K1 & K2 & K3 & K4 & K5). destruct (H c s (PyInt (-1)) F) as [X|X].
  - unfold in_progress. rewrite K1. discriminate.
  - exact K2.
  - rewrite K3 in X. lia.
  - rewrite K4, K5 in X. lia.
Qed.
Print Assumptions C39_refuted.

(** *** every seat passed over has been marked *)
Definition ring (n : nat) (act opt : list bool) (except : option nat) : Prop :=
  forall p, (p < n)%nat -> Some p <> except -> nth p opt false = true ->
    nth ((p + 1) mod n) act false = true \/ nth ((p + 1) mod n) opt false = true.
Lemma ring_all n act opt a : (a < n)%nat -> nth a act false = true -> ring n act opt None ->
  (forall j, (j < n)%nat -> nth j act false = true -> nth j opt false = true) ->
  forall j, (j < n)%nat -> nth j opt false = true.
Proof.
  intros La Ea R H.
  assert (G : forall k, nth ((a + k) mod n) opt false = true).
  { induction k as [|k IH]; [rewrite Nat.add_0_r, Nat.mod_small by lia; now apply H|].
    destruct (R ((a + k) mod n)%nat ltac:(apply Nat.mod_upper_bound; lia) ltac:(discriminate) IH) as [X|X];
      rewrite Nat.add_mod_idemp_l in X by lia; rewrite <- Nat.add_assoc, Nat.add_1_r in X; [|exact X].
    apply H; [apply Nat.mod_upper_bound; lia|exact X]. }
  intros j Hj. specialize (G (j + n - a)%nat). replace (a + (j + n - a))%nat with (j + 1 * n)%nat in G by lia.
  rewrite Nat.mod_add, Nat.mod_small in G by lia. exact G.
Qed.
Lemma move_loop_ring n a0 act k : forall i a opt, (0 < n)%nat -> List.length opt = n -> (1 <= i)%nat ->
  (exists d, (i <= d < i + k)%nat /\ nth ((a0 + d) mod n) act false = true) ->
  ring n act opt (Some ((a0 + i - 1) mod n)%nat) ->
  ring n act (snd (move_loop n a0 act k i a opt)) None.
Proof.
  induction k as [|k IH]; intros i a opt Hn Lo Hi (d & Hd & Ed) R; [lia|]. cbn [move_loop].
  destruct (nth ((a0 + i) mod n) act false) eqn:E.
  - cbn [snd]. intros p Hp _ Ho. destruct (Nat.eq_dec p ((a0 + i - 1) mod n)) as [->|Hne].
    + left. rewrite Nat.add_mod_idemp_l by lia. replace (a0 + i - 1 + 1)%nat with (a0 + i)%nat by lia. exact E.
    + apply R; [exact Hp|congruence|exact Ho].
  - assert (d <> i) by congruence. apply IH; [exact Hn|now rewrite upd_length|lia|exists d; split; [lia|exact Ed]|].
    replace (a0 + S i - 1)%nat with (a0 + i)%nat by lia. set (q := ((a0 + i) mod n)%nat) in *.
    assert (Lq : (q < n)%nat) by (apply Nat.mod_upper_bound; lia).
    intros p Hp Hne Ho. rewrite upd_nth in Ho by lia. destruct (Nat.eqb_spec p q) as [->|Hpq]; [congruence|].
    rewrite upd_nth by lia. destruct (Nat.eqb_spec ((p + 1) mod n) q) as [->|Hq]; [now right|].
    apply R; [exact Hp| |exact Ho]. intros X. injection X as X. apply Hq. unfold q. rewrite X, Nat.add_mod_idemp_l by lia.
    f_equal. lia.
Qed.
Lemma move_action_ring c s a0 j : act_idx c s = a0 -> (a0 < num_players c)%nat -> (j < num_players c)%nat -> nth j (active s) false = true ->
  List.length (street_option s) = num_players c ->
  ring (num_players c) (active s) (street_option s) (Some a0) ->
  ring (num_players c) (active (move_action c s)) (street_option (move_action c s)) None.
Proof.
  intros E0 Ha Hj Ej Lo R. destruct (move_action_same c s) as (-> & _). unfold move_action. rewrite E0.
  pose proof (move_loop_ring (num_players c) a0 (active s) (num_players c) 1 a0 (street_option s) ltac:(lia) Lo ltac:(lia)) as M.
  destruct (active_offset _ a0 (active s) j Ha Hj Ej) as (d & Hd & Ed).
  specialize (M ltac:(exists d; split; [lia|exact Ed])). replace (a0 + 1 - 1)%nat with a0 in M by lia. rewrite Nat.mod_small in M by lia. specialize (M R).
  destruct (move_loop _ _ _ _ _ _ _) as [a o]. exact M.
Qed.
Lemma ring_weaken n act opt e : ring n act opt None -> ring n act opt e.
Proof. intros R p Hp _. apply R; [exact Hp|discriminate]. Qed.
Lemma after_bet_ring c s b s1 : cfg_wf c -> wf c s -> after_bet c s b = Some s1 ->
  ring (num_players c) (active s) (street_option s) None -> ring (num_players c) (active s1) (street_option s1) None.
Proof.
  intros W I H R. destruct (after_bet_wf c s b s1 W I H) as (A1 & _ & _ & _ & _ & _ & _ & _ & _ & (x & _ & A11 & A12) & _).
  pose proof (after_bet_effect c s b s1 H) as (a' & call' & mi' & ma' & bet' & folds' & B).
  unfold after_bet in H. destruct (action s) as [a|] eqn:Ea; [|discriminate].
  destruct (py_round b) as [z|]; [|discriminate]. destruct (bet_sizes c s) as [[[call mi] ma]|]; [|discriminate].
  destruct (settle_bet (pynum_neg b) z call mi ma) as [bet folds]. injection H as H. unfold place_bet in H. subst s1.
  destruct (wf_turn _ _ I a Ea) as [La Aa].
  match goal with H : context [move_action c ?y] |- _ => set (x0 := y) in * end.
  destruct (move_action_same c x0) as (M1 & _).
  apply (move_action_ring c x0 a x); [reflexivity|exact La|exact A11|rewrite <- M1; exact A12|cbn; rewrite upd_length; apply I|].
  intros p Hp Hne Ho. subst x0. cbn [active street_option] in *. rewrite upd_nth by (rewrite (wf_option _ _ I); exact La).
  rewrite upd_nth in Ho by (rewrite (wf_option _ _ I); exact La). destruct (Nat.eqb_spec p a) as [->|Hpa]; [congruence|].
  destruct (Nat.eqb_spec ((p + 1) mod num_players c) a) as [E|E]; [now right|].
  destruct (R p Hp ltac:(discriminate) Ho) as [X|X]; [|now right]. left. destruct folds; [|exact X]. rewrite upd_nth_other by congruence. exact X.
Qed.
Lemma settle_ring c s : cfg_wf c -> List.length (active s) = num_players c ->
  ring (num_players c) (active s) (street_option s) None -> ring (num_players c) (active (settle c s)) (street_option (settle c s)) None.
Proof.
  intros W La R. destruct (settle_cases c s W) as [[_ ->]|[_ E]]; [exact R|].
  rewrite (se_active _ _ _ (ne_street _ _ _ E)), (ne_option _ _ _ E). intros p Hp _ _.
  rewrite (map_nth_lt _ _ _ _ false) by (rewrite La; apply Nat.mod_upper_bound; lia). destruct (nth _ _ false); auto.
Qed.
Lemma reset_ring c s rnd rb rs : cfg_wf c -> wf c s -> is_ok (snd (reset c s rnd rb rs)) = true ->
  ring (num_players c) (active (fst (reset c s rnd rb rs))) (street_option (fst (reset c s rnd rb rs))) None.
Proof.
  intros W I H. pose proof (cw_two _ W) as H2.
  destruct (reset_spec c s rnd rb rs W I) as [(_ & _ & E)|[(_ & E)|(_ & _ & _ & E)]]; [rewrite E in H; discriminate|rewrite E in H; discriminate|].
  pose proof (re_active _ _ _ _ _ _ E) as Eact. destruct (re_turn _ _ _ _ _ _ E) as (j & _ & Lj & Ej). clear E.
  unfold reset in *. destruct (reset_active c s rs) as [act stk].
  destruct (negb rs && (count_true act <=? 1)); [discriminate H|]. destruct (num_community_cards c) as [|cc0 rest]; [discriminate H|].
  destruct (deck_draw _ _) as [comm d1]. destruct (deal_hands _ _ _) as [holes d2]. cbn [fst snd] in *. clear H.
  match goal with |- context [mkState (Some ?y) act ?y] => set (b := y) in * end.
  assert (Lb : (b < num_players c)%nat) by (subst b; destruct rb; [lia|apply Nat.mod_upper_bound; lia]).
  match goal with |- context [if Nat.ltb 2 _ then move_action c ?y else _] => set (s1 := y) in * end.
  set (s2 := if Nat.ltb 2 (num_players c) then move_action c s1 else s1) in *.
  assert (Ho1 : List.length (street_option s1) = num_players c) by apply repeat_length.
  assert (R1 : forall e, ring (num_players c) (active s1) (street_option s1) e).
  { intros e p Hp _ X. subst s1. cbn [street_option] in X. rewrite nth_repeat_lt in X by exact Hp. discriminate. }
  rewrite !(proj1 (move_action_same c _)) in Ej, Eact.
  assert (Act : forall t b ts, active (collect_multiple_bets c t b ts) = active t) by reflexivity.
  assert (Opt : forall t b ts, street_option (collect_multiple_bets c t b ts) = street_option t) by reflexivity.
  assert (Idx : forall t b ts, act_idx c (collect_multiple_bets c t b ts) = act_idx c t) by reflexivity.
  rewrite !Act in Ej, Eact.
  assert (Q2 : active s2 = active s1 /\ List.length (street_option s2) = num_players c /\ (act_idx c s2 < num_players c)%nat /\ ring (num_players c) (active s2) (street_option s2) (Some (act_idx c s2))).
  { subst s2. destruct (Nat.ltb 2 (num_players c)).
    - rewrite (proj1 (move_action_same c s1)) in Ej.
      destruct (move_action_turn c s1 b j eq_refl Lb Lj Ej) as (x & T1 & T2 & _).
      split; [apply move_action_same|]. split; [rewrite move_action_option_length; exact Ho1|]. split; [unfold act_idx; rewrite T1; exact T2|].
      apply ring_weaken, (move_action_ring c s1 b j); auto.
    - split; [reflexivity|]. split; [exact Ho1|]. split; [exact Lb|]. apply R1. }
  destruct Q2 as (Q1 & Q2 & Q3 & Q4).
  set (s4 := collect_multiple_bets c (collect_multiple_bets c s2 (antes c) false) (blinds c) true) in *.
  assert (Ej4 : nth j (active s4) false = true) by exact Ej.
  assert (R5 : ring (num_players c) (active (move_action c s4)) (street_option (move_action c s4)) None).
  { apply (move_action_ring c s4 (act_idx c s4) j); [reflexivity|exact Q3|exact Lj|exact Ej4|exact Q2|exact Q4]. }
  destruct (move_action_turn c s4 (act_idx c s4) j eq_refl Q3 Lj Ej4) as (x & T1 & T2 & _).
  apply (move_action_ring c (move_action c s4) x j); [unfold act_idx; now rewrite T1|exact T2|exact Lj|rewrite (proj1 (move_action_same c s4)); exact Ej4|
    rewrite move_action_option_length; exact Q2|now apply ring_weaken].
Qed.
(** a reset that raises leaves the hand as it is, except for [active] (and the stacks, if they are
    to be reset, and the button and the deck, when there are no streets) *)
Lemma reset_failed c s rnd rb rs : cfg_wf c -> wf c s -> is_ok (snd (reset c s rnd rb rs)) = false ->
  let s' := fst (reset c s rnd rb rs) in
  action s' = action s /\ active s' = fst (reset_active c s rs) /\ stacks s' = snd (reset_active c s rs) /\
  pot s' = pot s /\ pot_commits s' = pot_commits s /\ history s' = history s /\ hole_cards s' = hole_cards s /\
  community_cards s' = community_cards s /\ street s' = street s /\ street_commits s' = street_commits s /\
  street_option s' = street_option s /\ street_raises s' = street_raises s /\ largest_raise s' = largest_raise s.
Proof.
  intros W I H. cbv zeta.
  destruct (reset_spec c s rnd rb rs W I) as [(E1 & E2 & E3)|[(E1 & E2)|(E1 & E2 & E3 & E)]]; [| |congruence].
  - unfold reset in *. destruct (reset_active c s rs) as [act stk]. subst rs. cbn [fst negb andb] in E2.
    replace (negb false && (count_true act <=? 1)) with true by (cbn [negb andb]; lia). cbn [fst snd]. repeat split.
  - assert (Ecc : num_community_cards c = []) by (apply length_zero_iff_nil; rewrite (cw_comm _ W); exact E1).
    unfold reset. destruct (reset_active c s rs) as [act stk]. rewrite Ecc. destruct (negb rs && _); repeat split.
Qed.
Lemma reachable_ring c s : reachable c s -> in_progress s -> ring (num_players c) (active s) (street_option s) None.
Proof.
  intros R. pose proof (reachable_cfg c s R) as W. induction R as [w rnd s H|s o R IH Ho]; intros Hp.
  - apply Dealer_inv in H. rewrite (bd_state _ _ _ _ H) in Hp. exfalso. now apply Hp.
  - pose proof (reachable_wf c s R) as I. destruct o as [rnd rb rs|b|cs| |l]; cbn [apply_op] in *.
    + apply reset_ring; try assumption. cbn in Ho. destruct Ho as [Ho|Ho]; [|exact Ho].
      destruct (is_ok (snd (reset c s rnd rb rs))) eqn:Eok; [reflexivity|exfalso]. apply Hp.
      destruct (reset_failed c s rnd rb rs W I Eok) as [-> _]. exact Ho.
    + destruct (action s) as [a|] eqn:Ha; [|unfold step in *; rewrite Ha in *; now apply IH].
      assert (Hps : in_progress s) by (unfold in_progress; congruence).
      destruct (step_take c s b a W Ha) as [(E & _)|(call & mi & ma & bet & folds & s1 & H1 & P)]; [rewrite E; now apply IH|].
      destruct (wf_turn _ _ I a Ha) as [La _].
      destruct (parts_going _ _ _ _ _ _ _ _ _ _ _ a W I La P Hp) as [_ E']. rewrite E'.
      apply settle_ring; [exact W|apply (after_bet_wf c s b s1 W I H1)|]. apply (after_bet_ring c s b s1 W I H1). now apply IH.
    + destruct (deck_trick cs (the_deck s)); now apply IH.
    + now apply IH.
    + now apply IH.
Qed.

(** why a hand has ended *)
Theorem C39_exact : forall c s b, reachable c s -> in_progress s ->
  let s' := fst (step c s b) in
  action s' = None ->
  count_true (active s') <= 1 \/ (num_streets c <= street s')%nat \/
  (street s' = street s /\ forall j, (j < num_players c)%nat -> is_active s' j -> stack_of s j - put_in c s b j = 0).
Proof.
  intros c s b R Hp. cbv zeta. intros Hn. pose proof (reachable_cfg c s R) as W. pose proof (reachable_wf c s R) as I.
  destruct (action s) as [a|] eqn:Ha; [|exfalso; now apply Hp]. destruct (wf_turn _ _ I a Ha) as [La Ea].
  destruct (step_take c s b a W Ha) as [(E & _)|(call & mi & ma & bet & folds & s1 & H1 & P)]; [congruence|].
  pose proof (sp_bet _ _ _ _ _ _ _ _ _ _ _ P) as B. pose proof (settle_keep c s1 W) as K.
  destruct (after_bet_wf c s b s1 W I H1) as (A1 & A2 & A3 & A4 & A5 & A6 & A7 & A8 & A9 & A10 & _).
  assert (T : action (settle c s1) <> None).
  { destruct (settle_wf c s1 W A1 A2 A3 A4 A5 A6 A7 A8 A9 A10) as (_ & _ & _ & _ & _ & _ & _ & _ & _ & x & X & _). congruence. }
  destruct (sp_end _ _ _ _ _ _ _ _ _ _ _ P) as [[X _]|[(X & _)|(pay & _ & D & _)]]; [congruence|congruence|].
  rewrite (sp_active _ _ _ _ _ _ _ _ _ _ _ P), (sp_street _ _ _ _ _ _ _ _ _ _ _ P), <- (sk_active _ _ K).
  apply done_all in D; [|exact W|rewrite (sk_active _ _ K); exact A1|rewrite (sk_stacks _ _ K); exact A3].
  destruct D as [D|[D|D]]; [auto|auto|].
  assert (St : forall j, (j < num_players c)%nat -> nth j (active s1) false = true -> nth j (stacks s1) 0 = 0).
  { intros j Hj Aj. rewrite <- (sk_stacks _ _ K). apply D; [exact Hj|]. now rewrite (sk_active _ _ K). }
  destruct (settle_cases c s1 W) as [[_ E2]|[_ E2]].
  - right; right. split; [rewrite E2; apply B|]. intros j Hj Aj. unfold is_active in Aj. rewrite (sp_active _ _ _ _ _ _ _ _ _ _ _ P) in Aj.
    specialize (St j Hj Aj). rewrite (be_stacks _ _ _ _ _ _ _ _ _ _ B), add_at_nth in St by (rewrite (wf_stacks _ _ I); exact La).
    unfold put_in. rewrite (parts_committed _ _ _ _ _ _ _ _ _ _ _ j I La P). unfold stack_of. destruct (Nat.eqb_spec j a) as [Ej|Ej]; [rewrite Ej in *|]; lia.
  - right; left. rewrite (se_street _ _ _ (ne_street _ _ _ E2)). replace (all_all_in s1) with true; [lia|]. symmetry. unfold all_all_in.
    apply Z.leb_le. enough (count_true (active s1) = count_true (map (fun p => fst p && (snd p =? 0)) (combine (active s1) (stacks s1)))) by lia.
    f_equal. apply (nth_ext _ _ false false); [rewrite map_length, combine_length; lia|]. intros j Hj.
    rewrite (map_combine_nth _ _ _ _ _ false 0) by lia. cbn [fst snd]. destruct (nth j (active s1) false) eqn:Aj; [|reflexivity].
    rewrite St by (assumption || lia). reflexivity.
Qed.
Print Assumptions C39_exact.

(** the claim holds whenever everybody still in the hand has acted on the street that began at [s0];
    missing: hands with a player all in who has not acted yet (all-in by a blind or ante) *)
Theorem C39_partial : forall c s0 bs b, street_start c s0 ->
  let s := run_steps c s0 bs in
  let s' := fst (step c s b) in
  in_progress s -> street s = street s0 -> action s' = None ->
  (forall j, (j < num_players c)%nat -> is_active s' j -> acted_since s0 s' j) ->
  count_true (active s') <= 1 \/ (num_streets c <= street s')%nat.
Proof.
  intros c s0 bs b H. cbv zeta. intros Hp Es Hn Hact.
  assert (Hp0 : in_progress s0) by (intros E; apply Hp; rewrite run_steps_idle by exact E; exact E).
  assert (F0 : fair c s0).
  { destruct H as [(s & rnd & rb & rs & F & -> & H)|(s & x & F & -> & H)].
    - apply (fair_op c s (OReset rnd rb rs)); [exact F|now right|exact I].
    - apply (fair_op c s (OStep x)); [exact F|exact I|exact I]. }
  pose proof (mo_cfg _ _ (fair_money c s0 F0)) as W.
  pose proof (street_inv_run c s0 bs W s0 (fair_reachable c s0 F0) (street_inv_start c s0 H Hp0) Es Hp) as J.
  pose proof (fair_run_steps c s0 bs F0) as Fs. set (s := run_steps c s0 bs) in *. pose proof (fair_money c s Fs) as M. pose proof (mo_wf _ _ M) as Iw.
  destruct (C39_exact c s b (fair_reachable c s Fs) Hp Hn) as [X|[X|[X1 X2]]]; [auto|auto|]. exfalso.
  destruct (action s) as [a|] eqn:Ha; [|now apply Hp]. destruct (wf_turn _ _ Iw a Ha) as [La Ea].
  destruct (step_take c s b a W Ha) as [(E & _)|(call & mi & ma & bet & folds & s1 & H1 & P)]; [rewrite E in Hn; congruence|].
  pose proof (street_inv_bet c s0 s b s1 Iw J H1) as [_ _ _ Jd].
  pose proof (after_bet_ring c s b s1 W Iw H1 (reachable_ring c s (fair_reachable c s Fs) Hp)) as Rg.
  destruct (after_bet_wf c s b s1 W Iw H1) as (A1 & A2 & A3 & A4 & A5 & A6 & A7 & A8 & A9 & (x & A10 & A11 & A12) & _).
  pose proof (sp_bet _ _ _ _ _ _ _ _ _ _ _ P) as B.
  assert (Op : forall j, (j < num_players c)%nat -> nth j (street_option s1) false = true).
  { apply (ring_all _ (active s1) _ x A11 A12 Rg). intros j Hj Aj. apply Jd. unfold acted_since.
    rewrite <- (sp_history _ _ _ _ _ _ _ _ _ _ _ P). apply Hact; [exact Hj|]. unfold is_active. rewrite (sp_active _ _ _ _ _ _ _ _ _ _ _ P). exact Aj. }
  assert (St : forall j, (j < num_players c)%nat -> nth j (active s1) false = true -> nth j (stacks s1) 0 = 0).
  { intros j Hj Aj. specialize (X2 j Hj). unfold is_active in X2. rewrite (sp_active _ _ _ _ _ _ _ _ _ _ _ P) in X2. specialize (X2 Aj).
    rewrite (be_stacks _ _ _ _ _ _ _ _ _ _ B), add_at_nth by (rewrite (wf_stacks _ _ Iw); exact La).
    unfold put_in in X2. rewrite (parts_committed _ _ _ _ _ _ _ _ _ _ _ j Iw La P) in X2. unfold stack_of in X2. destruct (Nat.eqb_spec j a) as [Ej|Ej]; [rewrite Ej in *|]; lia. }
  assert (Ag : all_agreed s1 = true).
  { unfold all_agreed. apply andb_true_iff. rewrite !all_true_spec. split; [intros j Hj; apply Op; lia|].
    intros j Hj. rewrite map_length, !combine_length in Hj.
    rewrite (map_combine_nth _ _ _ _ _ (0, 0) false) by (rewrite ?combine_length; lia). rewrite combine_nth_lt by lia.
    destruct (nth j (active s1) false) eqn:Aj; [|now rewrite orb_true_r]. rewrite (St j ltac:(lia) Aj). cbn. now rewrite orb_true_r. }
  destruct (settle_cases c s1 W) as [[Y _]|[_ E2]]; [congruence|].
  rewrite (sp_street _ _ _ _ _ _ _ _ _ _ _ P), (se_street _ _ _ (ne_street _ _ _ E2)), (be_street _ _ _ _ _ _ _ _ _ _ B) in X1.
  destruct (all_all_in s1); lia.
Qed.
Print Assumptions C39_partial.
(** two players all in, both have acted: the hand goes to showdown *)
Example C39_example : exists c s, fair c s /\ is_ok (snd (reset c s [] true true)) = true /\
  let s0 := fst (reset c s [] true true) in
  let s1 := run_steps c s0 (map PyInt [20; -1]) in
  let s2 := fst (step c s1 (PyInt 18)) in
  action s1 = Some 2%nat /\ street s1 = O /\ street s0 = O /\ action s2 = None /\ active s2 = [true; false; true] /\ street s2 = 2%nat /\
  map (fun e => fst (fst e)) (skipn (List.length (history s0)) (history s2)) = [0; 1; 2]%nat.
Proof.
  play no_limit_3 (@nil op) c s E. split; [exact (played_fair _ _ _ _ E)|]. cbv zeta. plays E.
Qed.
