(** * BetFacts: arithmetic of bets *)
From Coq Require Import ZifyBool ZifyNat Arith.
From Verif Require Import PyBase PyFacts CardModel EvalModel EngineModel EngineSpec EngineFacts.

Lemma obs_sizes c s o : observation c s false = Ok o ->
  bet_sizes c s = Ok (o_call o, o_min_raise o, o_max_raise o).
Proof.
  unfold observation. destruct (bet_sizes c s) as [[[x y] z]|]; [|discriminate]. cbn [bind].
  destruct (match action s with Some a => _ | None => _ end); [|discriminate]. cbn [bind]. intros H. injection H as <-. reflexivity.
Qed.
Lemma obs_fields c s o d : observation c s d = Ok o ->
  o_action o = action s /\ o_active o = active s /\ o_button o = button s /\
  o_community_cards o = community_cards s /\ o_pot o = pot s /\ o_stacks o = stacks s /\
  o_street_commits o = street_commits s.
Proof.
  unfold observation. destruct (if d then _ else _) as [[[x y] z]|]; [|discriminate]. cbn [bind].
  destruct (match action s with Some a => _ | None => _ end); [|discriminate]. cbn [bind]. intros H. injection H as <-. repeat split.
Qed.

(** the bet sizes, spelled out *)
Definition raw_call (s : state) (a : nat) : Z := maxZ (street_commits s) - nth a (street_commits s) 0.
Lemma bet_sizes_cases c s a call mi ma : action s = Some a -> bet_sizes c s = Ok (call, mi, ma) ->
  let st := nth a (stacks s) 0 in
  let c0 := raw_call s a in
  call = Z.min c0 st /\
  exists rs cap, nth_error (raise_sizes c) (street s) = Some rs /\ nth_error (num_raises c) (street s) = Some cap /\
  (((match cap with Some k => k <= street_raises s | None => False end) \/ (street_raises s <> 0 /\ c0 < largest_raise s))
     /\ mi = Z.min 0 st /\ ma = Z.min 0 st \/
   ~ ((match cap with Some k => k <= street_raises s | None => False end) \/ (street_raises s <> 0 /\ c0 < largest_raise s)) /\
   match rs with
   | RInt z => mi = Z.min (z + c0) st /\ ma = Z.min (z + c0) st
   | RPot => mi = Z.min (Z.max (big_blind c) (largest_raise s + c0)) st /\ ma = Z.min (pot s + c0 * 2) st
   | RInf => mi = Z.min (Z.max (big_blind c) (largest_raise s + c0)) st /\ ma = st
   end).
Proof.
  intros Ha H. cbv zeta. unfold bet_sizes, get, act_idx in H. rewrite Ha in H. fold (raw_call s a) in H.
  destruct (nth_error (raise_sizes c) (street s)) as [rs|] eqn:E1; [|discriminate]. cbn [bind] in H.
  destruct (match rs with RInt z => _ | RPot => _ | RInf => _ end) as [m0 M0] eqn:E0.
  destruct (nth_error (num_raises c) (street s)) as [cap|] eqn:E2; [|discriminate]. cbn [bind] in H.
  destruct (match cap with Some k => k <=? street_raises s | None => false end) eqn:Ec.
  - split; [|exists rs, cap; split; [reflexivity|]; split; [reflexivity|]; left; split].
    + destruct (_ && _) in H; injection H as <- <- <-; reflexivity.
    + left. destruct cap; [lia|discriminate].
    + destruct (_ && _) in H; injection H as <- <- <-; split; reflexivity.
  - destruct (negb (street_raises s =? 0) && (raw_call s a <? largest_raise s)) eqn:E3; injection H as <- <- <-.
    + split; [reflexivity|]. exists rs, cap. split; [reflexivity|]. split; [reflexivity|]. left. split; [|split; reflexivity].
      right. lia.
    + split; [reflexivity|]. exists rs, cap. split; [reflexivity|]. split; [reflexivity|]. right. split.
      { intros [X|X]; [destruct cap; [lia|destruct X]|lia]. }
      destruct rs; injection E0 as <- <-; split; try reflexivity. lia.
Qed.
Lemma raw_call_nonneg s a : (a < List.length (street_commits s))%nat -> 0 <= raw_call s a.
Proof. intros H. unfold raw_call. pose proof (maxZ_nth_ge (street_commits s) a H). lia. Qed.

(** ** clean_bet *)
Lemma argmin4 a b c d : argmin [a; b; c; d] =
  if b <? a then (if c <? b then (if d <? c then 3%nat else 2%nat) else (if d <? b then 3%nat else 1%nat))
  else (if c <? a then (if d <? c then 3%nat else 2%nat) else (if d <? a then 3%nat else 0%nat)).
Proof.
  unfold argmin. cbn [argmin_loop].
  destruct (b <? a); destruct (c <? b); destruct (c <? a); destruct (d <? c); destruct (d <? b); destruct (d <? a); reflexivity.
Qed.
Lemma clean_bet_spec B call mi ma : clean_bet B call mi ma =
  let x := Z.max 0 B in
  let a := Z.abs (0 - x) in let b := Z.abs (call - x) in let c := Z.abs (mi - x) in let d := Z.abs (ma - x) in
  if b <? a then (if c <? b then Z.min ma (Z.max mi x) else (if d <? b then Z.min ma (Z.max mi x) else call))
  else (if c <? a then Z.min ma (Z.max mi x) else (if d <? a then Z.min ma (Z.max mi x) else 0)).
Proof.
  unfold clean_bet. cbn [map]. rewrite argmin4. cbv zeta.
  repeat (match goal with |- context [if ?b then _ else _] => destruct b end); reflexivity.
Qed.

(** the shape of the limits for which rounding is right *)
Definition good_limits (call mi ma : Z) : Prop :=
  0 <= call /\ (call < mi <= ma \/ (mi = ma /\ (mi = 0 \/ call <= mi))).
Lemma clean_bet_nearest B call mi ma : good_limits call mi ma ->
  let v := clean_bet B call mi ma in
  (v = 0 \/ v = call \/ mi <= v <= ma) /\
  forall u, (u = 0 \/ u = call \/ mi <= u <= ma) ->
    Z.abs (v - B) <= Z.abs (u - B) /\ (Z.abs (v - B) = Z.abs (u - B) -> v <= u).
Proof.
  intros [H0 H1]. cbv zeta. rewrite clean_bet_spec. cbv zeta.
  repeat (match goal with |- context [if ?b then _ else _] => destruct b eqn:? end); (split; [lia|intros u Hu; lia]).
Qed.

(** limits when nothing is negative: the call is below the raise, or the raise is not allowed *)
Definition sane_limits (call mi ma : Z) : Prop := 0 <= call /\ ((mi = 0 /\ ma = 0) \/ (call <= mi /\ call <= ma)).
Lemma settle_bet_fold neg B call mi ma : sane_limits call mi ma -> (neg = true -> B <= 0) ->
  let '(bet, folds) := settle_bet neg B call mi ma in
  (folds = true <-> call <> 0 /\ (neg = true \/ 2 * B <= call)) /\
  (folds = true -> bet = 0) /\ (folds = false -> bet = clean_bet B call mi ma /\ (call <> 0 -> call <= bet)).
Proof.
  intros [H0 H1] Hn. unfold settle_bet.
  assert (K : call <> 0 -> (clean_bet B call mi ma <? call) = (2 * B <=? call)).
  { intros Hc. rewrite clean_bet_spec. cbv zeta.
    repeat (match goal with |- context [if ?b then _ else _] => destruct b eqn:? end); lia. }
  destruct (negb (call =? 0) && ((clean_bet B call mi ma <? call) || neg)) eqn:E.
  - split; [|split; [reflexivity|discriminate]]. split; [intros _|reflexivity].
    apply andb_true_iff in E. destruct E as [E1 E2]. assert (Hc : call <> 0) by lia. split; [exact Hc|].
    rewrite (K Hc) in E2. apply orb_true_iff in E2. destruct E2 as [E2|E2]; [right; lia|now left].
  - split; [|split; [discriminate|intros _; split; [reflexivity|]]].
    + split; [discriminate|]. intros [Hc H]. rewrite (K Hc) in E. destruct neg, H as [H|H]; try discriminate; lia.
    + intros Hc. lia.
Qed.
Lemma clean_bet_sane B call mi ma st : sane_limits call mi ma -> call <= st -> mi <= st -> ma <= st ->
  0 <= clean_bet B call mi ma <= Z.max 0 st.
Proof.
  intros [H0 H1] Hc Hm HM. rewrite clean_bet_spec. cbv zeta.
  repeat (match goal with |- context [if ?b then _ else _] => destruct b eqn:? end); lia.
Qed.
Lemma pynum_neg_round b z : py_round b = Ok z -> pynum_neg b = true -> z <= 0.
Proof.
  destruct b as [x|q| |]; cbn [py_round pynum_neg]; try discriminate; intros H; injection H as <-; [lia|].
  intros Hq. unfold round_half_even.
  assert (Qnum q / Zpos (Qden q) < 0) by (apply Z.div_lt_upper_bound; lia).
  repeat (match goal with |- context [if ?b then _ else _] => destruct b eqn:? end); lia.
Qed.
Lemma pynum_nonneg_round b z : py_round b = Ok z -> pynum_neg b = false -> 0 <= z.
Proof.
  destruct b as [x|q| |]; cbn [py_round pynum_neg]; try discriminate; intros H; injection H as <-; [lia|].
  intros Hq. unfold round_half_even.
  assert (0 <= Qnum q / Zpos (Qden q)) by (apply Z.div_pos; lia).
  repeat (match goal with |- context [if ?b then _ else _] => destruct b eqn:? end); lia.
Qed.

(** ** Invariants about amounts *)
(** the largest raise is never below the big blind *)
Lemma after_bet_largest c s b s1 : after_bet c s b = Some s1 -> largest_raise s <= largest_raise s1.
Proof.
  intros H. apply after_bet_effect in H. destruct H as (a & call & mi & ma & bet & folds & B).
  rewrite (be_largest _ _ _ _ _ _ _ _ _ _ B). destruct (_ && _) eqn:E; [|lia]. lia.
Qed.
Lemma step_largest c s b : cfg_wf c -> largest_raise s <= largest_raise (fst (step c s b)).
Proof.
  intros W. destruct (action s) as [a|] eqn:Ea.
  2:{ unfold step. rewrite Ea. cbn. lia. }
  destruct (step_anatomy c s b ltac:(congruence)) as [(_ & -> & _)|(s1 & H1 & E)]; [lia|].
  apply after_bet_largest in H1. rewrite E. pose proof (settle_keep c s1 W) as K.
  destruct (step_end_cases c (settle c s1)) as [(e & _ & ->)|[(pay & _ & _ & ->)|(pay & _ & _ & ->)]];
    cbn [fst finish_hand largest_raise]; rewrite (sk_largest _ _ K); exact H1.
Qed.
Lemma reachable_largest c s : reachable c s -> in_progress s -> big_blind c <= largest_raise s.
Proof.
  intros R. pose proof (reachable_cfg c s R) as W. unfold in_progress.
  induction R as [w rnd s H|s o R IH Ho].
  - apply Dealer_inv in H. rewrite (bd_state _ _ _ _ H). cbn. congruence.
  - pose proof (reachable_wf c s R) as I. destruct o as [rnd rb rs|b|cs| |l]; cbn [apply_op allowed] in *.
    + intros Hp. destruct (reset_spec c s rnd rb rs W I) as [(E1 & E2 & E3)|[(E1 & E2)|(E1 & E2 & E3 & E)]].
      * rewrite E3 in Ho. destruct Ho as [Ho|Ho]; [|discriminate]. exfalso. apply Hp. unfold reset. subst rs. cbn [reset_active fst] in *.
        replace (negb false && (count_true (map (fun x => 0 <? x) (stacks s)) <=? 1)) with true by (cbn [negb andb]; lia).
        exact Ho.
      * rewrite E2 in Ho. destruct Ho as [Ho|Ho]; [|discriminate]. exfalso. apply Hp. unfold reset.
        assert (Ecc : num_community_cards c = []) by (apply length_zero_iff_nil; rewrite (cw_comm _ W); exact E1).
        destruct (reset_active c s rs) as [act stk]. destruct (negb rs && _); [exact Ho|]. rewrite Ecc. exact Ho.
      * rewrite (re_largest _ _ _ _ _ _ E). lia.
    + intros Hp. pose proof (step_largest c s b W). destruct (action s) eqn:Ea; [specialize (IH ltac:(congruence)); lia|].
      exfalso. apply Hp. unfold step. rewrite Ea. exact Ea.
    + destruct (deck_trick cs (the_deck s)); exact IH.
    + exact IH.
    + exact IH.
Qed.
