(** * PropNumpyBets: C93 (bets at the dealer on arrays) and C94 (its history) *)
From Coq Require Import ZifyBool ZifyNat Arith.
From Verif Require Import PyBase PyFacts CardModel EvalModel EngineModel EngineSpec EngineFacts BetFacts MoneyFacts SolventSpec NumpyModel NumpySpec NumpyFacts EngineDemo PropBetting PropExact PropNumpy PropNumpyEnds PropNumpyBetter.

(** ** What a bet does at the array dealer *)
Lemma np_seen c s b a o B : np_fair c s -> action s = Some a -> observation c s false = Ok o -> py_round b = Ok B ->
  let s' := fst (np_step c s b) in
  exists bet folds, limits s a (o_call o) (o_min_raise o) (o_max_raise o) /\ (a < num_players c)%nat /\ is_active s a /\
    0 <= bet /\
    (folds = true <-> o_call o <> 0 /\ (pynum_neg b = true \/ 2 * B <= o_call o)) /\
    (folds = true -> bet = 0) /\
    (0 <= stack_of s a -> bet <= stack_of s a) /\
    (stack_of s a < 0 -> bet = 0) /\
    (folds = false -> 0 <= stack_of s a -> bet = clean_bet B (o_call o) (o_min_raise o) (o_max_raise o) /\ (o_call o <> 0 -> o_call o <= bet)) /\
    (forall i, committed s' i = committed s i + if Nat.eqb i a then Z.min (stack_of s a) bet else 0) /\
    (forall i, is_active s' i <-> is_active s i /\ ~ (i = a /\ folds = true)) /\
    history s' = history s ++ [(a, bet, pynum_neg b)] /\
    largest_raise s' = (if negb (bet =? 0) && (largest_raise s <=? bet - o_call o) then bet - o_call o else largest_raise s) /\
    street_raises s' = (if Nat.eqb (street s') (street s) then if negb (bet =? 0) && (largest_raise s <=? bet - o_call o) then street_raises s + 1 else street_raises s else street_raises s') /\
    (in_progress s' -> forall i, stack_of s' i = stack_of s i - (if Nat.eqb i a then Z.min (stack_of s a) bet else 0)).
Proof.
  intros F Ha Ho Hb. cbv zeta. pose proof (np_fair_money c s F) as M. assert (Hp : in_progress s) by (unfold in_progress; rewrite Ha; discriminate).
  assert (Ho' : observation c (wrap c s) false = Ok (wrap_obs c o)) by (rewrite observation_wrap, Ho; reflexivity).
  destruct (np_both c s b M Hp) as [(_ & E2 & _)|(z & Z & _)].
  { exfalso. destruct (step_take c (wrap c s) b a (mo_cfg _ _ M) Ha) as [(_ & _ & X)|(call & mi & ma & bet & folds & s1 & H1 & P)]; [exact (after_bet_some c (wrap c s) b a B _ Ha Ho' Hb X)|].
    pose proof (sp_history _ _ _ _ _ _ _ _ _ _ _ P) as X. rewrite (be_history _ _ _ _ _ _ _ _ _ _ (sp_bet _ _ _ _ _ _ _ _ _ _ _ P)), E2 in X.
    apply (f_equal (@List.length _)) in X. rewrite app_length in X. cbn [List.length] in X. lia. }
  pose proof (np_same _ _ _ _ Z) as Same.
  destruct (ns_after _ _ _ _ Z) as (s1 & H1 & Ez).
  destruct (step_take c (wrap c s) b a (mo_cfg _ _ M) Ha) as [(_ & _ & X)|(call & mi & ma & bet & folds & s1' & H1' & P)]; [rewrite H1 in X; discriminate X|].
  rewrite H1 in H1'. injection H1' as <-. pose proof (sp_bet _ _ _ _ _ _ _ _ _ _ _ P) as E.
  pose proof (be_sizes _ _ _ _ _ _ _ _ _ _ E) as Sz. rewrite wrap_bet_sizes, (obs_sizes c s o Ho) in Sz. injection Sz as <- <- <-.
  pose proof (money_limits c (wrap c s) a (o_call o) (o_min_raise o) (o_max_raise o) M Ha ltac:(rewrite wrap_bet_sizes; exact (obs_sizes c s o Ho))) as L.
  destruct (be_round _ _ _ _ _ _ _ _ _ _ E) as (y & Hy & Hs). rewrite Hb in Hy. injection Hy as <-.
  pose proof (settled_bet (wrap c s) a _ _ _ b B L Hb) as Q. rewrite Hs in Q. destruct (wf_turn _ _ (mo_wf _ _ M) a Ha) as [La Ea].
  destruct (C68_fields c s b F Hp) as (X1 & _ & _ & _ & X5 & X6 & X7 & _ & X9 & X10 & _).
  set (t' := fst (step c (wrap c s) b)) in *. set (s' := fst (np_step c s b)) in *.
  exists bet, folds. splits; try exact La; try exact Ea; try apply Q.
  - destruct L as [L1 L2 L3 L4 L5 L6 L7]. exact (mkLimits s a (o_call o) (o_min_raise o) (o_max_raise o) L1 L2 L3 L4 L5 L6 L7).
  - intros i. pose proof (parts_committed _ _ _ _ _ _ _ _ _ _ _ i (mo_wf _ _ M) La P) as K. unfold committed in K |- *. rewrite X6. exact K.
  - intros i. pose proof (parts_active _ _ _ _ _ _ _ _ _ _ _ i (mo_wf _ _ M) La Ea P) as K. unfold is_active in K |- *. rewrite X1. exact K.
  - rewrite X5, (sp_history _ _ _ _ _ _ _ _ _ _ _ P). exact (be_history _ _ _ _ _ _ _ _ _ _ E).
  - rewrite X10, (sp_largest _ _ _ _ _ _ _ _ _ _ _ P). exact (be_largest _ _ _ _ _ _ _ _ _ _ E).
  - destruct (Nat.eqb_spec (street s') (street s)) as [Es|]; [|reflexivity].
    destruct (settle_cases c s1 (mo_cfg _ _ M)) as [[_ E2]|[_ E2]].
    + assert (Er : street_raises s' = street_raises z) by (unfold s'; rewrite (ns_step _ _ _ _ Z); destruct (np_step_end_cases c z) as [(e & _ & ->)|[(pay & _ & _ & ->)|(pay & _ & _ & ->)]]; reflexivity).
      rewrite Er. change (street_raises z) with (street_raises (wrap c z)). rewrite Ez, E2. exact (be_raises _ _ _ _ _ _ _ _ _ _ E).
    + exfalso. pose proof (se_street _ _ _ (ne_street _ _ _ E2)) as Y. rewrite <- (sp_street _ _ _ _ _ _ _ _ _ _ _ P), <- X7, Es, (be_street _ _ _ _ _ _ _ _ _ _ E) in Y.
      change (street (wrap c s)) with (street s) in Y. destruct (all_all_in s1); lia.
  - intros Hp' i. assert (Es : stacks s' = stacks z).
    { unfold s' in *. rewrite (ns_step _ _ _ _ Z) in *. destruct (np_step_end_cases c z) as [(e & _ & Y)|[(pay & _ & _ & Y)|(pay & _ & _ & Y)]]; rewrite Y in *; cbn [fst] in *; [reflexivity|exfalso; now apply Hp'|reflexivity]. }
    unfold stack_of. rewrite Es. change (stacks z) with (stacks (wrap c z)). rewrite Ez, (sk_stacks _ _ (settle_keep c s1 (mo_cfg _ _ M))), (be_stacks _ _ _ _ _ _ _ _ _ _ E).
    change (stacks (wrap c s)) with (stacks s). rewrite add_at_nth by (change (stacks s) with (stacks (wrap c s)); rewrite (wf_stacks _ _ (mo_wf _ _ M)); exact La).
    destruct (Nat.eqb_spec i a) as [->|N]; try rewrite Nat.eqb_refl; try (destruct (Nat.eqb_spec a i) as [X|_]; [exfalso; apply N; symmetry; exact X|]); lia.
Qed.

Lemma np_limits_good c s a o : np_fair c s -> action s = Some a -> observation c s false = Ok o -> 0 <= stack_of s a ->
  (0 < big_blind c \/ exists z, nth_error (raise_sizes c) (street s) = Some (RInt z)) -> o_min_raise o <= o_max_raise o ->
  good_limits (o_call o) (o_min_raise o) (o_max_raise o).
Proof.
  intros F Ha Ho Hst Hbb Hmm. pose proof (np_fair_money c s F) as M. assert (P : in_progress s) by (unfold in_progress; rewrite Ha; discriminate).
  pose proof (mo_largest _ _ M P) as HL. change (largest_raise (wrap c s)) with (largest_raise s) in HL. pose proof (mo_sane _ _ M) as Hs. pose proof (sane_bb c (mo_cfg _ _ M) Hs) as B0.
  pose proof (obs_sizes c s o Ho) as Sz. destruct (np_seen c s (PyInt 0) a o 0 F Ha Ho eq_refl) as (_ & _ & L & _). destruct L as [L1 L2 L3 L4 L5 L6 L7].
  unfold stack_of in *. specialize (L6 Hst).
  destruct (bet_sizes_cases c s a _ _ _ Ha Sz) as (Ec & rs & cap & Er & Ecap & Cs). cbv zeta in *.
  unfold good_limits. destruct L6 as [L6 _]. split; [exact L6|].
  destruct Cs as [[_ Cs]|[_ Cs]]; [lia|]. destruct rs as [z| |].
  - pose proof (sane_nth_raise c _ z Hs Er). lia.
  - destruct Hbb as [Hbb|[z Hz]]; [|congruence]. lia.
  - destruct Hbb as [Hbb|[z Hz]]; [|congruence]. lia.
Qed.

(** ** C93 Bets at the array dealer *)

(** the limits a player observes: between 0 and the stack; the call is what is missing to the largest commitment of the street *)
Theorem C93_limits : forall c s a o, np_fair c s -> action s = Some a -> observation c s false = Ok o -> 0 <= stack_of s a ->
  0 <= o_call o <= stack_of s a /\ 0 <= o_min_raise o <= stack_of s a /\ 0 <= o_max_raise o <= stack_of s a /\
  o_call o = Z.min (maxZ (street_commits s) - street_committed s a) (stack_of s a) /\
  (forall z, nth_error (raise_sizes c) (street s) = Some (RInt z) -> o_max_raise o <> 0 ->
     o_min_raise o = Z.min (o_call o + z) (stack_of s a) /\ o_max_raise o = Z.min (o_call o + z) (stack_of s a)) /\
  (nth_error (raise_sizes c) (street s) = Some RPot -> o_max_raise o <= pot s + 2 * o_call o) /\
  ((forall z, nth_error (raise_sizes c) (street s) <> Some (RInt z)) -> o_max_raise o <> 0 ->
     o_min_raise o - o_call o >= largest_raise s \/ o_min_raise o = stack_of s a).
Proof.
  intros c s a o F Ha Ho Hst. pose proof (np_fair_money c s F) as M. assert (P : in_progress s) by (unfold in_progress; rewrite Ha; discriminate).
  destruct (np_seen c s (PyInt 0) a o 0 F Ha Ho eq_refl) as (_ & _ & [L1 L2 L3 L4 L5 L6 L7] & _). pose proof (money_pot c (wrap c s) M P) as Mp. change (pot (wrap c s)) with (pot s) in Mp.
  destruct (bet_sizes_cases c s a _ _ _ Ha (obs_sizes c s o Ho)) as (Ec & rs & cap & Er & Ecap & Cs). cbv zeta in *.
  unfold stack_of in *. specialize (L6 Hst). unfold sane_limits in L6. splits; try lia.
  - exact Ec.
  - intros z Hz Hm. pose proof (sane_nth_raise c _ z (mo_sane _ _ M) Hz). destruct Cs as [[_ Cs]|[_ Cs]]; [lia|]. rewrite Hz in Er. injection Er as <-. lia.
  - intros Hz. destruct Cs as [[_ Cs]|[_ Cs]]; [lia|]. rewrite Hz in Er. injection Er as <-. lia.
  - intros Hz Hm. destruct Cs as [[_ Cs]|[_ Cs]]; [lia|]. rewrite Er in Hz. destruct rs as [z| |]; [now specialize (Hz z)| |]; lia.
Qed.
Print Assumptions C93_limits.

(** three players, the first to act after blinds of 1 and 2: call 2, raises from 4 to 20; pot limit: to 7; fixed size 3: 5 *)
Example C93_limits_met :
  let seen (c : config) (s : state) := match observation c s false with Ok o => Some (o_call o, o_min_raise o, o_max_raise o) | _ => None end in
  (exists c s, np_fair c s /\ action s = Some 0%nat /\ stack_of s 0 = 20 /\ seen c s = Some (2, 4, 20)) /\
  (exists c s, np_fair c s /\ action s = Some 0%nat /\ stack_of s 0 = 20 /\ pot s = 3 /\ seen c s = Some (2, 4, 7)) /\
  (exists c s, np_fair c s /\ action s = Some 0%nat /\ stack_of s 0 = 20 /\ seen c s = Some (2, 5, 5)).
Proof.
  cbv zeta. split; [|split].
  - np_play (demo 3 1 [1; 2; 0] [0; 0; 0] [RawInf] [RawCountInf] [0] 20) [new_hand] c s E. split; [exact (np_played_fair _ _ _ _ E)|]. np_plays E.
  - np_play (demo 3 1 [1; 2; 0] [0; 0; 0] [RawPot] [RawCountInf] [0] 20) [new_hand] c s E. split; [exact (np_played_fair _ _ _ _ E)|]. np_plays E.
  - np_play (demo 3 1 [1; 2; 0] [0; 0; 0] [RawInt 3] [RawCountInf] [0] 20) [new_hand] c s E. split; [exact (np_played_fair _ _ _ _ E)|]. np_plays E.
Qed.

(** What is taken for every bet that can be rounded: of 0, the call and the two ends of the raise interval the nearest to the
    (rounded, not negative) request decides, the earlier one on ties; if it is an end of the interval the request is
    moved into the interval.  The player folds exactly on a negative bet, or one of at most half the call, when there is
    something to call. *)
Theorem C93_exact : forall c s a o b B, np_fair c s -> action s = Some a -> observation c s false = Ok o ->
  py_round b = Ok B -> 0 <= stack_of s a ->
  let s' := fst (np_step c s b) in
  let away x := Z.abs (x - Z.max 0 B) in
  exists v, (forall i, committed s' i = committed s i + if Nat.eqb i a then v else 0) /\
    (in_progress s' -> forall i, stack_of s' i = stack_of s i - if Nat.eqb i a then v else 0) /\
    (away 0 <= away (o_call o) -> away 0 <= away (o_min_raise o) -> away 0 <= away (o_max_raise o) -> v = 0) /\
    (away (o_call o) < away 0 -> away (o_call o) <= away (o_min_raise o) -> away (o_call o) <= away (o_max_raise o) -> v = o_call o) /\
    (away (o_min_raise o) < Z.min (away 0) (away (o_call o)) \/ away (o_max_raise o) < Z.min (away 0) (away (o_call o)) ->
       v = Z.min (o_max_raise o) (Z.max (o_min_raise o) (Z.max 0 B))) /\
    (forall i, is_active s' i <-> is_active s i /\ ~ (i = a /\ o_call o <> 0 /\ (pynum_neg b = true \/ 2 * B <= o_call o))).
Proof.
  intros c s a o b B F Ha Ho Hb Hst. cbv zeta.
  destruct (np_seen c s b a o B F Ha Ho Hb) as (bet & folds & L & La & Ea & F1 & F2 & F3 & F4 & F5 & F6 & Kc & Ka & _ & _ & _ & Ks).
  specialize (F4 Hst). rewrite Z.min_r in Kc, Ks by exact F4. exists bet. split; [exact Kc|]. split; [exact Ks|].
  pose proof (li_sane _ _ _ _ _ L Hst) as SL. unfold sane_limits in SL.
  assert (E : bet = clean_bet B (o_call o) (o_min_raise o) (o_max_raise o)).
  { destruct folds; [|now apply F6]. rewrite F3 by reflexivity. destruct F2 as [F2 _]. specialize (F2 eq_refl). destruct F2 as [Hc [Hn|Hn]].
    - pose proof (pynum_neg_round b B Hb Hn) as HB. rewrite clean_bet_spec. cbv zeta.
      repeat (match goal with |- context [if ?b then _ else _] => destruct b eqn:? end); lia.
    - rewrite clean_bet_spec. cbv zeta.
      repeat (match goal with |- context [if ?b then _ else _] => destruct b eqn:? end); lia. }
  assert (Hf : forall i, is_active (fst (np_step c s b)) i <-> is_active s i /\ ~ (i = a /\ o_call o <> 0 /\ (pynum_neg b = true \/ 2 * B <= o_call o))).
  { intros i. rewrite Ka, F2. reflexivity. }
  clear Kc Ks Ka. rewrite clean_bet_spec in E. cbv zeta in E. subst bet.
  rewrite !and_assoc || idtac. assert (K : forall P Q R X : Prop, P -> Q -> R -> X -> P /\ Q /\ R /\ X) by tauto. apply K; [..|exact Hf]; clear;
  repeat (match goal with |- context [if ?b then _ else _] => destruct b eqn:? end); lia.
Qed.
Print Assumptions C93_exact.

(** in the first of these games: what is taken for -1, 1, 2, 3, 4, 10 and 50, and who is still in the hand *)
Example C93_exact_met : exists c s, np_fair c s /\ action s = Some 0%nat /\ stack_of s 0 = 20 /\ committed s 0 = 0 /\
  map (fun x => (committed (fst (np_step c s (PyInt x))) 0, nth 0 (active (fst (np_step c s (PyInt x)))) false)) [-1; 1; 2; 3; 4; 10; 50]
  = [(0, false); (0, false); (2, true); (2, true); (4, true); (10, true); (20, true)].
Proof. np_play (demo 3 1 [1; 2; 0] [0; 0; 0] [RawInf] [RawCountInf] [0] 20) [new_hand] c s E. split; [exact (np_played_fair _ _ _ _ E)|]. np_plays E. Qed.

(** with a big blind or a fixed raise size, and an interval that is not inside out: the nearest legal bet is taken *)
Theorem C93_nearest_partial : forall c s a o b B, np_fair c s -> action s = Some a -> observation c s false = Ok o ->
  py_round b = Ok B -> 0 <= stack_of s a ->
  (0 < big_blind c \/ exists z, nth_error (raise_sizes c) (street s) = Some (RInt z)) ->
  o_min_raise o <= o_max_raise o ->
  exists v, nearest_legal o B v /\ committed (fst (np_step c s b)) a = committed s a + v.
Proof.
  intros c s a o b B F Ha Ho Hb Hst Hbb Hmm. pose proof (np_limits_good c s a o F Ha Ho Hst Hbb Hmm) as G.
  destruct (np_seen c s b a o B F Ha Ho Hb) as (bet & folds & L & La & Ea & F1 & F2 & F3 & F4 & F5 & F6 & Kc & _).
  pose proof (clean_bet_nearest B (o_call o) (o_min_raise o) (o_max_raise o) G) as N. cbv zeta in N.
  exists bet. split.
  - assert (E : bet = clean_bet B (o_call o) (o_min_raise o) (o_max_raise o)).
    { destruct folds; [|now apply F6]. rewrite F3 by reflexivity. destruct F2 as [F2 _]. specialize (F2 eq_refl).
      assert (S0 : 0 <= o_call o) by apply G. destruct F2 as [Hc [Hn|Hn]].
      - pose proof (pynum_neg_round b B Hb Hn) as HB. rewrite clean_bet_spec. cbv zeta. destruct G as [_ G].
        repeat (match goal with |- context [if ?b then _ else _] => destruct b eqn:? end); lia.
      - rewrite clean_bet_spec. cbv zeta. destruct G as [_ G].
        repeat (match goal with |- context [if ?b then _ else _] => destruct b eqn:? end); lia. }
    rewrite E. exact N.
  - rewrite Kc, Nat.eqb_refl. specialize (F4 Hst). lia.
Qed.
Print Assumptions C93_nearest_partial.

(** without the conditions it is not so: with antes only, a bet of 3 is taken as a check although 3 is inside the interval *)
Theorem C93_nearest_refuted : ~ (forall c s a o b B, np_fair c s -> action s = Some a -> observation c s false = Ok o ->
  py_round b = Ok B -> 0 <= stack_of s a ->
  exists v, nearest_legal o B v /\ committed (fst (np_step c s b)) a = committed s a + v).
Proof.
  intros H.
  assert (X : exists c s, np_fair c s /\
    action s = Some 0%nat /\ stack_of s 0 = 19 /\ committed s 0 = 1 /\ committed (fst (np_step c s (PyInt 3))) 0 = 1 /\
    match observation c s false with Ok o => Some (o_call o, o_min_raise o, o_max_raise o) | _ => None end = Some (0, 0, 19)).
  { np_play (demo 2 1 [0; 0] [1; 1] [RawInf] [RawCountInf] [0] 20) [new_hand] c s E. split; [exact (np_played_fair _ _ _ _ E)|]. np_plays E. }
  destruct X as (c & s & E & Ha & Hst & H1 & H2 & Ho). destruct (observation c s false) as [o|] eqn:Eo; [|discriminate Ho].
  injection Ho as O1 O2 O3.
  destruct (H c s 0%nat o (PyInt 3) 3 E Ha Eo eq_refl ltac:(lia)) as (v & [_ Hv] & Hc).
  specialize (Hv 3). assert (v = 0) by lia. subst v.
  assert (L : legal o 3) by (right; right; lia). specialize (Hv L). lia.
Qed.
Print Assumptions C93_nearest_refuted.

(** the observed call is taken as it is; so is every bet inside the raise interval, under the same condition *)
Theorem C93_legal : forall c s a o x, np_fair c s -> action s = Some a -> observation c s false = Ok o -> 0 <= stack_of s a ->
  let s' := fst (np_step c s (PyInt x)) in
  (x = o_call o -> committed s' a = committed s a + x /\ is_active s' a) /\
  ((0 < big_blind c \/ exists z, nth_error (raise_sizes c) (street s) = Some (RInt z)) -> o_min_raise o <= x <= o_max_raise o ->
     committed s' a = committed s a + x).
Proof.
  intros c s a o x F Ha Ho Hst. cbv zeta. destruct (C93_limits c s a o F Ha Ho Hst) as (B1 & B2 & B3 & _). split.
  - intros ->. destruct (C93_exact c s a o (PyInt (o_call o)) (o_call o) F Ha Ho eq_refl Hst) as (v & Kc & _ & V0 & V1 & _ & Ka). cbv zeta in *. rewrite Z.max_r in * by lia.
    rewrite Kc, Nat.eqb_refl. destruct (np_seen c s (PyInt 0) a o 0 F Ha Ho eq_refl) as (_ & _ & _ & La & Ea & _). split.
    + destruct (Z.eq_dec (o_call o) 0) as [E|N]; [rewrite E in *; specialize (V0 ltac:(lia) ltac:(lia) ltac:(lia)); lia|]. specialize (V1 ltac:(lia) ltac:(lia) ltac:(lia)). lia.
    + apply Ka. split; [exact Ea|]. cbn [pynum_neg]. lia.
  - intros Hbb Hx. destruct (C93_nearest_partial c s a o (PyInt x) x F Ha Ho eq_refl Hst Hbb ltac:(lia)) as (v & [_ N] & Hv).
    assert (L : legal o x) by (right; right; exact Hx). specialize (N x L). assert (v = x) by lia. subst v. exact Hv.
Qed.
Print Assumptions C93_legal.

(** ** The cap on raises *)
(** as [put_in], [full_raise] and [count_on_street] of EngineSpec.v *)
Definition np_put_in (c : config) (s : state) (b : pynum) (a : nat) : Z := committed (fst (np_step c s b)) a - committed s a.
Definition np_full_raise (c : config) (s : state) (b : pynum) : bool :=
  match action s, observation c s false with
  | Some a, Ok o => (0 <? np_put_in c s b a) && (o_call o <? np_put_in c s b a) && (largest_raise s <=? np_put_in c s b a - o_call o)
  | _, _ => false
  end.
Fixpoint np_count_on_street (p : state -> pynum -> bool) (c : config) (s : state) (bs : list pynum) : nat :=
  match bs with
  | [] => 0%nat
  | b :: r =>
    let s' := fst (np_step c s b) in
    ((if p s b then 1 else 0) +
    (if Nat.eqb (street s') (street s) then match action s' with Some _ => np_count_on_street p c s' r | None => 0 end else 0))%nat
  end.
Lemma np_step_raises c s b a o B cap : np_fair c s -> 0 < big_blind c -> action s = Some a -> observation c s false = Ok o -> py_round b = Ok B ->
  nth_error (num_raises c) (street s) = Some (Some cap) ->
  let s' := fst (np_step c s b) in
  (np_full_raise c s b = true -> street_raises s < cap) /\
  (street s' = street s -> street_raises s' = street_raises s + if np_full_raise c s b then 1 else 0).
Proof.
  intros F Hbb Ha Ho Hb Hcap. cbv zeta. pose proof (np_fair_money c s F) as M.
  destruct (np_seen c s b a o B F Ha Ho Hb) as (bet & folds & L & La & Ea & F1 & F2 & F3 & F4 & F5 & F6 & Kc & _ & _ & _ & Kr & _).
  assert (P : in_progress s) by (unfold in_progress; rewrite Ha; discriminate). pose proof (mo_largest _ _ M P) as HL. change (largest_raise (wrap c s)) with (largest_raise s) in HL.
  assert (E : np_full_raise c s b = negb (bet =? 0) && (largest_raise s <=? bet - o_call o)).
  { unfold np_full_raise, np_put_in. rewrite Ha, Ho. rewrite Kc, Nat.eqb_refl.
    destruct L as [L1 L2 L3 L4 L5 L6 L7]. unfold stack_of in *. destruct (Z_le_dec 0 (nth a (stacks s) 0)) as [Hst|Hst].
    - specialize (F4 Hst). specialize (L6 Hst). destruct L6. lia.
    - specialize (F5 ltac:(lia)). specialize (L7 ltac:(lia)). lia. }
  rewrite E. split.
  - intros Hf. destruct (bet_sizes_cases c s a _ _ _ Ha (obs_sizes c s o Ho)) as (Ec & rs & cap' & Er & Ecap & Cs). cbv zeta in *.
    rewrite Hcap in Ecap. injection Ecap as <-. destruct (Z_lt_dec (street_raises s) cap) as [|Hge]; [assumption|exfalso].
    destruct Cs as [[_ [C1 C2]]|[C0 _]]; [|apply C0; left; lia].
    destruct (Z_le_dec 0 (stack_of s a)) as [Hst|Hst]; [|specialize (F5 ltac:(lia)); lia].
    destruct folds; [rewrite F3 in Hf by reflexivity; cbn in Hf; discriminate|]. destruct (F6 eq_refl Hst) as [F7 _].
    unfold stack_of in *. rewrite F7, clean_bet_spec in Hf. cbv zeta in Hf. revert Hf.
    repeat (match goal with |- context [if ?b then _ else _] => destruct b eqn:? end); lia.
  - intros Hstr. rewrite Kr, Hstr, Nat.eqb_refl. destruct (_ && _); lia.
Qed.
(** a bet that changes anything is one that can be rounded, by a player who can be shown the table *)
Lemma np_step_read c s b a : np_fair c s -> action s = Some a ->
  fst (np_step c s b) = s \/ exists o B, observation c s false = Ok o /\ py_round b = Ok B.
Proof.
  intros F Ha. pose proof (np_fair_money c s F) as M. unfold np_step. rewrite Ha. destruct (py_round b) as [B|]; [|now left].
  destruct (bet_sizes c s) as [[[x y] z]|] eqn:Es; [|now left]. right.
  destruct (observation c s false) as [o|] eqn:Ho; [exists o, B; now split|exfalso].
  unfold observation in Ho. rewrite Es, Ha in Ho. cbn [bind] in Ho. unfold get in Ho. destruct (nth_error (hole_cards s) a) eqn:Eh; [discriminate Ho|]. apply nth_error_None in Eh.
  assert (P : action (wrap c s) <> None) by (change (action (wrap c s)) with (action s); rewrite Ha; discriminate).
  pose proof (wf_hole _ _ (mo_wf _ _ M) P) as X. change (hole_cards (wrap c s)) with (hole_cards s) in X. rewrite X in Eh.
  destruct (wf_turn _ _ (mo_wf _ _ M) a Ha). lia.
Qed.
Lemma np_full_raises_bound c cap bs : 0 < big_blind c -> forall s, np_fair c s ->
  nth_error (num_raises c) (street s) = Some (Some cap) ->
  (np_count_on_street (np_full_raise c) c s bs = 0%nat) \/ street_raises s + Z.of_nat (np_count_on_street (np_full_raise c) c s bs) <= cap.
Proof.
  intros Hbb. induction bs as [|b bs IH]; intros s F Hcap; [now left|]. cbn [np_count_on_street].
  assert (F' : np_fair c (fst (np_step c s b))) by (apply (np_fair_op c s (OStep b)); [exact F|exact I|exact I]).
  assert (Hskip : fst (np_step c s b) = s -> np_full_raise c s b = false).
  { intros E. unfold np_full_raise, np_put_in. rewrite E. destruct (action s); [|reflexivity]. destruct (observation c s false); lia. }
  destruct (action s) as [a|] eqn:Ha.
  2:{ left. assert (E : fst (np_step c s b) = s) by (unfold np_step; now rewrite Ha). rewrite (Hskip E), E, Ha, Nat.eqb_refl. reflexivity. }
  destruct (np_step_read c s b a F Ha) as [E|(o & B & Ho & Hb)].
  { rewrite (Hskip E), E, Nat.eqb_refl, Ha. exact (IH s F Hcap). }
  destruct (np_step_raises c s b a o B cap F Hbb Ha Ho Hb Hcap) as [R1 R2]. cbv zeta in *.
  destruct (Nat.eqb_spec (street (fst (np_step c s b))) (street s)) as [Es|N].
  - specialize (R2 Es). rewrite <- Es in Hcap. specialize (IH _ F' Hcap). destruct (action (fst (np_step c s b))); destruct (np_full_raise c s b); try specialize (R1 eq_refl); lia.
  - destruct (np_full_raise c s b); [specialize (R1 eq_refl)|]; lia.
Qed.
(** the state right after the blinds, or right after a bet that moved the game to another street *)
Definition np_street_start (c : config) (s : state) : Prop :=
  (exists s0 rnd rb rs, np_fair c s0 /\ s = fst (np_reset c s0 rnd rb rs) /\ is_ok (snd (np_reset c s0 rnd rb rs)) = true) \/
  (exists s0 b, np_fair c s0 /\ s = fst (np_step c s0 b) /\ street s <> street s0).
Lemma np_reset_fresh c s0 rnd rb rs : np_fair c s0 -> is_ok (snd (np_reset c s0 rnd rb rs)) = true ->
  let s := fst (np_reset c s0 rnd rb rs) in np_fair c s /\ history s = [] /\ street_raises s = 0.
Proof.
  intros F H. cbv zeta. pose proof (np_fair_money c s0 F) as M. destruct (C68_reset c s0 rnd rb rs F) as [E1 E2].
  assert (H' : is_ok (snd (reset c (wrap c s0) rnd rb rs)) = true) by (rewrite <- E2; destruct (snd (np_reset c s0 rnd rb rs)); [reflexivity|discriminate H]).
  split; [apply (np_fair_op c s0 (OReset rnd rb rs)); [exact F|now right|exact I]|].
  change (history (fst (np_reset c s0 rnd rb rs))) with (history (wrap c (fst (np_reset c s0 rnd rb rs)))).
  change (street_raises (fst (np_reset c s0 rnd rb rs))) with (street_raises (wrap c (fst (np_reset c s0 rnd rb rs)))). rewrite E1.
  destruct (reset_spec c (wrap c s0) rnd rb rs (mo_cfg _ _ M) (mo_wf _ _ M)) as [(_ & _ & E)|[(_ & E)|(_ & _ & _ & E)]];
    [rewrite E in H'; discriminate H'|rewrite E in H'; discriminate H'|split; [exact (re_history _ _ _ _ _ _ E)|exact (re_raises _ _ _ _ _ _ E)]].
Qed.
Lemma np_street_start_raises c s : np_street_start c s -> in_progress s -> np_fair c s /\ street_raises s = 0.
Proof.
  intros [(s0 & rnd & rb & rs & F & -> & H)|(s0 & b & F & -> & H)] Hp.
  - destruct (np_reset_fresh c s0 rnd rb rs F H) as (A & _ & B). now split.
  - split; [apply (np_fair_op c s0 (OStep b)); [exact F|exact I|exact I]|]. pose proof (np_fair_money c s0 F) as M.
    destruct (action s0) as [a|] eqn:Ha; [|exfalso; apply H; unfold np_step; rewrite Ha; reflexivity].
    assert (P0 : in_progress s0) by (unfold in_progress; rewrite Ha; discriminate).
    destruct (np_both c s0 b M P0) as [(E & _)|(z & Z & _)]; [exfalso; apply H; rewrite E; reflexivity|].
    destruct (ns_after _ _ _ _ Z) as (s1 & H1 & Ez).
    destruct (step_take c (wrap c s0) b a (mo_cfg _ _ M) Ha) as [(_ & _ & X)|(call & mi & ma & bet & folds & s1' & H1' & P)]; [rewrite H1 in X; discriminate X|].
    rewrite H1 in H1'. injection H1' as <-.
    assert (Er : street_raises (fst (np_step c s0 b)) = street_raises z /\ street (fst (np_step c s0 b)) = street z) by (rewrite (ns_step _ _ _ _ Z); destruct (np_step_end_cases c z) as [(e & _ & ->)|[(pay & _ & _ & ->)|(pay & _ & _ & ->)]]; split; reflexivity).
    destruct Er as [Er Es]. rewrite Er. rewrite Es in H. change (street_raises z) with (street_raises (wrap c z)). change (street z) with (street (wrap c z)) in H. rewrite Ez in *.
    destruct (settle_cases c s1 (mo_cfg _ _ M)) as [[_ E2]|[_ E2]]; [|exact (ne_raises _ _ _ E2)].
    exfalso. apply H. rewrite E2. exact (be_street _ _ _ _ _ _ _ _ _ _ (sp_bet _ _ _ _ _ _ _ _ _ _ _ P)).
Qed.

(** Full raises (at least as large as the largest raise of the hand) are capped.  Missing: smaller raises, and games
    without a big blind, as at the other dealer (C25). *)
Theorem C93_cap_partial : forall c s bs cap, np_street_start c s -> 0 < big_blind c ->
  nth_error (num_raises c) (street s) = Some (Some cap) -> 0 <= cap ->
  Z.of_nat (np_count_on_street (np_full_raise c) c s bs) <= cap.
Proof.
  intros c s bs cap H Hbb Hcap H0. destruct (action s) as [a|] eqn:Ha.
  - destruct (np_street_start_raises c s H ltac:(unfold in_progress; rewrite Ha; discriminate)) as [F E].
    destruct (np_full_raises_bound c cap bs Hbb s F Hcap) as [->|X]; lia.
  - enough (E : np_count_on_street (np_full_raise c) c s bs = 0%nat) by lia. destruct bs as [|b bs]; [reflexivity|]. cbn [np_count_on_street].
    unfold np_full_raise, np_step. rewrite Ha. cbn [fst]. rewrite Ha, Nat.eqb_refl. reflexivity.
Qed.
Print Assumptions C93_cap_partial.

(** fixed raises of 2, at most two of them: of five bets that try to raise two count, and then there is no raise to observe *)
Example C93_cap_met : exists c s0, np_fair c s0 /\ is_ok (snd (np_reset c s0 [] true true)) = true /\ big_blind c = 2 /\
    nth_error (num_raises c) (street (fst (np_reset c s0 [] true true))) = Some (Some 2) /\
    np_count_on_street (np_full_raise c) c (fst (np_reset c s0 [] true true)) (map PyInt [3; 4; 4; 9; 9]) = 2%nat /\
    (let s := np_run_steps c (fst (np_reset c s0 [] true true)) (map PyInt [3; 4]) in
     action s = Some 0%nat /\ stack_of s 0 = 16 /\ street_raises s = 2 /\
     match observation c s false with Ok o => Some (o_call o, o_min_raise o, o_max_raise o) | _ => None end = Some (2, 0, 0)).
Proof.
  np_play (demo 2 1 [1; 2] [0; 0] [RawInt 2] [RawCount 2] [0] 20) (@nil op) c s E. split; [exact (np_played_fair _ _ _ _ E)|]. cbv zeta. np_plays E.
Qed.


(** ** C94 The history of the array dealer *)
(** a bet that is taken adds one entry at the end: who bet, the number that was taken, and whether it was negative *)
Theorem C94_entry : forall c s a o b B, np_fair c s -> action s = Some a -> observation c s false = Ok o -> py_round b = Ok B ->
  exists v, history (fst (np_step c s b)) = history s ++ [(a, v, pynum_neg b)] /\ 0 <= v /\
    (0 <= stack_of s a -> committed (fst (np_step c s b)) a = committed s a + v) /\
    (stack_of s a < 0 -> v = 0).
Proof.
  intros c s a o b B F Ha Ho Hb.
  destruct (np_seen c s b a o B F Ha Ho Hb) as (bet & folds & L & La & Ea & F1 & F2 & F3 & F4 & F5 & F6 & Kc & Ka & Kh & _).
  exists bet. split; [exact Kh|]. split; [exact F1|]. split; [|exact F5]. intros Hst. rewrite Kc, Nat.eqb_refl. specialize (F4 Hst). lia.
Qed.
Print Assumptions C94_entry.

(** a bet that raises an exception without changing the table, a step without a player to act, reads: nothing is added;
    what was entered before stays; a new hand starts with an empty history *)
Theorem C94_grows : forall c s b, np_fair c s ->
  (fst (np_step c s b) = s \/ exists e, history (fst (np_step c s b)) = history s ++ [e] /\ action s = Some (fst (fst e)) /\ snd e = pynum_neg b) /\
  (action s = None -> fst (np_step c s b) = s) /\
  (forall rnd rb rs, is_ok (snd (np_reset c s rnd rb rs)) = true -> history (fst (np_reset c s rnd rb rs)) = []).
Proof.
  intros c s b F. splits.
  - destruct (action s) as [a|] eqn:Ha; [|left; unfold np_step; now rewrite Ha].
    destruct (np_step_read c s b a F Ha) as [E|(o & B & Ho & Hb)]; [now left|right].
    destruct (C94_entry c s a o b B F Ha Ho Hb) as (v & Eh & _). exists (a, v, pynum_neg b). now rewrite Eh.
  - intros Ha. unfold np_step. now rewrite Ha.
  - intros rnd rb rs H. now destruct (np_reset_fresh c s rnd rb rs F H) as (_ & A & _).
Qed.
Print Assumptions C94_grows.

(** the history accounts for every chip after the blinds, but for the chips a player in debt takes back *)
Theorem C94_exact : forall c s0 rnd rb rs bs i, np_fair c s0 -> is_ok (snd (np_reset c s0 rnd rb rs)) = true ->
  let s1 := fst (np_reset c s0 rnd rb rs) in
  let s := np_run_steps c s1 bs in
  committed s i = committed s1 i + recorded i (history s) + taken_back s1 i (history s).
Proof.
  intros c s0 rnd rb rs bs i F H. cbv zeta. destruct (np_reset_fresh c s0 rnd rb rs F H) as (F1 & H0 & _). cbv zeta in *.
  set (s1 := fst (np_reset c s0 rnd rb rs)) in *. clearbody s1. clear H F s0.
  set (inv := fun s => np_fair c s /\ committed s i = committed s1 i + recorded i (history s) + taken_back s1 i (history s) /\
    (in_progress s -> if has_acted i (history s) then 0 <= stack_of s i else stack_of s i = stack_of s1 i)).
  enough (G : forall l s, inv s -> inv (np_run_steps c s l)).
  { apply (G bs s1). split; [exact F1|]. unfold taken_back. rewrite H0. cbn [has_acted existsb recorded map sumZ fold_right]. lia. }
  induction l as [|b l IH]; intros s Is; [exact Is|].
  change (np_run_steps c s (b :: l)) with (np_run_steps c (fst (np_step c s b)) l). apply IH. clear IH.
  destruct Is as (Fs & Ec & Hs). split; [apply (np_fair_op c s (OStep b)); [exact Fs|exact I|exact I]|].
  destruct (action s) as [a|] eqn:Ea; [|unfold np_step; rewrite Ea; split; [exact Ec|exact Hs]].
  assert (P : in_progress s) by (unfold in_progress; rewrite Ea; discriminate). specialize (Hs P).
  destruct (np_step_read c s b a Fs Ea) as [->|(o & B & Ho & Hb)]; [split; [exact Ec|intros _; exact Hs]|].
  destruct (np_seen c s b a o B Fs Ea Ho Hb) as (bet & folds & L & La & Aa & X1 & _ & _ & X4 & X5 & _ & Kc & _ & Eh & _ & _ & Ks). cbv zeta in *.
  assert (Ha : has_acted i (history s ++ [(a, bet, pynum_neg b)]) = has_acted i (history s) || Nat.eqb i a).
  { unfold has_acted. rewrite existsb_app. cbn [existsb fst]. rewrite orb_false_r. now rewrite (Nat.eqb_sym a i). }
  assert (Er : recorded i (history s ++ [(a, bet, pynum_neg b)]) = recorded i (history s) + (if Nat.eqb i a then bet else 0)).
  { rewrite recorded_app. unfold recorded at 2. cbn [map sumZ fold_right]. rewrite (Nat.eqb_sym a i). destruct (Nat.eqb i a); lia. }
  specialize (Kc i). split.
  - rewrite Kc, Eh, Er. unfold taken_back in *. rewrite Ha, Ec. clear Ks Eh Er Ha Kc Ec.
    destruct (Nat.eqb_spec i a) as [->|]; [|rewrite orb_false_r; lia]. rewrite orb_true_r.
    destruct (has_acted a (history s)); [|rewrite Hs in *]; lia.
  - intros Hp. rewrite Eh, Ha, (Ks Hp i). clear Ks Eh Er Ha Kc Ec.
    destruct (Nat.eqb_spec i a) as [->|]; [rewrite orb_true_r|rewrite orb_false_r; destruct (has_acted i (history s)); lia].
    lia.
Qed.
Print Assumptions C94_exact.

(** a hand of two players: the entries, and the chips they account for *)
Example C94_exact_met : exists c s0, np_fair c s0 /\ is_ok (snd (np_reset c s0 [] true true)) = true /\
  let s1 := fst (np_reset c s0 [] true true) in let s := np_run_steps c s1 (map PyInt [5; 12; -1]) in
  committed s1 0 = 1 /\ committed s1 1 = 2 /\
  history s = [(0%nat, 5, false); (1%nat, 12, false); (0%nat, 0, true)] /\ committed s 0 = 6 /\ committed s 1 = 14.
Proof. np_play (demo 2 1 [1; 2] [0; 0] [RawInf] [RawCountInf] [0] 20) (@nil op) c s E. split; [exact (np_played_fair _ _ _ _ E)|]. cbv zeta. np_plays E. Qed.
(** player 1 posts a blind of 2 with a stack of 1: at their turn one chip comes back, and no entry says so *)
Theorem C94_refuted : ~ (forall c s0 rnd rb rs bs i, np_fair c s0 -> is_ok (snd (np_reset c s0 rnd rb rs)) = true ->
  let s1 := fst (np_reset c s0 rnd rb rs) in let s := np_run_steps c s1 bs in
  committed s i = committed s1 i + recorded i (history s)).
Proof.
  intros H.
  assert (X : exists c s0, np_fair c s0 /\ is_ok (snd (np_reset c s0 [] true true)) = true /\
    committed (fst (np_reset c s0 [] true true)) 1 = 2 /\
    history (np_run_steps c (fst (np_reset c s0 [] true true)) (map PyInt [2; 2])) = [(0%nat, 0, false); (1%nat, 0, false)] /\
    committed (np_run_steps c (fst (np_reset c s0 [] true true)) (map PyInt [2; 2])) 1 = 1).
  { np_play (demo 2 1 [1; 2] [0; 0] [RawInf] [RawCountInf] [0] 1) (@nil op) c s E. split; [exact (np_played_fair _ _ _ _ E)|]. np_plays E. }
  destruct X as (c & s0 & F & Hr & H1 & Hh & H2). specialize (H c s0 [] true true (map PyInt [2; 2]) 1%nat F Hr). cbv zeta in H.
  rewrite H1, H2, Hh in H. cbn in H. lia.
Qed.
Print Assumptions C94_refuted.
