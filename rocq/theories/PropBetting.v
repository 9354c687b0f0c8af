(** * PropBetting: C18, C22-C27, C46, C47 *)
From Coq Require Import ZifyBool ZifyNat Arith.
From Verif Require Import PyBase PyFacts CardModel EvalModel EngineModel EngineSpec EngineFacts BetFacts MoneyFacts EngineDemo.

(** no-limit and pot-limit games for the examples *)
Definition no_limit_3 := demo 3 2 [1; 2; 0] [0; 0; 0] [RawInf; RawInf] [RawCountInf; RawCountInf] [0; 1] 20.
Definition new_hand := OReset [] true true.
Notation bets l := (map (fun z => OStep (PyInt z)) l).

(** ** C18 Chips are conserved while betting *)

Theorem C18_betting : forall c s b, reachable c s ->
  in_progress (fst (step c s b)) -> all_chips (fst (step c s b)) = all_chips s.
Proof.
  intros c s b R P. pose proof (reachable_cfg c s R) as W. pose proof (reachable_wf c s R) as I.
  destruct (action s) as [a|] eqn:Ea.
  2:{ unfold step in *. now rewrite Ea in *. }
  destruct (step_anatomy c s b ltac:(congruence)) as [(_ & -> & _)|(s1 & H1 & E)]; [reflexivity|].
  destruct (after_bet_wf c s b s1 W I H1) as (A1 & A2 & A3 & A4 & A5 & A6 & A7 & A8 & A9 & A10 & A11).
  destruct (settle_wf c s1 W A1 A2 A3 A4 A5 A6 A7 A8 A9 A10) as (_ & _ & _ & _ & _ & _ & _ & _ & B8 & _).
  rewrite E in *. destruct (step_end_cases c (settle c s1)) as [(e & _ & E')|[(pay & _ & _ & E')|(pay & _ & _ & E')]]; rewrite E' in *.
  - cbn [fst]. congruence.
  - exfalso. now apply P.
  - congruence.
Qed.
Print Assumptions C18_betting.

Theorem C18_pot : forall c s, reachable c s -> in_progress s -> pot s = sumZ (pot_commits s).
Proof. intros c s R P. exact (wf_pot _ _ (reachable_wf c s R) P). Qed.
Print Assumptions C18_pot.

Theorem C18_many_bets : forall c s bs, reachable c s -> in_progress (run_steps c s bs) ->
  all_chips (run_steps c s bs) = all_chips s.
Proof.
  intros c s bs. revert s. induction bs as [|b bs IH]; intros s R P; [reflexivity|].
  change (run_steps c s (b :: bs)) with (run_steps c (fst (step c s b)) bs) in *.
  assert (R' : reachable c (fst (step c s b))) by (apply (reach_op c s (OStep b)); [exact R|exact I]).
  rewrite (IH _ R' P). apply C18_betting; [exact R|]. intros E. apply P. clear - E.
  assert (K : forall l s', action s' = None -> action (fold_left (fun s b => fst (step c s b)) l s') = None).
  { induction l as [|x l IH]; intros s' H; [exact H|]. cbn. apply IH. unfold step. rewrite H. exact H. }
  now apply K.
Qed.
Print Assumptions C18_many_bets.

Example C18_example : exists c s, played no_limit_3 (new_hand :: bets [7; 3; 12]) = Ok (c, s) /\ fair c s /\
  in_progress s /\ in_progress (fst (step c s (PyFloat (25 # 2)))) /\ pot_commits s = [7; 1; 14] /\ all_chips s = 60.
Proof.
  play no_limit_3 (new_hand :: bets [7; 3; 12]) c s E. split; [reflexivity|]. split; [exact (played_fair _ _ _ _ E)|].
  assert (H : action s = Some 0%nat) by by_play E.
  assert (H' : action (fst (step c s (PyFloat (25 # 2)))) = Some 2%nat) by by_play E.
  split; [unfold in_progress; intros X; rewrite H in X; discriminate X|].
  split; [unfold in_progress; intros X; rewrite H' in X; discriminate X|]. plays E.
Qed.

(** ** C22 A bet is rounded to the nearest legal bet *)

(** The full claim fails without blinds in a no-limit game: a bet of 3 with a stack of 19 is legal
    (0 <= 3 <= 19) but 0 is taken. *)
Theorem C22_refuted : ~ (forall c s a o b B, fair c s -> action s = Some a -> observation c s false = Ok o ->
  py_round b = Ok B -> 0 <= stack_of s a ->
  exists v, nearest_legal o B v /\ committed (fst (step c s b)) a = committed s a + v).
Proof.
  intros H.
  assert (X : exists c s, fair c s /\
    action s = Some 0%nat /\ stack_of s 0 = 19 /\ committed s 0 = 1 /\ committed (fst (step c s (PyInt 3))) 0 = 1 /\
    match observation c s false with Ok o => Some (o_call o, o_min_raise o, o_max_raise o) | _ => None end = Some (0, 0, 19)).
  { play (demo 2 1 [0; 0] [1; 1] [RawInf] [RawCountInf] [0] 20) [new_hand] c s E. split; [exact (played_fair _ _ _ _ E)|]. plays E. }
  destruct X as (c & s & E & Ha & Hst & H1 & H2 & Ho). destruct (observation c s false) as [o|] eqn:Eo; [|discriminate Ho].
  injection Ho as O1 O2 O3.
  destruct (H c s 0%nat o (PyInt 3) 3 E Ha Eo eq_refl ltac:(lia)) as (v & [_ Hv] & Hc).
  specialize (Hv 3). assert (v = 0) by lia. subst v.
  assert (L : legal o 3) by (right; right; lia). specialize (Hv L). lia.
Qed.
Print Assumptions C22_refuted.

(** It fails too in pot-limit games when the seat owing the big blind is empty: min_raise exceeds
    max_raise, no raise is legal, yet one is taken. *)
Theorem C22_pot_limit_refuted : exists c s a o b B, fair c s /\ 0 < big_blind c /\ action s = Some a /\ observation c s false = Ok o /\
  py_round b = Ok B /\ 0 <= stack_of s a /\ o_max_raise o < o_min_raise o /\
  ~ legal o (committed (fst (step c s b)) a - committed s a).
Proof.
  assert (X : exists c s, fair c s /\
    action s = Some 1%nat /\ big_blind c = 10 /\ stack_of s 1 = 19 /\ committed (fst (step c s (PyInt 1))) 1 - committed s 1 = 1 /\
    match observation c s false with Ok o => Some (o_call o, o_min_raise o, o_max_raise o) | _ => None end = Some (0, 10, 1)).
  { play (demo 3 1 [1; 10; 0] [0; 0; 0] [RawPot] [RawCountInf] [0] 20) [OSetStacks [20; 20; 0]; OReset [] true false] c s E.
    split; [exact (played_fair _ _ _ _ E)|]. plays E. }
  destruct X as (c & s & E & Ha & Hbb & Hst & H1 & Ho). destruct (observation c s false) as [o|] eqn:Eo; [|discriminate Ho].
  injection Ho as O1 O2 O3.
  exists c, s, 1%nat, o, (PyInt 1), 1. split; [exact E|]. rewrite H1. unfold legal.
  repeat split; try assumption; lia.
Qed.
Print Assumptions C22_pot_limit_refuted.

Lemma limits_good c s a o : fair c s -> action s = Some a -> observation c s false = Ok o -> 0 <= stack_of s a ->
  (0 < big_blind c \/ exists z, nth_error (raise_sizes c) (street s) = Some (RInt z)) -> o_min_raise o <= o_max_raise o ->
  good_limits (o_call o) (o_min_raise o) (o_max_raise o).
Proof.
  intros F Ha Ho Hst Hbb Hmm. pose proof (fair_money c s F) as M. assert (P : in_progress s) by (unfold in_progress; congruence).
  pose proof (mo_largest _ _ M P) as HL. pose proof (mo_sane _ _ M) as Hs. pose proof (sane_bb c (mo_cfg _ _ M) Hs) as B0.
  pose proof (obs_sizes c s o Ho) as Sz. pose proof (money_limits c s a _ _ _ M Ha Sz) as [L1 L2 L3 L4 L5 L6 L7].
  unfold stack_of in *. specialize (L6 Hst).
  destruct (bet_sizes_cases c s a _ _ _ Ha Sz) as (Ec & rs & cap & Er & Ecap & Cs). cbv zeta in *.
  unfold good_limits. destruct L6 as [L6 _]. split; [exact L6|].
  destruct Cs as [[_ Cs]|[_ Cs]]; [lia|]. destruct rs as [z| |].
  - pose proof (sane_nth_raise c _ z Hs Er). lia.
  - destruct Hbb as [Hbb|[z Hz]]; [|congruence]. lia.
  - destruct Hbb as [Hbb|[z Hz]]; [|congruence]. lia.
Qed.

(** With a big blind, or a fixed raise size, and a raise interval that is not inside out, the
    claim holds; a missing raise interval is shown as [0, 0]. *)
Theorem C22_rounding_partial : forall c s a o b B, fair c s -> action s = Some a -> observation c s false = Ok o ->
  py_round b = Ok B -> 0 <= stack_of s a ->
  (0 < big_blind c \/ exists z, nth_error (raise_sizes c) (street s) = Some (RInt z)) ->
  o_min_raise o <= o_max_raise o ->
  exists v, nearest_legal o B v /\ committed (fst (step c s b)) a = committed s a + v.
Proof.
  intros c s a o b B F Ha Ho Hb Hst Hbb Hmm. pose proof (limits_good c s a o F Ha Ho Hst Hbb Hmm) as G.
  destruct (step_seen c s b a o B F Ha Ho Hb) as (bet & folds & s1 & P & Hs & L & La & Ea & F1 & F2 & F3 & F4 & F5 & F6).
  pose proof (clean_bet_nearest B (o_call o) (o_min_raise o) (o_max_raise o) G) as N. cbv zeta in N.
  exists bet. split.
  - assert (E : bet = clean_bet B (o_call o) (o_min_raise o) (o_max_raise o)).
    { destruct folds; [|now apply F6]. rewrite F3 by reflexivity. destruct F2 as [F2 _]. specialize (F2 eq_refl).
      assert (S0 : 0 <= o_call o) by apply G. destruct F2 as [Hc [Hn|Hn]].
      - pose proof (pynum_neg_round b B Hb Hn) as HB. rewrite clean_bet_spec. cbv zeta. destruct G as [_ G].
        repeat (match goal with |- context [if ?b then _ else _] => destruct b eqn:? end); lia.
      - rewrite clean_bet_spec. cbv zeta. destruct G as [_ G].
        repeat (match goal with |- context [if ?b then _ else _] => destruct b eqn:? end); lia. }
    rewrite E. exact N.
  - rewrite (parts_committed _ _ _ _ _ _ _ _ _ _ _ a (mo_wf _ _ (fair_money c s F)) La P), Nat.eqb_refl. specialize (F4 Hst). lia.
Qed.
Print Assumptions C22_rounding_partial.

(** What is taken in every case, for every bet that can be rounded: of 0, the call and the two ends of the raise interval the
    nearest to the (rounded, not negative) request decides, the earlier one on ties; if it is an end of the interval
    the request is moved into the interval. *)
Theorem C22_exact : forall c s a o b B, fair c s -> action s = Some a -> observation c s false = Ok o ->
  py_round b = Ok B -> 0 <= stack_of s a ->
  let away x := Z.abs (x - Z.max 0 B) in
  exists v, committed (fst (step c s b)) a = committed s a + v /\
    (* nothing is nearer than 0 *)
    (away 0 <= away (o_call o) -> away 0 <= away (o_min_raise o) -> away 0 <= away (o_max_raise o) -> v = 0) /\
    (* the call is nearer than 0, and nothing is nearer than the call *)
    (away (o_call o) < away 0 -> away (o_call o) <= away (o_min_raise o) -> away (o_call o) <= away (o_max_raise o) -> v = o_call o) /\
    (* an end of the interval is nearer than both *)
    (away (o_min_raise o) < Z.min (away 0) (away (o_call o)) \/ away (o_max_raise o) < Z.min (away 0) (away (o_call o)) ->
       v = Z.min (o_max_raise o) (Z.max (o_min_raise o) (Z.max 0 B))).
Proof.
  intros c s a o b B F Ha Ho Hb Hst. cbv zeta.
  destruct (step_seen c s b a o B F Ha Ho Hb) as (bet & folds & s1 & P & Hs & L & La & Ea & F1 & F2 & F3 & F4 & F5 & F6).
  exists bet. split; [rewrite (parts_committed _ _ _ _ _ _ _ _ _ _ _ a (mo_wf _ _ (fair_money c s F)) La P), Nat.eqb_refl; specialize (F4 Hst); lia|].
  pose proof (li_sane _ _ _ _ _ L Hst) as SL. unfold sane_limits in SL.
  assert (E : bet = clean_bet B (o_call o) (o_min_raise o) (o_max_raise o)).
  { destruct folds; [|now apply F6]. rewrite F3 by reflexivity. destruct F2 as [F2 _]. specialize (F2 eq_refl). destruct F2 as [Hc [Hn|Hn]].
    - pose proof (pynum_neg_round b B Hb Hn) as HB. rewrite clean_bet_spec. cbv zeta.
      repeat (match goal with |- context [if ?b then _ else _] => destruct b eqn:? end); lia.
    - rewrite clean_bet_spec. cbv zeta.
      repeat (match goal with |- context [if ?b then _ else _] => destruct b eqn:? end); lia. }
  rewrite clean_bet_spec in E. cbv zeta in E. subst bet. clear.
  repeat (match goal with |- context [if ?b then _ else _] => destruct b eqn:? end); lia.
Qed.
Print Assumptions C22_exact.

(** When the raise interval is never inside out: in no-limit and fixed-limit games *)
Theorem C22_interval : forall c s a o, fair c s -> action s = Some a -> observation c s false = Ok o ->
  nth_error (raise_sizes c) (street s) <> Some RPot -> o_min_raise o <= o_max_raise o.
Proof.
  intros c s a o F Ha Ho Hp. pose proof (obs_sizes c s o Ho) as Sz.
  destruct (bet_sizes_cases c s a _ _ _ Ha Sz) as (Ec & rs & cap & Er & Ecap & Cs). cbv zeta in *.
  destruct Cs as [[_ Cs]|[_ Cs]]; [lia|]. destruct rs as [z| |]; [lia|congruence|lia].
Qed.
Print Assumptions C22_interval.

Example C22_example : exists c s, played no_limit_3 (new_hand :: bets [7; 3; 12]) = Ok (c, s) /\ fair c s /\ 0 < big_blind c /\
  action s = Some 0%nat /\ stack_of s 0 = 13 /\
  match observation c s false with Ok o => Some (o_call o, o_min_raise o, o_max_raise o) | _ => None end = Some (7, 13, 13) /\
  committed s 0 = 7 /\ committed (fst (step c s (PyInt 10))) 0 = 14 /\ committed (fst (step c s (PyFloat (21 # 2)))) 0 = 14 /\
  committed (fst (step c s (PyInt 11))) 0 = 20 /\ committed (fst (step c s (PyInt 3))) 0 = 7.
Proof.
  play no_limit_3 (new_hand :: bets [7; 3; 12]) c s E. split; [reflexivity|]. split; [exact (played_fair _ _ _ _ E)|].
  assert (H : big_blind c = 2) by by_play E. split; [lia|]. plays E.
Qed.

(** ** C23 Legal bets are taken as they are *)

Theorem C23_call : forall c s a o, fair c s -> action s = Some a -> observation c s false = Ok o -> 0 <= stack_of s a ->
  let s' := fst (step c s (PyInt (o_call o))) in
  committed s' a = committed s a + o_call o /\ is_active s' a /\
  (in_progress s' -> stack_of s' a = stack_of s a - o_call o).
Proof.
  intros c s a o F Ha Ho Hst. cbv zeta.
  destruct (step_seen c s (PyInt (o_call o)) a o (o_call o) F Ha Ho eq_refl) as (bet & folds & s1 & P & Hs & L & La & Ea & F1 & F2 & F3 & F4 & F5 & F6).
  pose proof (fair_money c s F) as M. destruct L as [L1 L2 L3 L4 L5 L6 L7]. specialize (L6 Hst). destruct L6 as [L6 L8].
  assert (Ef : folds = false).
  { destruct folds; [|reflexivity]. destruct F2 as [F2 _]. specialize (F2 eq_refl). cbn [pynum_neg] in F2. lia. }
  subst folds. destruct (F6 eq_refl Hst) as [Eb _].
  assert (E : bet = o_call o).
  { rewrite Eb, clean_bet_spec. cbv zeta.
    repeat (match goal with |- context [if ?b then _ else _] => destruct b eqn:? end); lia. }
  split; [|split].
  - rewrite (parts_committed _ _ _ _ _ _ _ _ _ _ _ a (mo_wf _ _ M) La P), Nat.eqb_refl. unfold stack_of in *. lia.
  - apply (parts_active _ _ _ _ _ _ _ _ _ _ _ a (mo_wf _ _ M) La Ea P). split; [exact Ea|]. intros [_ X]; discriminate.
  - intros Hp. destruct (parts_going _ _ _ _ _ _ _ _ _ _ _ a (mo_cfg _ _ M) (mo_wf _ _ M) La P Hp) as [X _]. rewrite X, Nat.eqb_refl. unfold stack_of in *. lia.
Qed.
Print Assumptions C23_call.

(** Missing: no-limit and pot-limit games without a big blind (C23_refuted) *)
Theorem C23_raise_partial : forall c s a o x, fair c s -> action s = Some a -> observation c s false = Ok o -> 0 <= stack_of s a ->
  (0 < big_blind c \/ exists z, nth_error (raise_sizes c) (street s) = Some (RInt z)) ->
  o_min_raise o <= x <= o_max_raise o ->
  let s' := fst (step c s (PyInt x)) in
  committed s' a = committed s a + x /\ (in_progress s' -> stack_of s' a = stack_of s a - x).
Proof.
  intros c s a o x F Ha Ho Hst Hbb Hx. cbv zeta.
  destruct (C22_rounding_partial c s a o (PyInt x) x F Ha Ho eq_refl Hst Hbb ltac:(lia)) as (v & [_ N] & Hv).
  assert (L : legal o x) by (right; right; exact Hx). specialize (N x L). assert (v = x) by lia. subst v.
  split; [exact Hv|]. intros Hp. pose proof (fair_money c s F) as M.
  destruct (step_seen c s (PyInt x) a o x F Ha Ho eq_refl) as (bet & folds & s1 & P & _ & _ & La & _).
  destruct (parts_going _ _ _ _ _ _ _ _ _ _ _ a (mo_cfg _ _ M) (mo_wf _ _ M) La P Hp) as [X _].
  rewrite (parts_committed _ _ _ _ _ _ _ _ _ _ _ a (mo_wf _ _ M) La P) in Hv. rewrite X. lia.
Qed.
Print Assumptions C23_raise_partial.

(** As stated the raise half is false without a big blind: with limits 0 and 19 a bet of 3 is taken as a check. *)
Theorem C23_refuted : exists c s a o, fair c s /\ action s = Some a /\ observation c s false = Ok o /\ 0 <= stack_of s a /\
  o_min_raise o <= 3 <= o_max_raise o /\ committed (fst (step c s (PyInt 3))) a = committed s a.
Proof.
  assert (X : exists c s, fair c s /\
    action s = Some 0%nat /\ stack_of s 0 = 19 /\ committed s 0 = 1 /\ committed (fst (step c s (PyInt 3))) 0 = 1 /\
    match observation c s false with Ok o => Some (o_min_raise o, o_max_raise o) | _ => None end = Some (0, 19)).
  { play (demo 2 1 [0; 0] [1; 1] [RawInf] [RawCountInf] [0] 20) [new_hand] c s E. split; [exact (played_fair _ _ _ _ E)|]. plays E. }
  destruct X as (c & s & E & Ha & Hst & H1 & H2 & Ho). destruct (observation c s false) as [o|] eqn:Eo; [|discriminate Ho].
  injection Ho as O1 O2. exists c, s, 0%nat, o. rewrite O1, O2. repeat (split; [first [assumption|reflexivity|lia]|]). lia.
Qed.
Print Assumptions C23_refuted.

(** Exactly which bets inside the interval are taken as they are: all, if the smallest raise is more than the call; else those that are
    nearer to the largest raise than to the call (and the call itself, and nothing when no raise is possible). *)
Theorem C23_exact : forall c s a o x, fair c s -> action s = Some a -> observation c s false = Ok o -> 0 <= stack_of s a ->
  o_min_raise o <= x <= o_max_raise o ->
  (committed (fst (step c s (PyInt x))) a = committed s a + x <->
   o_call o < o_min_raise o \/ o_call o + o_max_raise o < 2 * x \/ x = o_call o \/ x = 0).
Proof.
  intros c s a o x F Ha Ho Hst Hx. destruct (C22_exact c s a o (PyInt x) x F Ha Ho eq_refl Hst) as (v & -> & V0 & V1 & V2). cbv zeta in *.
  destruct (step_seen c s (PyInt x) a o x F Ha Ho eq_refl) as (bet & folds & s1 & P & Hs & L & _). pose proof (li_sane _ _ _ _ _ L Hst) as SL. unfold sane_limits in SL. clear - V0 V1 V2 SL Hx.
  set (cl := o_call o) in *. set (mi := o_min_raise o) in *. set (ma := o_max_raise o) in *. clearbody cl mi ma.
  assert (0 <= x) by lia. rewrite (Z.max_r 0 x) in * by lia.
  assert (A0 : Z.abs (0 - x) = x) by lia. rewrite A0 in *. clear A0.
  destruct SL as [C0 [[-> ->]|[C1 C2]]].
  - assert (x = 0) by lia. subst x. assert (v = 0) by (apply V0; lia). lia.
  - assert (A1 : Z.abs (cl - x) = x - cl) by lia. assert (A2 : Z.abs (mi - x) = x - mi) by lia. assert (A3 : Z.abs (ma - x) = ma - x) by lia.
    rewrite A1, A2, A3 in *. clear A1 A2 A3. assert (A4 : Z.min ma (Z.max mi x) = x) by lia. rewrite A4 in *. clear A4.
    destruct (Z.eq_dec cl 0) as [E0|N0]; [clear V1|clear V0; assert (x - cl < x) by lia]; destruct (Z.lt_ge_cases cl mi); destruct (Z.lt_ge_cases (ma - x) (x - cl)); lia.
Qed.
Print Assumptions C23_exact.

Example C23_example : exists c s, played no_limit_3 (new_hand :: bets [7]) = Ok (c, s) /\ fair c s /\ 0 < big_blind c /\
  action s = Some 1%nat /\ stack_of s 1 = 19 /\
  match observation c s false with Ok o => Some (o_call o, o_min_raise o, o_max_raise o) | _ => None end = Some (6, 11, 19) /\
  action (fst (step c s (PyInt 6))) = Some 2%nat /\ stack_of (fst (step c s (PyInt 6))) 1 = 13 /\ stack_of (fst (step c s (PyInt 15))) 1 = 4.
Proof.
  play no_limit_3 (new_hand :: bets [7]) c s E. split; [reflexivity|]. split; [exact (played_fair _ _ _ _ E)|].
  assert (H : big_blind c = 2) by by_play E. split; [lia|]. plays E.
Qed.

(** without a big blind: of the bets between 0 and 19 those from 10 on are taken as they are *)
Example C23_exact_example : exists c s, fair c s /\ action s = Some 0%nat /\ stack_of s 0 = 19 /\ committed s 0 = 1 /\
  match observation c s false with Ok o => Some (o_call o, o_min_raise o, o_max_raise o) | _ => None end = Some (0, 0, 19) /\
  committed (fst (step c s (PyInt 9))) 0 = 1 /\ committed (fst (step c s (PyInt 10))) 0 = 11 /\ committed (fst (step c s (PyInt 15))) 0 = 16.
Proof.
  play (demo 2 1 [0; 0] [1; 1] [RawInf] [RawCountInf] [0] 20) [new_hand] c s E. split; [exact (played_fair _ _ _ _ E)|]. plays E.
Qed.

(** ** C24 Bet limits are sane *)

Theorem C24_bounds : forall c s a o, fair c s -> action s = Some a -> observation c s false = Ok o -> 0 <= stack_of s a ->
  0 <= o_call o <= stack_of s a /\ 0 <= o_min_raise o <= stack_of s a /\ 0 <= o_max_raise o <= stack_of s a.
Proof.
  intros c s a o F Ha Ho Hst. pose proof (fair_money c s F) as M.
  destruct (money_limits c s a _ _ _ M Ha (obs_sizes c s o Ho)) as [L1 L2 L3 L4 L5 L6 L7]. unfold stack_of in *.
  specialize (L6 Hst). unfold sane_limits in L6. lia.
Qed.
Print Assumptions C24_bounds.

(** the call is what is missing to the largest commitment of the street, at most the stack *)
Theorem C24_call : forall c s a o, reachable c s -> action s = Some a -> observation c s false = Ok o ->
  o_call o = Z.min (maxZ (street_commits s) - street_committed s a) (stack_of s a).
Proof.
  intros c s a o R Ha Ho. destruct (bet_sizes_cases c s a _ _ _ Ha (obs_sizes c s o Ho)) as (Ec & _). exact Ec.
Qed.
Print Assumptions C24_call.

Theorem C24_fixed_limit : forall c s a o z, fair c s -> action s = Some a -> observation c s false = Ok o -> 0 <= stack_of s a ->
  nth_error (raise_sizes c) (street s) = Some (RInt z) -> o_max_raise o <> 0 ->
  o_min_raise o = Z.min (o_call o + z) (stack_of s a) /\ o_max_raise o = Z.min (o_call o + z) (stack_of s a).
Proof.
  intros c s a o z F Ha Ho Hst Hz Hm. pose proof (fair_money c s F) as M. pose proof (sane_nth_raise c _ z (mo_sane _ _ M) Hz).
  destruct (bet_sizes_cases c s a _ _ _ Ha (obs_sizes c s o Ho)) as (Ec & rs & cap & Er & Ecap & Cs). cbv zeta in *.
  unfold stack_of in *. destruct Cs as [[_ Cs]|[_ Cs]]; [lia|]. rewrite Hz in Er. injection Er as <-. lia.
Qed.
Print Assumptions C24_fixed_limit.

Theorem C24_pot_limit : forall c s a o, fair c s -> action s = Some a -> observation c s false = Ok o -> 0 <= stack_of s a ->
  nth_error (raise_sizes c) (street s) = Some RPot -> o_max_raise o <= pot s + 2 * o_call o.
Proof.
  intros c s a o F Ha Ho Hst Hz. pose proof (fair_money c s F) as M.
  pose proof (money_pot c s M ltac:(unfold in_progress; congruence)).
  destruct (money_limits c s a _ _ _ M Ha (obs_sizes c s o Ho)) as [L1 L2 _ _ _ _ _].
  destruct (bet_sizes_cases c s a _ _ _ Ha (obs_sizes c s o Ho)) as (Ec & rs & cap & Er & Ecap & Cs). cbv zeta in *.
  unfold stack_of in *. destruct Cs as [[_ Cs]|[_ Cs]]; [lia|]. rewrite Hz in Er. injection Er as <-. lia.
Qed.
Print Assumptions C24_pot_limit.

(** [largest_raise] is the largest excess over the call bet so far in the hand, at least the big blind *)
Theorem C24_largest_raise : forall c s a o b B, fair c s -> action s = Some a -> observation c s false = Ok o -> 0 <= stack_of s a ->
  py_round b = Ok B ->
  largest_raise (fst (step c s b)) = Z.max (largest_raise s) (put_in c s b a - o_call o).
Proof.
  intros c s a o b B F Ha Ho Hst Hb.
  destruct (step_seen c s b a o B F Ha Ho Hb) as (bet & folds & s1 & P & Hs & L & La & Ea & F1 & F2 & F3 & F4 & F5 & F6).
  pose proof (fair_money c s F) as M. pose proof (sane_bb c (mo_cfg _ _ M) (mo_sane _ _ M)).
  pose proof (mo_largest _ _ M ltac:(unfold in_progress; congruence)).
  unfold put_in. rewrite (parts_committed _ _ _ _ _ _ _ _ _ _ _ a (mo_wf _ _ M) La P), Nat.eqb_refl.
  rewrite (sp_largest _ _ _ _ _ _ _ _ _ _ _ P), (be_largest _ _ _ _ _ _ _ _ _ _ (sp_bet _ _ _ _ _ _ _ _ _ _ _ P)).
  specialize (F4 Hst). destruct L as [L1 L2 L3 L4 L5 L6 L7]. specialize (L6 Hst). destruct L6 as [L6 _].
  destruct (negb (bet =? 0) && (largest_raise s <=? bet - o_call o)) eqn:E; lia.
Qed.
Print Assumptions C24_largest_raise.
Theorem C24_largest_raise_start : forall c s rnd rb rs, reachable c s -> is_ok (snd (reset c s rnd rb rs)) = true ->
  largest_raise (fst (reset c s rnd rb rs)) = big_blind c.
Proof.
  intros c s rnd rb rs R H. destruct (reset_spec c s rnd rb rs (reachable_cfg c s R) (reachable_wf c s R)) as [(_ & _ & E)|[(_ & E)|(_ & _ & _ & E)]];
    [rewrite E in H; discriminate|rewrite E in H; discriminate|]. now apply re_largest in E.
Qed.
Print Assumptions C24_largest_raise_start.

(** In no-limit and pot-limit games an allowed raise exceeds the call by at least the largest raise,
    unless the stack is smaller. Missing: fixed-limit games, where it fails (next theorem). *)
Theorem C24_min_raise_partial : forall c s a o, fair c s -> action s = Some a -> observation c s false = Ok o -> 0 <= stack_of s a ->
  (forall z, nth_error (raise_sizes c) (street s) <> Some (RInt z)) -> o_max_raise o <> 0 ->
  o_min_raise o - o_call o >= largest_raise s \/ o_min_raise o = stack_of s a.
Proof.
  intros c s a o F Ha Ho Hst Hz Hm. pose proof (fair_money c s F) as M.
  destruct (bet_sizes_cases c s a _ _ _ Ha (obs_sizes c s o Ho)) as (Ec & rs & cap & Er & Ecap & Cs). cbv zeta in *.
  unfold stack_of in *. destruct Cs as [[_ Cs]|[_ Cs]]; [lia|]. rewrite Er in Hz. destruct rs as [z| |]; [now specialize (Hz z)| |]; lia.
Qed.
Print Assumptions C24_min_raise_partial.

Theorem C24_min_raise_refuted : exists c s a o, fair c s /\ action s = Some a /\ observation c s false = Ok o /\
  0 < o_max_raise o /\ o_min_raise o - o_call o < largest_raise s /\ o_min_raise o < stack_of s a.
Proof.
  assert (X : exists c s, fair c s /\ action s = Some 1%nat /\ stack_of s 1 = 32 /\ largest_raise s = 6 /\
    match observation c s false with Ok o => Some (o_call o, o_min_raise o, o_max_raise o) | _ => None end = Some (0, 2, 2)).
  { play (demo 2 2 [1; 2] [0; 0] [RawInt 6; RawInt 2] [RawCountInf; RawCountInf] [0; 0] 40) (new_hand :: bets [7; 6]) c s E.
    split; [exact (played_fair _ _ _ _ E)|]. plays E. }
  destruct X as (c & s & F & Ha & Hst & Hl & Ho). destruct (observation c s false) as [o|] eqn:Eo; [|discriminate Ho].
  injection Ho as O1 O2 O3. exists c, s, 1%nat, o. split; [exact F|]. split; [exact Ha|]. split; [exact Eo|]. lia.
Qed.
Print Assumptions C24_min_raise_refuted.

Example C24_example : exists c s, fair c s /\ action s = Some 1%nat /\ stack_of s 1 = 19 /\ largest_raise s = 5 /\ nth_error (raise_sizes c) (street s) = Some RInf /\
  match observation c s false with Ok o => Some (o_call o, o_min_raise o, o_max_raise o) | _ => None end = Some (6, 11, 19).
Proof.
  play no_limit_3 (new_hand :: bets [7]) c s E. split; [exact (played_fair _ _ _ _ E)|]. plays E.
Qed.
Example C24_fixed_example : exists c s, fair c s /\ action s = Some 1%nat /\ stack_of s 1 = 38 /\ nth_error (raise_sizes c) (street s) = Some (RInt 6) /\
  match observation c s false with Ok o => Some (o_call o, o_min_raise o, o_max_raise o) | _ => None end = Some (6, 12, 12).
Proof.
  play (demo 2 2 [1; 2] [0; 0] [RawInt 6; RawInt 2] [RawCountInf; RawCountInf] [0; 0] 40) (new_hand :: bets [7]) c s E.
  split; [exact (played_fair _ _ _ _ E)|]. plays E.
Qed.
Example C24_pot_example : exists c s, fair c s /\ action s = Some 0%nat /\ stack_of s 0 = 40 /\ pot s = 3 /\ nth_error (raise_sizes c) (street s) = Some RPot /\
  match observation c s false with Ok o => Some (o_call o, o_min_raise o, o_max_raise o) | _ => None end = Some (2, 4, 7).
Proof.
  play (demo 3 2 [1; 2; 0] [0; 0; 0] [RawPot; RawPot] [RawCountInf; RawCountInf] [0; 0] 40) [new_hand] c s E.
  split; [exact (played_fair _ _ _ _ E)|]. plays E.
Qed.

(** ** C25 Number of raises per street is capped *)

Lemma step_raises c s b a o B cap : fair c s -> 0 < big_blind c -> action s = Some a -> observation c s false = Ok o -> py_round b = Ok B ->
  nth_error (num_raises c) (street s) = Some (Some cap) ->
  let s' := fst (step c s b) in
  (full_raise c s b = true -> street_raises s < cap) /\
  (street s' = street s -> in_progress s' -> street_raises s' = street_raises s + if full_raise c s b then 1 else 0).
Proof.
  intros F Hbb Ha Ho Hb Hcap. cbv zeta.
  destruct (step_seen c s b a o B F Ha Ho Hb) as (bet & folds & s1 & P & Hs & L & La & Ea & F1 & F2 & F3 & F4 & F5 & F6).
  pose proof (fair_money c s F) as M. pose proof (mo_largest _ _ M ltac:(unfold in_progress; congruence)) as HL.
  assert (E : full_raise c s b = negb (bet =? 0) && (largest_raise s <=? bet - o_call o)).
  { unfold full_raise, put_in. rewrite Ha, Ho. rewrite (parts_committed _ _ _ _ _ _ _ _ _ _ _ a (mo_wf _ _ M) La P), Nat.eqb_refl.
    destruct L as [L1 L2 L3 L4 L5 L6 L7]. unfold stack_of in *. destruct (Z_le_dec 0 (nth a (stacks s) 0)) as [Hst|Hst].
    - specialize (F4 Hst). specialize (L6 Hst). destruct L6. lia.
    - specialize (F5 ltac:(lia)). specialize (L7 ltac:(lia)). lia. }
  rewrite E. split.
  - intros Hf. destruct (bet_sizes_cases c s a _ _ _ Ha (obs_sizes c s o Ho)) as (Ec & rs & cap' & Er & Ecap & Cs). cbv zeta in *.
    rewrite Hcap in Ecap. injection Ecap as <-. destruct (Z_lt_dec (street_raises s) cap) as [|Hge]; [assumption|exfalso].
    destruct Cs as [[_ [C1 C2]]|[C0 _]]; [|apply C0; left; lia].
    destruct (Z_le_dec 0 (stack_of s a)) as [Hst|Hst]; [|specialize (F5 ltac:(lia)); lia].
    destruct folds; [rewrite F3 in Hf by reflexivity; cbn in Hf; discriminate|]. destruct (F6 eq_refl Hst) as [F7 _].
    unfold stack_of in *. rewrite F7, clean_bet_spec in Hf. cbv zeta in Hf. revert Hf.
    repeat (match goal with |- context [if ?b then _ else _] => destruct b eqn:? end); lia.
  - intros Hstr Hp. destruct (parts_going _ _ _ _ _ _ _ _ _ _ _ a (mo_cfg _ _ M) (mo_wf _ _ M) La P Hp) as [_ E'].
    destruct (settle_cases c s1 (mo_cfg _ _ M)) as [[_ E2]|[_ E2]].
    + rewrite E', E2, (be_raises _ _ _ _ _ _ _ _ _ _ (sp_bet _ _ _ _ _ _ _ _ _ _ _ P)). destruct (_ && _); lia.
    + exfalso. pose proof (se_street _ _ _ (ne_street _ _ _ E2)) as X. rewrite <- E', Hstr in X.
      rewrite (be_street _ _ _ _ _ _ _ _ _ _ (sp_bet _ _ _ _ _ _ _ _ _ _ _ P)) in X. destruct (all_all_in s1); lia.
Qed.
Lemma full_raises_bound c cap bs : 0 < big_blind c -> forall s, fair c s ->
  nth_error (num_raises c) (street s) = Some (Some cap) ->
  (count_on_street (full_raise c) c s bs = 0%nat) \/ street_raises s + Z.of_nat (count_on_street (full_raise c) c s bs) <= cap.
Proof.
  intros Hbb. induction bs as [|b bs IH]; intros s F Hcap; [now left|]. cbn [count_on_street].
  destruct (action s) as [a|] eqn:Ha.
  2:{ left. unfold full_raise. rewrite Ha. unfold step. rewrite Ha. cbn [fst]. rewrite Ha, Nat.eqb_refl. reflexivity. }
  assert (F' : fair c (fst (step c s b))) by (apply (fair_op c s (OStep b)); [exact F|exact I|exact I]).
  assert (Hskip : fst (step c s b) = s -> full_raise c s b = false).
  { intros E. unfold full_raise, put_in. rewrite Ha, E. destruct (observation c s false); lia. }
  destruct (step_take c s b a (mo_cfg _ _ (fair_money c s F)) Ha) as [(E & _)|(call & mi & ma & bet & folds & s1 & H1 & P)].
  { rewrite (Hskip E), E, Nat.eqb_refl, Ha. exact (IH s F Hcap). }
  destruct (be_round _ _ _ _ _ _ _ _ _ _ (sp_bet _ _ _ _ _ _ _ _ _ _ _ P)) as (B & Hb & _).
  destruct (observation c s false) as [o|] eqn:Ho.
  2:{ exfalso. pose proof (be_sizes _ _ _ _ _ _ _ _ _ _ (sp_bet _ _ _ _ _ _ _ _ _ _ _ P)) as Sz. unfold observation in Ho. rewrite Sz, Ha in Ho.
      cbn [bind] in Ho. unfold get in Ho. destruct (nth_error (hole_cards s) a) eqn:Eh; [discriminate|]. apply nth_error_None in Eh.
      rewrite (wf_hole _ _ (mo_wf _ _ (fair_money c s F)) ltac:(congruence)) in Eh.
      destruct (wf_turn _ _ (mo_wf _ _ (fair_money c s F)) a Ha). lia. }
  destruct (step_raises c s b a o B cap F Hbb Ha Ho Hb Hcap) as [K1 K2]. cbv zeta in *.
  destruct (Nat.eqb_spec (street (fst (step c s b))) (street s)) as [Es|Es].
  - destruct (action (fst (step c s b))) as [a'|] eqn:Ea'.
    + specialize (K2 Es ltac:(unfold in_progress; congruence)). rewrite <- Es in Hcap. specialize (IH _ F' Hcap).
      destruct (full_raise c s b) eqn:Ef; [specialize (K1 eq_refl)|]; lia.
    + destruct (full_raise c s b) eqn:Ef; [specialize (K1 eq_refl)|]; lia.
  - destruct (full_raise c s b) eqn:Ef; [specialize (K1 eq_refl)|]; lia.
Qed.
Lemma street_start_raises c s : street_start c s -> in_progress s -> fair c s /\ street_raises s = 0.
Proof.
  intros [(s0 & rnd & rb & rs & F & -> & H)|(s0 & b & F & -> & H)] Hp.
  - split; [apply (fair_op c s0 (OReset rnd rb rs)); [exact F|now right|exact I]|].
    pose proof (fair_money c s0 F) as M. destruct (reset_spec c s0 rnd rb rs (mo_cfg _ _ M) (mo_wf _ _ M)) as [(_ & _ & E)|[(_ & E)|(_ & _ & _ & E)]];
      [rewrite E in H; discriminate|rewrite E in H; discriminate|exact (re_raises _ _ _ _ _ _ E)].
  - split; [apply (fair_op c s0 (OStep b)); [exact F|exact I|exact I]|]. pose proof (fair_money c s0 F) as M.
    destruct (action s0) as [a|] eqn:Ha; [|exfalso; apply H; unfold step; rewrite Ha; reflexivity].
    destruct (step_take c s0 b a (mo_cfg _ _ M) Ha) as [(E & _)|(call & mi & ma & bet & folds & s1 & H1 & P)]; [exfalso; apply H; rewrite E; reflexivity|].
    destruct (wf_turn _ _ (mo_wf _ _ M) a Ha) as [La _].
    destruct (parts_going _ _ _ _ _ _ _ _ _ _ _ a (mo_cfg _ _ M) (mo_wf _ _ M) La P Hp) as [_ E']. rewrite E' in *.
    destruct (settle_cases c s1 (mo_cfg _ _ M)) as [[_ E2]|[_ E2]]; [|exact (ne_raises _ _ _ E2)].
    exfalso. apply H. rewrite E2. exact (be_street _ _ _ _ _ _ _ _ _ _ (sp_bet _ _ _ _ _ _ _ _ _ _ _ P)).
Qed.

(** Full raises (at least as large as the largest raise of the hand) are capped.  Missing: smaller
    raises, and games without a big blind; see the refutation below. *)
Theorem C25_cap_partial : forall c s bs cap, street_start c s -> 0 < big_blind c ->
  nth_error (num_raises c) (street s) = Some (Some cap) -> 0 <= cap ->
  Z.of_nat (count_on_street (full_raise c) c s bs) <= cap.
Proof.
  intros c s bs cap H Hbb Hcap H0. destruct (action s) as [a|] eqn:Ha.
  - destruct (street_start_raises c s H ltac:(unfold in_progress; congruence)) as [F E].
    destruct (full_raises_bound c cap bs Hbb s F Hcap) as [->|X]; lia.
  - enough (E : count_on_street (full_raise c) c s bs = 0%nat) by lia. destruct bs as [|b bs]; [reflexivity|]. cbn [count_on_street].
    unfold full_raise, step. rewrite Ha. cbn [fst]. rewrite Ha, Nat.eqb_refl. reflexivity.
Qed.
Print Assumptions C25_cap_partial.

(** The other raises are all-in bets: always in no-limit and pot-limit games, and in fixed-limit
    games whose raise size is at least the largest raise so far *)
Theorem C25_other_raises_all_in : forall c s a o b B, fair c s -> action s = Some a -> observation c s false = Ok o -> py_round b = Ok B ->
  (forall z, nth_error (raise_sizes c) (street s) = Some (RInt z) -> largest_raise s <= z) ->
  o_min_raise o <= o_max_raise o ->
  raises c s b = true -> full_raise c s b = false -> put_in c s b a = stack_of s a.
Proof.
  intros c s a o b B F Ha Ho Hb Hz Hmm. unfold raises, full_raise, put_in. rewrite Ha, Ho.
  destruct (step_seen c s b a o B F Ha Ho Hb) as (bet & folds & s1 & P & Hs & L & La & Ea & F1 & F2 & F3 & F4 & F5 & F6).
  pose proof (fair_money c s F) as M. rewrite (parts_committed _ _ _ _ _ _ _ _ _ _ _ a (mo_wf _ _ M) La P), Nat.eqb_refl.
  intros H1 H2. assert (Hst : 0 <= stack_of s a) by lia. specialize (F4 Hst).
  assert (Ef : folds = false) by (destruct folds; [rewrite F3 in * by reflexivity; lia|reflexivity]).
  destruct (F6 Ef Hst) as [F7 _]. assert (Hbet : o_call o < bet < o_call o + largest_raise s) by lia.
  enough (bet = stack_of s a) by lia.
  destruct (bet_sizes_cases c s a _ _ _ Ha (obs_sizes c s o Ho)) as (Ec & rs & cap & Er & Ecap & Cs). cbv zeta in *.
  destruct L as [L1 L2 L3 L4 L5 L6 L7]. specialize (L6 Hst). destruct L6 as [L6 _].
  assert (X : o_min_raise o <= bet <= o_max_raise o).
  { rewrite F7, clean_bet_spec in *. cbv zeta in *. revert Hbet. clear - Hmm L6 H1.
    repeat (match goal with |- context [if ?b then _ else _] => destruct b eqn:? end); lia. }
  unfold stack_of in *. destruct Cs as [[_ Cs]|[_ Cs]]; [lia|]. destruct rs as [z| |]; [specialize (Hz z Er); lia|lia|lia].
Qed.
Print Assumptions C25_other_raises_all_in.

(** once the cap is reached the player can only fold, check or call *)
Theorem C25_capped : forall c s a o b B cap, fair c s -> action s = Some a -> observation c s false = Ok o -> py_round b = Ok B ->
  0 <= stack_of s a -> nth_error (num_raises c) (street s) = Some (Some cap) -> cap <= street_raises s ->
  o_min_raise o = 0 /\ o_max_raise o = 0 /\ (put_in c s b a = 0 \/ put_in c s b a = o_call o).
Proof.
  intros c s a o b B cap F Ha Ho Hb Hst Hcap Hge.
  destruct (step_seen c s b a o B F Ha Ho Hb) as (bet & folds & s1 & P & Hs & L & La & Ea & F1 & F2 & F3 & F4 & F5 & F6).
  pose proof (fair_money c s F) as M. unfold put_in. rewrite (parts_committed _ _ _ _ _ _ _ _ _ _ _ a (mo_wf _ _ M) La P), Nat.eqb_refl.
  destruct (bet_sizes_cases c s a _ _ _ Ha (obs_sizes c s o Ho)) as (Ec & rs & cap' & Er & Ecap & Cs). cbv zeta in *.
  rewrite Hcap in Ecap. injection Ecap as <-. specialize (F4 Hst). unfold stack_of in *.
  destruct Cs as [[_ [C1 C2]]|[C0 _]]; [|exfalso; apply C0; left; lia].
  split; [lia|]. split; [lia|]. destruct folds; [rewrite F3 in * by reflexivity; lia|]. destruct (F6 eq_refl Hst) as [F7 _].
  rewrite clean_bet_spec in F7. cbv zeta in F7. revert F7.
  repeat (match goal with |- context [if ?b then _ else _] => destruct b eqn:? end); lia.
Qed.
Print Assumptions C25_capped.

(** what [street_raises] counts: the full raises of the street *)
Theorem C25_counter : forall c s a o b B, fair c s -> 0 < big_blind c -> action s = Some a -> observation c s false = Ok o -> py_round b = Ok B ->
  let s' := fst (step c s b) in in_progress s' ->
  street_raises s' = if Nat.eqb (street s') (street s) then street_raises s + (if full_raise c s b then 1 else 0) else 0.
Proof.
  intros c s a o b B F Hbb Ha Ho Hb. cbv zeta. intros Hp. destruct (Nat.eqb_spec (street (fst (step c s b))) (street s)) as [E|E].
  - destruct (nth_error (num_raises c) (street s)) as [[cap|]|] eqn:Hcap.
    + exact (proj2 (step_raises c s b a o B cap F Hbb Ha Ho Hb Hcap) E Hp).
    + destruct (step_seen c s b a o B F Ha Ho Hb) as (bet & folds & s1 & P & Hs & L & La & Ea & F1 & F2 & F3 & F4 & F5 & F6).
      pose proof (fair_money c s F) as M. pose proof (mo_largest _ _ M ltac:(unfold in_progress; congruence)) as HL.
      assert (Ef : full_raise c s b = negb (bet =? 0) && (largest_raise s <=? bet - o_call o)).
      { unfold full_raise, put_in. rewrite Ha, Ho. rewrite (parts_committed _ _ _ _ _ _ _ _ _ _ _ a (mo_wf _ _ M) La P), Nat.eqb_refl.
        destruct L as [L1 L2 L3 L4 L5 L6 L7]. unfold stack_of in *. destruct (Z_le_dec 0 (nth a (stacks s) 0)) as [Hst|Hst].
        - specialize (F4 Hst). specialize (L6 Hst). destruct L6. lia.
        - specialize (F5 ltac:(lia)). specialize (L7 ltac:(lia)). lia. }
      rewrite Ef. destruct (parts_going _ _ _ _ _ _ _ _ _ _ _ a (mo_cfg _ _ M) (mo_wf _ _ M) La P Hp) as [_ E'].
      destruct (settle_cases c s1 (mo_cfg _ _ M)) as [[_ E2]|[_ E2]].
      * rewrite E', E2, (be_raises _ _ _ _ _ _ _ _ _ _ (sp_bet _ _ _ _ _ _ _ _ _ _ _ P)). destruct (_ && _); lia.
      * exfalso. pose proof (se_street _ _ _ (ne_street _ _ _ E2)) as X. rewrite <- E', E in X.
        rewrite (be_street _ _ _ _ _ _ _ _ _ _ (sp_bet _ _ _ _ _ _ _ _ _ _ _ P)) in X. destruct (all_all_in s1); lia.
    + exfalso. pose proof (bet_sizes_street c s _ (mo_cfg _ _ (fair_money c s F)) (obs_sizes c s o Ho)).
      apply nth_error_None in Hcap. rewrite (cw_counts _ (mo_cfg _ _ (fair_money c s F))) in Hcap. lia.
  - assert (Hs : street_start c (fst (step c s b))) by (right; exists s, b; auto). exact (proj2 (street_start_raises c _ Hs Hp)).
Qed.
Print Assumptions C25_counter.

(** A fixed raise size below the big blind is never counted: five raises on a street with cap 1 *)
Theorem C25_refuted : exists c s bs, street_start c s /\ 0 < big_blind c /\
  nth_error (num_raises c) (street s) = Some (Some 1) /\ count_on_street (raises c) c s bs = 5%nat.
Proof.
  assert (X : exists c s0, fair c s0 /\ is_ok (snd (reset c s0 [] true true)) = true /\ big_blind c = 2 /\
    nth_error (num_raises c) (street (fst (reset c s0 [] true true))) = Some (Some 1) /\
    count_on_street (raises c) c (fst (reset c s0 [] true true)) (map PyInt [2; 2; 2; 2; 2]) = 5%nat).
  { play (demo 2 1 [1; 2] [0; 0] [RawInt 1] [RawCount 1] [0] 20) (@nil op) c s E. split; [exact (played_fair _ _ _ _ E)|]. plays E. }
  destruct X as (c & s & F & H & H1 & H2 & H3). exists c, (fst (reset c s [] true true)), (map PyInt [2; 2; 2; 2; 2]).
  split; [left; exists s, [], true, true; auto|]. split; [lia|]. split; [exact H2|exact H3].
Qed.
Print Assumptions C25_refuted.

Example C25_example : exists c s0, fair c s0 /\ is_ok (snd (reset c s0 [] true true)) = true /\ big_blind c = 2 /\
    nth_error (num_raises c) (street (fst (reset c s0 [] true true))) = Some (Some 2) /\
    count_on_street (full_raise c) c (fst (reset c s0 [] true true)) (map PyInt [3; 4; 4; 9; 9]) = 2%nat /\
    (let s := run_steps c (fst (reset c s0 [] true true)) (map PyInt [3; 4]) in
     action s = Some 0%nat /\ stack_of s 0 = 16 /\ street_raises s = 2 /\
     match observation c s false with Ok o => Some (o_call o, o_min_raise o, o_max_raise o) | _ => None end = Some (2, 0, 0)).
Proof.
  play (demo 2 1 [1; 2] [0; 0] [RawInt 2] [RawCount 2] [0] 20) (@nil op) c s E. split; [exact (played_fair _ _ _ _ E)|]. cbv zeta. plays E.
Qed.

(** ** C26 Folding *)

Theorem C26_fold_exactly : forall c s a o b B, fair c s -> action s = Some a -> observation c s false = Ok o -> py_round b = Ok B ->
  let s' := fst (step c s b) in
  (~ is_active s' a <-> o_call o <> 0 /\ (pynum_neg b = true \/ 2 * B <= o_call o)) /\
  forall j, j <> a -> (is_active s' j <-> is_active s j).
Proof.
  intros c s a o b B F Ha Ho Hb. cbv zeta.
  destruct (step_seen c s b a o B F Ha Ho Hb) as (bet & folds & s1 & P & Hs & L & La & Ea & F1 & F2 & F3 & F4 & F5 & F6).
  pose proof (mo_wf _ _ (fair_money c s F)) as I. pose proof (fun i => parts_active _ _ _ _ _ _ _ _ _ _ _ i I La Ea P) as A.
  split.
  - rewrite A, <- F2. split; [|tauto]. intros H. destruct folds; [reflexivity|]. exfalso. apply H. split; [exact Ea|]. intros [_ X]; discriminate X.
  - intros j Hj. rewrite A. tauto.
Qed.
Print Assumptions C26_fold_exactly.

(** "at most half of the call" is "rounded below the call" *)
Theorem C26_below_call : forall c s a o B v, fair c s -> action s = Some a -> observation c s false = Ok o -> 0 <= stack_of s a ->
  nearest_legal o B v -> (v < o_call o <-> o_call o <> 0 /\ 2 * B <= o_call o).
Proof.
  intros c s a o B v F Ha Ho Hst [Lv N]. pose proof (fair_money c s F) as M.
  destruct (money_limits c s a _ _ _ M Ha (obs_sizes c s o Ho)) as [L1 L2 L3 L4 L5 L6 L7]. unfold stack_of in *.
  specialize (L6 Hst). unfold sane_limits in L6. pose proof (N 0 ltac:(now left)) as N0. pose proof (N (o_call o) ltac:(right; now left)) as N1.
  unfold legal in Lv. lia.
Qed.
Print Assumptions C26_below_call.

(** a player without a call to pay never folds, whatever the bet (a number or not) *)
Theorem C26_nothing_owed : forall c s a o b, fair c s -> action s = Some a -> observation c s false = Ok o -> o_call o = 0 ->
  forall j, is_active (fst (step c s b)) j <-> is_active s j.
Proof.
  intros c s a o b F Ha Ho Hc j. destruct (py_round b) as [B|e] eqn:Hb.
  - destruct (C26_fold_exactly c s a o b B F Ha Ho Hb) as [H1 H2]. destruct (Nat.eq_dec j a) as [->|Hj]; [|now apply H2].
    destruct (wf_turn _ _ (mo_wf _ _ (fair_money c s F)) a Ha) as [_ Ea]. split; [intros _; exact Ea|intros _].
    unfold is_active in *. destruct (nth a (active (fst (step c s b))) false); [reflexivity|]. exfalso.
    destruct H1 as [H1 _]. specialize (H1 ltac:(discriminate)). lia.
  - unfold step. rewrite Ha, Hb. reflexivity.
Qed.
Print Assumptions C26_nothing_owed.

(** a folded player stays out and commits nothing more *)
Theorem C26_stays_out : forall c s bs i, reachable c s -> ~ is_active s i ->
  ~ is_active (run_steps c s bs) i /\ committed (run_steps c s bs) i = committed s i.
Proof.
  intros c s bs i. revert s. induction bs as [|b bs IH]; intros s R H; [auto|].
  change (run_steps c s (b :: bs)) with (run_steps c (fst (step c s b)) bs).
  assert (R' : reachable c (fst (step c s b))) by (apply (reach_op c s (OStep b)); [exact R|exact I]).
  assert (K : ~ is_active (fst (step c s b)) i /\ committed (fst (step c s b)) i = committed s i).
  { destruct (action s) as [a|] eqn:Ea; [|unfold step; rewrite Ea; auto].
    destruct (wf_turn _ _ (reachable_wf c s R) a Ea) as [La Aa].
    destruct (step_take c s b a (reachable_cfg c s R) Ea) as [(-> & _)|(call & mi & ma & bet & folds & s1 & _ & P)]; [auto|].
    assert (Hi : i <> a) by (intros ->; now apply H).
    rewrite (parts_committed _ _ _ _ _ _ _ _ _ _ _ i (reachable_wf c s R) La P).
    split; [|destruct (Nat.eqb_spec i a); [congruence|lia]].
    rewrite (parts_active _ _ _ _ _ _ _ _ _ _ _ i (reachable_wf c s R) La Aa P). tauto. }
  destruct K as [K1 K2]. destruct (IH _ R' K1) as [J1 J2]. split; [exact J1|congruence].
Qed.
Print Assumptions C26_stays_out.

Example C26_example : exists c s, fair c s /\ action s = Some 1%nat /\
  match observation c s false with Ok o => Some (o_call o) | _ => None end = Some 6 /\
  active (fst (step c s (PyInt 3))) = [true; false; true] /\ active (fst (step c s (PyInt 4))) = [true; true; true] /\
  active (fst (step c s (PyFloat (-1 # 4)))) = [true; false; true] /\
  active (run_steps c s (map PyInt [-1; 9; 12; 2])) = [true; false; false].
Proof.
  play no_limit_3 (new_hand :: bets [7]) c s E. split; [exact (played_fair _ _ _ _ E)|]. plays E.
Qed.

(** ** C27 Only the acting player's chips move *)

Theorem C27_others_untouched : forall c s a b j, reachable c s -> action s = Some a -> j <> a -> in_progress (fst (step c s b)) ->
  let s' := fst (step c s b) in
  stack_of s' j = stack_of s j /\ committed s' j = committed s j /\ (is_active s' j <-> is_active s j).
Proof.
  intros c s a b j R Ha Hj Hp. cbv zeta. pose proof (reachable_cfg c s R) as W. pose proof (reachable_wf c s R) as I.
  destruct (wf_turn _ _ I a Ha) as [La Aa].
  destruct (step_take c s b a W Ha) as [(E & _)|(call & mi & ma & bet & folds & s1 & _ & P)]; [rewrite E; tauto|].
  destruct (parts_going _ _ _ _ _ _ _ _ _ _ _ j W I La P Hp) as [E _]. rewrite E.
  rewrite (parts_committed _ _ _ _ _ _ _ _ _ _ _ j I La P), (parts_active _ _ _ _ _ _ _ _ _ _ _ j I La Aa P).
  destruct (Nat.eqb_spec j a); [congruence|]. split; [lia|]. split; [lia|]. tauto.
Qed.
Print Assumptions C27_others_untouched.

Example C27_example : exists c s, fair c s /\ action s = Some 1%nat /\ action (fst (step c s (PyInt 6))) = Some 2%nat /\
  stacks s = [13; 19; 18] /\ stacks (fst (step c s (PyInt 6))) = [13; 13; 18].
Proof.
  play no_limit_3 (new_hand :: bets [7]) c s E. split; [exact (played_fair _ _ _ _ E)|]. plays E.
Qed.

(** ** C46 History accounts for every chip *)

(** each step appends one entry: the player, the chips put in, and whether the bet was negative *)
Theorem C46_entry : forall c s a o b B, fair c s -> action s = Some a -> observation c s false = Ok o -> py_round b = Ok B ->
  0 <= stack_of s a ->
  history (fst (step c s b)) = history s ++ [(a, put_in c s b a, pynum_neg b)].
Proof.
  intros c s a o b B F Ha Ho Hb Hst.
  destruct (step_seen c s b a o B F Ha Ho Hb) as (bet & folds & s1 & P & Hs & L & La & Ea & F1 & F2 & F3 & F4 & F5 & F6).
  pose proof (fair_money c s F) as M. unfold put_in.
  rewrite (parts_committed _ _ _ _ _ _ _ _ _ _ _ a (mo_wf _ _ M) La P), Nat.eqb_refl.
  rewrite (sp_history _ _ _ _ _ _ _ _ _ _ _ P), (be_history _ _ _ _ _ _ _ _ _ _ (sp_bet _ _ _ _ _ _ _ _ _ _ _ P)).
  specialize (F4 Hst). replace (committed s a + Z.min (stack_of s a) bet - committed s a) with bet by lia. reflexivity.
Qed.
Print Assumptions C46_entry.

(** a step that raises an exception before the bet is taken (nan, inf, a hand stuck at showdown) records nothing *)
Theorem C46_no_entry : forall c s b, reachable c s ->
  action s = None \/ is_ok (py_round b) = false \/ (num_streets c <= street s)%nat -> fst (step c s b) = s.
Proof.
  intros c s b R H. unfold step. destruct (action s) as [a|]; [|reflexivity].
  destruct (py_round b) as [B|e]; [|reflexivity]. destruct (bet_sizes c s) as [[[x y] z]|e] eqn:E; [|reflexivity].
  apply bet_sizes_street in E; [|exact (reachable_cfg c s R)]. destruct H as [H|[H|H]]; [discriminate|discriminate|lia].
Qed.
Print Assumptions C46_no_entry.

Lemma recorded_app i h e : recorded i (h ++ [e]) = recorded i h + recorded i [e].
Proof. unfold recorded. rewrite map_app. induction (map _ h) as [|x l IH]; cbn in *; [lia|]. fold (sumZ l) in *. unfold sumZ in *. lia. Qed.

Lemma step_recorded c s b i : fair c s -> (in_progress s -> forall j, (j < num_players c)%nat -> 0 <= stack_of s j) ->
  let s' := fst (step c s b) in
  committed s' i - recorded i (history s') = committed s i - recorded i (history s) /\
  (in_progress s' -> forall j, (j < num_players c)%nat -> 0 <= stack_of s' j).
Proof.
  intros F Hn. cbv zeta. pose proof (fair_money c s F) as M.
  destruct (action s) as [a|] eqn:Ea; [|unfold step; rewrite Ea; auto].
  assert (P : in_progress s) by (unfold in_progress; congruence). specialize (Hn P).
  destruct (wf_turn _ _ (mo_wf _ _ M) a Ea) as [La Aa].
  destruct (step_take c s b a (mo_cfg _ _ M) Ea) as [(-> & _)|(call & mi & ma & bet & folds & s1 & H1 & Q)]; [auto|].
  pose proof (sp_bet _ _ _ _ _ _ _ _ _ _ _ Q) as B. destruct (be_round _ _ _ _ _ _ _ _ _ _ B) as (z & Hz & Hs).
  pose proof (money_limits c s a _ _ _ M Ea (be_sizes _ _ _ _ _ _ _ _ _ _ B)) as L.
  pose proof (settled_bet s a _ _ _ b z L Hz) as X. rewrite Hs in X. destruct X as (F1 & F2 & F3 & F4 & F5 & F6).
  pose proof (Hn a La) as Hst. unfold stack_of in Hst. specialize (F4 Hst). split.
  - rewrite (parts_committed _ _ _ _ _ _ _ _ _ _ _ i (mo_wf _ _ M) La Q).
    rewrite (sp_history _ _ _ _ _ _ _ _ _ _ _ Q), (be_history _ _ _ _ _ _ _ _ _ _ B), recorded_app.
    unfold stack_of, recorded at 2. cbn [map sumZ fold_right]. rewrite (Nat.eqb_sym a i). destruct (Nat.eqb i a); lia.
  - intros Hp j Hj. destruct (parts_going _ _ _ _ _ _ _ _ _ _ _ j (mo_cfg _ _ M) (mo_wf _ _ M) La Q Hp) as [-> _].
    pose proof (Hn j Hj). destruct (Nat.eqb_spec j a) as [->|]; [|lia]. unfold stack_of in *. lia.
Qed.
Theorem C46_history_partial : forall c s0 rnd rb rs bs i, fair c s0 -> is_ok (snd (reset c s0 rnd rb rs)) = true ->
  let s1 := fst (reset c s0 rnd rb rs) in
  (forall j, (j < num_players c)%nat -> 0 <= stack_of s1 j) ->
  let s := run_steps c s1 bs in
  committed s i = committed s1 i + recorded i (history s).
Proof.
  intros c s0 rnd rb rs bs i F H. cbv zeta. intros Hn.
  assert (F1 : fair c (fst (reset c s0 rnd rb rs))) by (apply (fair_op c s0 (OReset rnd rb rs)); [exact F|now right|exact I]).
  assert (H0 : history (fst (reset c s0 rnd rb rs)) = []).
  { pose proof (fair_money c s0 F) as M. destruct (reset_spec c s0 rnd rb rs (mo_cfg _ _ M) (mo_wf _ _ M)) as [(_ & _ & E)|[(_ & E)|(_ & _ & _ & E)]];
      [rewrite E in H; discriminate|rewrite E in H; discriminate|exact (re_history _ _ _ _ _ _ E)]. }
  set (s1 := fst (reset c s0 rnd rb rs)) in *.
  enough (G : forall l s, fair c s -> (in_progress s -> forall j, (j < num_players c)%nat -> 0 <= stack_of s j) ->
    committed (run_steps c s l) i - recorded i (history (run_steps c s l)) = committed s i - recorded i (history s)).
  { specialize (G bs s1 F1 (fun _ => Hn)). rewrite H0 in G. change (recorded i []) with 0 in G. lia. }
  induction l as [|b l IH]; intros s Fs Hs; [reflexivity|].
  change (run_steps c s (b :: l)) with (run_steps c (fst (step c s b)) l).
  destruct (step_recorded c s b i Fs Hs) as [K1 K2]. rewrite IH; [exact K1| |exact K2].
  apply (fair_op c s (OStep b)); [exact Fs|exact I|exact I].
Qed.
Print Assumptions C46_history_partial.

(** It fails when a forced bet exceeds a stack: the bet recorded for a player in debt is 0, but
    chips flow back from the pot. *)
Theorem C46_refuted : exists c s0 rnd rb rs bs i, fair c s0 /\ is_ok (snd (reset c s0 rnd rb rs)) = true /\
  let s1 := fst (reset c s0 rnd rb rs) in
  let s := run_steps c s1 bs in
  committed s i <> committed s1 i + recorded i (history s).
Proof.
  assert (X : exists c s0, fair c s0 /\ is_ok (snd (reset c s0 [] true true)) = true /\
    committed (run_steps c (fst (reset c s0 [] true true)) (map PyInt [2; 2])) 1 = 1 /\
    committed (fst (reset c s0 [] true true)) 1 = 2 /\
    recorded 1 (history (run_steps c (fst (reset c s0 [] true true)) (map PyInt [2; 2]))) = 0).
  { play (demo 2 1 [1; 2] [0; 0] [RawInf] [RawCountInf] [0] 1) (@nil op) c s E. split; [exact (played_fair _ _ _ _ E)|]. plays E. }
  destruct X as (c & s & F & H & E1 & E2 & E3).
  exists c, s, [], true, true, (map PyInt [2; 2]), 1%nat. split; [exact F|]. split; [exact H|]. cbv zeta. rewrite E1, E2, E3. discriminate.
Qed.
Print Assumptions C46_refuted.

Example C46_example : exists c s0, fair c s0 /\ is_ok (snd (reset c s0 [] true true)) = true /\
  stacks (fst (reset c s0 [] true true)) = [20; 19; 18] /\
  history (run_steps c (fst (reset c s0 [] true true)) (map PyInt [7; -1; 12])) = [(0%nat, 7, false); (1%nat, 0, true); (2%nat, 12, false)] /\
  pot_commits (run_steps c (fst (reset c s0 [] true true)) (map PyInt [7; -1; 12])) = [7; 1; 14].
Proof.
  play no_limit_3 (@nil op) c s E. split; [exact (played_fair _ _ _ _ E)|]. plays E.
Qed.

(** ** C47 The recorded fold flag is truthful *)

(** It is not: it says whether the bet was negative. *)
Theorem C47_refuted : (exists c s a b B o, fair c s /\ action s = Some a /\ observation c s false = Ok o /\ py_round b = Ok B /\
    is_active (fst (step c s b)) a /\ last (history (fst (step c s b))) (0%nat, 0, false) = (a, 0, true)) /\
  (exists c s a b B o, fair c s /\ action s = Some a /\ observation c s false = Ok o /\ py_round b = Ok B /\
    ~ is_active (fst (step c s b)) a /\ last (history (fst (step c s b))) (0%nat, 0, false) = (a, 0, false)).
Proof.
  split.
  - assert (X : exists c s, fair c s /\ action s = Some 2%nat /\ is_ok (observation c s false) = true /\
      nth 2 (active (fst (step c s (PyInt (-1))))) false = true /\ last (history (fst (step c s (PyInt (-1))))) (0%nat, 0, false) = (2%nat, 0, true)).
    { play no_limit_3 (new_hand :: bets [2; 1]) c s E. split; [exact (played_fair _ _ _ _ E)|]. plays E. }
    destruct X as (c & s & F & Ha & Ho & H1 & H2). destruct (observation c s false) as [o|] eqn:Eo; [|discriminate Ho].
    exists c, s, 2%nat, (PyInt (-1)), (-1), o. repeat (split; [first [exact F|exact Ha|exact Eo|reflexivity|exact H1]|]). exact H2.
  - assert (X : exists c s, fair c s /\ action s = Some 1%nat /\ is_ok (observation c s false) = true /\
      nth 1 (active (fst (step c s (PyInt 0)))) false = false /\ last (history (fst (step c s (PyInt 0)))) (0%nat, 0, false) = (1%nat, 0, false)).
    { play no_limit_3 (new_hand :: bets [7]) c s E. split; [exact (played_fair _ _ _ _ E)|]. plays E. }
    destruct X as (c & s & F & Ha & Ho & H1 & H2). destruct (observation c s false) as [o|] eqn:Eo; [|discriminate Ho].
    exists c, s, 1%nat, (PyInt 0), 0, o. repeat (split; [first [exact F|exact Ha|exact Eo|reflexivity|unfold is_active; rewrite H1; discriminate]|]). exact H2.
Qed.
Print Assumptions C47_refuted.

(** Exactly when it is: unless a negative bet was a check, or a small non-negative bet was a fold *)
Theorem C47_exact : forall c s a o b B, fair c s -> action s = Some a -> observation c s false = Ok o -> py_round b = Ok B ->
  exists bet flag, history (fst (step c s b)) = history s ++ [(a, bet, flag)] /\
    ((flag = true <-> ~ is_active (fst (step c s b)) a) <->
     ~ (pynum_neg b = true /\ o_call o = 0) /\ ~ (pynum_neg b = false /\ o_call o <> 0 /\ 2 * B <= o_call o)).
Proof.
  intros c s a o b B F Ha Ho Hb. destruct (C26_fold_exactly c s a o b B F Ha Ho Hb) as [H _].
  destruct (step_seen c s b a o B F Ha Ho Hb) as (bet & folds & s1 & P & _).
  exists bet, (pynum_neg b). split; [rewrite (sp_history _ _ _ _ _ _ _ _ _ _ _ P), (be_history _ _ _ _ _ _ _ _ _ _ (sp_bet _ _ _ _ _ _ _ _ _ _ _ P)); reflexivity|].
  rewrite H. destruct (Z.eq_dec (o_call o) 0); destruct (Z_le_dec (2 * B) (o_call o)); destruct (pynum_neg b); intuition (try lia; try discriminate).
Qed.
Print Assumptions C47_exact.

(** a fold recorded as one, and a call recorded as none *)
Example C47_example : exists c s, fair c s /\ action s = Some 1%nat /\ is_ok (observation c s false) = true /\
  active (fst (step c s (PyInt (-1)))) = [true; false; true] /\ last (history (fst (step c s (PyInt (-1))))) (0%nat, 0, false) = (1%nat, 0, true) /\
  active (fst (step c s (PyInt 6))) = [true; true; true] /\ last (history (fst (step c s (PyInt 6)))) (0%nat, 0, false) = (1%nat, 6, false).
Proof. play no_limit_3 (new_hand :: bets [7]) c s E. split; [exact (played_fair _ _ _ _ E)|]. plays E. Qed.
