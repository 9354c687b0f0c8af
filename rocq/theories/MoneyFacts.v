(** * MoneyFacts: amounts in fair play *)
From Coq Require Import ZifyBool ZifyNat Arith.
From Verif Require Import PyBase PyFacts CardModel EvalModel EngineModel EngineSpec EngineFacts BetFacts.

Lemma sane_bb c : cfg_wf c -> sane c -> 0 <= big_blind c.
Proof.
  intros W Hs. pose proof (cw_bb _ W) as H. apply nth_error_In in H. pose proof (sane_blinds _ Hs) as F.
  rewrite Forall_forall in F. now apply F.
Qed.
Lemma sane_nth_raise c k z : sane c -> nth_error (raise_sizes c) k = Some (RInt z) -> 0 <= z.
Proof.
  intros Hs H. apply nth_error_In in H. pose proof (sane_raises _ Hs) as F. rewrite Forall_forall in F. exact (F _ H).
Qed.
Lemma sumZ_nonneg l : (forall i, (i < List.length l)%nat -> 0 <= nth i l 0) -> 0 <= sumZ l.
Proof.
  induction l as [|x l IH]; intros H; cbn; [lia|]. pose proof (H O ltac:(cbn; lia)). cbn in H0.
  fold (sumZ l). enough (0 <= sumZ l) by lia. apply IH. intros i Hi. exact (H (S i) ltac:(cbn; lia)).
Qed.

(** what the limits look like *)
Record limits (s : state) (a : nat) (call mi ma : Z) : Prop := mkLimits {
  li_call : call = Z.min (raw_call s a) (nth a (stacks s) 0);
  li_raw : 0 <= raw_call s a;
  li_call_stack : call <= nth a (stacks s) 0;
  li_min_stack : mi <= nth a (stacks s) 0;
  li_max_stack : ma <= nth a (stacks s) 0;
  li_sane : 0 <= nth a (stacks s) 0 -> sane_limits call mi ma;
  li_neg : nth a (stacks s) 0 < 0 -> call = nth a (stacks s) 0
}.
Lemma limits_ok c s a call mi ma : cfg_wf c -> wf c s -> sane c -> big_blind c <= largest_raise s -> 0 <= pot s ->
  action s = Some a -> bet_sizes c s = Ok (call, mi, ma) -> limits s a call mi ma.
Proof.
  intros W I Hs Hl Hp Ha H. pose proof (sane_bb c W Hs) as Hbb.
  destruct (wf_turn _ _ I a Ha) as [La _].
  assert (R : 0 <= raw_call s a) by (apply raw_call_nonneg; rewrite (wf_street _ _ I); exact La).
  destruct (bet_sizes_cases c s a call mi ma Ha H) as (Ec & rs & cap & Er & Ecap & Cs). cbv zeta in *.
  assert (K : (mi = Z.min 0 (nth a (stacks s) 0) /\ ma = Z.min 0 (nth a (stacks s) 0)) \/
     (exists m M, mi = Z.min m (nth a (stacks s) 0) /\ ma = Z.min M (nth a (stacks s) 0) /\ raw_call s a <= m /\ (raw_call s a <= M \/ nth a (stacks s) 0 <= M))).
  { destruct Cs as [[_ Cs]|[_ Cs]]; [now left|right]. destruct rs as [z| |].
    - pose proof (sane_nth_raise c _ z Hs Er). destruct Cs as [-> ->]. eexists. eexists. split; [reflexivity|]. split; [reflexivity|]. lia.
    - destruct Cs as [-> ->]. eexists. eexists. split; [reflexivity|]. split; [reflexivity|]. lia.
    - destruct Cs as [-> ->]. eexists. exists (nth a (stacks s) 0). split; [reflexivity|]. split; [lia|]. lia. }
  split; try lia; unfold sane_limits; destruct K as [K|(m & M & K1 & K2 & K3 & K4)]; lia.
Qed.

(** the amount finally bet *)
Lemma settled_bet s a call mi ma b z : limits s a call mi ma -> py_round b = Ok z ->
  let '(bet, folds) := settle_bet (pynum_neg b) z call mi ma in
  0 <= bet /\
  (folds = true <-> call <> 0 /\ (pynum_neg b = true \/ 2 * z <= call)) /\
  (folds = true -> bet = 0) /\
  (0 <= nth a (stacks s) 0 -> bet <= nth a (stacks s) 0) /\
  (nth a (stacks s) 0 < 0 -> bet = 0) /\
  (folds = false -> 0 <= nth a (stacks s) 0 -> bet = clean_bet z call mi ma /\ (call <> 0 -> call <= bet)).
Proof.
  intros L Hz. destruct L as [L1 L2 L3 L4 L5 L6 L7].
  destruct (Z_le_dec 0 (nth a (stacks s) 0)) as [Hst|Hst].
  - specialize (L6 Hst).
    pose proof (settle_bet_fold (pynum_neg b) z call mi ma L6 (pynum_neg_round b z Hz)) as F.
    pose proof (clean_bet_sane z call mi ma _ L6 L3 L4 L5) as C.
    destruct (settle_bet (pynum_neg b) z call mi ma) as [bet folds]. destruct F as (F1 & F2 & F3).
    assert (0 <= bet <= Z.max 0 (nth a (stacks s) 0)).
    { destruct folds; [rewrite F2 by reflexivity; lia|]. destruct (F3 eq_refl) as [-> _]. exact C. }
    split; [lia|]. split; [exact F1|]. split; [exact F2|]. split; [lia|]. split; [lia|]. intros Hf _. exact (F3 Hf).
  - assert (Ecall : call = nth a (stacks s) 0) by (apply L7; lia).
    assert (Ec : clean_bet z call mi ma = 0).
    { rewrite clean_bet_spec. cbv zeta.
      repeat (match goal with |- context [if ?b then _ else _] => destruct b eqn:? end); lia. }
    unfold settle_bet. rewrite Ec. replace (negb (call =? 0)) with true by lia. cbn [andb].
    replace (0 <? call) with false by lia. cbn [orb].
    destruct (pynum_neg b) eqn:En.
    + split; [lia|]. split; [split; [intros _; split; [lia|now left]|reflexivity]|]. split; [reflexivity|]. split; [lia|]. split; [reflexivity|discriminate].
    + pose proof (pynum_nonneg_round b z Hz En). split; [lia|]. split; [split; [discriminate|intros [_ [X|X]]; [discriminate|lia]]|].
      split; [discriminate|]. split; [lia|]. split; [reflexivity|lia].
Qed.

(** ** The invariant of fair play *)
Record money (c : config) (s : state) : Prop := mkMoney {
  mo_sane : sane c;
  mo_wf : wf c s;
  mo_cfg : cfg_wf c;
  mo_largest : in_progress s -> big_blind c <= largest_raise s;
  mo_commit : forall i, 0 <= committed s i;
  mo_total : in_progress s -> forall i, is_active s i -> 0 <= committed s i + stack_of s i
}.
Lemma money_pot c s : money c s -> in_progress s -> 0 <= pot s.
Proof. intros M H. rewrite (wf_pot _ _ (mo_wf _ _ M) H). apply sumZ_nonneg. intros i _. apply (mo_commit _ _ M). Qed.
Lemma money_limits c s a call mi ma : money c s -> action s = Some a -> bet_sizes c s = Ok (call, mi, ma) -> limits s a call mi ma.
Proof.
  intros M Ha H. assert (P : in_progress s) by (unfold in_progress; congruence).
  apply (limits_ok c); try assumption; try apply M; try assumption. now apply (money_pot c).
Qed.

Lemma nth_out_Z (l : list Z) i : (List.length l <= i)%nat -> nth i l 0 = 0.
Proof. apply nth_overflow. Qed.

Lemma after_bet_money c s b s1 : money c s -> after_bet c s b = Some s1 ->
  (forall i, 0 <= committed s1 i) /\ (forall i, is_active s1 i -> 0 <= committed s1 i + stack_of s1 i) /\
  (forall i, 0 <= stack_of s i -> 0 <= stack_of s1 i).
Proof.
  intros M H. apply after_bet_effect in H. destruct H as (a & call & mi & ma & bet & folds & B).
  pose proof (be_turn _ _ _ _ _ _ _ _ _ _ B) as Ta.
  pose proof (money_limits c s a call mi ma M Ta (be_sizes _ _ _ _ _ _ _ _ _ _ B)) as L.
  destruct (be_round _ _ _ _ _ _ _ _ _ _ B) as (z & Hz & Hs).
  pose proof (settled_bet s a call mi ma b z L Hz) as F. rewrite Hs in F. destruct F as (F1 & F2 & F3 & F4 & F5 & F6).
  assert (P : in_progress s) by (unfold in_progress; congruence).
  destruct (wf_turn _ _ (mo_wf _ _ M) a Ta) as [La Ea].
  pose proof (mo_commit _ _ M) as MC. pose proof (mo_total _ _ M P) as MT.
  assert (Ec : forall i, committed s1 i = committed s i + if Nat.eqb i a then Z.min (nth a (stacks s) 0) bet else 0).
  { intros i. unfold committed. rewrite (be_commits _ _ _ _ _ _ _ _ _ _ B), add_at_nth by (rewrite (wf_commits _ _ (mo_wf _ _ M)); exact La).
    destruct (Nat.eqb_spec i a) as [->|]; lia. }
  assert (Es : forall i, stack_of s1 i = stack_of s i - if Nat.eqb i a then Z.min (nth a (stacks s) 0) bet else 0).
  { intros i. unfold stack_of. rewrite (be_stacks _ _ _ _ _ _ _ _ _ _ B), add_at_nth by (rewrite (wf_stacks _ _ (mo_wf _ _ M)); exact La).
    destruct (Nat.eqb_spec i a) as [->|]; lia. }
  assert (Ai : forall i, is_active s1 i -> is_active s i).
  { intros i. unfold is_active. rewrite (be_active _ _ _ _ _ _ _ _ _ _ B). destruct folds; [|auto].
    destruct (Nat.eq_dec i a) as [->|Hi]; [now intros _|]. now rewrite upd_nth_other by congruence. }
  split; [|split].
  - intros i. rewrite Ec. pose proof (MC i). destruct (Nat.eqb_spec i a) as [->|]; [|lia].
    pose proof (MT a Ea). unfold stack_of in *. lia.
  - intros i Hi. rewrite Ec, Es. pose proof (MT i (Ai i Hi)). lia.
  - intros i Hi. rewrite Es. destruct (Nat.eqb_spec i a) as [->|]; [|lia]. unfold stack_of in *. lia.
Qed.

Lemma due_nonneg n st i l : Forall (fun b => 0 <= b) l -> 0 <= due n st i l.
Proof.
  intros F. unfold due. destruct (Nat.lt_ge_cases ((i + n - st) mod n) (List.length l)) as [H|H].
  - rewrite Forall_forall in F. apply F. now apply nth_In.
  - rewrite nth_overflow by exact H. lia.
Qed.

Lemma step_money c s b : money c s -> money c (fst (step c s b)).
Proof.
  intros M. pose proof (mo_wf _ _ M) as I. pose proof (mo_cfg _ _ M) as W.
  pose proof (step_wf c s b W I) as I'. pose proof (step_largest c s b W) as SL.
  destruct (action s) as [a|] eqn:Ea.
  2:{ unfold step in *. now rewrite Ea in *. }
  assert (P : in_progress s) by (unfold in_progress; congruence).
  assert (HL : big_blind c <= largest_raise (fst (step c s b))) by (pose proof (mo_largest _ _ M P); lia).
  destruct (step_anatomy c s b ltac:(congruence)) as [(_ & -> & _)|(s1 & H1 & E)]; [exact M|].
  destruct (after_bet_money c s b s1 M H1) as (A1 & A2 & _).
  pose proof (settle_keep c s1 W) as K. rewrite E in *.
  split; try assumption; try apply M; try (intros _; exact HL).
  - intros i. destruct (step_end_cases c (settle c s1)) as [(e & _ & ->)|[(pay & _ & _ & ->)|(pay & _ & _ & ->)]];
      unfold committed; cbn [fst finish_hand pot_commits]; rewrite (sk_commits _ _ K); apply A1.
  - intros P' i Hi. destruct (step_end_cases c (settle c s1)) as [(e & _ & E')|[(pay & _ & _ & E')|(pay & _ & _ & E')]].
    + rewrite E' in *. cbn [fst] in *. unfold is_active, committed, stack_of in *. rewrite (sk_commits _ _ K), (sk_stacks _ _ K), (sk_active _ _ K) in *. now apply A2.
    + rewrite E' in P'. exfalso. now apply P'.
    + rewrite E' in *. unfold is_active, committed, stack_of in *. rewrite (sk_commits _ _ K), (sk_stacks _ _ K), (sk_active _ _ K) in *. now apply A2.
Qed.

Lemma reset_money_exact c s rnd rb rs : reset_effect c s rnd rb rs (fst (reset c s rnd rb rs)) -> cfg_wf c -> sane c -> wf c s ->
  let s' := fst (reset c s rnd rb rs) in
  (forall i, 0 <= committed s' i) /\
  (forall i, (i < num_players c)%nat -> committed s' i + stack_of s' i = if rs then start_stack c else stack_of s i).
Proof.
  intros E W Hs I. cbv zeta. destruct (re_money _ _ _ _ _ _ E) as (st & ante & blind & M1 & M2 & M3 & M4 & M5 & M6 & M7 & M8 & M9 & M10).
  split.
  - intros i. unfold committed. rewrite M8. destruct (Nat.lt_ge_cases i (num_players c)) as [Hi|Hi].
    2:{ rewrite nth_overflow; [lia|]. rewrite (add_lists_length _ _ (num_players c)); assumption. }
    rewrite add_lists_nth by congruence. destruct (M7 i Hi) as (N1 & N2 & _). rewrite N1 at 1. rewrite N2.
    pose proof (due_nonneg (num_players c) st i (antes c) (sane_antes _ Hs)).
    pose proof (due_nonneg (num_players c) st i (blinds c) (sane_blinds _ Hs)).
    destruct (_ && _), (_ && _); lia.
  - intros i Hi. unfold committed, stack_of. rewrite M8, add_lists_nth by congruence. destruct (M7 i Hi) as (_ & _ & N3). cbv zeta in N3.
    rewrite N3. lia.
Qed.
Lemma reset_money c s rnd rb rs : money c s -> allowed c s (OReset rnd rb rs) -> money c (fst (reset c s rnd rb rs)).
Proof.
  intros M Ho. pose proof (mo_wf _ _ M) as I. pose proof (mo_cfg _ _ M) as W. cbn in Ho.
  pose proof (reset_wf c s rnd rb rs W I Ho) as I'.
  destruct (reset_spec c s rnd rb rs W I) as [(E1 & E2 & E3)|[(E1 & E2)|(E1 & E2 & E3 & E)]].
  - destruct Ho as [Ho|Ho]; [|rewrite E3 in Ho; discriminate]. unfold reset in *. subst rs. cbn [reset_active fst] in *.
    replace (negb false && (count_true (map (fun x => 0 <? x) (stacks s)) <=? 1)) with true in * by (cbn [negb andb]; lia).
    split; try assumption; try apply M; unfold in_progress; cbn [fst action]; congruence.
  - destruct Ho as [Ho|Ho]; [|rewrite E2 in Ho; discriminate].
    assert (Ecc : num_community_cards c = []) by (apply length_zero_iff_nil; rewrite (cw_comm _ W); exact E1).
    unfold reset in *. rewrite Ecc in *. destruct (reset_active c s rs) as [act stk].
    destruct (negb rs && _); split; try assumption; try apply M; unfold in_progress; cbn [fst action]; congruence.
  - destruct (reset_money_exact c s rnd rb rs E W (mo_sane _ _ M) I) as [R1 R2].
    split; try assumption; try apply M.
    + intros _. rewrite (re_largest _ _ _ _ _ _ E). lia.
    + intros _ i Hi. assert (Hlt : (i < num_players c)%nat).
      { unfold is_active in Hi. rewrite <- (wf_active _ _ I'). apply Nat.nle_gt. intros Hge. rewrite nth_overflow in Hi by exact Hge. discriminate. }
      rewrite R2 by exact Hlt. destruct rs; [apply (sane_start _ (mo_sane _ _ M))|].
      unfold is_active in Hi. rewrite (re_active _ _ _ _ _ _ E) in Hi.
      rewrite (map_nth_lt _ _ _ _ 0) in Hi by (rewrite (wf_stacks _ _ I); exact Hlt). unfold stack_of. lia.
Qed.

Lemma fair_money c s : fair c s -> money c s.
Proof.
  intros F. pose proof (reachable_cfg c s (fair_reachable c s F)) as W.
  induction F as [w rnd s H Hs|s o F IH Ho Hn].
  - pose proof (built_wf _ _ _ _ H) as I. apply Dealer_inv in H. rewrite (bd_state _ _ _ _ H) in *.
    split; try assumption; unfold in_progress; cbn; try congruence. intros i. unfold committed. cbn.
    destruct (Nat.lt_ge_cases i (num_players c)); [rewrite nth_repeat_lt by assumption; lia|rewrite nth_overflow by (rewrite repeat_length; assumption); lia].
  - destruct o as [rnd rb rs|b|cs| |l]; cbn [apply_op] in *.
    + now apply reset_money.
    + now apply step_money.
    + destruct (deck_trick cs (the_deck s)); [|exact IH]. destruct IH as [J1 [] J3 J4 J5 J6]; split; try assumption; split; assumption.
    + destruct IH as [J1 [] J3 J4 J5 J6]; split; try assumption; split; assumption.
    + destruct IH as [J1 J2 J3 J4 J5 J6]. cbn in Ho. split; try assumption.
      * destruct J2; split; assumption.
      * intros P i Hi. pose proof (J5 i). unfold committed, stack_of in *. cbn [set_stacks pot_commits stacks] in *.
        destruct (Nat.lt_ge_cases i (List.length l)) as [Hl|Hl]; [|rewrite (nth_overflow l) by exact Hl; lia].
        rewrite Forall_forall in Hn. specialize (Hn (nth i l 0) (nth_In _ _ Hl)). lia.
Qed.

(** ** A step, taken apart *)
Record step_parts (c : config) (s : state) (b : pynum) (a : nat) (call mi ma bet : Z) (folds : bool) (s1 s' : state) : Prop := mkParts {
  sp_bet : bet_effect c s b a call mi ma bet folds s1;
  sp_active : active s' = active s1;
  sp_commits : pot_commits s' = pot_commits s1;
  sp_history : history s' = history s1;
  sp_button : button s' = button s1;
  sp_hole : hole_cards s' = hole_cards s1;
  sp_largest : largest_raise s' = largest_raise s1;
  sp_street : street s' = street (settle c s1);
  sp_comm : community_cards s' = community_cards (settle c s1);
  sp_deck : the_deck s' = the_deck (settle c s1);
  sp_end : (s' = settle c s1 /\ all_true (done_list c (settle c s1)) = false) \/
           (s' = settle c s1 /\ exists e, payouts c (settle c s1) = Err e /\ snd (step c s b) = Err e) \/
           (exists pay, payouts c (settle c s1) = Ok pay /\ all_true (done_list c (settle c s1)) = true /\
              s' = finish_hand (settle c s1) pay)
}.
Lemma step_take c s b a : cfg_wf c -> action s = Some a ->
  (fst (step c s b) = s /\ is_ok (snd (step c s b)) = false /\ after_bet c s b = None) \/
  (exists call mi ma bet folds s1, after_bet c s b = Some s1 /\ step_parts c s b a call mi ma bet folds s1 (fst (step c s b))).
Proof.
  intros W Ha. destruct (step_anatomy c s b ltac:(congruence)) as [(E1 & E2 & E3)|(s1 & H1 & E)]; [left; auto|right].
  destruct (after_bet_effect c s b s1 H1) as (a' & call & mi & ma & bet & folds & B).
  pose proof (be_turn _ _ _ _ _ _ _ _ _ _ B) as Ta. rewrite Ha in Ta. injection Ta as <-.
  exists call, mi, ma, bet, folds, s1. split; [exact H1|]. pose proof (settle_keep c s1 W) as K.
  assert (X : snd (step c s b) = snd (step_end c (settle c s1))) by now rewrite E.
  rewrite E.
  destruct (step_end_cases c (settle c s1)) as [(e & P & E')|[(pay & P & D & E')|(pay & P & D & E')]].
  - rewrite E' in *. cbn [fst snd] in *. split; try reflexivity; try exact B; try apply K.
    right; left. split; [reflexivity|]. exists e. auto.
  - rewrite E'. split; try reflexivity; try exact B; try apply K. right; right. exists pay. auto.
  - rewrite E'. split; try reflexivity; try exact B; try apply K. left. auto.
Qed.
Lemma after_bet_some c s b a B o : action s = Some a -> observation c s false = Ok o -> py_round b = Ok B -> after_bet c s b <> None.
Proof.
  intros Ha Ho Hb. apply obs_sizes in Ho. unfold after_bet. rewrite Ha, Ho, Hb. destruct (settle_bet _ _ _ _ _). discriminate.
Qed.

(** the step of a player who has seen observation [o] and bets a finite number *)
Lemma step_seen c s b a o B : fair c s -> action s = Some a -> observation c s false = Ok o -> py_round b = Ok B ->
  exists bet folds s1, step_parts c s b a (o_call o) (o_min_raise o) (o_max_raise o) bet folds s1 (fst (step c s b)) /\
    settle_bet (pynum_neg b) B (o_call o) (o_min_raise o) (o_max_raise o) = (bet, folds) /\
    limits s a (o_call o) (o_min_raise o) (o_max_raise o) /\
    (a < num_players c)%nat /\ is_active s a /\
    0 <= bet /\
    (folds = true <-> o_call o <> 0 /\ (pynum_neg b = true \/ 2 * B <= o_call o)) /\
    (folds = true -> bet = 0) /\
    (0 <= stack_of s a -> bet <= stack_of s a) /\
    (stack_of s a < 0 -> bet = 0) /\
    (folds = false -> 0 <= stack_of s a -> bet = clean_bet B (o_call o) (o_min_raise o) (o_max_raise o) /\ (o_call o <> 0 -> o_call o <= bet)).
Proof.
  intros F Ha Ho Hb. pose proof (fair_money c s F) as M.
  destruct (step_take c s b a (mo_cfg _ _ M) Ha) as [(_ & _ & X)|(call & mi & ma & bet & folds & s1 & H1 & P)].
  { exfalso. exact (after_bet_some c s b a B o Ha Ho Hb X). }
  pose proof (sp_bet _ _ _ _ _ _ _ _ _ _ _ P) as E.
  pose proof (be_sizes _ _ _ _ _ _ _ _ _ _ E) as Sz. pose proof (obs_sizes c s o Ho) as So. rewrite So in Sz. injection Sz as <- <- <-.
  pose proof (money_limits c s a _ _ _ M Ha So) as L.
  destruct (be_round _ _ _ _ _ _ _ _ _ _ E) as (z & Hz & Hs). rewrite Hb in Hz. injection Hz as <-.
  pose proof (settled_bet s a _ _ _ b B L Hb) as Q. rewrite Hs in Q.
  destruct (wf_turn _ _ (mo_wf _ _ M) a Ha) as [La Ea].
  exists bet, folds, s1. unfold stack_of. split; [exact P|]. split; [exact Hs|]. split; [exact L|]. split; [exact La|]. split; [exact Ea|]. exact Q.
Qed.

Lemma parts_committed c s b a call mi ma bet folds s1 s' i : wf c s -> (a < num_players c)%nat ->
  step_parts c s b a call mi ma bet folds s1 s' ->
  committed s' i = committed s i + if Nat.eqb i a then Z.min (stack_of s a) bet else 0.
Proof.
  intros I La P. unfold committed. rewrite (sp_commits _ _ _ _ _ _ _ _ _ _ _ P).
  rewrite (be_commits _ _ _ _ _ _ _ _ _ _ (sp_bet _ _ _ _ _ _ _ _ _ _ _ P)), add_at_nth by (rewrite (wf_commits _ _ I); exact La).
  destruct (Nat.eqb_spec i a) as [->|]; unfold stack_of; lia.
Qed.
Lemma parts_active c s b a call mi ma bet folds s1 s' i : wf c s -> (a < num_players c)%nat -> is_active s a ->
  step_parts c s b a call mi ma bet folds s1 s' ->
  is_active s' i <-> is_active s i /\ ~ (i = a /\ folds = true).
Proof.
  intros I La Ea P. unfold is_active. rewrite (sp_active _ _ _ _ _ _ _ _ _ _ _ P).
  rewrite (be_active _ _ _ _ _ _ _ _ _ _ (sp_bet _ _ _ _ _ _ _ _ _ _ _ P)). destruct folds.
  - destruct (Nat.eq_dec i a) as [->|Hi].
    + rewrite upd_nth_same by (rewrite (wf_active _ _ I); exact La). split; [discriminate|intros [_ X]; exfalso; apply X; auto].
    + rewrite upd_nth_other by congruence. split; [intros X; split; [exact X|tauto]|tauto].
  - split; [intros X; split; [exact X|intros [_ Y]; discriminate]|tauto].
Qed.
Lemma parts_going c s b a call mi ma bet folds s1 s' i : cfg_wf c -> wf c s -> (a < num_players c)%nat ->
  step_parts c s b a call mi ma bet folds s1 s' -> in_progress s' ->
  stack_of s' i = stack_of s i - (if Nat.eqb i a then Z.min (stack_of s a) bet else 0) /\ s' = settle c s1.
Proof.
  intros W I La P Hp.
  assert (E : s' = settle c s1).
  { destruct (sp_end _ _ _ _ _ _ _ _ _ _ _ P) as [[X _]|[[X _]|(pay & _ & _ & X)]]; try exact X. rewrite X in Hp. exfalso. now apply Hp. }
  split; [|exact E]. rewrite E. unfold stack_of. rewrite (sk_stacks _ _ (settle_keep c s1 W)).
  rewrite (be_stacks _ _ _ _ _ _ _ _ _ _ (sp_bet _ _ _ _ _ _ _ _ _ _ _ P)), add_at_nth by (rewrite (wf_stacks _ _ I); exact La).
  destruct (Nat.eqb_spec i a) as [->|]; lia.
Qed.
