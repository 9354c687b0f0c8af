(** * SolventFacts: consequences of solvency *)
From Coq Require Import ZifyBool ZifyNat Arith.
From Verif Require Import PyBase PyFacts CardModel EvalModel EngineModel EngineSpec EngineFacts BetFacts EngineDemo MoneyFacts ShowSpec ShowFacts SideFacts HandEnd PropShow SolventSpec.

Lemma stack_out c s i : wf c s -> (num_players c <= i)%nat -> stack_of s i = 0.
Proof. intros I H. unfold stack_of. apply nth_overflow. now rewrite (wf_stacks _ _ I). Qed.
Lemma step_solvent c s b : fair c s -> no_debts s -> no_debts (fst (step c s b)).
Proof.
  intros F N. pose proof (fair_money c s F) as M. pose proof (mo_wf _ _ M) as Iw. pose proof (mo_cfg _ _ M) as W.
  destruct (action s) as [a|] eqn:Ea; [|unfold step; now rewrite Ea].
  assert (Hp : in_progress s) by (unfold in_progress; congruence).
  destruct (step_settled c s b F Hp) as [(_ & -> & _)|(z & Z)]; [exact N|].
  assert (Nz : no_debts z) by (intros i; apply (se_keep _ _ _ _ Z), N).
  intros i. destruct (action (fst (step c s b))) as [a'|] eqn:Ea'.
  - assert (X : fst (step c s b) = z).
    { rewrite (se_step _ _ _ _ Z) in *. destruct (step_end_cases c z) as [(e & _ & E)|[(pay & _ & _ & E)|(pay & _ & _ & E)]]; rewrite E in *; try reflexivity. discriminate. }
    rewrite X. apply Nz.
  - destruct (Nat.lt_ge_cases i (num_players c)) as [Hi|Hi].
    + destruct (C37_payout c s b F Hp Ea') as (out & _ & H). now apply H.
    + rewrite (stack_out c); [lia| |exact Hi]. apply (step_wf c s b W Iw).
Qed.
Lemma solvent_nonneg c s : solvent c s -> no_debts s.
Proof.
  intros S. pose proof (solvent_fair c s S) as F. induction S as [w rnd s H Hs|s o S IH Ho Hn].
  - apply Dealer_inv in H. rewrite (bd_state _ _ _ _ H). intros i. unfold stack_of. cbn [stacks].
    destruct (Nat.lt_ge_cases i (num_players c)); [rewrite nth_repeat_lt by assumption; pose proof (sane_start _ Hs) as X; now rewrite (bd_stack _ _ _ _ H) in X|rewrite nth_overflow by (rewrite repeat_length; assumption); lia].
  - pose proof (solvent_fair c s S) as Fs. specialize (IH Fs). destruct o as [rnd rb rs|b|cs| |l]; cbn [apply_op] in *.
    + exact Hn.
    + now apply step_solvent.
    + destruct (deck_trick cs (the_deck s)); exact IH.
    + exact IH.
    + destruct Hn as [_ Hn]. intros i. unfold stack_of. cbn [set_stacks stacks]. rewrite Forall_forall in Hn.
      destruct (Nat.lt_ge_cases i (List.length l)) as [Hi|Hi]; [apply Hn; now apply nth_In|rewrite nth_overflow by exact Hi; lia].
Qed.
Lemma due_in n st i l : In (due n st i l) (0 :: l).
Proof.
  unfold due. destruct (Nat.lt_ge_cases ((i + n - st) mod n) (List.length l)) as [H|H]; [right; now apply nth_In|left; now rewrite nth_overflow].
Qed.
Lemma affordable_money c s rnd rb rs : money c s -> no_debts s -> is_ok (snd (reset c s rnd rb rs)) = true -> affordable c s rs ->
  no_debts (fst (reset c s rnd rb rs)).
Proof.
  intros M N H A. pose proof (mo_cfg _ _ M) as W. pose proof (mo_wf _ _ M) as Iw.
  destruct (reset_spec c s rnd rb rs W Iw) as [(_ & _ & E)|[(_ & E)|(_ & _ & _ & E)]]; [rewrite E in H; discriminate|rewrite E in H; discriminate|].
  destruct (re_money _ _ _ _ _ _ E) as (st & ante & blind & M1 & M2 & M3 & M4 & M5 & M6 & M7 & M8 & M9 & M10).
  intros i. destruct (Nat.lt_ge_cases i (num_players c)) as [Hi|Hi]; [|unfold stack_of; rewrite nth_overflow by (rewrite (re_stacks_len _ _ _ _ _ _ E); exact Hi); lia].
  destruct (M7 i Hi) as (N1 & N2 & N3). cbv zeta in *. unfold stack_of. rewrite N3.
  pose proof (A i _ _ Hi (due_in (num_players c) st i (antes c)) (due_in (num_players c) st i (blinds c))) as A1. cbv zeta in A1.
  pose proof (A i _ 0 Hi (due_in (num_players c) st i (antes c)) (or_introl eq_refl)) as A2. cbv zeta in A2.
  assert (P : 0 <= if rs then start_stack c else nth i (stacks s) 0) by (destruct rs; [apply (sane_start _ (mo_sane _ _ M))|apply N]).
  unfold stack_of in *. set (chips := if rs then start_stack c else nth i (stacks s) 0) in *.
  clearbody chips. destruct (nth i (active _) false); rewrite ?andb_true_r, ?andb_false_r in *; [|lia].
  destruct (0 <? chips) eqn:E1; destruct (0 <? chips - nth i ante 0) eqn:E2; lia.
Qed.
Lemma affordable_reset c s rnd rb rs : fair c s -> no_debts s -> is_ok (snd (reset c s rnd rb rs)) = true -> affordable c s rs ->
  no_debts (fst (reset c s rnd rb rs)).
Proof. intros F. apply affordable_money. now apply fair_money. Qed.

(** ** Folded players are covered *)
Record covered (c : config) (s : state) (B : Z) : Prop := mkCovered {
  cv_base : forall j, (j < num_players c)%nat -> committed s j - street_committed s j <= B;
  cv_even : forall j, (j < num_players c)%nat -> is_active s j -> 0 < stack_of s j -> committed s j - street_committed s j = B;
  cv_top : exists w, (w < num_players c)%nat /\ is_active s w /\ committed s w - street_committed s w = B /\ street_committed s w = maxZ (street_commits s)
}.
Lemma maxZ_max l m : (forall i, (i < List.length l)%nat -> nth i l 0 <= m) -> (exists i, (i < List.length l)%nat /\ nth i l 0 = m) -> maxZ l = m.
Proof.
  intros H (i & Hi & E). pose proof (maxZ_nth_ge l i Hi). destruct (maxZ_nth_in l ltac:(lia)) as (j & Hj & Ej). specialize (H j Hj). lia.
Qed.
Lemma after_bet_covered c s b s1 B : money c s -> no_debts s -> in_progress s -> covered c s B -> after_bet c s b = Some s1 -> covered c s1 B.
Proof.
  intros M N Hp C H. apply after_bet_effect in H. destruct H as (a & call & mi & ma & bet & folds & E).
  pose proof (be_turn _ _ _ _ _ _ _ _ _ _ E) as Ta. pose proof (money_limits c s a call mi ma M Ta (be_sizes _ _ _ _ _ _ _ _ _ _ E)) as L.
  destruct (be_round _ _ _ _ _ _ _ _ _ _ E) as (z & Hz & Hs). pose proof (settled_bet s a call mi ma b z L Hz) as F. rewrite Hs in F. destruct F as (F1 & F2 & F3 & F4 & F5 & F6).
  pose proof (mo_wf _ _ M) as Iw. destruct (wf_turn _ _ Iw a Ta) as [La Ea].
  pose proof (N a) as Na. unfold stack_of in Na. specialize (F4 Na).
  assert (Ec : forall i, committed s1 i = committed s i + if Nat.eqb i a then bet else 0).
  { intros i. unfold committed. rewrite (be_commits _ _ _ _ _ _ _ _ _ _ E), add_at_nth by (rewrite (wf_commits _ _ Iw); exact La).
    destruct (Nat.eqb_spec i a) as [->|]; lia. }
  assert (Es : forall i, stack_of s1 i = stack_of s i - if Nat.eqb i a then bet else 0).
  { intros i. unfold stack_of. rewrite (be_stacks _ _ _ _ _ _ _ _ _ _ E), add_at_nth by (rewrite (wf_stacks _ _ Iw); exact La).
    destruct (Nat.eqb_spec i a) as [->|]; lia. }
  assert (Et : forall i, street_committed s1 i = street_committed s i + if Nat.eqb i a then bet else 0).
  { intros i. unfold street_committed. rewrite (be_street_commits _ _ _ _ _ _ _ _ _ _ E), add_at_nth by (rewrite (wf_street _ _ Iw); exact La).
    destruct (Nat.eqb_spec i a) as [->|]; lia. }
  assert (Lt : List.length (street_commits s1) = num_players c) by (rewrite (be_street_commits _ _ _ _ _ _ _ _ _ _ E), add_at_length; apply Iw).
  assert (Ai : forall i, is_active s1 i -> is_active s i).
  { intros i. unfold is_active. rewrite (be_active _ _ _ _ _ _ _ _ _ _ E). destruct folds; [|auto].
    destruct (Nat.eq_dec i a) as [->|Hi]; [now intros _|]. now rewrite upd_nth_other by congruence. }
  destruct C as [C1 C2 (w & Lw & Aw & Bw & Tw)].
  assert (G : forall j, (j < num_players c)%nat -> street_committed s j <= maxZ (street_commits s)) by (intros j Hj; apply maxZ_nth_ge; now rewrite (wf_street _ _ Iw)).
  split.
  - intros j Hj. rewrite Ec, Et. specialize (C1 j Hj). lia.
  - intros j Hj Aj Sj. rewrite Ec, Et. rewrite Es in Sj. specialize (C2 j Hj (Ai j Aj)). destruct (Nat.eqb_spec j a); lia.
  - destruct (Z_lt_le_dec (maxZ (street_commits s)) (street_committed s a + bet)) as [Gt|Le].
    + exists a. split; [exact La|].
      assert (Hb : 0 < bet) by (pose proof (G a La); lia).
      assert (Hf : folds = false) by (destruct folds; [specialize (F3 eq_refl); lia|reflexivity]).
      split; [unfold is_active; rewrite (be_active _ _ _ _ _ _ _ _ _ _ E), Hf; exact Ea|]. rewrite Ec, Et, Nat.eqb_refl.
      split; [specialize (C2 a La Ea); unfold stack_of in C2; lia|]. symmetry. apply maxZ_max.
      * intros i Hi. rewrite Lt in Hi. change (street_committed s1 i <= street_committed s a + bet). rewrite Et. pose proof (G i Hi). destruct (Nat.eqb_spec i a) as [->|]; lia.
      * exists a. split; [lia|]. change (street_committed s1 a = street_committed s a + bet). rewrite Et, Nat.eqb_refl. reflexivity.
    + exists w. split; [exact Lw|].
      assert (Hw : w = a -> bet = 0 /\ folds = false).
      { intros ->. assert (bet = 0) by lia. split; [assumption|]. assert (R : raw_call s a = 0) by (unfold raw_call, street_committed in *; lia).
        destruct folds; [|reflexivity]. destruct F2 as [F2 _]. destruct (F2 eq_refl) as [F2' _]. rewrite (li_call _ _ _ _ _ L), R in F2'. lia. }
      assert (Zw : (if Nat.eqb w a then bet else 0) = 0) by (destruct (Nat.eqb_spec w a) as [E'|]; [now apply Hw|reflexivity]).
      split; [|split].
      * unfold is_active. rewrite (be_active _ _ _ _ _ _ _ _ _ _ E). destruct folds; [|exact Aw].
        assert (w <> a) by (intros E'; destruct (Hw E'); discriminate). rewrite upd_nth_other by congruence. exact Aw.
      * rewrite Ec, Et, Zw. lia.
      * rewrite Et, Zw. rewrite Z.add_0_r, Tw. symmetry. apply maxZ_max.
        -- intros i Hi. rewrite Lt in Hi. change (street_committed s1 i <= maxZ (street_commits s)). rewrite Et. pose proof (G i Hi). destruct (Nat.eqb_spec i a) as [->|]; lia.
        -- exists w. split; [lia|]. change (street_committed s1 w = maxZ (street_commits s)). rewrite Et, Zw. lia.
Qed.
Lemma settle_covered c s B : cfg_wf c -> List.length (active s) = num_players c -> List.length (stacks s) = num_players c -> List.length (street_commits s) = num_players c ->
  no_debts s -> covered c s B -> exists B', covered c (settle c s) B'.
Proof.
  intros W La Ls Lt N C. destruct (settle_cases c s W) as [[_ ->]|[Ag E]]; [now exists B|].
  pose proof (settle_keep c s W) as K. exists (B + maxZ (street_commits s)).
  assert (Zt : forall i, street_committed (settle c s) i = 0).
  { intros i. unfold street_committed. rewrite (ne_street_commits _ _ _ E). destruct (Nat.lt_ge_cases i (num_players c)); [now rewrite nth_repeat_lt|now rewrite nth_overflow by (now rewrite repeat_length)]. }
  assert (Ec : forall i, committed (settle c s) i = committed s i) by (intros i; unfold committed; now rewrite (sk_commits _ _ K)).
  assert (G : forall j, (j < num_players c)%nat -> street_committed s j <= maxZ (street_commits s)) by (intros j Hj; apply maxZ_nth_ge; now rewrite Lt).
  destruct C as [C1 C2 (w & Lw & Aw & Bw & Tw)]. split.
  - intros j Hj. rewrite Ec, Zt. specialize (C1 j Hj). specialize (G j Hj). lia.
  - intros j Hj Aj Sj. unfold is_active, stack_of in Aj, Sj. rewrite (sk_active _ _ K) in Aj. rewrite (sk_stacks _ _ K) in Sj. rewrite Ec, Zt. specialize (C2 j Hj Aj Sj).
    enough (street_committed s j = maxZ (street_commits s)) by lia.
    unfold all_agreed in Ag. apply andb_true_iff in Ag. destruct Ag as [_ Ag]. rewrite all_true_spec in Ag.
    assert (Lc : List.length (combine (combine (street_commits s) (stacks s)) (active s)) = num_players c) by (rewrite !combine_length; lia).
    specialize (Ag j). rewrite map_length, Lc in Ag. specialize (Ag Hj).
    rewrite (map_nth_lt _ _ _ _ (0, 0, false)) in Ag by lia.
    rewrite combine_nth_lt in Ag by (rewrite ?combine_length; lia). rewrite combine_nth_lt in Ag by lia. unfold street_committed.
    rewrite Aj in Ag. lia.
  - exists w. split; [exact Lw|]. split; [unfold is_active; rewrite (sk_active _ _ K); exact Aw|]. rewrite Ec, Zt. split; [lia|].
    rewrite (ne_street_commits _ _ _ E), maxZ_repeat; [reflexivity|]. pose proof (cw_two _ W). lia.
Qed.
Lemma reset_covered c s rnd rb rs : money c s -> equal_antes c -> is_ok (snd (reset c s rnd rb rs)) = true ->
  exists B, covered c (fst (reset c s rnd rb rs)) B.
Proof.
  intros M (al & Ha) H. pose proof (mo_cfg _ _ M) as W. pose proof (mo_wf _ _ M) as Iw. pose proof (mo_sane _ _ M) as Sn.
  pose proof (reset_wf c s rnd rb rs W Iw (or_intror H)) as I'.
  destruct (reset_spec c s rnd rb rs W Iw) as [(_ & _ & E)|[(_ & E)|(_ & _ & _ & E)]]; [rewrite E in H; discriminate|rewrite E in H; discriminate|].
  set (s' := fst (reset c s rnd rb rs)) in *. pose proof (cw_two _ W) as H2.
  destruct (re_money _ _ _ _ _ _ E) as (st & ante & blind & M1 & M2 & M3 & M4 & M5 & M6 & M7 & M8 & M9 & M10).
  assert (Pa : 0 <= al).
  { pose proof (cw_antes _ W) as L. destruct (antes c) as [|x l] eqn:Ex; [cbn in L; lia|]. inversion Ha; subst. pose proof (sane_antes _ Sn) as Sa. rewrite Ex in Sa. now inversion Sa. }
  assert (Du : forall i, (i < num_players c)%nat -> due (num_players c) st i (antes c) = al).
  { intros i Hi. unfold due. rewrite Forall_forall in Ha. symmetry. apply Ha, nth_In. rewrite (cw_antes _ W). apply Nat.mod_upper_bound. lia. }
  assert (Sum : forall j, (j < num_players c)%nat -> committed s' j = nth j ante 0 + nth j blind 0 /\ street_committed s' j = nth j blind 0).
  { intros j Hj. unfold committed, street_committed. rewrite M8, M9, add_lists_nth by congruence. auto. }
  assert (Act : forall j, (j < num_players c)%nat -> is_active s' j -> (0 <? if rs then start_stack c else nth j (stacks s) 0) = true \/ start_stack c = 0 /\ rs = true).
  { intros j Hj Aj. destruct rs; [pose proof (sane_start _ Sn); lia|]. left. unfold is_active in Aj. rewrite (re_active _ _ _ _ _ _ E) in Aj.
    now rewrite (map_nth_lt _ _ _ _ 0) in Aj by (rewrite (wf_stacks _ _ Iw); exact Hj). }
  destruct (re_turn _ _ _ _ _ _ E) as (a & Ta & La & Aa).
  destruct (Bool.bool_dec rs true) as [Er|Er].
  - destruct (Z.eq_dec (start_stack c) 0) as [E0|E0].
    + (* nobody has chips *)
      assert (Z0 : forall j, (j < num_players c)%nat -> nth j ante 0 = 0 /\ nth j blind 0 = 0 /\ stack_of s' j = 0).
      { intros j Hj. destruct (M7 j Hj) as (N1 & N2 & N3). cbv zeta in *. rewrite Er, E0 in *. cbn [Z.ltb Z.compare andb] in N1. rewrite N1 in *. cbn in N2. unfold stack_of. rewrite N3, N2. lia. }
      exists 0. split.
      * intros j Hj. destruct (Sum j Hj) as [-> ->]. destruct (Z0 j Hj) as (-> & -> & _). lia.
      * intros j Hj _ Sj. destruct (Z0 j Hj) as (_ & _ & X). lia.
      * exists a. split; [exact La|]. split; [exact Aa|]. destruct (Sum a La) as [-> ->]. destruct (Z0 a La) as (-> & -> & _). split; [lia|].
        symmetry. apply maxZ_max; rewrite M9, M6.
        -- intros i Hi. destruct (Z0 i Hi) as (_ & -> & _). lia.
        -- exists a. split; [exact La|]. now destruct (Z0 a La) as (_ & -> & _).
    + assert (Pos : forall j, (j < num_players c)%nat -> is_active s' j -> (0 <? if rs then start_stack c else nth j (stacks s) 0) = true) by (intros j Hj Aj; destruct (Act j Hj Aj); lia).
      revert Pos. clear Er E0 Act. intros Act.
      exists al. split.
      * intros j Hj. destruct (Sum j Hj) as [-> ->]. destruct (M7 j Hj) as (N1 & _ & _). cbv zeta in N1. rewrite (Du j Hj) in N1. destruct (_ && _); lia.
      * intros j Hj Aj _. destruct (Sum j Hj) as [-> ->]. destruct (M7 j Hj) as (N1 & _ & _). cbv zeta in N1. rewrite (Du j Hj), (Act j Hj Aj), Aj in N1. cbn [andb] in N1. lia.
      * destruct (maxZ_nth_in blind ltac:(lia)) as (w & Hw & Ew). rewrite M6 in Hw.
        assert (exists w, (w < num_players c)%nat /\ is_active s' w /\ nth w blind 0 = maxZ blind) as (w' & Lw & Aw & Mw).
        { destruct (nth w (active s') false) eqn:Aw; [now exists w|]. destruct (M7 w Hw) as (_ & N2 & _). cbv zeta in N2. rewrite Aw, andb_false_r in N2.
          exists a. split; [exact La|]. split; [exact Aa|]. pose proof (maxZ_nth_ge blind a ltac:(lia)) as Ge. rewrite <- Ew, N2 in *.
          destruct (M7 a La) as (_ & Na & _). cbv zeta in Na. pose proof (due_nonneg (num_players c) st a (blinds c) (sane_blinds _ Sn)). destruct (_ && _) in Na; lia. }
        exists w'. split; [exact Lw|]. split; [exact Aw|]. destruct (Sum w' Lw) as [-> ->]. destruct (M7 w' Lw) as (N1 & _ & _). cbv zeta in N1. rewrite (Du w' Lw), (Act w' Lw Aw), Aw in N1. cbn [andb] in N1.
        split; [lia|]. now rewrite M9.
  - assert (Pos : forall j, (j < num_players c)%nat -> is_active s' j -> (0 <? if rs then start_stack c else nth j (stacks s) 0) = true) by (intros j Hj Aj; destruct (Act j Hj Aj) as [X|[_ X]]; [exact X|contradiction]).
    revert Pos. clear Er Act. intros Act.
    exists al. split.
    + intros j Hj. destruct (Sum j Hj) as [-> ->]. destruct (M7 j Hj) as (N1 & _ & _). cbv zeta in N1. rewrite (Du j Hj) in N1. destruct (_ && _); lia.
    + intros j Hj Aj _. destruct (Sum j Hj) as [-> ->]. destruct (M7 j Hj) as (N1 & _ & _). cbv zeta in N1. rewrite (Du j Hj), (Act j Hj Aj), Aj in N1. cbn [andb] in N1. lia.
    + destruct (maxZ_nth_in blind ltac:(lia)) as (w & Hw & Ew). rewrite M6 in Hw.
      assert (exists w, (w < num_players c)%nat /\ is_active s' w /\ nth w blind 0 = maxZ blind) as (w' & Lw & Aw & Mw).
      { destruct (nth w (active s') false) eqn:Aw; [now exists w|]. destruct (M7 w Hw) as (_ & N2 & _). cbv zeta in N2. rewrite Aw, andb_false_r in N2.
        exists a. split; [exact La|]. split; [exact Aa|]. pose proof (maxZ_nth_ge blind a ltac:(lia)) as Ge. rewrite <- Ew, N2 in *.
        destruct (M7 a La) as (_ & Na & _). cbv zeta in Na. pose proof (due_nonneg (num_players c) st a (blinds c) (sane_blinds _ Sn)). destruct (_ && _) in Na; lia. }
      exists w'. split; [exact Lw|]. split; [exact Aw|]. destruct (Sum w' Lw) as [-> ->]. destruct (M7 w' Lw) as (N1 & _ & _). cbv zeta in N1. rewrite (Du w' Lw), (Act w' Lw Aw), Aw in N1. cbn [andb] in N1.
      split; [lia|]. now rewrite M9.
Qed.
Lemma step_covered c s b : solvent c s -> in_progress s -> (exists B, covered c s B) ->
  forall s1, after_bet c s b = Some s1 -> exists B, covered c (settle c s1) B.
Proof.
  intros S Hp (B & C) s1 H1. pose proof (fair_money c s (solvent_fair c s S)) as M. pose proof (solvent_nonneg c s S) as N.
  pose proof (mo_cfg _ _ M) as W. pose proof (mo_wf _ _ M) as I.
  destruct (after_bet_wf c s b s1 W I H1) as (A1 & A2 & A3 & A4 & A5 & _).
  destruct (after_bet_money c s b s1 M H1) as (_ & _ & K3).
  apply (settle_covered c s1 B); try assumption; [intros i; now apply K3, N|]. now apply (after_bet_covered c s b s1 B).
Qed.
Lemma solvent_covered c s : equal_antes c -> solvent c s -> in_progress s -> exists B, covered c s B.
Proof.
  intros Eq S. induction S as [w rnd s H Hs|s o S IH Ho Hn].
  - apply Dealer_inv in H. rewrite (bd_state _ _ _ _ H). intros P. exfalso. now apply P.
  - pose proof (fair_money c s (solvent_fair c s S)) as M. destruct o as [rnd rb rs|b|cs| |l]; cbn [apply_op] in *.
    + intros P. assert (Hok : is_ok (snd (reset c s rnd rb rs)) = true).
      { destruct Ho as [Ho|Ho]; [|exact Ho]. destruct (reset_spec c s rnd rb rs (mo_cfg _ _ M) (mo_wf _ _ M)) as [(E1 & E2 & E3)|[(E1 & E2)|(E1 & E2 & E3 & E)]]; [exfalso|exfalso|exact E3].
        - unfold reset in P. subst rs. cbn [reset_active fst] in P. assert (E2' : count_true (map (fun x => 0 <? x) (stacks s)) <= 1) by exact E2.
          replace (negb false && (count_true (map (fun x => 0 <? x) (stacks s)) <=? 1)) with true in P by (cbn [negb andb]; lia). now apply P.
        - assert (Ecc : num_community_cards c = []) by (apply length_zero_iff_nil; rewrite (cw_comm _ (mo_cfg _ _ M)); exact E1).
          unfold reset in P. rewrite Ecc in P. destruct (reset_active c s rs) as [act stk]. destruct (negb rs && _); now apply P. }
      now apply reset_covered.
    + intros P. destruct (action s) as [a|] eqn:Ea; [|unfold step in P; rewrite Ea in P; now apply P in Ea].
      assert (Ps : in_progress s) by (unfold in_progress; congruence).
      destruct (step_anatomy c s b Ps) as [(_ & E & _)|(s1 & H1 & E)]; [rewrite E; now apply IH|].
      destruct (step_covered c s b S Ps (IH Ps) s1 H1) as (B & C). exists B. rewrite E in *.
      destruct (step_end_cases c (settle c s1)) as [(e & _ & E')|[(pay & _ & _ & E')|(pay & _ & _ & E')]]; rewrite E' in *; [exact C|exfalso; now apply P|exact C].
    + intros P. destruct (deck_trick cs (the_deck s)); [|now apply IH]. destruct (IH P) as (B & [C1 C2 C3]). exists B. now split.
    + intros P. destruct (IH P) as (B & [C1 C2 C3]). exists B. now split.
    + intros P. exfalso. apply P. apply Hn.
Qed.
(** at the end of a step of a solvent table everybody who has folded is covered *)
Lemma covered_show c s B : covered c s B -> List.length (street_commits s) = num_players c -> covered_folds (show_of c s).
Proof.
  intros [C1 C2 (w & Lw & Aw & Bw & Tw)] L i Hi _. cbn [show_of sd_players sd_in sd_put] in *. exists w. split; [exact Lw|]. split; [exact Aw|].
  specialize (C1 i Hi). pose proof (maxZ_nth_ge (street_commits s) i ltac:(lia)). unfold street_committed in *. lia.
Qed.
Lemma step_covered_show c s b : equal_antes c -> solvent c s -> in_progress s -> covered_folds (show_of c (fst (step c s b))).
Proof.
  intros Eq S Hp. pose proof (solvent_covered c s Eq S Hp) as C. pose proof (fair_money c s (solvent_fair c s S)) as M.
  pose proof (mo_cfg _ _ M) as W. pose proof (mo_wf _ _ M) as I.
  destruct (step_anatomy c s b Hp) as [(_ & E & _)|(s1 & H1 & E)].
  - rewrite E. destruct C as (B & C). apply (covered_show c s B C). apply I.
  - destruct (step_covered c s b S Hp C s1 H1) as (B & C').
    destruct (after_bet_wf c s b s1 W I H1) as (A1 & A2 & A3 & A4 & A5 & A6 & A7 & A8 & A9 & A10 & A11).
    destruct (settle_wf c s1 W A1 A2 A3 A4 A5 A6 A7 A8 A9 A10) as (_ & B1 & B2 & B3 & B4 & B5 & B6 & B7 & B8 & B9).
    assert (X : covered_folds (show_of c (settle c s1))) by (apply (covered_show c _ B C'); assumption).
    replace (show_of c (fst (step c s b))) with (show_of c (settle c s1)); [exact X|]. rewrite E.
    destruct (step_end_cases c (settle c s1)) as [(e & _ & E')|[(pay & _ & _ & E')|(pay & _ & _ & E')]]; rewrite E'; reflexivity.
Qed.

(** ** solvency of concrete games *)
Definition solvent_opb (c : config) (s : state) (o : op) : bool :=
  match o with
  | OReset rnd rb rs => forallb (Z.leb 0) (stacks (fst (reset c s rnd rb rs)))
  | OSetStacks l => match action s with None => forallb (Z.leb 0) l | Some _ => false end
  | _ => true
  end.
Fixpoint all_solvent (c : config) (s : state) (ops : list op) : bool :=
  match ops with
  | [] => true
  | o :: r => if solvent_opb c s o then all_solvent c (apply_op c s o) r else false
  end.
Lemma forallb_no_debts s : forallb (Z.leb 0) (stacks s) = true -> no_debts s.
Proof.
  rewrite forallb_forall. intros H i. unfold stack_of. destruct (Nat.lt_ge_cases i (List.length (stacks s))) as [L|L]; [|rewrite nth_overflow by exact L; lia].
  specialize (H _ (nth_In _ 0 L)). lia.
Qed.
Lemma solvent_run c s ops : solvent c s -> all_allowed c s ops = true -> all_solvent c s ops = true -> solvent c (run c s ops).
Proof.
  revert s; induction ops as [|o ops IH]; intros s R H F; [exact R|]. cbn [all_allowed] in H. cbn [all_solvent] in F.
  destruct (allowedb c s o) eqn:E; [|discriminate]. destruct (solvent_opb c s o) eqn:E2; [|discriminate].
  cbn. apply IH; [|exact H|exact F]. apply solvent_op; [exact R| |].
  - destruct o as [rnd rb rs|b|cs| |l]; cbn in *; try exact I.
    + destruct (action s) eqn:Ea; [now right|now left].
    + now apply PeanoNat.Nat.eqb_eq in E.
  - destruct o as [rnd rb rs|b|cs| |l]; cbn [solvent_opb] in *; try exact I; [now apply forallb_no_debts|].
    destruct (action s); [discriminate|]. split; [reflexivity|]. rewrite forallb_forall in E2. apply Forall_forall. intros x Hx. apply E2 in Hx. lia.
Qed.
Lemma played_solvent w ops c s : played w ops = Ok (c, s) ->
  match Dealer [] w with Ok (c0, s0) => all_solvent c0 s0 ops | Err _ => false end = true -> solvent c s.
Proof.
  unfold played. destruct (Dealer [] w) as [[c0 s0]|] eqn:E; [|discriminate]. cbn [bind].
  destruct (all_allowed c0 s0 ops && saneb c0 && fair_ops ops) eqn:A; [|discriminate]. intros H. injection H as <- <-. intros Hs.
  apply andb_true_iff in A. destruct A as [A A3]. apply andb_true_iff in A. destruct A as [A1 A2].
  apply solvent_run; try assumption. eapply solvent_new; [exact E|now apply saneb_sane].
Qed.
