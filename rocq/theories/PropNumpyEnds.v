(** * PropNumpyEnds: hands of the dealer on arrays that always end (C69, C76) *)
From Coq Require Import ZifyBool ZifyNat Arith Permutation Sorted.
From Verif Require Import PyBase PyFacts CardModel CardSpec CardProofs DeckSpec DeckProofs EvalModel EvalSpec EvalFinal EngineModel EngineSpec EngineFacts BetFacts EngineDemo MoneyFacts ConfigsModel
  PropEval PropConfig ShowSpec ShowFacts SideFacts SideExists HandEnd PropRound PropReset PropShow PropSide PropTerm PropBetting SolventSpec SolventFacts PropSolvent PropWin ExampleModel PropExample
  NumpyModel NumpySpec NumpyFacts PropNumpy PropNumpyAfter PropNumpyCards NumpyExampleModel.

(** ** C69 Showdowns that can always be paid out *)
(** somebody in the hand has put in the most of the street, and the chips in the pot are not all from players who folded *)
Record backed (c : config) (s : state) : Prop := mkBacked {
  bk_top : exists w, (w < num_players c)%nat /\ is_active s w /\ street_committed s w = maxZ (street_commits s);
  bk_pot : (forall j, (j < num_players c)%nat -> committed s j = 0) \/ exists w, (w < num_players c)%nat /\ is_active s w /\ 0 < committed s w
}.
Lemma backed_wrap c s : backed c (wrap c s) <-> backed c s.
Proof. split; intros [C1 C2]; split; assumption. Qed.
Lemma after_bet_backed c s b s1 : money c s -> no_debts s -> in_progress s -> street_within s -> backed c s -> after_bet c s b = Some s1 -> backed c s1.
Proof.
  intros M N Hp Wi C H. apply after_bet_effect in H. destruct H as (a & call & mi & ma & bet & folds & E).
  pose proof (be_turn _ _ _ _ _ _ _ _ _ _ E) as Ta. pose proof (money_limits c s a call mi ma M Ta (be_sizes _ _ _ _ _ _ _ _ _ _ E)) as L.
  destruct (be_round _ _ _ _ _ _ _ _ _ _ E) as (z & Hz & Hs). pose proof (settled_bet s a call mi ma b z L Hz) as F. rewrite Hs in F. destruct F as (F1 & F2 & F3 & F4 & F5 & F6).
  pose proof (mo_wf _ _ M) as Iw. destruct (wf_turn _ _ Iw a Ta) as [La Ea].
  pose proof (N a) as Na. unfold stack_of in Na. specialize (F4 Na).
  assert (Ec : forall i, committed s1 i = committed s i + if Nat.eqb i a then bet else 0).
  { intros i. unfold committed. rewrite (be_commits _ _ _ _ _ _ _ _ _ _ E), add_at_nth by (rewrite (wf_commits _ _ Iw); exact La).
    destruct (Nat.eqb_spec i a) as [->|]; lia. }
  assert (Et : forall i, street_committed s1 i = street_committed s i + if Nat.eqb i a then bet else 0).
  { intros i. unfold street_committed. rewrite (be_street_commits _ _ _ _ _ _ _ _ _ _ E), add_at_nth by (rewrite (wf_street _ _ Iw); exact La).
    destruct (Nat.eqb_spec i a) as [->|]; lia. }
  assert (Lt : List.length (street_commits s1) = num_players c) by (rewrite (be_street_commits _ _ _ _ _ _ _ _ _ _ E), add_at_length; apply Iw).
  assert (Ak : forall i, is_active s i -> i <> a \/ folds = false -> is_active s1 i).
  { intros i Ai Hi. unfold is_active. rewrite (be_active _ _ _ _ _ _ _ _ _ _ E). destruct folds; [|exact Ai].
    destruct Hi as [Hi|Hi]; [|discriminate Hi]. now rewrite upd_nth_other by congruence. }
  destruct C as [(w & Lw & Aw & Tw) C2].
  assert (G : forall j, (j < num_players c)%nat -> street_committed s j <= maxZ (street_commits s)) by (intros j Hj; apply maxZ_nth_ge; now rewrite (wf_street _ _ Iw)).
  (* somebody who folds has put in less than the seat w *)
  assert (Fo : folds = true -> bet = 0 /\ w <> a /\ street_committed s a < street_committed s w).
  { intros Hf. pose proof (F3 Hf) as B0. destruct F2 as [F2 _]. destruct (F2 Hf) as [F2' _]. rewrite (li_call _ _ _ _ _ L) in F2'.
    pose proof (G a La). unfold raw_call, street_committed in *. split; [lia|]. split; [intros ->; lia|lia]. }
  split.
  - destruct (Z_lt_le_dec (maxZ (street_commits s)) (street_committed s a + bet)) as [Gt|Le].
    + exists a. split; [exact La|].
      assert (Hf : folds = false) by (destruct folds; [destruct (Fo eq_refl); pose proof (G a La); lia|reflexivity]).
      split; [now apply Ak; [|right]|]. rewrite Et, Nat.eqb_refl. symmetry. apply maxZ_max.
      * intros i Hi. rewrite Lt in Hi. change (street_committed s1 i <= street_committed s a + bet). rewrite Et. pose proof (G i Hi). destruct (Nat.eqb_spec i a) as [->|]; lia.
      * exists a. split; [lia|]. change (street_committed s1 a = street_committed s a + bet). rewrite Et, Nat.eqb_refl. reflexivity.
    + exists w. split; [exact Lw|].
      assert (Zw : (if Nat.eqb w a then bet else 0) = 0) by (destruct (Nat.eqb_spec w a) as [E'|]; [subst w; lia|reflexivity]).
      split.
      * apply Ak; [exact Aw|]. destruct folds; [left; now apply Fo|now right].
      * rewrite Et, Zw. rewrite Z.add_0_r, Tw. symmetry. apply maxZ_max.
        -- intros i Hi. rewrite Lt in Hi. change (street_committed s1 i <= maxZ (street_commits s)). rewrite Et. pose proof (G i Hi). destruct (Nat.eqb_spec i a) as [->|]; lia.
        -- exists w. split; [lia|]. change (street_committed s1 w = maxZ (street_commits s)). rewrite Et, Zw. lia.
  - destruct folds.
    + destruct (Fo eq_refl) as (B0 & Hw & Lt').
      destruct C2 as [C2|(v & Lv & Av & Pv)].
      * left. intros j Hj. rewrite Ec, B0, (C2 j Hj). destruct (Nat.eqb j a); lia.
      * right. exists w. split; [exact Lw|]. split; [apply Ak; [exact Aw|now left]|]. rewrite Ec. pose proof (Wi a). pose proof (Wi w).
        destruct (Nat.eqb_spec w a); lia.
    + destruct (Z.eq_dec bet 0) as [B0|B0].
      * destruct C2 as [C2|(v & Lv & Av & Pv)]; [left|right].
        -- intros j Hj. rewrite Ec, B0, (C2 j Hj). destruct (Nat.eqb j a); lia.
        -- exists v. split; [exact Lv|]. split; [apply Ak; [exact Av|now right]|]. rewrite Ec, B0. destruct (Nat.eqb v a); lia.
      * right. exists a. split; [exact La|]. split; [apply Ak; [exact Ea|now right]|]. rewrite Ec, Nat.eqb_refl.
        pose proof (mo_commit _ _ M a). lia.
Qed.
Lemma settle_backed c s : cfg_wf c -> backed c s -> backed c (settle c s).
Proof.
  intros W C. destruct (settle_cases c s W) as [[_ ->]|[Ag E]]; [exact C|]. pose proof (settle_keep c s W) as K.
  destruct C as [(w & Lw & Aw & Tw) C2]. split.
  - exists w. split; [exact Lw|]. split; [unfold is_active; rewrite (sk_active _ _ K); exact Aw|].
    unfold street_committed. rewrite (ne_street_commits _ _ _ E), maxZ_repeat by (pose proof (cw_two _ W); lia). now apply nth_repeat_lt.
  - destruct C2 as [C2|(v & Lv & Av & Pv)]; [left|right; exists v]; unfold committed, is_active in *; rewrite ?(sk_commits _ _ K), ?(sk_active _ _ K); auto.
Qed.
Lemma reset_backed c s rnd rb rs : money c s -> is_ok (snd (reset c s rnd rb rs)) = true -> backed c (fst (reset c s rnd rb rs)).
Proof.
  intros M H. pose proof (mo_cfg _ _ M) as W. pose proof (mo_wf _ _ M) as Iw. pose proof (mo_sane _ _ M) as Sn.
  destruct (reset_spec c s rnd rb rs W Iw) as [(_ & _ & E)|[(_ & E)|(_ & _ & _ & E)]]; [rewrite E in H; discriminate H|rewrite E in H; discriminate H|].
  set (s' := fst (reset c s rnd rb rs)) in *. pose proof (cw_two _ W) as H2.
  destruct (re_money _ _ _ _ _ _ E) as (st & ante & blind & M1 & M2 & M3 & M4 & M5 & M6 & M7 & M8 & M9 & M10).
  assert (Sum : forall j, (j < num_players c)%nat -> committed s' j = nth j ante 0 + nth j blind 0 /\ street_committed s' j = nth j blind 0).
  { intros j Hj. unfold committed, street_committed. rewrite M8, M9, add_lists_nth by congruence. auto. }
  destruct (re_turn _ _ _ _ _ _ E) as (a & Ta & La & Aa).
  assert (Out : forall j, (j < num_players c)%nat -> nth j (active s') false = false -> nth j ante 0 = 0 /\ nth j blind 0 = 0).
  { intros j Hj Aj. destruct (M7 j Hj) as (N1 & N2 & _). cbv zeta in N1, N2. rewrite Aj, andb_false_r in N1, N2. auto. }
  split.
  - destruct (maxZ_nth_in blind ltac:(lia)) as (w & Hw & Ew). rewrite M6 in Hw.
    destruct (nth w (active s') false) eqn:Aw.
    + exists w. split; [exact Hw|]. split; [exact Aw|]. destruct (Sum w Hw) as [_ ->]. now rewrite M9.
    + exists a. split; [exact La|]. split; [exact Aa|]. destruct (Sum a La) as [_ ->]. rewrite M9. destruct (Out w Hw Aw) as [_ X]. rewrite X in Ew.
      pose proof (maxZ_nth_ge blind a ltac:(lia)) as Ge.
      destruct (M7 a La) as (_ & Na & _). cbv zeta in Na. pose proof (due_nonneg (num_players c) st a (blinds c) (sane_blinds _ Sn)). destruct (_ && _) in Na; lia.
  - destruct (existsb (fun j => negb (committed s' j =? 0)) (seq 0 (num_players c))) eqn:Ex.
    + right. apply existsb_exists in Ex. destruct Ex as (j & Hj & Pj). apply in_seq in Hj. exists j. split; [lia|].
      destruct (Sum j ltac:(lia)) as [Ej _]. destruct (nth j (active s') false) eqn:Aj; [|destruct (Out j ltac:(lia) Aj); lia]. split; [exact Aj|].
      enough (0 <= committed s' j) by lia. pose proof (reset_money c s rnd rb rs M (or_intror H)) as M'. apply (mo_commit _ _ M' j).
    + left. intros j Hj. destruct (Z.eq_dec (committed s' j) 0) as [E0|E0]; [exact E0|exfalso].
      assert (X : existsb (fun j => negb (committed s' j =? 0)) (seq 0 (num_players c)) = true) by (apply existsb_exists; exists j; split; [apply in_seq; lia|lia]).
      congruence.
Qed.
Lemma np_settled_backed c s b z : np_solvent c s -> in_progress s -> backed c s -> np_settled c s b z -> backed c z.
Proof.
  intros S Hp C Z. pose proof (np_fair_money c s (np_solvent_fair c s S)) as M. pose proof (np_solvent_nonneg c s S) as N. pose proof (np_solvent_within c s S Hp) as Wi.
  destruct (ns_after _ _ _ _ Z) as (s1 & H1 & Ez). apply (backed_wrap c z). rewrite Ez. apply settle_backed; [apply M|].
  apply (after_bet_backed c (wrap c s) b s1); try assumption. now apply backed_wrap.
Qed.
Lemma np_solvent_backed c s : np_solvent c s -> in_progress s -> backed c s.
Proof.
  intros S. induction S as [w rnd s H Hs|s o S IH Ho Hn].
  - apply Dealer_inv in H. rewrite (bd_state _ _ _ _ H). intros P. exfalso. now apply P.
  - pose proof (np_fair_money c s (np_solvent_fair c s S)) as M. pose proof (mo_cfg _ _ M) as W. pose proof (mo_wf _ _ M) as Iw.
    destruct o as [rnd rb rs|b|cs| |l]; cbn [np_apply_op] in *.
    + intros P. destruct (np_reset_wrap c s rnd rb rs W) as [E1 E2].
      assert (Hok : is_ok (snd (reset c (wrap c s) rnd rb rs)) = true).
      { pose proof (np_allowed_wrap c s rnd rb rs W Ho) as [Ho'|Ho']; [|exact Ho'].
        destruct (is_ok (snd (reset c (wrap c s) rnd rb rs))) eqn:Eok; [reflexivity|exfalso]. apply P.
        change (action (fst (np_reset c s rnd rb rs))) with (action (wrap c (fst (np_reset c s rnd rb rs)))). rewrite E1.
        destruct (reset_failed c (wrap c s) rnd rb rs W Iw Eok) as [-> _]. exact Ho'. }
      apply (backed_wrap c). rewrite E1. now apply reset_backed.
    + intros P. destruct (action s) as [a|] eqn:Ea; [|unfold np_step in P; rewrite Ea in P; now apply P in Ea].
      assert (Ps : in_progress s) by (unfold in_progress; congruence).
      destruct (np_step_settled c s b M Ps) as [(_ & -> & _)|(z & Z)]; [now apply IH|].
      rewrite (np_going _ _ _ _ Z P). apply (np_settled_backed c s b z); try assumption. now apply IH.
    + intros P. destruct (deck_trick cs (the_deck s)); [|now apply IH]. destruct (IH P) as [C1 C2]. now split.
    + intros P. destruct (IH P) as [C1 C2]. now split.
    + intros P. exfalso. apply P. apply Hn.
Qed.
(** a seat in the hand that has put in chips makes one of the shares positive *)
Lemma count_chips L L' (f : hand3 -> bool) all : L < L' -> (forall o, In o all -> f o = true -> L' <= h_commit o) ->
  Z.of_nat (List.length (filter f all)) <= chips_of all L L'.
Proof.
  intros HL H. unfold chips_of. induction all as [|o all IH]; [cbn; lia|]. cbn [map filter]. rewrite sumZ_cons.
  specialize (IH (fun x Hx => H x (or_intror Hx))). specialize (H o (or_introl eq_refl)). destruct (f o); cbn [List.length]; [specialize (H eq_refl)|]; lia.
Qed.
Lemma share_cons p r i : share (p :: r) i = (if existsb (Nat.eqb i) (fst p) then snd p / Z.of_nat (List.length (fst p)) else 0) + share r i.
Proof. reflexivity. Qed.
Lemma np_dealt_share worst n all : NoDup (map h_idx all) -> (forall h, In h all -> (h_idx h < n)%nat) -> StronglySorted hle all ->
  forall rest pre mk, all = pre ++ rest ->
  (forall o, In o rest -> mk (h_idx o) = false) -> (forall o, In o pre -> mk (h_idx o) = true) ->
  (exists w, In w rest /\ h_strength w < worst /\ 0 < h_commit w) ->
  exists q, (q < n)%nat /\ 0 < share (np_dealt worst all rest 0 mk) q.
Proof.
  intros ND B Srt. induction rest as [|h rest IH]; intros pre mk Ea Hm Hmk (w & Hw & Sw & Pw); [destruct Hw|]. cbn [np_dealt].
  assert (Hh : In h all) by (rewrite Ea; apply in_or_app; right; now left).
  assert (Es : all = (pre ++ [h]) ++ rest) by (rewrite Ea, <- app_assoc; reflexivity).
  pose proof Srt as Sr. rewrite Ea in Sr. apply sorted_split in Sr. destruct Sr as [S1 S2].
  assert (Nr : forall o, In o rest -> h_idx o <> h_idx h).
  { intros o Ho X. rewrite Ea, map_app in ND. cbn [map] in ND. apply NoDup_remove_2 in ND. apply ND. rewrite <- X. apply in_or_app. right. now apply in_map. }
  assert (Hm2 : forall o, In o rest -> Nat.eqb (h_idx o) (h_idx h) || mk (h_idx o) = false).
  { intros o Ho. rewrite (Hm o (or_intror Ho)), orb_false_r. apply Nat.eqb_neq. now apply Nr. }
  destruct (h_commit h <=? 0) eqn:EL.
  - apply (IH (pre ++ [h])); [exact Es|exact Hm2| |].
    + intros o Ho. apply in_app_or in Ho. destruct Ho as [Ho|[<-|[]]]; [now rewrite (Hmk o Ho), orb_true_r|now rewrite Nat.eqb_refl].
    + exists w. destruct Hw as [<-|Hw]; [lia|auto].
  - assert (Sh : h_strength h < worst).
    { destruct Hw as [<-|Hw]; [exact Sw|]. pose proof (S2 w Hw) as Hle. apply hle_spec in Hle. lia. }
    set (el := eligible_for worst all mk (h_strength h)).
    assert (Ie : In (h_idx h) el).
    { unfold el, eligible_for. apply in_map. apply filter_In. split; [exact Hh|]. unfold cur_strength. rewrite (Hm h (or_introl eq_refl)). lia. }
    assert (Le : Z.of_nat (List.length el) <= chips_of all 0 (h_commit h)).
    { unfold el, eligible_for. rewrite map_length. apply count_chips; [lia|]. intros o Ho E. apply Z.eqb_eq in E. unfold cur_strength in E.
      destruct (mk (h_idx o)) eqn:Mo; [lia|]. rewrite Ea in Ho. apply in_app_or in Ho. destruct Ho as [Ho|[<-|Ho]]; [rewrite (Hmk o Ho) in Mo; discriminate Mo|lia|].
      pose proof (S2 o Ho) as Hle. apply hle_spec in Hle. lia. }
    exists (h_idx h). split; [now apply B|]. rewrite share_cons. cbn [fst snd].
    replace (existsb (Nat.eqb (h_idx h)) el) with true by (symmetry; apply existsb_exists; exists (h_idx h); split; [exact Ie|apply Nat.eqb_refl]).
    assert (Pe : (0 < List.length el)%nat) by (destruct el; [destruct Ie|cbn; lia]).
    assert (1 <= chips_of all 0 (h_commit h) / Z.of_nat (List.length el)) by (apply Z.div_le_lower_bound; lia).
    enough (0 <= share (np_dealt worst all rest (h_commit h) (fun i => Nat.eqb i (h_idx h) || mk i)) (h_idx h)) by lia.
    apply (share_nonneg n). apply np_dealt_good; try assumption.
    + intros x Hx. rewrite Es. apply in_or_app. now right.
    + clear -ND Es. rewrite Es, map_app in ND. revert ND. generalize (map h_idx (pre ++ [h])) as l. induction l as [|x l IH]; intros ND; [exact ND|]. apply IH. now inversion ND.
Qed.
Lemma backed_share c z st : backed c z -> List.length (pot_commits z) = num_players c -> List.length (hole_cards z) = num_players c -> (forall i, 0 <= committed z i) ->
  eval_hands c (active z) (hole_cards z) (community_cards z) = Ok st ->
  odd_chips (np_pots_of c z st) = 0 \/ exists q, (q < num_players c)%nat /\ 0 < share (np_pots_of c z st) q.
Proof.
  intros [_ Bp] Lc Lh Hn Ev. destruct (eval_hands_spec c z st Lh Ev) as [Ls Hst].
  destruct (np_split_pots_spec (num_players c) O (worst_hand c) (sumZ (pot_commits z)) st (pot_commits z) Ls Lc) as (_ & G & T); [apply nonneg_forall; exact Hn|reflexivity|].
  fold (np_pots_of c z st) in G, T.
  destruct Bp as [Z0|(w & Lw & Aw & Pw)].
  - left. pose proof (odd_nonneg _ _ G) as On.
    assert (S0 : sumZ (pot_commits z) = 0).
    { rewrite (sum_by_seat (pot_commits z) (fun _ => 0) (num_players c) Lc) by (intros i Hi; exact (Z0 i Hi)).
      generalize (seq 0 (num_players c)). clear. induction l as [|x l IH]; [reflexivity|]. cbn [map]. rewrite sumZ_cons. lia. }
    assert (0 <= sumZ (map (share (np_pots_of c z st)) (seq 0 (num_players c)))); [|lia].
    apply sumZ_map_nonneg. intros i _. eapply share_nonneg. exact G.
  - right. unfold np_pots_of, np_show_pots. assert (Hl : List.length (pot_commits z) = List.length st) by congruence.
    apply (np_dealt_share (worst_hand c) (num_players c) (show_hands st (pot_commits z))) with (pre := []).
    + now apply show_nodup.
    + intros h Hh. apply show_in in Hh; [|exact Hl]. now rewrite Ls in Hh.
    + apply sort_sorted.
    + reflexivity.
    + reflexivity.
    + intros o [].
    + pose proof (show_idx st (pot_commits z) Hl) as Pi.
      assert (X : In w (map h_idx (show_hands st (pot_commits z)))) by (apply (Permutation_in _ (Permutation_sym Pi)); apply in_seq; lia).
      apply in_map_iff in X. destruct X as (h & Eh & Hh). exists h. split; [exact Hh|]. apply show_in in Hh; [|exact Hl]. destruct Hh as (_ & H2 & H3).
      rewrite H2, H3, Eh. destruct (Hst w Lw) as [H _]. destruct (H Aw) as (H4 & H5 & _). split; [lia|exact Pw].
Qed.
(** at a table without debts a showdown fails only if the hands cannot be evaluated *)
Lemma np_showdown_pays c s b z : np_solvent c s -> in_progress s -> np_settled c s b z ->
  is_ok (eval_hands c (active z) (hole_cards z) (community_cards z)) = true -> is_ok (np_payouts c z) = true.
Proof.
  intros S Hp Z Ev. destruct (np_payouts c z) as [pay|e] eqn:P; [reflexivity|exfalso]. pose proof (np_payouts_err c z e P) as [Hc Hs].
  destruct (np_show_payouts c z Hc Hs (ns_commits _ _ _ _ Z) (ns_hole _ _ _ _ Z) (ns_nonneg _ _ _ _ Z) (ns_pot _ _ _ _ Z)) as [(e' & X & _)|(st & X & K)]; [rewrite X in Ev; discriminate Ev|].
  cbv zeta in K. destruct K as (_ & _ & K). rewrite P in K.
  destruct K as [(_ & K)|[(K1 & K2 & _)|(_ & q & _ & _ & _ & K)]]; [discriminate K| |discriminate K].
  destruct (backed_share c z st (np_settled_backed c s b z S Hp (np_solvent_backed c s S Hp) Z) (ns_commits _ _ _ _ Z) (ns_hole _ _ _ _ Z) (ns_nonneg _ _ _ _ Z) X) as [Y|(q & Q1 & Q2)]; [lia|].
  rewrite (K2 q Q1) in Q2. lia.
Qed.
(** a step of a hand: it returns, unless the hands cannot be evaluated at a showdown *)
Lemma np_step_returns c s b : np_solvent c s -> in_progress s -> (street s < num_streets c)%nat -> is_ok (py_round b) = true ->
  (let t := fst (np_step c s b) in (num_streets c <= street t)%nat -> forall i, (i < num_players c)%nat -> is_active t i ->
     is_ok (evaluate (the_evaluator c) (nth i (hole_cards t) []) (community_cards t)) = true) ->
  is_ok (snd (np_step c s b)) = true /\ (in_progress (fst (np_step c s b)) -> (street (fst (np_step c s b)) < num_streets c)%nat).
Proof.
  intros S Hp Hs Hb. cbv zeta. intros Ev. pose proof (np_solvent_fair c s S) as F. pose proof (np_fair_money c s F) as M. pose proof (cw_two _ (mo_cfg _ _ M)) as H2.
  destruct (np_step_settled c s b M Hp) as [(X & _ & _)|(z & Z)].
  { exfalso. unfold after_bet in X. change (action (wrap c s)) with (action s) in X. unfold in_progress in Hp. destruct (action s) as [a|]; [|now apply Hp].
    destruct (py_round b); [|discriminate Hb]. destruct (bet_sizes_ok c (wrap c s) (mo_cfg _ _ M) Hs) as [[[x y] w] Y]. rewrite Y in X. destruct (settle_bet _ _ _ _ _). discriminate X. }
  destruct (np_same _ _ _ _ Z) as (E1 & _ & E3 & _ & E5 & E6).
  destruct (Nat.lt_ge_cases (street z) (num_streets c)) as [Lt|Ge].
  - split; [|rewrite E3; auto]. apply (C69_returns c s b F Hp Hs Hb). right. now rewrite E3.
  - assert (P : is_ok (np_payouts c z) = true).
    { apply (np_showdown_pays c s b z S Hp Z). rewrite E3 in Ev. specialize (Ev Ge). unfold eval_hands.
      destruct (map_res_all (fun p => if nth p (active z) false then let* h := get (hole_cards z) p in evaluate (the_evaluator c) h (community_cards z) else Ok (worst_hand c)) (seq 0 (num_players c))) as (r & ->); [|reflexivity].
      intros x Hx. apply in_seq in Hx. destruct (nth x (active z) false) eqn:Ax; [|reflexivity]. unfold get.
      rewrite (nth_error_nth' _ []) by (rewrite (ns_hole _ _ _ _ Z); lia). cbn [bind]. unfold is_active in Ev. rewrite E1, E5, E6 in Ev. apply Ev; [lia|exact Ax]. }
    destruct (np_payouts c z) as [pay|e] eqn:Ep; [|discriminate P].
    destruct (np_settled_ends c s b z pay Z H2 (or_introl Ge) Ep) as (o & E). split; [now rewrite (ne_out _ _ _ _ _ _ E)|].
    rewrite (ne_state _ _ _ _ _ _ E). intros X. exfalso. now apply X.
Qed.
(** Without debts every hand ends, with any antes, if the hands can be ranked *)
Theorem C69_solvent : forall c s bs, np_solvent c s -> (street s < num_streets c)%nat ->
  Forall (fun b => is_ok (py_round b) = true) bs -> longest c s <= Z.of_nat (List.length bs) ->
  (forall k i, let t := np_run_steps c s (firstn k bs) in (i < num_players c)%nat ->
     is_active t i -> (num_streets c <= street t)%nat ->
     is_ok (evaluate (the_evaluator c) (nth i (hole_cards t) []) (community_cards t)) = true) ->
  action (np_run_steps c s bs) = None.
Proof.
  intros c s bs S Hs Hb H Ev. destruct (C69_finite c s bs (np_solvent_fair c s S) Hb H) as [T|(T1 & T2 & _)]; [exact T|exfalso].
  clear H. revert s S Hs Ev T1 T2. induction bs as [|b bs IH]; intros s S Hs Ev T1 T2; [cbn in T2; lia|].
  inversion Hb as [|? ? Hb1 Hb2]; subst. specialize (IH Hb2).
  change (np_run_steps c s (b :: bs)) with (np_run_steps c (fst (np_step c s b)) bs) in *.
  assert (S' : np_solvent c (fst (np_step c s b))) by exact (np_solvent_op c s (OStep b) S I I).
  assert (Hp : in_progress s) by (intros X; apply T1; rewrite np_run_idle; unfold np_step; rewrite X; exact X).
  destruct (np_step_returns c s b S Hp Hs Hb1) as [_ Lt]; [intros t Ge i Hi Ai; exact (Ev 1%nat i Hi Ai Ge)|].
  assert (Hp' : in_progress (fst (np_step c s b))) by (intros X; apply T1; now rewrite np_run_idle).
  apply (IH (fst (np_step c s b)) S' (Lt Hp')); [|exact T1|exact T2]. intros k i. exact (Ev (1 + k)%nat i).
Qed.
Print Assumptions C69_solvent.

(** ** C76 At a table without debts every hand can be played to its end *)
(** amounts are not negative, the evaluator can rank hands (as in C11) *)
Record playable (w : raw_config) : Prop := mkPlayable {
  pl_blinds : Forall (fun b => 0 <= b) (inp_list (rw_blinds w) (rw_num_players w));
  pl_antes : Forall (fun b => 0 <= b) (inp_list (rw_antes w) (rw_num_players w));
  pl_raises : Forall (fun r => match r with RawInt z => 0 <= z | _ => True end) (inp_list (rw_raise_sizes w) (rw_num_streets w));
  pl_start : 0 <= rw_start_stack w;
  pl_hand : 0 <= rw_mandatory_num_hole_cards w <= rw_num_cards_for_hand w;
  pl_order : rw_order w = None \/ (order_perm (rw_order w) /\ rw_num_suits w <> 1)
}.
(** the histories of a table with this configuration: fair play without debts (NumpySpec.v); the deck is not tricked with a card twice *)
Inductive np_game (w : raw_config) (c : config) : state -> Prop :=
| np_game_new rnd s : Dealer rnd w = Ok (c, s) -> np_game w c s
| np_game_op s o : np_game w c s -> np_allowed c s o ->
    match o with
    | OReset rnd rb rs => no_debts (fst (np_reset c s rnd rb rs))
    | OSetStacks l => action s = None /\ Forall (fun x => 0 <= x) l
    | OTrick cs => NoDup (map c_int cs)
    | _ => True
    end ->
    np_game w c (np_apply_op c s o).
Lemma ordinary_playable w : ordinary w -> playable w.
Proof. intros [A B C D _ E F _]. split; try assumption. lia. Qed.
Lemma playable_sane w rnd c s : playable w -> Dealer rnd w = Ok (c, s) -> sane c.
Proof.
  intros Ow D. pose proof (Dealer_inv _ _ _ _ D) as B.
  pose proof (check_inp_list _ _ _ (bd_blinds _ _ _ _ B)) as Eb. pose proof (check_inp_list _ _ _ (bd_antes _ _ _ _ B)) as Ean.
  destruct (bd_raises _ _ _ _ B) as (rs & Ers & Ecr). pose proof (check_inp_list _ _ _ Ers) as Er.
  assert (Cr : Forall2 cleaned rs (raise_sizes c)).
  { destruct (clean_rs_map rs) as [[_ X]|[_ (r & X & Y)]]; rewrite X in Ecr; [discriminate Ecr|]. injection Ecr as <-. exact Y. }
  split.
  - rewrite Eb. apply Ow.
  - rewrite Ean. apply Ow.
  - pose proof (pl_raises _ Ow) as Q. rewrite <- Er in Q. clear - Q Cr. induction Cr as [|x y l r H _ IH]; [constructor|]. inversion Q as [|? ? Q1 Q2]; subst.
    constructor; [|now apply IH]. destruct H as [(z & -> & ->)|[[-> ->]|[-> ->]]]; [exact Q1|exact I|exact I].
  - rewrite (bd_stack _ _ _ _ B). apply Ow.
Qed.
Lemma np_game_built w c s : np_game w c s -> exists rnd s0, Dealer rnd w = Ok (c, s0).
Proof. intros G. induction G as [rnd s D|]; [exists rnd, s; exact D|assumption]. Qed.
Lemma np_game_solvent w c s : playable w -> np_game w c s -> np_solvent c s.
Proof.
  intros P G. induction G as [rnd s D|s o G IH Ho Hn].
  - apply (np_solvent_new c w rnd s D). exact (playable_sane w rnd c s P D).
  - apply np_solvent_op; [exact IH|exact Ho|]. destruct o; try exact I; exact Hn.
Qed.
Lemma np_game_cards w c s : playable w -> np_game w c s -> cards_inv (Z.to_nat (rw_num_suits w)) (Z.to_nat (rw_num_ranks w)) s.
Proof.
  intros P G. induction G as [rnd s D|s o G IH Ho Hn]; [exact (dealer_cards rnd w c s D)|].
  apply np_cards_op; [exact (np_solvent_fair c s (np_game_solvent w c s P G))|exact Ho| |exact IH]. destruct o; try exact I; exact Hn.
Qed.
(** every hand can be ranked *)
Lemma np_game_ranks w c s : playable w -> np_game w c s ->
  forall i, (i < List.length (hole_cards s))%nat -> is_ok (evaluate (the_evaluator c) (nth i (hole_cards s) []) (community_cards s)) = true.
Proof.
  intros Pl G i Lh. destruct (np_game_built w c s G) as (rnd & s0 & D). pose proof (Dealer_inv _ _ _ _ D) as B.
  pose proof (np_game_cards w c s Pl G) as Ci. pose proof (cards_inv_distinct _ _ _ Ci) as N. destruct Ci as [_ _ P].
  destruct (in_concat_split (hole_cards s) i Lh) as (u & v & Ec).
  set (hole := nth i (hole_cards s) []) in *. set (comm := community_cards s) in *.
  apply NoDup_map_inv in N. rewrite Ec in P, N.
  assert (Ds : 1 <= rw_num_suits w <= 4 /\ 1 <= rw_num_ranks w <= 13).
  { destruct (new_deck_inv _ _ _ _ (bd_deck _ _ _ _ B)) as [Q _ _]. pose proof (dw_s _ _ _ Q). pose proof (dw_r _ _ _ Q). lia. }
  destruct (C11_best_hand (rw_num_suits w) (rw_num_ranks w) (rw_num_cards_for_hand w) (rw_mandatory_num_hole_cards w) (rw_low_end_straight w) (rw_order w) (the_evaluator c) hole comm) as (val & Ev & _).
  - lia.
  - lia.
  - destruct (pl_order _ Pl) as [->|[Q _]]; [exact I|exact Q].
  - exact (bd_eval _ _ _ _ B).
  - apply Pl.
  - destruct (pl_order _ Pl) as [->|[_ Q]]; [now left|right; intros (Y & _); contradiction].
  - apply (NoDup_app_piece comm hole (u ++ v ++ d_cards (the_deck s))).
    eapply Permutation_NoDup; [|exact N]. apply Permutation_app_head. rewrite <- !app_assoc. apply Permutation_app_swap_app.
  - intros x Hx. assert (Hin : In x (deck_cards (Z.to_nat (rw_num_suits w)) (Z.to_nat (rw_num_ranks w)))).
    { apply (Permutation_in x P). rewrite !in_app_iff in *. tauto. }
    apply in_deck_cards in Hin; [|lia]. destruct Hin as (y & z & Y1 & Y2 & ->). exists y, z. repeat split; lia.
  - rewrite Ev. reflexivity.
Qed.
(** a step of a hand at such a table *)
Lemma np_game_step w c s b : playable w -> np_game w c s -> in_progress s -> (street s < num_streets c)%nat -> is_ok (py_round b) = true ->
  is_ok (snd (np_step c s b)) = true /\ (in_progress (fst (np_step c s b)) -> (street (fst (np_step c s b)) < num_streets c)%nat).
Proof.
  intros Pl G Hp Hs Hb. pose proof (np_game_solvent w c s Pl G) as S. apply np_step_returns; try assumption. cbv zeta. intros _ i Hi _.
  apply (np_game_ranks w); [exact Pl|exact (np_game_op w c s (OStep b) G I I)|].
  pose proof (np_fair_money c s (np_solvent_fair c s S)) as M. destruct (np_step_settled c s b M Hp) as [(_ & -> & _)|(z & Z)].
  - pose proof (wf_hole _ _ (mo_wf _ _ M)) as Q. cbn [wrap set_button hole_cards] in Q. rewrite Q by exact Hp. exact Hi.
  - destruct (np_same _ _ _ _ Z) as (_ & _ & _ & _ & -> & _). rewrite (ns_hole _ _ _ _ Z). exact Hi.
Qed.
Lemma np_game_street w c s : playable w -> np_game w c s -> in_progress s -> (street s < num_streets c)%nat.
Proof.
  intros Pl G. induction G as [rnd s D|s o G IH Ho Hn].
  - apply Dealer_inv in D. rewrite (bd_state _ _ _ _ D). intros P. exfalso. now apply P.
  - pose proof (np_fair_money c s (np_solvent_fair c s (np_game_solvent w c s Pl G))) as M. pose proof (mo_cfg _ _ M) as W. pose proof (mo_wf _ _ M) as Iw.
    destruct o as [rnd rb rs|b|cs| |l]; cbn [np_apply_op] in *.
    + intros P. destruct (np_reset_wrap c s rnd rb rs W) as [E1 E2].
      assert (Hok : is_ok (snd (reset c (wrap c s) rnd rb rs)) = true).
      { pose proof (np_allowed_wrap c s rnd rb rs W Ho) as [Ho'|Ho']; [|exact Ho'].
        destruct (is_ok (snd (reset c (wrap c s) rnd rb rs))) eqn:Eok; [reflexivity|exfalso]. apply P.
        change (action (fst (np_reset c s rnd rb rs))) with (action (wrap c (fst (np_reset c s rnd rb rs)))). rewrite E1.
        destruct (reset_failed c (wrap c s) rnd rb rs W Iw Eok) as [-> _]. exact Ho'. }
      change (street (wrap c (fst (np_reset c s rnd rb rs))) < num_streets c)%nat. rewrite E1.
      destruct (reset_spec c (wrap c s) rnd rb rs W Iw) as [(_ & _ & E)|[(_ & E)|(H1 & H2 & H3 & E)]]; [rewrite E in Hok; discriminate Hok|rewrite E in Hok; discriminate Hok|].
      rewrite (re_street _ _ _ _ _ _ E). destruct (num_streets c) eqn:Ens; [exfalso|lia].
      pose proof (cw_comm _ W) as Lc. rewrite Ens in Lc. apply length_zero_iff_nil in Lc. unfold reset in Hok. rewrite Lc in Hok.
      destruct (reset_active c (wrap c s) rs) as [act stk]. destruct (negb rs && _); discriminate Hok.
    + intros P. destruct (action s) as [a|] eqn:Ea; [|unfold np_step in P; rewrite Ea in P; now apply P in Ea].
      assert (Ps : in_progress s) by (unfold in_progress; congruence). specialize (IH Ps).
      destruct (is_ok (py_round b)) eqn:Eb; [now apply (np_game_step w c s b Pl G Ps IH Eb)|].
      unfold np_step. rewrite Ea. destruct (py_round b); [discriminate Eb|exact IH].
    + intros P. destruct (deck_trick cs (the_deck s)); now apply IH.
    + exact IH.
    + intros P. exfalso. apply P. apply Hn.
Qed.
(** every bet that is a number is taken *)
Theorem C76_returns : forall w c s b, playable w -> np_game w c s -> in_progress s -> is_ok (py_round b) = true -> is_ok (snd (np_step c s b)) = true.
Proof. intros w c s b Pl G Hp Hb. apply (np_game_step w); try assumption. now apply (np_game_street w). Qed.
Print Assumptions C76_returns.
(** after [longest] (PropTerm.v) bets the hand is over *)
Theorem C76_ends : forall w c s bs, playable w -> np_game w c s -> Forall (fun b => is_ok (py_round b) = true) bs ->
  longest c s <= Z.of_nat (List.length bs) -> action (np_run_steps c s bs) = None.
Proof.
  intros w c s bs Pl G Hb H. pose proof (np_game_solvent w c s Pl G) as S. destruct (C69_finite c s bs (np_solvent_fair c s S) Hb H) as [T|(T1 & T2 & _)]; [exact T|exfalso].
  assert (G' : np_game w c (np_run_steps c s bs)).
  { clear - G. revert s G; induction bs as [|b bs IH]; intros s G; [exact G|]. exact (IH _ (np_game_op w c s (OStep b) G I I)). }
  pose proof (np_game_street w c _ Pl G' T1). lia.
Qed.
Print Assumptions C76_ends.

(** *** programs that play a hand *)
Section Loop.
Context {A : Type} (bet : obs -> A -> result Z) (w : raw_config) (c : config).
Definition np_no_error (l : list A) : Prop := forall s a o m, In m l -> action s = Some a -> observation c s false = Ok o -> is_ok (bet o m) = true.
Lemma np_plays_on_ends t l : playable w -> np_no_error l -> forall s o, np_game w c s -> in_progress s -> observation c s false = Ok o -> holds c t s ->
  match np_plays_on bet c s o l with
  | Raises e => False
  | Plays s' o' => in_progress s' /\
      exists bs, List.length bs = List.length l /\ Forall (fun b => is_ok (py_round b) = true) bs /\ s' = np_run_steps c s bs
  | Prints r s' => exists s0 b out, np_game w c s0 /\ in_progress s0 /\ holds c t s0 /\ s' = fst (np_step c s0 b) /\ action s' = None /\ snd (np_step c s0 b) = Ok out /\ r = out_payouts out
  end.
Proof.
  intros Pl. induction l as [|m l IH]; intros N s o G Hp Ho Ht.
  { cbn [np_plays_on]. split; [exact Hp|]. exists []. auto. }
  cbn [np_plays_on]. destruct (action s) as [a|] eqn:Ea; [|exfalso; now apply Hp].
  pose proof (N s a o m (or_introl eq_refl) Ea Ho) as Nb. destruct (bet o m) as [b|]; [|discriminate Nb]. clear Nb.
  pose proof (C76_returns w c s (PyInt b) Pl G Hp eq_refl) as T. pose proof (np_solvent_fair c s (np_game_solvent w c s Pl G)) as F.
  pose proof (np_fair_money c s F) as M.
  destruct (np_step c s (PyInt b)) as [s' [out|e]] eqn:E; [|discriminate T]. clear T. assert (Es : s' = fst (np_step c s (PyInt b))) by (rewrite E; reflexivity).
  assert (Eo : snd (np_step c s (PyInt b)) = Ok out) by (rewrite E; reflexivity).
  pose proof (C69_ends c s (PyInt b) out F Hp) as T. cbv zeta in T. destruct (T Eo) as [_ Td]. clear T. rewrite <- Es in Td.
  destruct (np_step_settled c s (PyInt b) M Hp) as [(_ & _ & X)|(z & Z)]; [rewrite Eo in X; discriminate X|].
  destruct (all_true (out_done out)) eqn:Ed.
  - exists s, (PyInt b), out. rewrite E. cbn [fst snd]. split; [exact G|]. split; [exact Hp|]. split; [exact Ht|]. split; [reflexivity|]. split; [|auto].
    destruct (action s') as [a'|] eqn:Ea'; [exfalso|reflexivity].
    assert (Hz : s' = z) by (rewrite Es; apply (np_going _ _ _ _ Z); rewrite <- Es; unfold in_progress; rewrite Ea'; discriminate).
    rewrite Td, Hz in Ed. pose proof (ns_count _ _ _ _ Z) as Cn. clear - Ed Cn. induction (active z) as [|x r IHr]; [cbn in Cn; lia|].
    cbn [map] in Ed. unfold all_true in *. cbn [forallb] in Ed. destruct x; [discriminate Ed|]. cbn [negb andb] in Ed. apply IHr; [exact Ed|]. unfold count_true in *. cbn [filter] in Cn. exact Cn.
  - assert (Hp' : in_progress s').
    { unfold in_progress. destruct (action s') eqn:Ea'; [discriminate|]. rewrite Td in Ed. exfalso. clear - Ed.
      assert (X : forall n, all_true (repeat true n) = true) by (induction n; [reflexivity|assumption]). rewrite X in Ed. discriminate Ed. }
    assert (Hz : s' = z) by (rewrite Es; apply (np_going _ _ _ _ Z); now rewrite <- Es).
    assert (G' : np_game w c s') by (rewrite Es; exact (np_game_op w c s (OStep (PyInt b)) G I I)).
    assert (Ho' : observation c s' false = Ok (out_obs out)).
    { rewrite (ns_step _ _ _ _ Z) in Eo. unfold np_step_end in Eo. destruct (np_payouts c z) as [pay|]; [|discriminate Eo]. cbn [snd] in Eo.
      destruct (all_true (np_done_list c z)) eqn:Edz.
      - destruct (observation c (finish_hand z pay) true) as [x|]; [|discriminate Eo]. cbn [bind] in Eo. injection Eo as <-. cbn [out_done] in Ed. congruence.
      - rewrite <- Hz in Eo. destruct (observation c s' false) as [x|]; [|discriminate Eo]. cbn [bind] in Eo. injection Eo as <-. reflexivity. }
    assert (Ht' : holds c t s').
    { intros i Hi. destruct (Ht i Hi) as [H1 H2]. rewrite Hz. split; [now apply (ns_keep _ _ _ _ Z)|]. rewrite (np_each c s (PyInt b) z i M Z). exact H2. }
    specialize (IH (fun s a o m Hm => N s a o m (or_intror Hm)) s' (out_obs out) G' Hp' Ho' Ht').
    destruct (np_plays_on bet c s' (out_obs out) l) as [r s1|e|s1 o1]; [exact IH|exact IH|].
    destruct IH as (I1 & bs & L & Fb & Er). split; [exact I1|]. exists (PyInt b :: bs).
    split; [cbn [List.length]; congruence|]. split; [constructor; [reflexivity|exact Fb]|]. rewrite Er, Es. reflexivity.
Qed.
End Loop.
Lemma np_program_accounted {A} (bet : obs -> A -> result Z) w rnd0 rnd l c s0 : ordinary w -> Dealer rnd0 w = Ok (c, s0) -> np_no_error bet c l ->
  match np_program bet w rnd0 rnd l with Raises _ => False | out => accounted w (fun _ => 0) (List.length l) out end.
Proof.
  intros Ow D N. pose proof (ordinary_playable w Ow) as Pl. pose proof (Dealer_inv _ _ _ _ D) as B.
  destruct (program_start w rnd0 rnd Ow ltac:(rewrite D; reflexivity)) as (c1 & s & o & S).
  destruct (sd_run _ _ _ _ _ _ S) as (s1 & D1 & R). rewrite D in D1. injection D1 as <- <-.
  pose proof (np_game_new w c rnd0 s0 D) as G0. pose proof (np_solvent_fair c s0 (np_game_solvent w c s0 Pl G0)) as F0. pose proof (np_fair_money c s0 F0) as M0.
  pose proof (cw_two _ (mo_cfg _ _ M0)) as N2.
  destruct (np_reset_wrap c s0 rnd false false (mo_cfg _ _ M0)) as [E1 E2].
  assert (W0 : wrap c s0 = s0) by (rewrite (bd_state _ _ _ _ B); unfold wrap, set_button; cbn [button]; rewrite Nat.mod_0_l by lia; reflexivity).
  rewrite W0, R in E1, E2. cbn [fst snd] in E1, E2. unfold np_program. rewrite D.
  destruct (np_reset c s0 rnd false false) as [s' [o'|e]] eqn:Er; [|discriminate E2]. cbn [fst snd map_ok] in E1, E2.
  assert (Hs' : s' = fst (np_reset c s0 rnd false false)) by (rewrite Er; reflexivity).
  assert (Ho' : observation c s' false = Ok o').
  { unfold np_reset in Er. destruct (reset_active c s0 false) as [act stk]. destruct (_ && _); [discriminate Er|]. destruct (num_community_cards c) as [|cc0 cr]; [discriminate Er|].
    destruct (deck_draw cc0 _) as [comm d1]. destruct (deal_hands _ _ _) as [holes d2]. injection Er as X1 X2. rewrite <- X1. exact X2. }
  assert (Hp : in_progress s') by (pose proof (sd_turn _ _ _ _ _ _ S) as Q; rewrite <- E1 in Q; exact Q).
  assert (Hh : holds c (rw_start_stack w) s') by (pose proof (sd_holds _ _ _ _ _ _ S) as Q; rewrite <- E1 in Q; exact Q).
  assert (Lg : longest c s' <= (rw_num_players w * (rw_start_stack w + 1) + rw_num_streets w + 1) * rw_num_players w) by (pose proof (sd_longest _ _ _ _ _ _ S) as Q; rewrite <- E1 in Q; exact Q).
  assert (G : np_game w c s').
  { rewrite Hs'. apply (np_game_op w c s0 (OReset rnd false false) G0).
    - cbn [np_allowed]. left. rewrite (bd_state _ _ _ _ B). reflexivity.
    - rewrite <- Hs'. intros i. destruct (Nat.lt_ge_cases i (num_players c)) as [Hi|Hi]; [now apply Hh|].
      assert (F1 : fair c s) by apply S. rewrite <- E1 in F1. pose proof (wf_stacks _ _ (mo_wf _ _ (fair_money c _ F1))) as Q. cbn [wrap set_button stacks] in Q.
      unfold stack_of. rewrite nth_overflow by lia. lia. }
  pose proof (np_plays_on_ends bet w c (rw_start_stack w) l Pl N s' o' G Hp Ho' Hh) as T. pose proof (bd_n _ _ _ _ B) as Np.
  destruct (np_plays_on bet c s' o' l) as [r s2|e|s2 o2]; [|exact T|]; unfold accounted.
  - destruct T as (t0 & b & out & Gt & Ht & Hot & Es & Hn & Eo & Err).
    pose proof (np_solvent_fair c t0 (np_game_solvent w c t0 Pl Gt)) as Ft.
    pose proof (C65_payouts c t0 b Ft Ht) as Y. cbv zeta in Y. rewrite <- Es in Y.
    destruct (Y Hn) as (out2 & Y1 & Y2 & Y3 & Y4). assert (out2 = out) by congruence. subst out2. clear Y1. rewrite <- Err in *. clear Err.
    assert (Gi : forall i, (i < num_players c)%nat -> stack_of s2 i = rw_start_stack w + nth i r 0 /\ - rw_start_stack w <= nth i r 0).
    { intros i Hi. destruct (Y4 i Hi) as (_ & Z2 & Z3). destruct (Hot i Hi) as [H1 H2]. specialize (Z3 H1). lia. }
    split; [lia|]. split; [|exact Y3]. intros i Hi. assert (Hi' : (i < num_players c)%nat) by lia. destruct (Gi i Hi') as [G1 G2]. split; [|exact G1]. split; [exact G2|].
    pose proof (sumZ_ge_others r (rw_start_stack w) (fun j Hj => proj2 (Gi j ltac:(lia))) i ltac:(lia)) as U. rewrite Y2, Y3, Np, Z2Nat.id in U by lia. lia.
  - destruct T as (T1 & bs & L & Fb & Es). destruct (Z.lt_ge_cases (Z.of_nat (List.length l)) (longest c s')) as [Lt|Ge]; [lia|exfalso].
    rewrite <- L in Ge. pose proof (C76_ends w c s' bs Pl G Fb Ge) as Q. rewrite <- Es in Q. now apply T1.
Qed.
(** Any program that plays a hand with any bets ends and prints rewards that sum to zero (as [accounted] in PropExample.v says),
    for all shipped configurations and all others that are ordinary; at the dealer on lists chips can be lost (C63_any_antes) *)
Theorem C76_any_program : forall A (bet : obs -> A -> Z) w rnd0 rnd l,
  In w shipped_configs \/ (ordinary w /\ is_ok (Dealer rnd0 w) = true) ->
  match np_program (fun o m => Ok (bet o m)) w rnd0 rnd l with
  | Raises _ => False
  | out => accounted w (fun _ => 0) (List.length l) out
  end.
Proof.
  intros A bet w rnd0 rnd l H.
  assert (H' : ordinary w /\ is_ok (Dealer rnd0 w) = true).
  { destruct H as [H|H]; [|exact H]. split; [now apply shipped_ordinary|]. destruct (C17_shipped rnd0 w H) as (c & s & ->). reflexivity. }
  destruct H' as [H1 H2]. destruct (Dealer rnd0 w) as [[c s0]|] eqn:D; [|discriminate H2].
  apply (np_program_accounted _ w rnd0 rnd l c s0 H1 D). intros s1 a o1 m _ _ _. reflexivity.
Qed.
Print Assumptions C76_any_program.
(** the program of the README: with this dealer it never raises (compare C63_refuted) *)
Theorem C76_readme : forall rnd0 rnd l,
  match np_readme rnd0 rnd l with
  | Raises _ => False
  | Plays _ _ => Z.of_nat (List.length l) < 7266
  | Prints rewards s => List.length rewards = 6%nat /\ sumZ rewards = 0 /\
      forall i, (i < 6)%nat -> -200 <= nth i rewards 0 <= 1000 /\ stack_of s i = 200 + nth i rewards 0
  end.
Proof.
  intros rnd0 rnd l. assert (Hw : In NO_LIMIT_HOLDEM_SIX_PLAYER shipped_configs) by (cbn [shipped_configs In]; tauto).
  destruct (C17_shipped rnd0 _ Hw) as (c & s0 & D).
  assert (T : match np_readme rnd0 rnd l with Raises _ => False | out => accounted NO_LIMIT_HOLDEM_SIX_PLAYER (fun _ => 0) (List.length l) out end).
  { apply (np_program_accounted _ _ rnd0 rnd l c s0 (shipped_ordinary _ Hw) D).
    intros s1 a o1 m _ A1 O1. destruct m as [| |k]; [reflexivity|reflexivity|]. cbn [readme_bet].
    destruct (bet_sizes_cases c s1 a _ _ _ A1 (obs_sizes c s1 o1 O1)) as (Ec & rs & cap & Er & Ecap & Cs). cbv zeta in *.
    replace (o_max_raise o1 <? o_min_raise o1) with false; [reflexivity|]. symmetry. apply Z.ltb_ge.
    destruct Cs as [[_ Cs]|[_ Cs]]; [lia|]. destruct rs as [z| |]; [lia|exfalso|lia].
    pose proof (Dealer_inv _ _ _ _ D) as B. destruct (bd_raises _ _ _ _ B) as (rs & E1 & E2). apply check_inp_list in E1. cbn in E1.
    assert (Cr : Forall2 cleaned rs (raise_sizes c)).
    { destruct (clean_rs_map rs) as [[_ X]|[_ (r & X & Y)]]; rewrite X in E2; [discriminate E2|]. injection E2 as <-. exact Y. }
    apply nth_error_In in Er.
    assert (Y : forall l r, Forall2 cleaned l r -> Forall (eq RawInf) l -> ~ In RPot r).
    { clear. induction 1 as [|x y l r H _ IH]; intros Fa; [intros []|]. inversion Fa as [|? ? F1 F2]; subst. intros [Hy|Hy]; [|now apply IH].
      subst y. destruct H as [(z & H & _)|[[H _]|[_ H]]]; discriminate H. }
    apply (Y rs (raise_sizes c) Cr); [|exact Er]. rewrite E1. repeat constructor. }
  destruct (np_readme rnd0 rnd l) as [r s|e|s o]; [|exact T|]; unfold accounted in T;
    change (rw_num_players NO_LIMIT_HOLDEM_SIX_PLAYER) with 6 in T; change (rw_start_stack NO_LIMIT_HOLDEM_SIX_PLAYER) with 200 in T; change (rw_num_streets NO_LIMIT_HOLDEM_SIX_PLAYER) with 4 in T.
  - destruct T as (T1 & T2 & T3). split; [lia|]. split; [exact T3|]. intros i Hi. destruct (T2 i ltac:(lia)) as [T4 T5]. split; [lia|exact T5].
  - lia.
Qed.
Print Assumptions C76_readme.
(** the run at which the program stops with an error at the dealer on lists *)
Example C76_readme_example :
  match np_readme [] [] readme_crash with Prints r s => Some (r, stacks s) | _ => None end = Some ([2; 1; -1; -2; 0; 0], [202; 201; 199; 198; 200; 200]).
Proof. vm_compute. reflexivity. Qed.
(** a shipped configuration with different antes, in the second hand: seven players fold, two see the board *)
Definition two_hands (a b : list Z) : list op := OReset [] false false :: map (fun z => OStep (PyInt z)) a ++ OReset [] false false :: map (fun z => OStep (PyInt z)) b.
Definition np_gameb (c : config) (s : state) (o : op) : bool :=
  np_allowedb c s o &&
  match o with
  | OReset rnd rb rs => forallb (Z.leb 0) (stacks (fst (np_reset c s rnd rb rs)))
  | OSetStacks _ | OTrick _ => false
  | _ => true
  end.
Fixpoint np_games (c : config) (s : state) (ops : list op) : bool :=
  match ops with [] => true | o :: r => np_gameb c s o && np_games c (np_apply_op c s o) r end.
Lemma np_games_game w c : forall ops s, np_game w c s -> np_games c s ops = true -> np_game w c (np_run c s ops).
Proof.
  induction ops as [|o ops IH]; intros s G H; [exact G|]. cbn [np_games] in H. apply andb_true_iff in H. destruct H as [H1 H2].
  change (np_run c s (o :: ops)) with (np_run c (np_apply_op c s o) ops). apply IH; [|exact H2]. unfold np_gameb in H1. apply andb_true_iff in H1. destruct H1 as [H0 H1].
  apply np_game_op; [exact G| |].
  - unfold np_allowedb in H0. destruct o; try exact I; [|discriminate H1]. cbn [np_allowed]. destruct (action s); [now right|now left].
  - destruct o; try exact I; try discriminate H1. intros i. unfold stack_of. destruct (Nat.lt_ge_cases i (List.length (stacks (fst (np_reset c s rnd reset_button reset_stacks))))) as [Hi|Hi]; [|rewrite nth_overflow by exact Hi; lia].
    rewrite forallb_forall in H1. apply Z.leb_le. apply H1. now apply nth_In.
Qed.
Lemma taken {B} {r : result (config * state)} {c s} : r = Ok (c, s) -> forall (f : config -> state -> B) v, match r with Ok (c, s) => Some (f c s) | Err _ => None end = Some v -> f c s = v.
Proof. intros -> f v H. now injection H. Qed.
Example C76_example : exists c s, playable NO_LIMIT_HOLDEM_BB_ANTE_NINE_PLAYER /\ np_game NO_LIMIT_HOLDEM_BB_ANTE_NINE_PLAYER c s /\
  antes c = [0; 1; 0; 0; 0; 0; 0; 0; 0] /\ action s = Some 5%nat /\ pot_commits s = [0; 0; 0; 2; 5; 0; 0; 0; 0] /\
  (* eight players are all in, one folds *)
  let t := np_run_steps c s (map PyInt [200; 200; 200; 200; 200; 200; -1; 200; 200]) in
  action t = None /\ count_true (active t) = 8 /\ sumZ (stacks t) = 9 * 200.
Proof.
  pose (ops := two_hands [-1; -1; -1; -1; -1; -1; -1; -1] []).
  destruct (Dealer [] NO_LIMIT_HOLDEM_BB_ANTE_NINE_PLAYER) as [[c s]|] eqn:D.
  2: { exfalso. assert (X : is_ok (Dealer [] NO_LIMIT_HOLDEM_BB_ANTE_NINE_PLAYER) = true) by (vm_compute; reflexivity). rewrite D in X. discriminate X. }
  exists c, (np_run c s ops).
  split; [apply ordinary_playable, shipped_ordinary; cbn [shipped_configs In]; tauto|].
  pose (bs := map PyInt [200; 200; 200; 200; 200; 200; -1; 200; 200]).
  pose (seen := fun c s => (np_games c s ops, antes c, action (np_run c s ops), pot_commits (np_run c s ops), let t := np_run_steps c (np_run c s ops) bs in (action t, count_true (active t), sumZ (stacks t)))).
  assert (K : match Dealer [] NO_LIMIT_HOLDEM_BB_ANTE_NINE_PLAYER with Ok (c, s) => Some (seen c s) | Err _ => None end =
    Some (true, [0; 1; 0; 0; 0; 0; 0; 0; 0], Some 5%nat, [0; 0; 0; 2; 5; 0; 0; 0; 0], (None, 8, 1800))) by (vm_compute; reflexivity).
  apply (taken D) in K. unfold seen in K. cbv zeta in K.
  repeat match type of K with (_, _) = _ => apply pair_equal_spec in K; let K' := fresh "K" in destruct K as [K K'] end.
  apply pair_equal_spec in K0. destruct K0 as [K0 K5]. apply pair_equal_spec in K0. destruct K0 as [K0 K6].
  split; [apply np_games_game; [exact (np_game_new _ c [] s D)|exact K]|]. clear D.
  cbv zeta. fold bs. split; [exact K3|]. split; [exact K2|]. split; [exact K1|]. split; [exact K0|]. split; [exact K6|exact K5].
Qed.
(** different antes: all chips go in, and the pot is split *)
Example C69_solvent_example : exists c s bs, np_solvent c s /\ antes c = [1; 0] /\ (street s < num_streets c)%nat /\
  Forall (fun b => is_ok (py_round b) = true) bs /\ longest c s <= Z.of_nat (List.length bs) /\
  (forall k i, let t := np_run_steps c s (firstn k bs) in (i < num_players c)%nat ->
     is_active t i -> (num_streets c <= street t)%nat ->
     is_ok (evaluate (the_evaluator c) (nth i (hole_cards t) []) (community_cards t)) = true) /\
  action s = Some 0%nat /\ stacks (np_run_steps c s bs) = [3; 3].
Proof.
  assert (K : exists c s, np_solvent c s /\ antes c = [1; 0] /\ street s = O /\ num_streets c = 1%nat /\ longest c s = 12 /\ ranked_all c s (repeat (PyInt 1) 12) = true /\
    action s = Some 0%nat /\ stacks (np_run_steps c s (repeat (PyInt 1) 12)) = [3; 3]).
  { np_play (demo 2 1 [1; 2] [1; 0] [RawInf] [RawCountInf] [0] 3) [new_hand] c s E. split; [apply (np_played_solvent _ _ _ _ E); vm_compute; reflexivity|]. np_plays E. }
  destruct K as (c & s & S & K1 & K2 & K3 & K4 & K5 & K6 & K7). exists c, s, (repeat (PyInt 1) 12).
  split; [exact S|]. split; [exact K1|]. split; [lia|].
  split; [apply Forall_forall; intros b Hb; apply repeat_spec in Hb; now rewrite Hb|]. split; [rewrite K4; cbn; lia|].
  split; [now apply ranked_all_ok|auto].
Qed.

(** with debts and with stacks that are taken away during a hand a showdown can still fail: seat 1 has one chip, posts a blind of 5
    and folds, which leaves its chip in the pot; the others have lost their stacks and put in nothing.  The chip cannot be split
    among three seats, and then there is no winner for the odd chip *)
Definition lost_game := demo 3 1 [0; 0; 5] [0; 0; 0] [RawInf] [RawCountInf] [0] 20.
Definition lost_ops := [OSetStacks [20; 1; 20]; OReset [] false false; OStep (PyInt (-1)); OSetStacks [0; 0; 0]; OStep (PyInt 0)].
Theorem C69_refuted : ~ forall c s b, np_fair c s -> in_progress s -> (street s < num_streets c)%nat -> is_ok (py_round b) = true ->
  (let t := fst (np_step c s b) in forall i, (i < num_players c)%nat ->
     is_ok (evaluate (the_evaluator c) (nth i (hole_cards t) []) (community_cards t)) = true) ->
  is_ok (snd (np_step c s b)) = true.
Proof.
  intros H. assert (K : exists c s, np_fair c s /\ action s = Some 0%nat /\ street s = O /\ num_streets c = 1%nat /\
    forallb (fun i => is_ok (evaluate (the_evaluator c) (nth i (hole_cards (fst (np_step c s (PyInt 0)))) []) (community_cards (fst (np_step c s (PyInt 0)))))) (seq 0 (num_players c)) = true /\
    snd (np_step c s (PyInt 0)) = Err ValueError).
  { np_play lost_game lost_ops c s E. split; [exact (np_played_fair _ _ _ _ E)|]. np_plays E. }
  destruct K as (c & s & F & K1 & K2 & K3 & K4 & K5). specialize (H c s (PyInt 0) F). rewrite K5 in H. cbn [is_ok] in H.
  enough (false = true) by discriminate. apply H.
  - unfold in_progress. rewrite K1. discriminate.
  - lia.
  - reflexivity.
  - cbv zeta. intros i Hi. rewrite forallb_forall in K4. apply K4. apply in_seq. lia.
Qed.
Print Assumptions C69_refuted.
