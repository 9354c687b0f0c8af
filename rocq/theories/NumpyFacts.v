(** * NumpyFacts: the dealer on arrays against the dealer on lists *)
From Coq Require Import ZifyBool ZifyNat Arith Permutation Sorted.
From Verif Require Import PyBase PyFacts CardModel EvalModel EngineModel EngineSpec EngineFacts BetFacts MoneyFacts ShowSpec ShowFacts SideFacts EngineDemo HandEnd PropShow NumpyModel NumpySpec.

(** ** The button, reduced to a seat *)
Lemma move_loop_mod n a0 act k : forall i a a' opt, (0 < n)%nat -> (0 < k)%nat ->
  move_loop n (a0 mod n) act k i a opt = move_loop n a0 act k i a' opt.
Proof.
  induction k as [|k IH]; intros i a a' opt Hn Hk; [lia|]. cbn [move_loop].
  rewrite Nat.add_mod_idemp_l by lia. destruct (nth ((a0 + i) mod n) act false); [reflexivity|].
  destruct k as [|k]; [reflexivity|]. now apply IH; [|lia].
Qed.
(** states equal up to the button *)
Lemma move_action_wrap c s b : set_button (move_action c s) b = move_action c (set_button s b).
Proof. unfold move_action, act_idx. cbn [set_button action active street_option]. destruct (move_loop _ _ _ _ _ _ _). reflexivity. Qed.
Lemma move_action_mod c s a b : (0 < num_players c)%nat ->
  set_button (move_action c (set_action s (Some a))) b = move_action c (set_button (set_action s (Some (a mod num_players c)%nat)) b).
Proof.
  intros Hn. unfold move_action, act_idx. cbn [set_button set_action action active street_option].
  rewrite (move_loop_mod _ a _ _ _ (a mod num_players c) a _ Hn Hn). destruct (move_loop _ _ _ _ _ _ _). reflexivity.
Qed.
Lemma street_loop_wrap c b k : forall s, set_button (street_loop c k s) b = street_loop c k (set_button s b).
Proof.
  induction k as [|k IH]; intros s; [reflexivity|]. cbn [street_loop]. cbn [set_button action active community_cards the_deck street stacks].
  destruct (Nat.leb _ _); [reflexivity|]. destruct (deck_draw _ _) as [cards d]. destruct (_ <=? 1); [|reflexivity].
  rewrite IH. reflexivity.
Qed.
Lemma next_street_wrap c s : (0 < num_players c)%nat -> wrap c (next_street c s) = next_street c (wrap c s).
Proof.
  intros Hn. unfold next_street, wrap.
  change (button (set_button s (button s mod num_players c))) with (button s mod num_players c)%nat.
  set (b := (button s mod num_players c)%nat).
  assert (E : move_action c (set_action (set_button s b) (Some b)) = set_button (move_action c (set_action s (Some (button s)))) b)
    by (symmetry; exact (move_action_mod c s (button s) b Hn)).
  rewrite E, <- street_loop_wrap.
  set (t := street_loop c (S (num_streets c)) (move_action c (set_action s (Some (button s))))).
  assert (Eb : button t = button s).
  { unfold t. clear. generalize (S (num_streets c)) as k. intros k.
    assert (X : forall s', button (street_loop c k s') = button s').
    { induction k as [|k IH]; intros s'; [reflexivity|]. cbn [street_loop]. destruct (Nat.leb _ _); [reflexivity|].
      destruct (deck_draw _ _). destruct (_ <=? 1); [now rewrite IH|reflexivity]. }
    rewrite X. unfold move_action. destruct (move_loop _ _ _ _ _ _ _). reflexivity. }
  cbn [set_button button action active community_cards the_deck history hole_cards largest_raise pot pot_commits stacks street].
  unfold b. rewrite <- Eb at 1. unfold set_button. cbn [button]. reflexivity.
Qed.
Lemma wrap_place c s a f bet folds call : wrap c (place_bet c s a f bet folds call) = place_bet c (wrap c s) a f bet folds call.
Proof.
  unfold wrap, place_bet. rewrite move_action_wrap.
  match goal with |- context [button (move_action c ?x)] => assert (E : button (move_action c x) = button s) end.
  { unfold move_action. destruct (move_loop _ _ _ _ _ _ _). reflexivity. }
  rewrite E. reflexivity.
Qed.
Lemma wrap_all_agreed c s : all_agreed (wrap c s) = all_agreed s. Proof. reflexivity. Qed.
Lemma wrap_bet_sizes c s : bet_sizes c (wrap c s) = bet_sizes c s. Proof. reflexivity. Qed.
Lemma wrap_eval c s : wrap c (wrap c s) = wrap c s.
Proof.
  destruct (Nat.eq_dec (num_players c) 0) as [E|E]; [unfold wrap, set_button; cbn [button]; rewrite E; reflexivity|].
  unfold wrap, set_button. cbn [action active button community_cards the_deck history hole_cards largest_raise pot pot_commits stacks street street_commits street_option street_raises].
  now rewrite Nat.mod_mod by exact E.
Qed.
Lemma wrap_small c s : (button s < num_players c)%nat -> wrap c s = s.
Proof. intros H. unfold wrap, set_button. rewrite Nat.mod_small by exact H. now destruct s. Qed.
Lemma settle_wrap c s : (0 < num_players c)%nat -> wrap c (settle c s) = settle c (wrap c s).
Proof. intros H. unfold settle. rewrite wrap_all_agreed. destruct (all_agreed s); [now apply next_street_wrap|reflexivity]. Qed.

(** ** The bet *)
Lemma np_clean_bet_spec x call mi ma : np_clean_bet x call mi ma =
  let a := Z.abs (0 - x) in let b := Z.abs (call - x) in let c := Z.abs (mi - x) in let d := Z.abs (ma - x) in
  if b <? a then (if c <? b then Z.min ma (Z.max mi x) else (if d <? b then Z.min ma (Z.max mi x) else call))
  else (if c <? a then Z.min ma (Z.max mi x) else (if d <? a then Z.min ma (Z.max mi x) else 0)).
Proof.
  unfold np_clean_bet. cbn [map]. rewrite argmin4. cbv zeta.
  repeat (match goal with |- context [if ?b then _ else _] => destruct b end); reflexivity.
Qed.
Lemma np_clean_nonneg x call mi ma : 0 <= x -> np_clean_bet x call mi ma = clean_bet x call mi ma.
Proof. intros H. unfold np_clean_bet, clean_bet. replace (Z.max 0 x) with x by lia. reflexivity. Qed.
(** a negative bet is never taken: the player folds or checks, also with both dealers *)
Lemma np_settle_same s a call mi ma b z : limits s a call mi ma -> py_round b = Ok z ->
  np_settle_bet (pynum_neg b) z call mi ma = settle_bet (pynum_neg b) z call mi ma.
Proof.
  intros L Hz. destruct (Z_le_dec 0 z) as [P|P].
  { unfold np_settle_bet, settle_bet. now rewrite np_clean_nonneg by exact P. }
  assert (En : pynum_neg b = true).
  { destruct (pynum_neg b) eqn:E; [reflexivity|]. pose proof (pynum_nonneg_round b z Hz E). lia. }
  rewrite En. unfold np_settle_bet, settle_bet. destruct (call =? 0) eqn:E0; [|cbn [negb andb]; rewrite !orb_true_r; reflexivity].
  cbn [negb andb]. apply Z.eqb_eq in E0. destruct L as [L1 L2 L3 L4 L5 L6 L7].
  assert (0 <= nth a (stacks s) 0) by lia. specialize (L6 H). destruct L6 as [_ L6].
  f_equal. rewrite np_clean_bet_spec, clean_bet_spec. cbv zeta. subst call.
  repeat (match goal with |- context [if ?b then _ else _] => destruct b eqn:? end); lia.
Qed.

(** ** A step, taken apart *)
Lemma np_step_anatomy c s b : (0 < num_players c)%nat -> money c (wrap c s) -> action s <> None ->
  (after_bet c (wrap c s) b = None /\ fst (np_step c s b) = s /\ is_ok (snd (np_step c s b)) = false) \/
  (exists s1 z, after_bet c (wrap c s) b = Some s1 /\ wrap c z = settle c s1 /\ button z = button s /\ np_step c s b = np_step_end c z).
Proof.
  intros Hn M Ha. unfold after_bet, np_step. change (action (wrap c s)) with (action s). rewrite wrap_bet_sizes.
  destruct (action s) as [a|] eqn:Ea; [|congruence].
  destruct (py_round b) as [z|] eqn:Er; [|left; auto]. destruct (bet_sizes c s) as [[[call mi] ma]|] eqn:Eb; [|left; auto].
  assert (L : limits (wrap c s) a call mi ma) by (apply (money_limits c); assumption).
  rewrite (np_settle_same _ _ _ _ _ _ _ L Er). destruct (settle_bet _ _ _ _ _) as [bet folds]. right.
  eexists. exists (settle c (place_bet c s a (pynum_neg b) bet folds call)). split; [reflexivity|].
  split; [now rewrite settle_wrap, wrap_place|]. split; [|reflexivity].
  set (t := place_bet c s a (pynum_neg b) bet folds call).
  assert (Et : button t = button s) by (unfold t, place_bet, move_action; destruct (move_loop _ _ _ _ _ _ _); reflexivity).
  rewrite <- Et. unfold settle. destruct (all_agreed t); [|reflexivity]. unfold next_street. cbn [button].
  assert (X : forall k s', button (street_loop c k s') = button s').
  { clear. induction k as [|k IH]; intros s'; [reflexivity|]. cbn [street_loop]. destruct (Nat.leb _ _); [reflexivity|].
    destruct (deck_draw _ _). destruct (_ <=? 1); [now rewrite IH|reflexivity]. }
  rewrite X. unfold move_action. destruct (move_loop _ _ _ _ _ _ _). reflexivity.
Qed.

(** ** reset *)
Lemma np_roll_mod c a bets : (0 < num_players c)%nat -> List.length bets = num_players c -> np_roll a bets = roll (a mod num_players c) bets.
Proof. intros Hn H. unfold np_roll. now rewrite H. Qed.
Lemma np_collect_wrap c s a bets ts b : (0 < num_players c)%nat -> List.length bets = num_players c ->
  action s = Some a ->
  set_button (set_action (np_collect_multiple_bets c s bets ts) (Some (a mod num_players c)%nat)) b =
  collect_multiple_bets c (set_button (set_action s (Some (a mod num_players c)%nat)) b) bets ts.
Proof.
  intros Hn H Ha. unfold np_collect_multiple_bets, collect_multiple_bets. unfold act_idx at 1 2 3 4 5. rewrite Ha. rewrite (np_roll_mod c _ _ Hn H).
  reflexivity.
Qed.
Lemma observation_wrap c s d : observation c (wrap c s) d = map_ok (wrap_obs c) (observation c s d).
Proof.
  unfold observation. rewrite wrap_bet_sizes. destruct (if d then _ else _) as [[[x y] z]|]; [|reflexivity]. cbn [bind].
  change (action (wrap c s)) with (action s). change (hole_cards (wrap c s)) with (hole_cards s).
  destruct (match action s with Some a => _ | None => _ end); reflexivity.
Qed.
(** [t] is [s] with the button and the turn reduced to seats *)
Definition reduced (c : config) (s t : state) : Prop :=
  exists a, action s = Some a /\ t = set_button (set_action s (Some (a mod num_players c)%nat)) (button s mod num_players c).
Lemma move_action_lt c s : (0 < num_players c)%nat -> exists a, action (move_action c s) = Some a /\ (a < num_players c)%nat.
Proof.
  intros Hn. unfold move_action. set (a0 := act_idx c s). destruct (move_loop (num_players c) a0 (active s) (num_players c) 1 a0 (street_option s)) as [a o] eqn:E.
  exists a. split; [reflexivity|]. change a with (fst (a, o)). rewrite <- E. clear E.
  assert (X : forall k i x opt, (0 < k)%nat -> (fst (move_loop (num_players c) a0 (active s) k i x opt) < num_players c)%nat).
  { induction k as [|k IH]; intros i x opt Hk; [lia|]. cbn [move_loop]. destruct (nth _ _ _); [apply Nat.mod_upper_bound; lia|].
    destruct k as [|k]; [apply Nat.mod_upper_bound; lia|]. apply IH. lia. }
  now apply X.
Qed.
Lemma reduced_move c s t : (0 < num_players c)%nat -> reduced c s t -> reduced c (move_action c s) (move_action c t) /\ move_action c t = wrap c (move_action c s).
Proof.
  intros Hn (a & Ha & ->). assert (Eb : button (move_action c s) = button s) by (unfold move_action; destruct (move_loop _ _ _ _ _ _ _); reflexivity).
  assert (E : move_action c (set_button (set_action s (Some (a mod num_players c)%nat)) (button s mod num_players c)) = wrap c (move_action c s)).
  { rewrite <- move_action_mod by exact Hn. unfold wrap. rewrite Eb. f_equal. f_equal. rewrite <- Ha. now destruct s. }
  split; [|exact E]. rewrite E. destruct (move_action_lt c s Hn) as (x & Hx & Lx). exists x. split; [exact Hx|].
  rewrite Nat.mod_small by exact Lx. unfold wrap. f_equal. rewrite <- Hx. now destruct (move_action c s).
Qed.
Lemma reduced_collect c s t bets ts : (0 < num_players c)%nat -> List.length bets = num_players c -> reduced c s t ->
  reduced c (np_collect_multiple_bets c s bets ts) (collect_multiple_bets c t bets ts).
Proof.
  intros Hn Hl (a & Ha & ->). exists a. split; [exact Ha|].
  now rewrite <- (np_collect_wrap c s a bets ts _ Hn Hl Ha).
Qed.
Lemma np_reset_wrap c s rnd rb rs : cfg_wf c ->
  wrap c (fst (np_reset c s rnd rb rs)) = fst (reset c (wrap c s) rnd rb rs) /\
  map_ok (wrap_obs c) (snd (np_reset c s rnd rb rs)) = snd (reset c (wrap c s) rnd rb rs).
Proof.
  intros W. pose proof (cw_two _ W) as H2. assert (Hn : (0 < num_players c)%nat) by lia.
  unfold np_reset, reset. change (reset_active c (wrap c s) rs) with (reset_active c s rs). destruct (reset_active c s rs) as [act stk].
  destruct (negb rs && (count_true act <=? 1)); [split; reflexivity|].
  change (button (wrap c s)) with (button s mod num_players c)%nat. change (the_deck (wrap c s)) with (the_deck s).
  rewrite (Nat.mod_small 1) by lia.
  set (b := if rb then O else (button s + 1)%nat).
  assert (Eb : (if rb then O else ((button s mod num_players c + 1) mod num_players c)%nat) = (b mod num_players c)%nat).
  { unfold b. destruct rb; [now rewrite Nat.mod_0_l by lia|]. now rewrite Nat.add_mod_idemp_l by lia. }
  rewrite Eb. destruct (num_community_cards c) as [|cc0 ccs]; [split; reflexivity|].
  destruct (deck_draw cc0 _) as [comm d1]. destruct (deal_hands _ _ _) as [holes d2].
  set (s1 := mkState (Some b) act b comm d2 [] holes _ _ _ _ _ _ _ _).
  set (t1 := mkState (Some (b mod num_players c)%nat) act (b mod num_players c)%nat comm d2 [] holes _ _ _ _ _ _ _ _).
  assert (R1 : reduced c s1 t1) by (exists b; split; reflexivity).
  assert (R2 : reduced c (if Nat.ltb 2 (num_players c) then move_action c s1 else s1) (if Nat.ltb 2 (num_players c) then move_action c t1 else t1)).
  { destruct (Nat.ltb _ _); [|exact R1]. now apply reduced_move. }
  apply (reduced_collect c _ _ (antes c) false Hn (cw_antes _ W)) in R2.
  apply (reduced_collect c _ _ (blinds c) true Hn (cw_blinds _ W)) in R2.
  apply (reduced_move c _ _ Hn) in R2. destruct R2 as [R2 _]. apply (reduced_move c _ _ Hn) in R2. destruct R2 as [_ E].
  cbn [fst snd]. rewrite E. split; [reflexivity|]. symmetry. apply observation_wrap.
Qed.

(** ** The pots of the showdown *)
Section NpPots.
  Variable worst : Z.
  Fixpoint np_dealt (all rest : list hand3) (L : Z) (mk : mark) : list (list nat * Z) :=
    match rest with
    | [] => []
    | h :: r =>
      if h_commit h <=? L then np_dealt all r L (fun i => Nat.eqb i (h_idx h) || mk i)
      else (eligible_for worst all mk (h_strength h), chips_of all L (h_commit h))
           :: np_dealt all r (h_commit h) (fun i => Nat.eqb i (h_idx h) || mk i)
    end.
  Lemma np_dealt_none all rest L mk : (forall h, In h rest -> h_commit h <= L) -> np_dealt all rest L mk = [].
  Proof.
    revert mk; induction rest as [|h r IH]; intros mk H; [reflexivity|]. cbn [np_dealt].
    replace (h_commit h <=? L) with true by (pose proof (H h (or_introl eq_refl)); lia). apply IH. intros x Hx. apply H. now right.
  Qed.
  Lemma add_all_0 w : forall pay, fold_left (fun pay i => add_at pay i 0) w pay = pay.
  Proof. induction w as [|x w IH]; intros pay; [reflexivity|]. cbn [fold_left]. rewrite IH. unfold add_at. rewrite Z.add_0_r. apply upd_self. Qed.
  Lemma view_mark mk L h all : NoDup (map h_idx all) -> h_commit h <= L ->
    forall k, nth_error all k = Some h ->
    upd (map (fun o => mkHand (h_idx o) (h_strength o) (h_commit o - Z.min (h_commit o) (h_commit (view worst mk L h)))) (map (view worst mk L) all))
        k (mkHand (h_idx h) worst (h_commit (view worst mk L h) - Z.min (h_commit (view worst mk L h)) (h_commit (view worst mk L h)))) =
    map (view worst (fun i => Nat.eqb i (h_idx h) || mk i) L) all.
  Proof.
    intros ND HL k Hk. rewrite map_map.
    apply nth_ext with (d := mkHand 0 0 0) (d' := mkHand 0 0 0); [now rewrite upd_length, !map_length|].
    intros j Hj. rewrite upd_length, map_length in Hj.
    set (f := fun x => mkHand (h_idx (view worst mk L x)) (h_strength (view worst mk L x)) (h_commit (view worst mk L x) - Z.min (h_commit (view worst mk L x)) (h_commit (view worst mk L h)))).
    destruct (nth_error all j) as [o|] eqn:Ej; [|apply nth_error_None in Ej; lia].
    assert (E2 : nth j (map (view worst (fun i => Nat.eqb i (h_idx h) || mk i) L) all) (mkHand 0 0 0) = view worst (fun i => Nat.eqb i (h_idx h) || mk i) L o).
    { apply nth_error_nth. rewrite nth_error_map, Ej. reflexivity. }
    rewrite E2. destruct (Nat.eq_dec k j) as [Ekj|Ekj].
    - subst j. rewrite upd_nth_same by (rewrite map_length; exact Hj). rewrite Hk in Ej. injection Ej as <-.
      unfold view, cur_strength. cbn [h_idx h_commit]. rewrite Nat.eqb_refl. cbn [orb]. f_equal. lia.
    - rewrite upd_nth_other by exact Ekj.
      assert (E1 : nth j (map f all) (mkHand 0 0 0) = f o) by (apply nth_error_nth; rewrite nth_error_map, Ej; reflexivity).
      rewrite E1. unfold f, view, cur_strength. cbn [h_idx h_commit h_strength].
      replace (Nat.eqb (h_idx o) (h_idx h)) with false; [cbn [orb]; f_equal; lia|].
      symmetry. apply Nat.eqb_neq. intros Eq. apply Ekj. rewrite NoDup_nth_error in ND.
      apply (ND k j); [rewrite map_length; apply nth_error_Some; congruence|]. now rewrite !nth_error_map, Hk, Ej; cbn; rewrite Eq.
  Qed.

  (** the loop deals out exactly [np_dealt]; it does not matter whether it stops early *)
  Lemma np_loop_dealt all : NoDup (map h_idx all) -> forall rest pre L mk p, all = pre ++ rest ->
    (forall h, In h rest -> mk (h_idx h) = false) -> p_hands p = map (view worst mk L) all ->
    (p_pot p = sumZ (map h_commit (p_hands p)) \/ p_pot p < 0 \/ (p_pot p = 0 /\ match rest with h :: _ => L < h_commit h | [] => True end)) ->
    p_payouts (np_pot_loop worst (seq (List.length pre) (List.length rest)) p) = fold_left pay_pot (np_dealt all rest L mk) (p_payouts p) /\
    p_remainder (np_pot_loop worst (seq (List.length pre) (List.length rest)) p) = p_remainder p + odd_chips (np_dealt all rest L mk).
  Proof.
    intros ND. induction rest as [|h rest IH]; intros pre L mk p Ea Hm Hh Hp; [cbn; split; [reflexivity|unfold odd_chips; cbn; lia]|].
    cbn [List.length seq np_pot_loop np_dealt].
    assert (Hn : nth_error all (List.length pre) = Some h).
    { rewrite Ea, nth_error_app2 by lia. now rewrite Nat.sub_diag. }
    assert (Hi : In h all) by (rewrite Ea; apply in_or_app; right; now left).
    assert (Es : all = (pre ++ [h]) ++ rest) by (rewrite Ea, <- app_assoc; reflexivity).
    assert (El : List.length (pre ++ [h]) = S (List.length pre)) by (rewrite app_length; cbn; lia).
    assert (Hm' : forall x, In x rest -> mk (h_idx x) = false) by (intros x Hx; apply Hm; now right).
    assert (Hm2 : forall x, In x rest -> (Nat.eqb (h_idx x) (h_idx h) || mk (h_idx x)) = false).
    { intros x Hx. rewrite (Hm' x Hx), orb_false_r. apply Nat.eqb_neq. intros Eq.
      rewrite Ea, map_app in ND. cbn [map] in ND. apply NoDup_remove_2 in ND. apply ND. rewrite <- Eq. apply in_or_app. right. now apply in_map. }
    set (mk' := fun i => Nat.eqb i (h_idx h) || mk i) in *.
    unfold np_pot_step. rewrite Hh, nth_error_map, Hn. cbn [option_map].
    assert (Hs : h_strength (view worst mk L h) = h_strength h) by (unfold view, cur_strength; cbn; now rewrite (Hm h (or_introl eq_refl))).
    assert (OC : forall d r, odd_chips (d :: r) = snd d mod Z.of_nat (List.length (fst d)) + odd_chips r) by reflexivity.
    rewrite Hs, eligible_view.
    match goal with |- context [nth_error (map ?f (map (view worst mk L) all)) (List.length pre)] =>
      replace (nth_error (map f (map (view worst mk L) all)) (List.length pre)) with (Some (f (view worst mk L h)))
        by (now rewrite !nth_error_map, Hn) end.
    cbv beta. cbn [h_idx h_commit h_strength] in *.
    destruct (h_commit h <=? L) eqn:EL.
    - rewrite (cut_view_0 worst mk L h all) by lia. rewrite Zdiv_0_l, Zmod_0_l, add_all_0.
      pose proof (view_mark mk L h all ND ltac:(lia) _ Hn) as VN. cbn [view h_idx h_commit] in VN |- *. rewrite VN. fold mk'.
      rewrite Z.sub_0_r, Z.add_0_r. set (p' := mkPots _ _ _ _).
      assert (Hp' : p_pot p' = sumZ (map h_commit (p_hands p')) \/ p_pot p' < 0).
      { unfold p'. cbn [p_pot p_hands]. destruct Hp as [Hp|[Hp|[_ Hp]]]; [left|right; lia|lia]. rewrite Hp, Hh.
        now rewrite (total_view worst mk L all), (total_view worst mk' L all). }
      destruct (p_pot p =? 0) eqn:Estop.
      + assert (Z0 : np_dealt all rest L mk' = []).
        { apply np_dealt_none. intros x Hx. destruct Hp' as [Hp'|Hp']; [|unfold p' in Hp'; cbn [p_pot] in Hp'; lia].
          unfold p' in Hp'. cbn [p_pot p_hands] in Hp'. rewrite total_view in Hp'. apply (total_zero all L); [lia|].
          rewrite Es. apply in_or_app. now right. }
        rewrite Z0. unfold p'. cbn [p_payouts p_remainder fold_left]. unfold odd_chips. cbn [map sumZ fold_right]. split; [reflexivity|lia].
      + rewrite <- El. destruct (IH (pre ++ [h]) L mk' p' Es Hm2 eq_refl) as [I1 I2]; [destruct Hp' as [Hp'|Hp']; [now left|right; now left]|].
        rewrite I1, I2. unfold p'. cbn [p_payouts p_remainder]. split; reflexivity.
    - rewrite (cut_view worst mk L h all) by lia. pose proof (chips_pos all L h Hi ltac:(lia)) as Cp.
      pose proof (view_next worst mk L h all ND Hi ltac:(lia) _ Hn) as VN. cbn [view h_idx h_commit] in VN |- *. rewrite VN. fold mk'.
      set (p' := mkPots _ _ _ _).
      assert (Hp' : p_pot p' = sumZ (map h_commit (p_hands p')) \/ p_pot p' < 0).
      { unfold p'. cbn [p_pot p_hands]. destruct Hp as [Hp|Hp]; [left|right; lia]. rewrite Hp, Hh.
        rewrite (total_view worst mk L all), (total_view worst mk' (h_commit h) all). apply total_step. lia. }
      destruct (p_pot p - chips_of all L (h_commit h) =? 0) eqn:Estop.
      + assert (Z0 : np_dealt all rest (h_commit h) mk' = []).
        { apply np_dealt_none. intros x Hx. destruct Hp' as [Hp'|Hp']; [|unfold p' in Hp'; cbn [p_pot] in Hp'; lia].
          unfold p' in Hp'. cbn [p_pot p_hands] in Hp'. rewrite total_view in Hp'. apply (total_zero all (h_commit h)); [lia|].
          rewrite Es. apply in_or_app. now right. }
        rewrite Z0. unfold p'. cbn [p_payouts p_remainder]. rewrite OC. unfold odd_chips at 1. cbn [map sumZ fold_right fst snd fold_left]. split; [reflexivity|lia].
      + rewrite <- El. destruct (IH (pre ++ [h]) (h_commit h) mk' p' Es Hm2 eq_refl) as [I1 I2]; [destruct Hp' as [Hp'|Hp']; [now left|right; now left]|].
        rewrite I1, I2. unfold p'. cbn [p_payouts p_remainder fold_left]. rewrite OC. cbn [fst snd]. split; [reflexivity|lia].
  Qed.
  Lemma np_dealt_good n all : NoDup (map h_idx all) -> (forall h, In h all -> (h_idx h < n)%nat) ->
    forall rest L mk, incl rest all -> (forall h, In h rest -> mk (h_idx h) = false) -> NoDup (map h_idx rest) ->
    Forall (good_pot n) (np_dealt all rest L mk).
  Proof.
    intros ND B. induction rest as [|h r IH]; intros L mk Hi Hm Nr; [constructor|]. cbn [np_dealt].
    inversion Nr as [|? ? Nh Nr']; subst.
    assert (Hi' : incl r all) by (intros x Hx; apply Hi; now right).
    assert (Hm' : forall x, In x r -> Nat.eqb (h_idx x) (h_idx h) || mk (h_idx x) = false).
    { intros x Hx. rewrite (Hm x (or_intror Hx)), orb_false_r. apply Nat.eqb_neq. intros Eq. apply Nh. rewrite <- Eq. now apply in_map. }
    destruct (h_commit h <=? L) eqn:E; [now apply IH|]. constructor; [|now apply IH].
    split; [now apply NoDup_map_filter|]. split; [|split].
    + intros X. assert (Y : In (h_idx h) (eligible_for worst all mk (h_strength h))).
      { unfold eligible_for. apply in_map. apply filter_In. split; [apply Hi; now left|].
        unfold cur_strength. rewrite (Hm h (or_introl eq_refl)). lia. }
      cbn [fst] in X. rewrite X in Y. destruct Y.
    + intros i X. apply in_map_iff in X. destruct X as (o & <- & Ho). apply filter_In in Ho. now apply B.
    + apply chips_pos; [apply Hi; now left|lia].
  Qed.
  Lemma np_dealt_total all : forall rest pre L mk, all = pre ++ rest -> (forall h, In h pre -> h_commit h <= L) ->
    sumZ (map snd (np_dealt all rest L mk)) = sumZ (map (fun o => Z.max 0 (h_commit o - L)) all).
  Proof.
    induction rest as [|h r IH]; intros pre L mk Ea Hp; cbn [np_dealt].
    - exact (dealt_total worst all [] pre L mk Ea Hp).
    - assert (Es : all = (pre ++ [h]) ++ r) by (rewrite Ea, <- app_assoc; reflexivity).
      destruct (h_commit h <=? L) eqn:E.
      + apply (IH (pre ++ [h])); [exact Es|]. intros x Hx. apply in_app_or in Hx. destruct Hx as [Hx|[<-|[]]]; [now apply Hp|lia].
      + cbn [map snd]. rewrite sumZ_cons, (IH (pre ++ [h])); [|exact Es|].
        * pose proof (total_step all L (h_commit h) ltac:(lia)). lia.
        * intros x Hx. apply in_app_or in Hx. destruct Hx as [Hx|[<-|[]]]; [specialize (Hp x Hx); lia|lia].
  Qed.
End NpPots.

Section NpSide.
  Variables (d : showdown) (worst : Z) (all : list hand3).
  Hypothesis ND : NoDup (map h_idx all).
  Hypothesis Idx : Permutation (map h_idx all) (seq 0 (sd_players d)).
  Hypothesis Srt : StronglySorted hle all.
  Hypothesis Put : forall h, In h all -> h_commit h = sd_put d (h_idx h).
  Hypothesis In_hand : forall h, In h all -> sd_in d (h_idx h) = true -> h_strength h = sd_rank d (h_idx h) /\ h_strength h < worst.
  Hypothesis Out : forall h, In h all -> sd_in d (h_idx h) = false -> h_strength h = worst.
  Hypothesis Cov : covered_folds d.

  Lemma np_idx_lt h : In h all -> (h_idx h < sd_players d)%nat.
  Proof. clear - Idx. intros H. apply (in_map h_idx) in H. apply (Permutation_in _ Idx) in H. apply in_seq in H. lia. Qed.
  Lemma np_dealt_side : forall rest pre L mk, all = pre ++ rest ->
    (forall o, In o pre -> h_commit o <= L) ->
    (forall o, In o rest -> mk (h_idx o) = false) -> (forall o, In o pre -> mk (h_idx o) = true) ->
    side_pots d L (np_dealt worst all rest L mk).
  Proof.
    induction rest as [|h rest IH]; intros pre L mk Ea HL Hm Hmk; cbn [np_dealt].
    - apply side_pots_none. intros i (Hi & Ii & Li). destruct (hand_of d all Idx i Hi) as (o & Ho & <-).
      rewrite <- (Put o Ho) in Li. rewrite app_nil_r in Ea. rewrite Ea in Ho. specialize (HL o Ho). lia.
    - assert (Hh : In h all) by (rewrite Ea; apply in_or_app; right; now left).
      assert (Es : all = (pre ++ [h]) ++ rest) by (rewrite Ea, <- app_assoc; reflexivity).
      assert (Hm' : forall o, In o rest -> mk (h_idx o) = false) by (intros o Ho; apply Hm; now right).
      pose proof Srt as Sr. rewrite Ea in Sr. apply sorted_split in Sr. destruct Sr as [S1 S2].
      assert (Hm2 : forall o, In o rest -> Nat.eqb (h_idx o) (h_idx h) || mk (h_idx o) = false).
      { intros o Ho. rewrite (Hm' o Ho), orb_false_r. apply Nat.eqb_neq. intros X.
        rewrite Ea, map_app in ND. cbn [map] in ND. apply NoDup_remove_2 in ND. apply ND. rewrite <- X. apply in_or_app. right. now apply in_map. }
      assert (Hmk2 : forall o, In o (pre ++ [h]) -> Nat.eqb (h_idx o) (h_idx h) || mk (h_idx o) = true).
      { intros o Ho. apply in_app_or in Ho. destruct Ho as [Ho|[<-|[]]]; [now rewrite (Hmk o Ho), orb_true_r|now rewrite Nat.eqb_refl]. }
      assert (HL2 : forall x, L <= x -> h_commit h <= x -> forall o, In o (pre ++ [h]) -> h_commit o <= x).
      { intros x H1 H2 o Ho. apply in_app_or in Ho. destruct Ho as [Ho|[<-|[]]]; [specialize (HL o Ho); lia|lia]. }
      assert (Cases : forall o, In o all -> In o pre \/ o = h \/ In o rest).
      { intros o Ho. rewrite Ea in Ho. apply in_app_or in Ho. destruct Ho as [Ho|[Ho|Ho]]; auto. }
      destruct (h_commit h <=? L) eqn:EL; [apply (IH (pre ++ [h])); try assumption; apply HL2; lia|].
      assert (Ih : sd_in d (h_idx h) = true).
      { destruct (sd_in d (h_idx h)) eqn:Ih; [reflexivity|exfalso].
        destruct (Cov (h_idx h) (np_idx_lt h Hh) Ih) as (j & Hj & Ij & Lj). destruct (hand_of d all Idx j Hj) as (k & Hk & <-).
        rewrite <- !Put in Lj by assumption. destruct (Cases k Hk) as [Ck|[->|Ck]]; [specialize (HL k Ck); lia|congruence|].
        pose proof (S2 k Ck) as Hle. apply hle_spec in Hle. rewrite (Out h Hh Ih) in Hle. destruct (In_hand k Hk Ij). lia. }
      destruct (In_hand h Hh Ih) as [Rh Wh].
      assert (Con : forall o, In o all -> contends d L (h_idx o) -> o = h \/ In o rest).
      { intros o Ho (_ & _ & C). destruct (Cases o Ho) as [Co|Co]; [|exact Co]. rewrite <- (Put o Ho) in C. specialize (HL o Co). lia. }
      assert (Best : forall o, In o all -> contends d L (h_idx o) -> h_strength h <= h_strength o).
      { intros o Ho C. destruct (Con o Ho C) as [->|Co]; [lia|]. pose proof (S2 o Co) as Hle. apply hle_spec in Hle. lia. }
      assert (Win : forall o, In o all -> cur_strength worst mk o = h_strength h -> sd_in d (h_idx o) = true /\ h_strength o = h_strength h /\ h_commit h <= h_commit o).
      { intros o Ho E. unfold cur_strength in E. destruct (mk (h_idx o)) eqn:Mo; [lia|].
        assert (Io : sd_in d (h_idx o) = true).
        { destruct (sd_in d (h_idx o)) eqn:Io; [reflexivity|]. rewrite (Out o Ho Io) in E. lia. }
        split; [exact Io|]. split; [exact E|]. destruct (Cases o Ho) as [Co|[->|Co]]; [|lia|].
        - rewrite (Hmk o Co) in Mo. discriminate.
        - pose proof (S2 o Co) as Hle. apply hle_spec in Hle. lia. }
      rewrite (chips_same d all Idx Put). apply side_pots_next.
      + split; [now apply NoDup_map_filter|]. intros i. unfold eligible_for. rewrite in_map_iff. split.
        * intros (o & <- & Ho). apply filter_In in Ho. destruct Ho as [Ho E]. apply Z.eqb_eq in E.
          destruct (Win o Ho E) as (Io & Eo & Lo). split.
          -- split; [now apply (np_idx_lt)|]. split; [exact Io|]. rewrite <- (Put o Ho). lia.
          -- intros j C. destruct C as (Hj & Ij & Lj). destruct (hand_of d all Idx j Hj) as (k & Hk & <-).
             destruct (In_hand o Ho Io) as [Ro _]. destruct (In_hand k Hk Ij) as [Rk _].
             pose proof (Best k Hk (conj Hj (conj Ij Lj))). lia.
        * intros [(Hi & Ii & Li) Bi]. destruct (hand_of d all Idx i Hi) as (o & Ho & <-). exists o. split; [reflexivity|].
          apply filter_In. split; [exact Ho|]. apply Z.eqb_eq. unfold cur_strength.
          assert (Co : o = h \/ In o rest) by (apply Con; [exact Ho|now split]).
          replace (mk (h_idx o)) with false by (symmetry; apply Hm; destruct Co as [->|Co]; [now left|now right]).
          pose proof (Best o Ho (conj Hi (conj Ii Li))).
          assert (X : sd_rank d (h_idx o) <= sd_rank d (h_idx h)).
          { apply Bi. split; [now apply (np_idx_lt)|]. split; [exact Ih|]. rewrite <- (Put h Hh). lia. }
          destruct (In_hand o Ho Ii) as [Ro _]. lia.
      + exists (h_idx h). split; [|now rewrite (Put h Hh)]. apply in_map. apply filter_In. split; [exact Hh|].
        unfold cur_strength. rewrite (Hm h (or_introl eq_refl)). lia.
      + intros i Hi. apply in_map_iff in Hi. destruct Hi as (o & <- & Ho). apply filter_In in Ho. destruct Ho as [Ho E]. apply Z.eqb_eq in E.
        rewrite <- (Put o Ho). now apply Win.
      + apply (IH (pre ++ [h])); try assumption. apply HL2; lia.
  Qed.
End NpSide.

Definition np_show_pots (worst : Z) (st cm : list Z) : list (list nat * Z) :=
  np_dealt worst (show_hands st cm) (show_hands st cm) 0 (fun _ => false).
Lemma np_show_side d worst st cm n : List.length st = n -> List.length cm = n -> sd_players d = n ->
  (forall i, (i < n)%nat -> sd_put d i = nth i cm 0) ->
  (forall i, (i < n)%nat -> sd_in d i = true -> nth i st 0 = sd_rank d i /\ nth i st 0 < worst) ->
  (forall i, (i < n)%nat -> sd_in d i = false -> nth i st 0 = worst) ->
  covered_folds d -> side_pots d 0 (np_show_pots worst st cm).
Proof.
  intros Hs Hc Hn P I O C. assert (Hl : List.length cm = List.length st) by congruence.
  assert (X : forall h, In h (show_hands st cm) -> (h_idx h < n)%nat /\ h_strength h = nth (h_idx h) st 0 /\ h_commit h = nth (h_idx h) cm 0).
  { intros h Hh. apply show_in in Hh; [|exact Hl]. now rewrite Hs in Hh. }
  unfold np_show_pots. apply (np_dealt_side d worst (show_hands st cm)) with (pre := []).
  - now apply show_nodup.
  - rewrite Hn, <- Hs. now apply show_idx.
  - apply sort_sorted.
  - intros h Hh. destruct (X h Hh) as (H1 & H2 & H3). now rewrite P.
  - intros h Hh Ih. destruct (X h Hh) as (H1 & H2 & H3). rewrite H2. now apply I.
  - intros h Hh Ih. destruct (X h Hh) as (H1 & H2 & H3). rewrite H2. now apply O.
  - exact C.
  - reflexivity.
  - intros o [].
  - reflexivity.
  - intros o [].
Qed.

(** *** the odd chips: the paid seat with the least shifted number *)
Definition shifted (n b i : nat) : nat := if Nat.leb i b then (i + n)%nat else i.
Lemma argmin_loop_least : forall l idx m best,
  match m with Some x => True | None => l <> [] end ->
  let r := argmin_loop l idx m best in
  ((exists x, m = Some x /\ r = best /\ (forall j, (j < List.length l)%nat -> x <= nth j l 0)) \/
   ((idx <= r < idx + List.length l)%nat /\ (forall j, (j < List.length l)%nat -> nth (r - idx) l 0 <= nth j l 0) /\
    match m with Some x => nth (r - idx) l 0 < x | None => True end)).
Proof.
  induction l as [|v l IH]; intros idx m best Hm; cbv zeta; cbn [argmin_loop].
  - destruct m as [x|]; [|congruence]. left. exists x. split; [reflexivity|]. split; [reflexivity|]. intros j Hj. cbn in Hj. lia.
  - destruct (match m with Some x => v <? x | None => true end) eqn:E.
    + destruct (IH (S idx) (Some v) idx I) as [(x & Ex & Er & H)|(H1 & H2 & H3)]; cbv zeta in *.
      * right. injection Ex as <-. rewrite Er. cbn [List.length]. split; [lia|]. rewrite Nat.sub_diag. cbn [nth]. split.
        -- intros [|j] Hj; [lia|]. apply H. lia.
        -- destruct m; lia.
      * right. set (r := argmin_loop l (S idx) (Some v) idx) in *. cbn [List.length]. split; [lia|].
        replace (r - idx)%nat with (S (r - S idx)) by lia. cbn [nth]. split.
        -- intros [|j] Hj; [lia|]. apply H2. lia.
        -- destruct m; lia.
    + destruct m as [x|]; [|discriminate]. destruct (IH (S idx) (Some x) best I) as [(y & Ey & Er & H)|(H1 & H2 & H3)]; cbv zeta in *.
      * left. exists x. split; [reflexivity|]. split; [exact Er|]. injection Ey as <-. intros [|j] Hj; [cbn; lia|]. apply H. cbn in Hj. lia.
      * right. set (r := argmin_loop l (S idx) (Some x) best) in *. cbn [List.length]. split; [lia|].
        replace (r - idx)%nat with (S (r - S idx)) by lia. cbn [nth]. split; [|exact H3]. intros [|j] Hj; [lia|]. apply H2. lia.
Qed.
Lemma argmin_least l : l <> [] -> (argmin l < List.length l)%nat /\ (forall j, (j < List.length l)%nat -> nth (argmin l) l 0 <= nth j l 0).
Proof.
  intros H. unfold argmin. destruct (argmin_loop_least l 0 None 0 H) as [(x & X & _)|(H1 & H2 & _)]; [discriminate|]. cbv zeta in *.
  rewrite Nat.sub_0_r in H2. split; [lia|exact H2].
Qed.
Lemma np_remainder_spec n b r pay : List.length pay = n ->
  ((forall i, (i < n)%nat -> nth i pay 0 = 0) /\ np_remainder n b r pay = Err ValueError) \/
  (exists q, (q < n)%nat /\ nth q pay 0 <> 0 /\ (forall j, (j < n)%nat -> nth j pay 0 <> 0 -> (shifted n b q <= shifted n b j)%nat) /\
     np_remainder n b r pay = Ok (add_at pay q r)).
Proof.
  intros Hl. unfold np_remainder. rewrite Hl. set (inv := filter _ (seq 0 n)).
  assert (Hi : forall i, In i inv <-> (i < n)%nat /\ nth i pay 0 <> 0).
  { intros i. unfold inv. rewrite filter_In, in_seq. lia. }
  destruct inv as [|x l] eqn:Ei.
  - left. split; [|reflexivity]. intros i Hn. destruct (Z.eq_dec (nth i pay 0) 0) as [E|E]; [exact E|]. exfalso. apply (proj2 (Hi i)). auto.
  - right. set (f := fun i => Z.of_nat (if Nat.leb i b then i + n else i)).
    destruct (argmin_least (map f (x :: l)) ltac:(discriminate)) as [A1 A2]. rewrite map_length in A1, A2.
    set (k := argmin (map f (x :: l))) in *. exists (nth k (x :: l) O).
    assert (Q : In (nth k (x :: l) O) (x :: l)) by (now apply nth_In).
    apply Hi in Q. split; [apply Q|]. split; [apply Q|]. split; [|reflexivity].
    intros j Hj Pj. assert (J : In j (x :: l)) by (apply Hi; auto). destruct (In_nth _ _ O J) as (m & Hm & Em).
    specialize (A2 m Hm). rewrite !(map_nth_lt _ _ _ _ O) in A2 by assumption. rewrite Em in A2. unfold f, shifted in *. lia.
Qed.
(** what the showdown pays, for any hands and amounts put in *)
Lemma np_split_pots_spec n b worst pt st cm : List.length st = n -> List.length cm = n ->
  Forall (fun x => 0 <= x) cm -> pt = sumZ cm ->
  let pots := np_show_pots worst st cm in
  let base := map (share pots) (seq 0 n) in
  np_split_pots n b worst pt st cm = (if odd_chips pots =? 0 then Ok base else np_remainder n b (odd_chips pots) base) /\
  Forall (good_pot n) pots /\ sumZ base + odd_chips pots = sumZ cm.
Proof.
  intros Hs Hc Hnn Hpt. cbv zeta. assert (Hl : List.length cm = List.length st) by congruence.
  assert (Nn : forall o, In o (show_hands st cm) -> 0 <= h_commit o).
  { intros o Ho. apply show_in in Ho; [|exact Hl]. destruct Ho as (H1 & _ & ->). rewrite Forall_forall in Hnn. apply Hnn. apply nth_In. lia. }
  assert (G : Forall (good_pot n) (np_show_pots worst st cm)).
  { rewrite <- Hs. apply np_dealt_good; [now apply show_nodup| |intros x; auto|reflexivity|now apply show_nodup].
    intros h Hh. now apply show_in in Hh. }
  pose proof (np_dealt_total worst (show_hands st cm) (show_hands st cm) [] 0 (fun _ => false) eq_refl ltac:(intros h [])) as T.
  fold (np_show_pots worst st cm) in T. rewrite clamp_sum, show_sum in T by assumption.
  unfold np_split_pots. fold (show_hands st cm).
  destruct (np_loop_dealt worst (show_hands st cm) (show_nodup st cm Hl) (show_hands st cm) [] 0 (fun _ => false)
    (mkPots (show_hands st cm) pt 0 (repeat 0 n)) eq_refl ltac:(reflexivity)) as [P1 P2].
  { cbn [p_hands]. now rewrite view_start. }
  { cbn [p_hands p_pot]. rewrite show_sum by exact Hl. now left. }
  cbn [List.length p_payouts p_remainder] in P1, P2. fold (np_show_pots worst st cm) in P1, P2. rewrite P1, P2, Z.add_0_l.
  assert (E : fold_left pay_pot (np_show_pots worst st cm) (repeat 0 n) = map (share (np_show_pots worst st cm)) (seq 0 n)).
  { apply nth_ext_Z; rewrite pay_pots_length, repeat_length; [now rewrite map_length, seq_length|].
    intros i Hi. rewrite (pay_pots_nth n) by (assumption || apply repeat_length). rewrite nth_repeat_lt by exact Hi.
    rewrite (map_nth_lt _ _ _ 0 0%nat) by (rewrite seq_length; exact Hi). rewrite seq_nth by exact Hi. reflexivity. }
  rewrite E. pose proof (pay_pots_sum n (np_show_pots worst st cm) G (repeat 0 n) (repeat_length _ _)) as S1. rewrite E, sumZ_repeat0 in S1.
  split; [reflexivity|split; [exact G|lia]].
Qed.

(** ** The end of a step *)
Lemma np_done_all c s : List.length (active s) = num_players c ->
  all_true (np_done_list c s) = true <-> (num_streets c <= street s)%nat \/ count_true (active s) <= 1.
Proof.
  intros La. unfold np_done_list. destruct (Nat.leb (num_streets c) (street s) || (count_true (active s) <=? 1)) eqn:E.
  - split; [intros _; lia|intros _; rewrite all_true_spec, repeat_length; intros i Hi; now apply nth_repeat_lt].
  - split; [intros H|lia]. exfalso. assert (Hc : 1 <= count_true (active s)) by lia. clear E La.
    induction (active s) as [|a l IH]; [cbn in Hc; lia|]. cbn [map] in H. unfold all_true in *. cbn [forallb] in H.
    apply andb_true_iff in H. destruct H as [H1 H2]. destruct a; [discriminate|]. apply IH; [exact H2|]. exact Hc.
Qed.
Lemma np_step_end_cases c s :
  (exists e, np_payouts c s = Err e /\ np_step_end c s = (s, Err e)) \/
  (exists pay, np_payouts c s = Ok pay /\ all_true (np_done_list c s) = true /\ fst (np_step_end c s) = finish_hand s pay) \/
  (exists pay, np_payouts c s = Ok pay /\ all_true (np_done_list c s) = false /\ fst (np_step_end c s) = s).
Proof.
  unfold np_step_end. destruct (np_payouts c s) as [pay|e]; [|left; exists e; auto].
  right. destruct (all_true (np_done_list c s)); [left|right]; exists pay; auto.
Qed.
(** outside a showdown the payouts are those of the dealer on lists *)
Lemma np_payouts_same c s : count_true (active s) = 1 \/ (street s < num_streets c)%nat -> np_payouts c s = payouts c s.
Proof.
  intros H. unfold np_payouts, payouts. destruct (count_true (active s) =? 1) eqn:E; [reflexivity|].
  destruct H as [H|H]; [lia|]. now replace (Nat.leb (num_streets c) (street s)) with false by lia.
Qed.
Lemma np_payouts_wrap c s : count_true (active s) = 1 \/ (street s < num_streets c)%nat -> np_payouts c s = payouts c (wrap c s).
Proof. intros H. rewrite np_payouts_same by exact H. unfold payouts. destruct (count_true (active s) =? 1) eqn:E; cbn [wrap set_button active pot_commits pot street]; rewrite E; [reflexivity|].
  destruct H as [H|H]; [lia|]. now replace (Nat.leb (num_streets c) (street s)) with false by lia. Qed.
(** the pots dealt out at a showdown, and the payouts *)
Definition np_pots_of (c : config) (z : state) (st : list Z) : list (list nat * Z) := np_show_pots (worst_hand c) st (pot_commits z).
Lemma np_show_payouts c z : count_true (active z) <> 1 -> (num_streets c <= street z)%nat ->
  List.length (pot_commits z) = num_players c -> List.length (hole_cards z) = num_players c ->
  (forall i, 0 <= committed z i) -> pot z = sumZ (pot_commits z) ->
  (exists e, eval_hands c (active z) (hole_cards z) (community_cards z) = Err e /\ np_payouts c z = Err e) \/
  (exists st, eval_hands c (active z) (hole_cards z) (community_cards z) = Ok st /\
    let pots := np_pots_of c z st in
    let base := map (share pots) (seq 0 (num_players c)) in
    Forall (good_pot (num_players c)) pots /\ sumZ base + odd_chips pots = sumZ (pot_commits z) /\
    ((odd_chips pots = 0 /\ np_payouts c z = Ok (sub_lists base (pot_commits z))) \/
     (0 < odd_chips pots /\ (forall i, (i < num_players c)%nat -> share pots i = 0) /\ np_payouts c z = Err ValueError) \/
     (0 < odd_chips pots /\ exists q, (q < num_players c)%nat /\ 0 < share pots q /\
        (forall j, (j < num_players c)%nat -> 0 < share pots j -> (shifted (num_players c) (button z) q <= shifted (num_players c) (button z) j)%nat) /\
        np_payouts c z = Ok (sub_lists (add_at base q (odd_chips pots)) (pot_commits z))))).
Proof.
  intros Hc Hs Lc Lh Hn Hp. unfold np_payouts. replace (count_true (active z) =? 1) with false by lia.
  replace (Nat.leb (num_streets c) (street z)) with true by lia. unfold np_eval_round.
  destruct (eval_hands c (active z) (hole_cards z) (community_cards z)) as [st|e] eqn:E; [right|left; exists e; auto].
  exists st. split; [reflexivity|]. cbv zeta. destruct (eval_hands_spec c z st Lh E) as [Ls _]. cbn [bind].
  destruct (np_split_pots_spec (num_players c) (button z) (worst_hand c) (pot z) st (pot_commits z) Ls Lc) as (S1 & S2 & S3);
    [apply nonneg_forall; exact Hn|exact Hp|]. fold (np_pots_of c z st) in *. set (pots := np_pots_of c z st) in *.
  split; [exact S2|]. split; [exact S3|]. rewrite S1. pose proof (odd_nonneg _ _ S2) as On.
  assert (Bn : forall i, (i < num_players c)%nat -> nth i (map (share pots) (seq 0 (num_players c))) 0 = share pots i).
  { intros i Hi. rewrite (map_nth_lt _ _ _ _ 0%nat) by (now rewrite seq_length). now rewrite seq_nth. }
  assert (Pn : forall i, 0 <= share pots i) by (intros i; eapply share_nonneg; exact S2).
  destruct (odd_chips pots =? 0) eqn:E0; [left; split; [lia|reflexivity]|right].
  destruct (np_remainder_spec (num_players c) (button z) (odd_chips pots) (map (share pots) (seq 0 (num_players c)))) as [(R1 & ->)|(q & Q1 & Q2 & Q3 & ->)];
    [now rewrite map_length, seq_length| |].
  - left. split; [lia|]. split; [|reflexivity]. intros i Hi. now rewrite <- Bn, R1.
  - right. split; [lia|]. exists q. split; [exact Q1|]. rewrite Bn in Q2 by exact Q1. pose proof (Pn q). split; [lia|]. split; [|reflexivity].
    intros j Hj Pj. apply Q3; [exact Hj|]. rewrite Bn by exact Hj. lia.
Qed.
Lemma np_payouts_facts c z pay : List.length (active z) = num_players c -> List.length (pot_commits z) = num_players c ->
  List.length (hole_cards z) = num_players c -> (forall i, 0 <= committed z i) -> pot z = sumZ (pot_commits z) -> np_payouts c z = Ok pay ->
  List.length pay = num_players c /\
  (count_true (active z) = 1 \/ (num_streets c <= street z)%nat -> sumZ pay = 0 /\ forall i, - committed z i <= nth i pay 0).
Proof.
  intros La Lc Lh Hn Hp H.
  destruct (Z.eq_dec (count_true (active z)) 1) as [E|E]; [|destruct (Nat.lt_ge_cases (street z) (num_streets c)) as [S|S]].
  - rewrite np_payouts_same in H by now left. assert (Lp := payouts_length c z pay La Lc H). split; [exact Lp|]. intros _.
    destruct (payouts_fold c z E La Lc) as (pay' & P' & K). rewrite H in P'. injection P' as <-. split.
    + rewrite (sum_by_seat pay (fun i => (if nth i (active z) false then pot z else 0) + - committed z i) (num_players c));
        [|exact Lp|intros i Hi; rewrite (K i Hi); destruct (nth i (active z) false); lia].
      rewrite map_sumZ_add, map_sumZ_opp. rewrite <- La at 1. rewrite one_active_sum, E, Hp.
      rewrite <- (sum_by_seat (pot_commits z) (committed z) (num_players c)); [lia|exact Lc|reflexivity].
    + intros i. destruct (Nat.lt_ge_cases i (num_players c)) as [Hi|Hi].
      * rewrite (K i Hi). assert (0 <= pot z) by (rewrite Hp; apply sumZ_nonneg; intros j _; apply Hn). destruct (nth i (active z) false); lia.
      * rewrite nth_overflow by lia. specialize (Hn i). lia.
  - rewrite np_payouts_same in H by now right. split; [exact (payouts_length c z pay La Lc H)|lia].
  - destruct (np_show_payouts c z E S Lc Lh Hn Hp) as [(e & _ & X)|(st & _ & X)]; [rewrite H in X; discriminate X|]. cbv zeta in X.
    destruct X as (G & T & X). set (pots := np_pots_of c z st) in *. set (base := map (share pots) (seq 0 (num_players c))) in *.
    assert (Lb : List.length base = num_players c) by (unfold base; now rewrite map_length, seq_length).
    assert (Bn : forall i, 0 <= nth i base 0).
    { intros i. unfold base. destruct (Nat.lt_ge_cases i (num_players c)) as [L|L]; [|rewrite nth_overflow by (now rewrite map_length, seq_length); lia].
      rewrite (map_nth_lt _ _ _ _ 0%nat) by (now rewrite seq_length). eapply share_nonneg. exact G. }
    destruct X as [(E0 & X)|[(_ & _ & X)|(E0 & q & Hq & _ & _ & X)]]; rewrite H in X; [|discriminate X|]; injection X as ->.
    + split; [apply sub_lists_length; assumption|]. intros _. split; [rewrite sub_lists_sum by congruence; lia|].
      intros i. rewrite sub_lists_nth by congruence. specialize (Bn i). unfold committed. lia.
    + split; [apply sub_lists_length; [now rewrite add_at_length|assumption]|]. intros _. split.
      * rewrite sub_lists_sum by (rewrite add_at_length; congruence). rewrite add_at_sum by lia. lia.
      * intros i. rewrite sub_lists_nth by (rewrite add_at_length; congruence). rewrite add_at_nth by lia.
        pose proof (Bn i) as B1. pose proof (Bn q) as B2. unfold committed. destruct (Nat.eqb_spec i q) as [->|]; lia.
Qed.

(** ** The invariant of fair play *)
Lemma settle_money c t b s1 : money c t -> in_progress t -> after_bet c t b = Some s1 ->
  let z := settle c s1 in
  List.length (active z) = num_players c /\ List.length (pot_commits z) = num_players c /\ List.length (stacks z) = num_players c /\
  List.length (hole_cards z) = num_players c /\ pot z = sumZ (pot_commits z) /\ all_chips z = all_chips t /\ in_progress z /\
  (forall i, 0 <= committed z i) /\ 1 <= count_true (active z) /\ (forall i, 0 <= stack_of t i -> 0 <= stack_of z i) /\
  (2 <= count_true (active z) -> money c z) /\
  (forall pay, List.length pay = num_players c -> money c (finish_hand z pay)).
Proof.
  intros M Hp H1. cbv zeta. pose proof (mo_wf _ _ M) as I. pose proof (mo_cfg _ _ M) as W.
  destruct (after_bet_wf c t b s1 W I H1) as (A1 & A2 & A3 & A4 & A5 & A6 & A7 & A8 & A9 & A10 & A11).
  destruct (settle_wf c s1 W A1 A2 A3 A4 A5 A6 A7 A8 A9 A10) as (B1 & B2 & B3 & B4 & B5 & B6 & B7 & B8 & B9 & B10). cbv zeta in *.
  destruct (after_bet_money c t b s1 M H1) as (C1 & C2 & C3).
  pose proof (settle_keep c s1 W) as K. pose proof (after_bet_largest c t b s1 H1) as HL. pose proof (mo_largest _ _ M Hp) as HL0.
  assert (Cm : forall i, 0 <= committed (settle c s1) i) by (intros i; unfold committed; rewrite (sk_commits _ _ K); apply C1).
  splits; try assumption.
  - rewrite (sk_pot _ _ K), (sk_commits _ _ K). exact A8.
  - congruence.
  - unfold in_progress. destruct B10 as (a & -> & _). discriminate.
  - rewrite (sk_active _ _ K). exact A9.
  - intros i Hi. unfold stack_of. rewrite (sk_stacks _ _ K). now apply C3.
  - intros Hc. split; try assumption; try apply M.
    + apply B1. rewrite <- (sk_active _ _ K). exact Hc.
    + intros _. rewrite (sk_largest _ _ K). lia.
    + intros _ i Hi. unfold is_active, committed, stack_of in *. rewrite (sk_commits _ _ K), (sk_stacks _ _ K), (sk_active _ _ K) in *. now apply C2.
  - intros pay Lp. split; try apply M.
    + now apply finish_wf.
    + intros X. exfalso. now apply X.
    + intros i. apply Cm.
    + intros X. exfalso. now apply X.
Qed.

Record np_settled (c : config) (s : state) (b : pynum) (z : state) : Prop := mkNpSettled {
  ns_step : np_step c s b = np_step_end c z;
  ns_after : exists s1, after_bet c (wrap c s) b = Some s1 /\ wrap c z = settle c s1;
  ns_button : button z = button s;
  ns_active : List.length (active z) = num_players c;
  ns_commits : List.length (pot_commits z) = num_players c;
  ns_stacks : List.length (stacks z) = num_players c;
  ns_hole : List.length (hole_cards z) = num_players c;
  ns_pot : pot z = sumZ (pot_commits z);
  ns_chips : all_chips z = all_chips s;
  ns_turn : in_progress z;
  ns_nonneg : forall i, 0 <= committed z i;
  ns_count : 1 <= count_true (active z);
  ns_keep : forall i, 0 <= stack_of s i -> 0 <= stack_of z i;
  ns_money : 2 <= count_true (active z) -> money c (wrap c z);
  ns_finish : forall pay, List.length pay = num_players c -> money c (wrap c (finish_hand z pay))
}.
Lemma np_step_settled c s b : money c (wrap c s) -> in_progress s ->
  (after_bet c (wrap c s) b = None /\ fst (np_step c s b) = s /\ is_ok (snd (np_step c s b)) = false) \/
  exists z, np_settled c s b z.
Proof.
  intros M Hp. assert (Hn : (0 < num_players c)%nat) by (pose proof (cw_two _ (mo_cfg _ _ M)); lia).
  destruct (np_step_anatomy c s b Hn M Hp) as [(A & B & C)|(s1 & z & A & B & C & D)]; [left; auto|right].
  exists z. pose proof (settle_money c (wrap c s) b s1 M Hp A) as K. cbv zeta in K. rewrite <- B in K.
  destruct K as (K1 & K2 & K3 & K4 & K5 & K6 & K7 & K8 & K9 & K10 & K11 & K12).
  split; try assumption. exists s1. auto.
Qed.
Lemma np_payouts_err c z e : np_payouts c z = Err e -> count_true (active z) <> 1 /\ (num_streets c <= street z)%nat.
Proof.
  unfold np_payouts. destruct (count_true (active z) =? 1) eqn:E; [discriminate|]. destruct (Nat.leb (num_streets c) (street z)) eqn:E2; [|discriminate]. lia.
Qed.
Lemma np_step_money c s b : money c (wrap c s) -> money c (wrap c (fst (np_step c s b))).
Proof.
  intros M. destruct (action s) as [a|] eqn:Ea; [|unfold np_step; now rewrite Ea].
  destruct (np_step_settled c s b M ltac:(unfold in_progress; congruence)) as [(_ & -> & _)|(z & Z)]; [exact M|].
  rewrite (ns_step _ _ _ _ Z). pose proof (ns_count _ _ _ _ Z).
  destruct (np_step_end_cases c z) as [(e & P & ->)|[(pay & P & D & ->)|(pay & P & D & ->)]]; cbn [fst].
  - apply np_payouts_err in P. apply Z. lia.
  - apply Z. now apply (np_payouts_facts c z pay (ns_active _ _ _ _ Z) (ns_commits _ _ _ _ Z) (ns_hole _ _ _ _ Z) (ns_nonneg _ _ _ _ Z) (ns_pot _ _ _ _ Z)).
  - apply Z. pose proof (np_done_all c z (ns_active _ _ _ _ Z)) as X. rewrite D in X.
    destruct (Z_le_dec 2 (count_true (active z))) as [L|L]; [exact L|]. exfalso. assert (Y : false = true) by (apply X; right; lia). discriminate Y.
Qed.
Lemma np_allowed_wrap c s rnd rb rs : cfg_wf c -> np_allowed c s (OReset rnd rb rs) -> allowed c (wrap c s) (OReset rnd rb rs).
Proof.
  intros W [H|H]; [now left|right]. destruct (np_reset_wrap c s rnd rb rs W) as [_ E]. rewrite <- E. destruct (snd (np_reset c s rnd rb rs)); [reflexivity|discriminate].
Qed.
Lemma np_fair_money c s : np_fair c s -> money c (wrap c s).
Proof.
  induction 1 as [w rnd s H Hs|s o F IH Ho Hn].
  - assert (M : money c s) by (apply fair_money; eapply fair_new; eassumption). rewrite wrap_small; [exact M|]. apply M.
  - pose proof (mo_cfg _ _ IH) as W. destruct o as [rnd rb rs|b|cs| |l]; cbn [np_apply_op] in *.
    + destruct (np_reset_wrap c s rnd rb rs W) as [-> _]. apply reset_money; [exact IH|]. now apply np_allowed_wrap.
    + now apply np_step_money.
    + destruct (deck_trick cs (the_deck s)); [|exact IH]. destruct IH as [J1 [] J3 J4 J5 J6]; split; try assumption; split; assumption.
    + destruct IH as [J1 [] J3 J4 J5 J6]; split; try assumption; split; assumption.
    + destruct IH as [J1 J2 J3 J4 J5 J6]. cbn in Ho. split; try assumption.
      * destruct J2; split; assumption.
      * intros P i Hi. pose proof (J5 i). unfold committed, stack_of in *. cbn [wrap set_button set_stacks pot_commits stacks] in *.
        destruct (Nat.lt_ge_cases i (List.length l)) as [Hl|Hl]; [|rewrite (nth_overflow l) by exact Hl; lia].
        rewrite Forall_forall in Hn. specialize (Hn (nth i l 0) (nth_In _ _ Hl)). lia.
Qed.

(** the step that ends a hand *)
Record np_ended (c : config) (s : state) (b : pynum) (z : state) (pay : list Z) (o : obs) : Prop := mkNpEnded {
  ne_settled : np_settled c s b z;
  ne_pay : np_payouts c z = Ok pay;
  ne_length : List.length pay = num_players c;
  ne_how : (num_streets c <= street z)%nat \/ count_true (active z) = 1;
  ne_total : sumZ pay = 0 /\ forall i, - committed z i <= nth i pay 0;
  ne_state : fst (np_step c s b) = finish_hand z pay;
  ne_obs : observation c (finish_hand z pay) true = Ok o;
  ne_out : snd (np_step c s b) = Ok (mkOut o pay (repeat true (num_players c)))
}.
Lemma np_done_true c z : (num_streets c <= street z)%nat \/ count_true (active z) <= 1 -> np_done_list c z = repeat true (num_players c).
Proof. intros H. unfold np_done_list. now replace (Nat.leb (num_streets c) (street z) || (count_true (active z) <=? 1)) with true by lia. Qed.
Lemma np_settled_ends c s b z pay : np_settled c s b z -> (2 <= num_players c)%nat -> (num_streets c <= street z)%nat \/ count_true (active z) = 1 ->
  np_payouts c z = Ok pay -> exists o, np_ended c s b z pay o.
Proof.
  intros Z H2 Hd P.
  destruct (np_payouts_facts c z pay (ns_active _ _ _ _ Z) (ns_commits _ _ _ _ Z) (ns_hole _ _ _ _ Z) (ns_nonneg _ _ _ _ Z) (ns_pot _ _ _ _ Z) P) as [Lp T].
  destruct (finish_obs c z pay) as (o & Ho); [rewrite (ns_hole _ _ _ _ Z); lia|]. exists o.
  assert (D : np_done_list c z = repeat true (num_players c)) by (apply np_done_true; lia).
  assert (At : all_true (repeat true (num_players c)) = true) by (rewrite all_true_spec, repeat_length; intros i Hi; now apply nth_repeat_lt).
  split; try assumption.
  - apply T. lia.
  - rewrite (ns_step _ _ _ _ Z). unfold np_step_end. rewrite P, D, At. reflexivity.
  - rewrite (ns_step _ _ _ _ Z). unfold np_step_end. rewrite P, D, At. cbn [snd]. rewrite Ho. reflexivity.
Qed.
Lemma np_step_ended c s b : money c (wrap c s) -> in_progress s -> action (fst (np_step c s b)) = None -> exists z pay o, np_ended c s b z pay o.
Proof.
  intros M Hp Hn. destruct (np_step_settled c s b M Hp) as [(_ & E & _)|(z & Z)]; [rewrite E in Hn; contradiction|].
  exists z. pose proof (cw_two _ (mo_cfg _ _ M)) as H2. pose proof (ns_count _ _ _ _ Z) as H1.
  destruct (np_step_end_cases c z) as [(e & _ & E)|[(pay & P & D & E)|(pay & _ & _ & E)]];
    rewrite <- (ns_step _ _ _ _ Z) in E; [rewrite E in Hn; cbn [fst] in Hn; now apply (ns_turn _ _ _ _ Z) in Hn| |rewrite E in Hn; now apply (ns_turn _ _ _ _ Z) in Hn].
  exists pay. apply (np_settled_ends c s b z pay Z H2); [|exact P]. apply (np_done_all c z (ns_active _ _ _ _ Z)) in D. lia.
Qed.
Lemma np_ended_sum c s b z pay o : np_ended c s b z pay o -> sumZ (stacks (fst (np_step c s b))) = all_chips s.
Proof.
  intros E. pose proof (ne_settled _ _ _ _ _ _ E) as Z. rewrite (ne_state _ _ _ _ _ _ E). cbn [finish_hand stacks]. destruct (ne_total _ _ _ _ _ _ E) as [T _].
  rewrite !add_lists_sum.
  - rewrite <- (ns_chips _ _ _ _ Z). unfold all_chips. rewrite (ns_pot _ _ _ _ Z). lia.
  - rewrite (ns_stacks _ _ _ _ Z). symmetry. apply E.
  - rewrite (ns_commits _ _ _ _ Z). apply add_lists_length; [apply Z|apply E].
Qed.
Lemma np_ended_stack c s b z pay o i : np_ended c s b z pay o -> (i < num_players c)%nat ->
  stack_of (fst (np_step c s b)) i = stack_of z i + nth i pay 0 + committed z i.
Proof.
  intros E Hi. pose proof (ne_settled _ _ _ _ _ _ E) as Z. rewrite (ne_state _ _ _ _ _ _ E). unfold stack_of, committed. cbn [finish_hand stacks].
  rewrite !add_lists_nth; [reflexivity|rewrite (ns_stacks _ _ _ _ Z); symmetry; apply (ne_length _ _ _ _ _ _ E)|].
  rewrite (ns_commits _ _ _ _ Z). apply add_lists_length; [apply Z|apply E].
Qed.
