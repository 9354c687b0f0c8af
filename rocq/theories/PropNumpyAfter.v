(** * PropNumpyAfter: the dealer of engine_numpy.py after a hand, on paper and in 32 bits (C72, C73, C74) *)
From Coq Require Import ZifyBool ZifyNat Arith Sorting.Sorted.
From Verif Require Import PyBase PyFacts CardModel EvalModel EvalSpec EngineModel EngineSpec EngineFacts BetFacts EngineDemo MoneyFacts ShowSpec ShowFacts SideFacts HandEnd PropRound PropReset PropSide PropBetting SolventSpec SolventFacts
  AsciiModel JsonModel SvgModel RenderModel PropAscii NumpyModel NumpySpec NumpyFacts NumpyRenderModel PropNumpy.

(** ** C72 Steps after the end of a hand *)
(** the pots are the same if they are dealt out again with an empty pot *)
Lemma np_split_again n b worst st cm : List.length st = n -> List.length cm = n -> Forall (fun x => 0 <= x) cm ->
  (exists i, (i < n)%nat /\ nth i st 0 < worst) -> (forall i, (i < n)%nat -> nth i st 0 < worst -> 0 < nth i cm 0) ->
  np_split_pots n b worst 0 st cm = np_split_pots n b worst (sumZ cm) st cm.
Proof.
  intros Hs Hc Hnn (j & Hj & Wj) Pos. assert (Hl : List.length cm = List.length st) by congruence.
  assert (Nn : forall o, In o (show_hands st cm) -> 0 <= h_commit o).
  { intros o Ho. apply show_in in Ho; [|exact Hl]. destruct Ho as (H1 & _ & ->). rewrite Forall_forall in Hnn. apply Hnn. apply nth_In. lia. }
  assert (First : match show_hands st cm with h :: _ => 0 < h_commit h | [] => True end).
  { destruct (show_hands st cm) as [|h r] eqn:E; [exact I|].
    assert (Hh : In h (show_hands st cm)) by (rewrite E; now left). pose proof Hh as Hh'. apply show_in in Hh'; [|exact Hl]. destruct Hh' as (H1 & H2 & ->).
    apply Pos; [lia|]. rewrite <- H2.
    set (o := mkHand j (nth j st 0) (nth j cm 0)). assert (Ho : In o (show_hands st cm)) by (apply show_in; [exact Hl|cbn; repeat split; lia]).
    assert (Sr : StronglySorted hle (show_hands st cm)) by apply sort_sorted. rewrite E in *. inversion Sr as [|? ? _ F]; subst.
    destruct Ho as [->|Ho]; [exact Wj|]. rewrite Forall_forall in F. apply F in Ho. apply hle_spec in Ho. unfold o in Ho. cbn [h_strength] in Ho. lia. }
  unfold np_split_pots. fold (show_hands st cm).
  assert (L : forall pt, pt = sumZ cm \/ pt = 0 ->
    p_payouts (np_pot_loop worst (seq 0 (List.length (show_hands st cm))) (mkPots (show_hands st cm) pt 0 (repeat 0 n))) = fold_left pay_pot (np_show_pots worst st cm) (repeat 0 n) /\
    p_remainder (np_pot_loop worst (seq 0 (List.length (show_hands st cm))) (mkPots (show_hands st cm) pt 0 (repeat 0 n))) = 0 + odd_chips (np_show_pots worst st cm)).
  { intros pt Hpt. apply (np_loop_dealt worst (show_hands st cm) (show_nodup st cm Hl) (show_hands st cm) [] 0 (fun _ => false)
      (mkPots (show_hands st cm) pt 0 (repeat 0 n)) eq_refl ltac:(reflexivity)).
    - cbn [p_hands]. now rewrite view_start.
    - cbn [p_hands p_pot]. rewrite show_sum by exact Hl. destruct Hpt as [->| ->]; [now left|]. right. right. split; [reflexivity|exact First]. }
  destruct (L (sumZ cm) (or_introl eq_refl)) as [A1 A2]. destruct (L 0 (or_intror eq_refl)) as [B1 B2].
  now rewrite A1, A2, B1, B2.
Qed.
Lemma np_payouts_again c s b z pay : np_settled c s b z -> 2 <= count_true (active z) -> (num_streets c <= street z)%nat ->
  (forall i, is_active z i -> 0 < committed z i) -> np_payouts c (finish_hand z pay) = np_payouts c z.
Proof.
  intros Z Hc Hs Pos. unfold np_payouts. cbn [finish_hand active street pot_commits pot].
  replace (count_true (active z) =? 1) with false by lia. replace (Nat.leb (num_streets c) (street z)) with true by lia. unfold np_eval_round.
  cbn [finish_hand active hole_cards community_cards button pot_commits pot].
  destruct (eval_hands c (active z) (hole_cards z) (community_cards z)) as [st|] eqn:E; [|reflexivity]. cbn [bind].
  destruct (eval_hands_spec c z st (ns_hole _ _ _ _ Z) E) as [Ls Es]. rewrite (ns_pot _ _ _ _ Z).
  rewrite np_split_again; [reflexivity|exact Ls|apply Z|apply nonneg_forall; apply Z| |].
  - destruct (count_true_pos (active z) ltac:(lia)) as (j & Hj & Aj). rewrite (ns_active _ _ _ _ Z) in Hj. exists j. split; [exact Hj|]. now apply Es.
  - intros i Hi Wi. apply Pos. unfold is_active. destruct (nth i (active z) false) eqn:Ai; [reflexivity|]. destruct (Es i Hi) as [_ X]. rewrite (X Ai) in Wi. lia.
Qed.
Theorem C72_state : forall c s b, action s = None -> fst (np_step c s b) = s.
Proof. intros c s b H. unfold np_step. rewrite H. reflexivity. Qed.
Print Assumptions C72_state.
(** After a showdown in which everybody in the hand has put something in, further steps return what the last one did. *)
Theorem C72_partial : forall c s b bs b', np_fair c s -> in_progress s ->
  let s' := fst (np_step c s b) in
  action s' = None -> 2 <= count_true (active s') -> (forall i, is_active s' i -> 0 < committed s' i) ->
  np_run_steps c s' bs = s' /\ snd (np_step c s' b') = snd (np_step c s b).
Proof.
  intros c s b bs b' F Hp. cbv zeta. intros Hn Hc Pos. split.
  { revert Hn. generalize (fst (np_step c s b)). induction bs as [|x bs IH]; intros s' Hn; [reflexivity|].
    change (np_run_steps c s' (x :: bs)) with (np_run_steps c (fst (np_step c s' x)) bs). rewrite (C72_state c s' x Hn). now apply IH. }
  destruct (np_step_ended c s b (np_fair_money c s F) Hp Hn) as (z & pay & o & E). pose proof (ne_settled _ _ _ _ _ _ E) as Z.
  rewrite (ne_state _ _ _ _ _ _ E) in *. cbn [finish_hand active] in Hc.
  assert (Hs : (num_streets c <= street z)%nat) by (destruct (ne_how _ _ _ _ _ _ E); [assumption|lia]).
  rewrite (ne_out _ _ _ _ _ _ E). unfold np_step. cbn [action finish_hand snd]. unfold np_step_idle.
  assert (A : any_true (active (finish_hand z pay)) = true).
  { cbn [finish_hand active]. destruct (count_true_pos (active z) ltac:(lia)) as (j & Hj & Aj). apply any_true_spec. eauto. }
  rewrite A, (np_payouts_again c s b z pay Z Hc Hs Pos), (ne_pay _ _ _ _ _ _ E). cbn [bind].
  rewrite (np_done_true c (finish_hand z pay)) by (left; exact Hs).
  assert (T : all_true (repeat true (num_players c)) = true) by (rewrite all_true_spec, repeat_length; intros i Hi; now apply nth_repeat_lt).
  rewrite T, (ne_obs _ _ _ _ _ _ E). reflexivity.
Qed.
Print Assumptions C72_partial.
(** After a hand that ended by folding they return a loss for everybody. *)
Theorem C72_after_fold : forall c s b b', np_fair c s -> in_progress s ->
  let s' := fst (np_step c s b) in
  action s' = None -> count_true (active s') = 1 ->
  exists out, snd (np_step c s' b') = Ok out /\ out_done out = repeat true (num_players c) /\
    forall i, (i < num_players c)%nat -> nth i (out_payouts out) 0 = - committed s' i.
Proof.
  intros c s b b' F Hp. cbv zeta. intros Hn Hc.
  destruct (np_step_ended c s b (np_fair_money c s F) Hp Hn) as (z & pay & o & E). pose proof (ne_settled _ _ _ _ _ _ E) as Z.
  rewrite (ne_state _ _ _ _ _ _ E) in *. cbn [finish_hand active] in Hc.
  unfold np_step. cbn [action finish_hand snd]. unfold np_step_idle.
  assert (A : any_true (active (finish_hand z pay)) = true).
  { cbn [finish_hand active]. destruct (count_true_pos (active z) ltac:(lia)) as (j & Hj & Aj). apply any_true_spec. eauto. }
  rewrite A, np_payouts_same by now left.
  destruct (payouts_fold c (finish_hand z pay) Hc (ns_active _ _ _ _ Z) (ns_commits _ _ _ _ Z)) as (pay' & P' & H). rewrite P'. cbn [bind].
  rewrite (np_done_true c (finish_hand z pay)) by (right; cbn [finish_hand active]; lia).
  assert (T : all_true (repeat true (num_players c)) = true) by (rewrite all_true_spec, repeat_length; intros i Hi; now apply nth_repeat_lt).
  rewrite T, (ne_obs _ _ _ _ _ _ E). cbn [bind]. eexists. split; [reflexivity|]. cbn [out_done out_payouts]. split; [reflexivity|].
  intros i Hi. rewrite (H i Hi). unfold committed. cbn [finish_hand active pot pot_commits]. destruct (nth i (active z) false); lia.
Qed.
Print Assumptions C72_after_fold.
Theorem C72_refuted : ~ forall c s b b' out out', np_fair c s -> in_progress s ->
  let s' := fst (np_step c s b) in
  action s' = None -> snd (np_step c s b) = Ok out -> snd (np_step c s' b') = Ok out' -> out_payouts out = out_payouts out'.
Proof.
  intros H.
  assert (K : exists c s, np_fair c s /\ action s = Some 1%nat /\ action (fst (np_step c s (PyInt (-1)))) = None /\
    map_ok out_payouts (snd (np_step c s (PyInt (-1)))) = Ok [0; -1; 1] /\
    map_ok out_payouts (snd (np_step c (fst (np_step c s (PyInt (-1)))) (PyInt 0))) = Ok [0; -1; -2]).
  { np_play no_limit_3 (new_hand :: bets [-1]) c s E. split; [exact (np_played_fair _ _ _ _ E)|]. np_plays E. }
  destruct K as (c & s & F & K1 & K2 & K3 & K4).
  destruct (snd (np_step c s (PyInt (-1)))) as [o1|] eqn:E1; [|discriminate K3]. injection K3 as K3.
  destruct (snd (np_step c (fst (np_step c s (PyInt (-1)))) (PyInt 0))) as [o2|] eqn:E2; [|discriminate K4]. injection K4 as K4.
  specialize (H c s (PyInt (-1)) (PyInt 0) o1 o2 F ltac:(unfold in_progress; rewrite K1; discriminate) K2 E1 E2). rewrite K3, K4 in H. discriminate H.
Qed.
Print Assumptions C72_refuted.
(** four players with 10, 10, 20 and 20 in; a step after the showdown the payouts are still the same *)
Example C72_example : exists c s, np_fair c s /\ in_progress s /\ action (fst (np_step c s (PyInt 20))) = None /\
  count_true (active (fst (np_step c s (PyInt 20)))) = 4 /\ pot_commits (fst (np_step c s (PyInt 20))) = [10; 10; 20; 20] /\
  map_ok out_payouts (snd (np_step c s (PyInt 20))) = Ok [3; 4; 13; -20] /\
  map_ok out_payouts (snd (np_step c (fst (np_step c s (PyInt 20))) (PyInt 7))) = Ok [3; 4; 13; -20].
Proof.
  assert (K : exists c s, np_fair c s /\ action s = Some 2%nat /\ action (fst (np_step c s (PyInt 20))) = None /\
    count_true (active (fst (np_step c s (PyInt 20)))) = 4 /\ pot_commits (fst (np_step c s (PyInt 20))) = [10; 10; 20; 20] /\
    map_ok out_payouts (snd (np_step c s (PyInt 20))) = Ok [3; 4; 13; -20] /\
    map_ok out_payouts (snd (np_step c (fst (np_step c s (PyInt 20))) (PyInt 7))) = Ok [3; 4; 13; -20]).
  { np_play side_game side_ops c s E. split; [exact (np_played_fair _ _ _ _ E)|]. np_plays E. }
  destruct K as (c & s & F & K1 & K). exists c, s. split; [exact F|]. split; [unfold in_progress; rewrite K1; discriminate|]. exact K.
Qed.

(** ** C73: printing the dealer on arrays *)
Lemma np_str_exact c s e : np_fair c s ->
  np_str c s = Err e <-> np_payouts c s = Err e \/ (is_ok (np_payouts c s) = true /\ (num_players c <= button s)%nat /\ e = IndexError).
Proof.
  intros F. pose proof (np_fair_money c s F) as M. pose proof (mo_cfg _ _ M) as CW. pose proof (mo_wf _ _ M) as W.
  destruct (viewer_exists c (num_hole_cards c) (sumZ (num_community_cards c)) CW) as (v & V).
  unfold np_str. rewrite V. cbn [bind]. unfold np_render_config. destruct (np_payouts c s) as [pay|e'] eqn:P; cbn [bind is_ok].
  2:{ split; [intros X; left; exact X|]. intros [X|(X & _)]; [exact X|discriminate X]. }
  match goal with |- parse_string v ?x = _ <-> _ => set (r := x) end.
  assert (A : rc_done r = false -> valid_index (num_players c) (rc_action r)).
  { intros _. unfold r. cbn [rc_action]. unfold valid_index. pose proof (cw_two _ CW). destruct (action s) as [a|] eqn:A; [|lia]. pose proof (proj1 (wf_turn _ _ W a A)). lia. }
  destruct (Nat.ltb_spec (button s) (num_players c)) as [B|B].
  - destruct (C50_never_fails (num_players c) _ _ v r V) as (t & ->); [unfold r; cbn [rc_button]; unfold valid_index; lia|exact A|].
    split; [intros X; discriminate X|]. intros [X|(_ & X & _)]; [discriminate X|lia].
  - assert (X : parse_string v r = Err IndexError).
    { destruct (proj1 (C50_seats (num_players c) _ _) v V) as (_ & L & _).
      unfold parse_string, str_config.
      assert (G : py_get (v_player_pos v) (rc_button r) = Err IndexError).
      { unfold r. cbn [rc_button]. unfold py_get. replace (0 <=? Z.of_nat (button s)) with true by lia. rewrite Nat2Z.id. unfold get.
        rewrite (proj2 (nth_error_None _ _)) by lia. reflexivity. }
      rewrite G. destruct (rc_done r); cbn [negb bind]; [reflexivity|].
      rewrite <- L in A. destruct (py_get_valid _ _ (A eq_refl)) as (ka & ->). reflexivity. }
    rewrite X. split; [intros Y; injection Y as <-; right; auto|]. intros [Y|(_ & _ & ->)]; [discriminate Y|reflexivity].
Qed.
(** Printing raises exactly if the payouts cannot be computed, or if the button has been counted up to the number of players. *)
Theorem C73_exact : forall c s e, np_fair c s ->
  (np_str c s = Err e <-> np_payouts c s = Err e \/ (is_ok (np_payouts c s) = true /\ (num_players c <= button s)%nat /\ e = IndexError)).
Proof. intros c s e. apply np_str_exact. Qed.
Print Assumptions C73_exact.
(** Before the button has been counted that far and the last street is over, it succeeds. *)
Theorem C73_partial : forall c s, np_fair c s -> (button s < num_players c)%nat -> (street s < num_streets c)%nat -> exists text, np_str c s = Ok text.
Proof.
  intros c s F B S. destruct (np_str c s) as [t|e] eqn:E; [exists t; reflexivity|]. exfalso.
  apply (np_str_exact c s e F) in E. destruct E as [E|(_ & E & _)]; [|lia]. apply np_payouts_err in E. lia.
Qed.
Print Assumptions C73_partial.
(** The text is then that of the dealer on lists, as long as somebody in the hand has chips left to bet. *)
Theorem C73_same : forall c s, np_fair c s -> in_progress s -> (button s < num_players c)%nat -> (street s < num_streets c)%nat ->
  (exists i, is_active s i /\ stack_of s i <> 0) -> np_str c s = render_ascii c s.
Proof.
  intros c s F Hp B St (i & Ai & Si). pose proof (np_fair_money c s F) as M. pose proof (mo_wf _ _ M) as W.
  unfold np_str, render_ascii. destruct (ASCIIViewer _ _ _) as [v|]; [|reflexivity]. cbn [bind].
  unfold np_render_config, render_config. rewrite np_payouts_same by (right; exact St).
  destruct (payouts c s); [|reflexivity]. cbn [bind].
  assert (D : all_true (np_done_list c s) = all_true (done_list c s)); [|rewrite D; reflexivity].
  pose proof (wf_active _ _ W) as La. pose proof (wf_stacks _ _ W) as Ls. pose proof (wf_count _ _ W Hp) as Lc. cbn [wrap set_button active stacks] in La, Ls, Lc.
  assert (Hi : (i < num_players c)%nat).
  { destruct (Nat.ltb_spec i (num_players c)) as [H|H]; [exact H|]. exfalso. unfold is_active in Ai. rewrite nth_overflow in Ai by lia. discriminate Ai. }
  assert (X : all_true (np_done_list c s) = false).
  { destruct (all_true (np_done_list c s)) eqn:X; [|reflexivity]. apply (np_done_all c s La) in X. lia. }
  rewrite X. symmetry. destruct (all_true (done_list c s)) eqn:Y; [|reflexivity]. exfalso.
  unfold done_list in Y. replace (Nat.leb (num_streets c) (street s) || (count_true (active s) <=? 1)) with false in Y by lia.
  rewrite all_true_spec in Y. assert (LL : List.length (combine (active s) (stacks s)) = num_players c) by (rewrite combine_length; lia).
  specialize (Y i). rewrite map_length, LL in Y. specialize (Y Hi).
  rewrite (map_nth_lt _ _ _ false (false, 0)) in Y by lia. rewrite combine_nth in Y by lia. cbn [fst snd] in Y.
  unfold is_active in Ai. unfold stack_of in Si. rewrite Ai in Y. cbn [negb orb] in Y. lia.
Qed.
Print Assumptions C73_same.
Definition fourth_hand := [new_hand; OReset [] false true; OReset [] false true; OReset [] false true].
(** The fourth hand of three players cannot be printed. *)
Theorem C73_refuted : exists c s, np_fair c s /\ in_progress s /\ (street s < num_streets c)%nat /\ np_str c s = Err IndexError.
Proof.
  assert (K : exists c s, np_fair c s /\ action s <> None /\ (street s < num_streets c)%nat /\ (num_players c <= button s)%nat).
  { np_play no_limit_3 fourth_hand c s E. split; [exact (np_played_fair _ _ _ _ E)|].
    assert (K : action s = Some 0%nat /\ street s = 0%nat /\ num_streets c = 2%nat /\ num_players c = 3%nat /\ button s = 3%nat) by (np_plays E).
    destruct K as (K1 & K2 & K3 & K4 & K5). rewrite K1, K2, K3, K4, K5. clear E. split; [discriminate|]. lia. }
  destruct K as (c & s & F & A & S & B). exists c, s. split; [exact F|]. split; [exact A|]. split; [exact S|].
  apply (C73_exact c s IndexError F). right. split; [|auto].
  destruct (np_payouts c s) as [pay|e] eqn:E; [reflexivity|]. apply np_payouts_err in E. lia.
Qed.
Print Assumptions C73_refuted.
Example C73_example : exists c s, np_fair c s /\ in_progress s /\ (button s < num_players c)%nat /\ (street s < num_streets c)%nat /\ (exists i, is_active s i /\ stack_of s i <> 0).
Proof.
  assert (K : exists c s, np_fair c s /\ action s = Some 2%nat /\ street s = 0%nat /\ num_streets c = 2%nat /\ num_players c = 3%nat /\ button s = 2%nat /\ active s = [true; true; true] /\ stacks s = [19; 18; 20]).
  { np_play no_limit_3 (firstn 3 fourth_hand) c s E. split; [exact (np_played_fair _ _ _ _ E)|]. np_plays E. }
  destruct K as (c & s & F & K1 & K2 & K3 & K4 & K5 & K6 & K7). exists c, s. split; [exact F|]. unfold in_progress, is_active, stack_of. rewrite K1, K2, K3, K4, K5, K6, K7.
  split; [discriminate|]. split; [lia|]. split; [lia|]. exists 0%nat. split; [reflexivity|discriminate].
Qed.

(** ** C74: how large the numbers in the arrays become *)
Definition street_within (s : state) : Prop := forall i, 0 <= street_committed s i <= committed s i.
Lemma np_settled_within c s b z : money c (wrap c s) -> no_debts s -> street_within s -> np_settled c s b z -> street_within z.
Proof.
  intros M N I0 Z. destruct (ns_after _ _ _ _ Z) as (s1 & H1 & Ez). pose proof (mo_cfg _ _ M) as W. pose proof (mo_wf _ _ M) as Iw.
  destruct (after_bet_effect _ _ _ _ H1) as (a & call & mi & ma & bet & folds & E).
  pose proof (be_turn _ _ _ _ _ _ _ _ _ _ E) as Ta. pose proof (money_limits c _ a call mi ma M Ta (be_sizes _ _ _ _ _ _ _ _ _ _ E)) as L.
  destruct (be_round _ _ _ _ _ _ _ _ _ _ E) as (y & Hy & Hs). pose proof (settled_bet _ a call mi ma b y L Hy) as F. rewrite Hs in F. destruct F as (F1 & F2 & F3 & F4 & F5 & F6).
  destruct (wf_turn _ _ Iw a Ta) as [La Ea]. pose proof (N a) as Na. unfold stack_of in Na.
  assert (X : 0 <= Z.min (nth a (stacks (wrap c s)) 0) bet) by (cbn [wrap set_button stacks]; lia). set (x := Z.min (nth a (stacks (wrap c s)) 0) bet) in *.
  assert (Ec : forall i, committed s1 i = committed s i + if Nat.eqb i a then x else 0).
  { intros i. unfold committed. rewrite (be_commits _ _ _ _ _ _ _ _ _ _ E), add_at_nth by (rewrite (wf_commits _ _ Iw); exact La).
    cbn [wrap set_button pot_commits]. fold x. destruct (Nat.eqb_spec i a) as [Ei|]; [rewrite Ei|]; lia. }
  assert (Et : forall i, street_committed s1 i = street_committed s i + if Nat.eqb i a then x else 0).
  { intros i. unfold street_committed. rewrite (be_street_commits _ _ _ _ _ _ _ _ _ _ E), add_at_nth by (rewrite (wf_street _ _ Iw); exact La).
    cbn [wrap set_button street_commits]. fold x. destruct (Nat.eqb_spec i a) as [Ei|]; [rewrite Ei|]; lia. }
  assert (I1 : street_within s1).
  { intros i. rewrite Ec, Et. pose proof (I0 i). destruct (Nat.eqb i a); lia. }
  intros i. change (0 <= street_committed (wrap c z) i <= committed (wrap c z) i). rewrite Ez. unfold settle. destruct (all_agreed s1); [|apply I1].
  pose proof (next_street_effect c s1 W) as Ne. unfold committed, street_committed. rewrite (ne_street_commits _ _ _ Ne), (EngineFacts.se_commits _ _ _ (ne_street _ _ _ Ne)).
  pose proof (I1 i) as Q. unfold committed, street_committed in Q.
  destruct (Nat.lt_ge_cases i (num_players c)); [rewrite nth_repeat_lt by assumption|rewrite nth_overflow by (now rewrite repeat_length)]; lia.
Qed.
Lemma np_reset_within c s rnd rb rs : money c (wrap c s) -> is_ok (snd (np_reset c s rnd rb rs)) = true -> street_within (fst (np_reset c s rnd rb rs)).
Proof.
  intros M H. pose proof (mo_cfg _ _ M) as W. pose proof (mo_wf _ _ M) as Iw. destruct (np_reset_wrap c s rnd rb rs W) as [E1 E2].
  assert (H' : is_ok (snd (reset c (wrap c s) rnd rb rs)) = true) by (rewrite <- E2; destruct (snd (np_reset c s rnd rb rs)); [reflexivity|discriminate H]).
  destruct (reset_spec c (wrap c s) rnd rb rs W Iw) as [(_ & _ & E)|[(_ & E)|(_ & _ & _ & E)]]; [rewrite E in H'; discriminate H'|rewrite E in H'; discriminate H'|].
  intros i. change (0 <= street_committed (wrap c (fst (np_reset c s rnd rb rs))) i <= committed (wrap c (fst (np_reset c s rnd rb rs))) i). rewrite E1.
  destruct (re_money _ _ _ _ _ _ E) as (start & ante & blind & Hs & _ & _ & _ & L1 & L2 & Q & C1 & C2 & _).
  unfold committed, street_committed. rewrite C1, C2. rewrite add_lists_nth by congruence.
  destruct (Nat.lt_ge_cases i (num_players c)) as [Hi|Hi]; [|rewrite !nth_overflow by lia; lia].
  destruct (Q i Hi) as (Q1 & Q2 & _).
  assert (D : forall l, Forall (fun x => 0 <= x) l -> 0 <= due (num_players c) start i l).
  { intros l Fl. unfold due. generalize ((i + num_players c - start) mod num_players c)%nat. intros j. rewrite Forall_forall in Fl.
    destruct (Nat.lt_ge_cases j (List.length l)) as [Hj|Hj]; [apply Fl; now apply nth_In|rewrite nth_overflow by exact Hj; lia]. }
  pose proof (mo_sane _ _ M) as Sa.
  pose proof (D _ (sane_antes _ Sa)) as D1. pose proof (D _ (sane_blinds _ Sa)) as D2.
  assert (X1 : 0 <= nth i ante 0) by (rewrite Q1; destruct (_ && _); lia).
  assert (X2 : 0 <= nth i blind 0) by (rewrite Q2; clear -D2; destruct (_ && _); lia). lia.
Qed.
Lemma np_solvent_within c s : np_solvent c s -> in_progress s -> street_within s.
Proof.
  intros S. induction S as [w rnd s H Hs|s o S IH Ho Hn].
  - apply Dealer_inv in H. rewrite (bd_state _ _ _ _ H). intros P. exfalso. now apply P.
  - pose proof (np_fair_money c s (np_solvent_fair c s S)) as M. pose proof (mo_cfg _ _ M) as W. pose proof (mo_wf _ _ M) as Iw.
    destruct o as [rnd rb rs|b|cs| |l]; cbn [np_apply_op] in *.
    + intros P. destruct (np_reset_wrap c s rnd rb rs W) as [E1 E2]. apply np_reset_within; [exact M|].
      destruct Ho as [Ho|Ho]; [|exact Ho].
      destruct (is_ok (snd (reset c (wrap c s) rnd rb rs))) eqn:Eok; [rewrite <- E2 in Eok; destruct (snd (np_reset c s rnd rb rs)); [reflexivity|discriminate Eok]|exfalso]. apply P.
      change (action (fst (np_reset c s rnd rb rs))) with (action (wrap c (fst (np_reset c s rnd rb rs)))). rewrite E1.
      destruct (reset_failed c (wrap c s) rnd rb rs W Iw Eok) as [-> _]. exact Ho.
    + intros P. destruct (action s) as [a|] eqn:Ea; [|unfold np_step in P; rewrite Ea in P; now apply P in Ea].
      assert (Ps : in_progress s) by (unfold in_progress; congruence).
      destruct (np_step_settled c s b M Ps) as [(_ & -> & _)|(z & Z)]; [now apply IH|].
      rewrite (np_going _ _ _ _ Z P). apply (np_settled_within c s b z M (np_solvent_nonneg c s S) (IH Ps) Z).
    + intros P. destruct (deck_trick cs (the_deck s)); exact (IH P).
    + exact IH.
    + intros P. exfalso. apply P. apply Hn.
Qed.
Lemma nth_le_sum l : (forall i, 0 <= nth i l 0) -> forall i, nth i l 0 <= sumZ l.
Proof.
  intros H. assert (F : forall l, (forall i, 0 <= nth i l 0) -> 0 <= sumZ l) by (intros k Hk; apply MoneyFacts.sumZ_nonneg; intros i _; apply Hk).
  induction l as [|x l IH]; intros i; [destruct i; cbn; lia|]. rewrite sumZ_cons.
  pose proof (F l (fun j => H (Datatypes.S j))) as Q. pose proof (H 0%nat) as H0. destruct i as [|i]; cbn [nth] in *; [lia|]. specialize (IH (fun j => H (Datatypes.S j)) i). lia.
Qed.
(** all chips on the table bound what has been put in *)
Lemma bounded_chips s : no_debts s -> (forall i, 0 <= committed s i) -> pot s = sumZ (pot_commits s) ->
  0 <= pot s <= all_chips s /\ forall i, stack_of s i <= all_chips s /\ committed s i <= all_chips s.
Proof.
  intros N C P. pose proof (MoneyFacts.sumZ_nonneg (stacks s) (fun i _ => N i)) as S0. pose proof (MoneyFacts.sumZ_nonneg (pot_commits s) (fun i _ => C i)) as P0.
  unfold all_chips. split; [lia|]. intros i. pose proof (nth_le_sum (stacks s) N i). pose proof (nth_le_sum (pot_commits s) C i). unfold stack_of, committed. lia.
Qed.
(** the state of a hand: all numbers in its arrays lie between 0 and [m] *)
Definition numbers_within (m : Z) (s : state) : Prop :=
  0 <= pot s <= m /\ forall i, 0 <= stack_of s i <= m /\ 0 <= committed s i <= m /\ 0 <= street_committed s i <= m.
Lemma np_hand_within c s : np_solvent c s -> in_progress s -> numbers_within (all_chips s) s.
Proof.
  intros S Hp. pose proof (np_fair_money c s (np_solvent_fair c s S)) as M. pose proof (np_solvent_nonneg c s S) as N. pose proof (np_solvent_within c s S Hp) as I0.
  destruct (bounded_chips s N (mo_commit _ _ M) (wf_pot _ _ (mo_wf _ _ M) Hp)) as (B1 & B2). split; [exact B1|]. intros i. pose proof (N i). destruct (B2 i). pose proof (I0 i). lia.
Qed.
Lemma np_settled_bounded c s b z : np_solvent c s -> in_progress s -> np_settled c s b z ->
  0 <= pot z <= all_chips s /\ forall i, 0 <= stack_of z i <= all_chips s /\ 0 <= street_committed z i <= committed z i /\ committed z i <= all_chips s.
Proof.
  intros S Hp Z. pose proof (np_fair_money c s (np_solvent_fair c s S)) as M. pose proof (np_solvent_nonneg c s S) as N.
  assert (Nz : no_debts z) by (intros i; apply Z, N). destruct (bounded_chips z Nz (ns_nonneg _ _ _ _ Z) (ns_pot _ _ _ _ Z)) as (B1 & B2).
  rewrite (ns_chips _ _ _ _ Z) in *. split; [exact B1|]. intros i. pose proof (Nz i). destruct (B2 i).
  pose proof (np_settled_within c s b z M N (np_solvent_within c s S Hp) Z i). lia.
Qed.
Lemma np_step_within c s b : np_solvent c s -> in_progress s -> numbers_within (all_chips s) (fst (np_step c s b)).
Proof.
  intros S Hp. pose proof (np_solvent_fair c s S) as F. pose proof (np_fair_money c s F) as M.
  pose proof (np_solvent_op c s (OStep b) S I I) as S'. cbn [np_apply_op] in S'.
  destruct (action (fst (np_step c s b))) as [a|] eqn:Ea.
  - rewrite <- (C65_step c s b F). apply (np_hand_within c); [exact S'|]. unfold in_progress. rewrite Ea. discriminate.
  - destruct (np_step_ended c s b M Hp Ea) as (z & pay & o & E). pose proof (ne_settled _ _ _ _ _ _ E) as Z.
    destruct (np_settled_bounded c s b z S Hp Z) as (B1 & B2). pose proof (C65_step c s b F) as T. pose proof (np_solvent_nonneg c _ S') as N'.
    assert (Sb : forall i, stack_of (fst (np_step c s b)) i <= all_chips s).
    { intros i. rewrite <- (np_ended_sum _ _ _ _ _ _ E). apply nth_le_sum. exact N'. }
    split.
    + rewrite (ne_state _ _ _ _ _ _ E). cbn [finish_hand pot]. lia.
    + intros i. pose proof (N' i). pose proof (Sb i). destruct (B2 i) as (X1 & X2 & X3).
      assert (Y : committed (fst (np_step c s b)) i = committed z i /\ street_committed (fst (np_step c s b)) i = street_committed z i).
      { rewrite (ne_state _ _ _ _ _ _ E). split; reflexivity. }
      destruct Y as [-> ->]. lia.
Qed.
(** During a hand without debts, and at its end, no number exceeds the chips on the table. *)
Theorem C74_state : forall c s bs, np_solvent c s -> in_progress s -> numbers_within (all_chips s) (np_run_steps c s bs).
Proof.
  intros c s bs S Hp. assert (G : forall bs s', np_solvent c s' -> all_chips s' = all_chips s -> numbers_within (all_chips s) s' -> numbers_within (all_chips s) (np_run_steps c s' bs)).
  { clear bs. induction bs as [|b bs IH]; intros s' S' T' N'; [exact N'|].
    change (np_run_steps c s' (b :: bs)) with (np_run_steps c (fst (np_step c s' b)) bs).
    pose proof (np_solvent_op c s' (OStep b) S' I I) as S''. cbn [np_apply_op] in S''. apply IH; [exact S''| |].
    - rewrite (C65_step c s' b (np_solvent_fair c s' S')). exact T'.
    - destruct (action s') as [a|] eqn:Ea; [|rewrite C72_state by exact Ea; exact N'].
      rewrite <- T'. apply np_step_within; [exact S'|]. unfold in_progress. rewrite Ea. discriminate. }
  apply G; [exact S|reflexivity|now apply (np_hand_within c)].
Qed.
Print Assumptions C74_state.
(** Nor do the payouts returned by a step of the hand. *)
Theorem C74_payouts : forall c s b out i, np_solvent c s -> in_progress s -> snd (np_step c s b) = Ok out ->
  - all_chips s <= nth i (out_payouts out) 0 <= all_chips s.
Proof.
  intros c s b out i S Hp H. pose proof (np_solvent_fair c s S) as F. pose proof (np_fair_money c s F) as M.
  destruct (np_step_settled c s b M Hp) as [(_ & _ & E)|(z & Z)]; [rewrite H in E; discriminate E|].
  destruct (np_settled_bounded c s b z S Hp Z) as (B1 & B2).
  rewrite (ns_step _ _ _ _ Z) in H. unfold np_step_end in H. destruct (np_payouts c z) as [pay|e] eqn:P; [|discriminate H]. cbn [snd] in H.
  assert (Eo : out_payouts out = pay).
  { destruct (observation c _ _); [|discriminate H]. cbn [bind] in H. injection H as <-. reflexivity. }
  rewrite Eo. destruct (np_payouts_facts c z pay (ns_active _ _ _ _ Z) (ns_commits _ _ _ _ Z) (ns_hole _ _ _ _ Z) (ns_nonneg _ _ _ _ Z) (ns_pot _ _ _ _ Z) P) as [Lp T].
  destruct (B2 i) as (X1 & X2 & X3).
  destruct (Z.eq_dec (count_true (active z)) 1) as [D|D]; [|destruct (Nat.lt_ge_cases (street z) (num_streets c)) as [St|St]].
  3: assert (D' : count_true (active z) = 1 \/ (num_streets c <= street z)%nat) by (right; exact St).
  1: assert (D' : count_true (active z) = 1 \/ (num_streets c <= street z)%nat) by (left; exact D).
  1,3: (destruct (T D') as [T1 T2]; split; [specialize (T2 i); lia|];
    assert (Q : nth i (add_lists pay (pot_commits z)) 0 <= sumZ (add_lists pay (pot_commits z)));
    [apply nth_le_sum; intros j; rewrite add_lists_nth by (rewrite (ns_commits _ _ _ _ Z); exact Lp); specialize (T2 j); unfold committed in T2; lia|];
    rewrite add_lists_nth in Q by (rewrite (ns_commits _ _ _ _ Z); exact Lp); rewrite add_lists_sum in Q by (rewrite (ns_commits _ _ _ _ Z); exact Lp);
    rewrite <- (ns_pot _ _ _ _ Z), T1 in Q; unfold committed in *; lia).
  unfold np_payouts in P. replace (count_true (active z) =? 1) with false in P by lia. replace (Nat.leb (num_streets c) (street z)) with false in P by lia. injection P as <-.
  destruct (Nat.lt_ge_cases i (num_players c)) as [Hi|Hi].
  - rewrite (map_combine_nth _ _ _ _ 0 0 false) by (rewrite ?(ns_commits _ _ _ _ Z), ?(ns_active _ _ _ _ Z); lia). cbn [fst snd]. unfold committed in *. destruct (nth i (active z) false); lia.
  - rewrite nth_overflow by (rewrite map_length, combine_length, (ns_commits _ _ _ _ Z); lia). lia.
Qed.
Print Assumptions C74_payouts.
(** a signed integer of [w] bits *)
Definition fits (w x : Z) : Prop := - 2 ^ (w - 1) <= x < 2 ^ (w - 1).
(** Arrays of 32 bits hold every number of a hand with fewer than 2^31 chips. *)
Theorem C74_width : forall c s bs b, np_solvent c s -> in_progress s -> all_chips s < 2 ^ 31 ->
  let s' := np_run_steps c s bs in
  Forall (fits 32) (stacks s') /\ Forall (fits 32) (pot_commits s') /\ Forall (fits 32) (street_commits s') /\ fits 32 (pot s') /\
  (in_progress s' -> forall out, snd (np_step c s' b) = Ok out -> Forall (fits 32) (out_payouts out)).
Proof.
  intros c s bs b S Hp T. cbv zeta. destruct (C74_state c s bs S Hp) as (B1 & B2). unfold fits. change (32 - 1) with 31.
  assert (G : forall l : list Z, (forall i, - all_chips s <= nth i l 0 <= all_chips s) -> Forall (fun x => - 2 ^ 31 <= x < 2 ^ 31) l).
  { intros l H. apply Forall_forall. intros x Hx. destruct (In_nth l x 0 Hx) as (i & _ & <-). specialize (H i). lia. }
  assert (E31 : 2 ^ 31 = 2147483648) by reflexivity. unfold numbers_within, stack_of, committed, street_committed in B2.
  split; [apply G; intros i; destruct (B2 i); lia|]. split; [apply G; intros i; destruct (B2 i); lia|]. split; [apply G; intros i; destruct (B2 i); lia|]. split; [lia|].
  intros Hp' out Ho. apply G. intros i.
  assert (S' : np_solvent c (np_run_steps c s bs)).
  { clear -S. revert s S. induction bs as [|x bs IH]; intros s S; [exact S|]. change (np_run_steps c s (x :: bs)) with (np_run_steps c (fst (np_step c s x)) bs).
    apply IH. exact (np_solvent_op c s (OStep x) S I I). }
  rewrite <- (C65_bets c s bs (np_solvent_fair c s S)). exact (C74_payouts c _ b out i S' Hp' Ho).
Qed.
Print Assumptions C74_width.
(** With debts a player can have put in more than all chips on the table. *)
Theorem C74_refuted : exists c s, np_fair c s /\ in_progress s /\ all_chips s < committed s 0.
Proof.
  assert (K : exists c s, np_fair c s /\ action s = Some 0%nat /\ pot s = 10 /\ stacks s = [-4; -4] /\ pot_commits s = [5; 5]).
  { np_play (demo 2 1 [0; 0] [5; 5] [RawInf] [RawCountInf] [0] 1) [new_hand] c s E. split; [exact (np_played_fair _ _ _ _ E)|]. np_plays E. }
  destruct K as (c & s & F & K1 & K2 & K3 & K4). exists c, s. split; [exact F|]. unfold in_progress, all_chips, committed. rewrite K1, K2, K3, K4.
  split; [discriminate|reflexivity].
Qed.
Print Assumptions C74_refuted.
(** four players play for 60 chips *)
Example C74_example : exists c s, np_solvent c s /\ in_progress s /\ all_chips s = 60 /\ pot_commits s = [10; 10; 0; 20] /\
  map_ok out_payouts (snd (np_step c s (PyInt 20))) = Ok [3; 4; 13; -20].
Proof.
  assert (K : exists c s, np_solvent c s /\ action s = Some 2%nat /\ pot s = 40 /\ stacks s = [0; 0; 20; 0] /\ pot_commits s = [10; 10; 0; 20] /\
    map_ok out_payouts (snd (np_step c s (PyInt 20))) = Ok [3; 4; 13; -20]).
  { np_play side_game side_ops c s E. split; [apply (np_played_solvent _ _ _ _ E); vm_compute; reflexivity|]. np_plays E. }
  destruct K as (c & s & F & K1 & K2 & K3 & K4 & K5). exists c, s. split; [exact F|]. unfold in_progress, all_chips. rewrite K1, K2, K3, K4, K5. split; [discriminate|]. split; [reflexivity|]. split; reflexivity.
Qed.
