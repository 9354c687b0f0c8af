(** * PropDrawn: C53, the table drawn after a hand without showdown *)
From Coq Require Import ZifyBool ZifyNat Arith.
From Verif Require Import PyBase PyFacts CardModel EvalModel EngineModel EngineSpec EngineFacts MoneyFacts EngineDemo PropRound PropBetting PropShow HandEnd AsciiModel PropAscii.

Lemma ended_viewer c s b : fair c s -> in_progress s -> action (fst (step c s b)) = None ->
  exists v, ASCIIViewer (Z.of_nat (num_players c)) (num_hole_cards c) (sumZ (num_community_cards c)) = Ok v.
Proof. intros F _ _. exact (viewer_exists c (num_hole_cards c) (sumZ (num_community_cards c)) (reachable_cfg c s (fair_reachable c s F))). Qed.
Lemma no_winners (pays : list Z) : (forall i, (i < List.length pays)%nat -> nth i pays 0 <= 0) -> winners pays = [].
Proof.
  intros H. unfold winners. assert (G : forall l, (forall i, In i l -> (i < List.length pays)%nat) -> filter (fun i => 0 <? nth i pays 0) l = []).
  { induction l as [|x l IH]; intros Hl; [reflexivity|]. cbn [filter]. rewrite IH by (intros i Hi; apply Hl; now right). specialize (H x (Hl x (or_introl eq_refl))). replace (0 <? nth x pays 0) with false by lia. reflexivity. }
  apply G. intros i Hi. apply in_seq in Hi. lia.
Qed.

(** After a hand that ended because everybody else folded the table shows for every player, the winner too, the loss of
    all they have put in, and names nobody as the winner. *)
Theorem C53_after_fold : forall c s b, fair c s -> in_progress s ->
  let s' := fst (step c s b) in
  action s' = None -> count_true (active s') = 1 ->
  exists v r d text, ASCIIViewer (Z.of_nat (num_players c)) (num_hole_cards c) (sumZ (num_community_cards c)) = Ok v /\
    render_ascii c s' = Ok text /\ fill table d = Ok text /\ table_shows v (num_players c) r d /\
    (rc_done r = true /\ rc_stacks r = stacks s' /\ rc_active r = active s' /\ rc_hole_cards r = hole_cards s') /\
    (forall i, (i < num_players c)%nat -> shows d (SChips (nth i (v_player_pos v) 0%nat)) (fmt_comma (- committed s' i))) /\
    shows d SWin (ustr "Player  won ").
Proof.
  intros c s b F Hp. cbv zeta. intros Hn Hc.
  pose proof (fair_reachable c s F) as R0. assert (R : reachable c (fst (step c s b))) by exact (reach_op c s (OStep b) R0 I).
  assert (F' : fair c (fst (step c s b))) by (apply (fair_op c s (OStep b)); [exact F|exact I|exact I]). pose proof (mo_commit _ _ (fair_money c _ F')) as N.
  pose proof (reachable_wf c _ R) as W. destruct (ended_viewer c s b F Hp Hn) as (v & V).
  assert (HL : List.length (hole_cards (fst (step c s b))) = num_players c).
  { destruct (step_ended c s b F Hp Hn) as (z & pay & o & E). rewrite (en_state _ _ _ _ _ _ E). cbn [finish_hand hole_cards]. apply (se_hole _ _ _ _ (en_settled _ _ _ _ _ _ E)). }
  assert (Hz : pot (fst (step c s b)) = 0).
  { destruct (step_ended c s b F Hp Hn) as (z & pay & o & E). rewrite (en_state _ _ _ _ _ _ E). reflexivity. }
  set (s' := fst (step c s b)) in *. clearbody s'.
  destruct (payouts_fold c s' Hc (wf_active _ _ W) (wf_commits _ _ W)) as (pay & P & Hpay).
  assert (Hpay' : forall i, (i < num_players c)%nat -> nth i pay 0 = - committed s' i) by (intros i Hi; rewrite (Hpay i Hi), Hz; destruct (nth i (active s') false); lia).
  assert (D : all_true (done_list c s') = true) by (unfold done_list; rewrite Hc, orb_true_r, all_true_spec, repeat_length; intros i Hi; now apply nth_repeat_lt).
  destruct (render_config c s') as [r|] eqn:Q; [|unfold render_config in Q; rewrite P in Q; discriminate Q]. exists v, r.
  pose proof (render_config_players c s' r R HL (fun _ => D) Q) as FP.
  destruct (table_filled _ _ _ v r V FP) as (_ & _ & d & text & T1 & T2 & T3). exists d, text.
  split; [exact V|]. split; [unfold render_ascii; rewrite V, Q; exact T1|]. split; [exact T2|]. split; [exact T3|].
  pose proof (fp_payouts _ _ FP) as Lp.
  unfold render_config in Q. rewrite P in Q. cbn [bind] in Q. injection Q as <-. cbn [rc_done rc_payouts rc_stacks rc_active rc_hole_cards] in *.
  split; [splits; trivial|]. split.
  - intros i Hi. destruct T3 as [T3 _]. destruct (T3 i Hi) as (_ & T4 & _). unfold player_chips in T4. cbn [rc_done rc_payouts] in T4. rewrite D, (Hpay' i Hi) in T4. exact T4.
  - destruct T3 as (_ & _ & _ & _ & _ & T3). unfold win_text in T3. cbn [rc_done rc_payouts] in T3.
    rewrite D, no_winners in T3; [exact T3|]. intros i Hi. rewrite Hpay' by lia. specialize (N i). lia.
Qed.
Print Assumptions C53_after_fold.

(** After a hand that was cut short (C39) the payouts are the ones returned; but if somebody got chips back the
    configuration that is drawn is that of a hand in progress, with the action on "Player 0", and no result is shown. *)
Theorem C53_cut_short : forall c s b out, fair c s -> in_progress s ->
  let s' := fst (step c s b) in
  snd (step c s b) = Ok out -> action s' = None -> 2 <= count_true (active s') -> (street s' < num_streets c)%nat ->
  exists r, render_config c s' = Ok r /\ rc_payouts r = out_payouts out /\ rc_stacks r = stacks s' /\
    (rc_done r = true <-> forall i, (i < num_players c)%nat -> is_active s' i -> stack_of s' i = 0) /\
    (rc_done r = false -> rc_action r = -1 /\ parse_win_string r (rc_done r) = [] /\
      exists t, parse_action_string r (rc_done r) = t ++ ustr "Action on Player 0").
Proof.
  intros c s b out F Hp. cbv zeta. intros Ho Hn Hc Hs.
  assert (W : wf c (fst (step c s b))) by (apply reachable_wf; exact (reach_op c s (OStep b) (fair_reachable c s F) I)).
  destruct (step_ended c s b F Hp Hn) as (z & pay & o & E). rewrite (en_out _ _ _ _ _ _ E) in Ho. injection Ho as <-. cbn [out_payouts].
  assert (P : payouts c (fst (step c s b)) = Ok pay).
  { rewrite <- (en_pay _ _ _ _ _ _ E). rewrite (en_state _ _ _ _ _ _ E) in *. cbn [finish_hand active street] in Hc, Hs. unfold payouts. cbn [finish_hand active street pot_commits pot].
    replace (count_true (active z) =? 1) with false by lia. replace (Nat.leb (num_streets c) (street z)) with false by lia. reflexivity. }
  clear E Hp. set (s' := fst (step c s b)) in *. clearbody s'.
  unfold render_config. rewrite P. cbn [bind]. eexists. split; [reflexivity|]. cbn [rc_payouts rc_stacks rc_done rc_action].
  split; [reflexivity|]. split; [reflexivity|]. split.
  - unfold done_list. replace (Nat.leb (num_streets c) (street s')) with false by lia. replace (count_true (active s') <=? 1) with false by lia. cbn [orb].
    pose proof (wf_active _ _ W) as La. pose proof (wf_stacks _ _ W) as Ls.
    rewrite all_true_spec, map_length, combine_length, La, Ls, Nat.min_id. unfold is_active, stack_of.
    split; intros H i Hi; specialize (H i Hi).
    + intros A. rewrite (map_combine_nth _ _ _ _ _ false 0) in H by lia. cbn [fst snd] in H. rewrite A in H. cbn [negb orb] in H. lia.
    + rewrite (map_combine_nth _ _ _ _ _ false 0) by lia. cbn [fst snd]. destruct (nth i (active s') false); [specialize (H eq_refl); cbn [negb orb]; lia|reflexivity].
  - intros D. rewrite Hn, D. split; [reflexivity|]. split; [reflexivity|]. unfold parse_action_string. cbn [rc_prev_action rc_action]. eexists. reflexivity.
Qed.
Print Assumptions C53_cut_short.

(** both cases are met: at the table of three the two players behind fold one after the other … *)
Example C53_after_fold_met : exists c s, fair c s /\ in_progress s /\ action (fst (step c s (PyInt (-1)))) = None /\
  count_true (active (fst (step c s (PyInt (-1))))) = 1 /\ map (committed (fst (step c s (PyInt (-1))))) [0; 1; 2]%nat = [0; 1; 2] /\
  match render_config c (fst (step c s (PyInt (-1)))) with Ok r => Some (rc_payouts r) | Err _ => None end = Some [0; -1; -2].
Proof.
  play no_limit_3 (new_hand :: bets [-1]) c s E. split; [exact (played_fair _ _ _ _ E)|].
  split; [unfold in_progress; assert (X : action s = Some 1%nat) by by_play E; rewrite X; discriminate|].
  split; [by_play E|]. split; [by_play E|]. split; by_play E.
Qed.
(** … and in the game of [C39_refuted] the hand is cut short, with chips back for two players *)
Example C53_cut_short_met : exists c s, fair c s /\ in_progress s /\ action (fst (step c s (PyInt (-1)))) = None /\
  count_true (active (fst (step c s (PyInt (-1))))) = 2 /\ (street (fst (step c s (PyInt (-1)))) < num_streets c)%nat /\
  match render_config c (fst (step c s (PyInt (-1)))) with Ok r => Some (rc_done r, rc_payouts r, rc_stacks r, parse_action_string r (rc_done r)) | Err _ => None end =
    Some (false, [0; -1; 0], [5; 4; 5], ustr "Player 2 folded Action on Player 0").
Proof.
  play short_game (new_hand :: bets [5]) c s E. split; [exact (played_fair _ _ _ _ E)|].
  split; [unfold in_progress; assert (X : action s = Some 1%nat) by by_play E; rewrite X; discriminate|].
  split; [by_play E|]. split; [by_play E|].
  assert (X1 : street (fst (step c s (PyInt (-1)))) = 0%nat) by by_play E. assert (X2 : num_streets c = 2%nat) by by_play E. rewrite X1, X2.
  split; [lia|by_play E].
Qed.
