(** * PropShow: properties of the end of a hand (C19, C20, C34 to C38) *)
From Coq Require Import ZifyBool ZifyNat Arith Permutation Sorted.
From Verif Require Import PyBase PyFacts CardModel EvalModel EngineModel EngineSpec EngineFacts BetFacts EngineDemo MoneyFacts PropRound ShowSpec ShowFacts SideFacts HandEnd.

(** ** C19 Chips are conserved when a hand ends; C20 payouts sum to zero *)
(** what the folded players have put in *)
Definition folded_chips (s : state) : Z :=
  sumZ (map (fun i => if nth i (active s) false then 0 else committed s i) (seq 0 (List.length (pot_commits s)))).
(** the hand has ended although several players are left and streets are still to be played *)
Definition cut_short (c : config) (s : state) : bool :=
  (2 <=? count_true (active s)) && Nat.ltb (street s) (num_streets c).

Lemma sum_by_seat (l : list Z) (f : nat -> Z) n : List.length l = n -> (forall i, (i < n)%nat -> nth i l 0 = f i) -> sumZ l = sumZ (map f (seq 0 n)).
Proof.
  intros L H. f_equal. apply nth_ext_Z; [now rewrite map_length, seq_length|]. intros i Hi. rewrite (H i) by lia.
  rewrite (map_nth_lt _ _ _ _ 0%nat) by (rewrite seq_length; lia). now rewrite seq_nth by lia.
Qed.
Lemma map_sumZ_add {A} (f g : A -> Z) l : sumZ (map (fun x => f x + g x) l) = sumZ (map f l) + sumZ (map g l).
Proof. induction l as [|x l IH]; [reflexivity|]. cbn [map]. rewrite !sumZ_cons. lia. Qed.
Lemma map_sumZ_opp {A} (f : A -> Z) l : sumZ (map (fun x => - f x) l) = - sumZ (map f l).
Proof. induction l as [|x l IH]; [reflexivity|]. cbn [map]. rewrite !sumZ_cons. lia. Qed.
Lemma one_active_sum (l : list bool) (x : Z) : sumZ (map (fun i => if nth i l false then x else 0) (seq 0 (List.length l))) = x * count_true l.
Proof.
  assert (X : forall l k, sumZ (map (fun i => if nth (i - k) l false then x else 0) (seq k (List.length l))) = x * count_true l).
  { clear l. induction l as [|y l IH]; intros k; [cbn; lia|]. cbn [List.length seq map]. rewrite sumZ_cons, Nat.sub_diag. change (nth 0 (y :: l) false) with y.
    replace (map (fun i => if nth (i - k) (y :: l) false then x else 0) (seq (S k) (List.length l))) with (map (fun i => if nth (i - S k) l false then x else 0) (seq (S k) (List.length l))).
    - rewrite IH. unfold count_true. cbn [map]. rewrite sumZ_cons. destruct y; unfold b2z; lia.
    - apply map_ext_in. intros i Hi. apply in_seq in Hi. replace (i - k)%nat with (S (i - S k)) by lia. reflexivity. }
  rewrite <- (X l 0%nat). f_equal. apply map_ext. intros i. now rewrite Nat.sub_0_r.
Qed.

Lemma ended_total c s b z pay o : ended c s b z pay o -> sumZ pay = - (if cut_short c z then folded_chips z else 0).
Proof.
  intros E. pose proof (en_settled _ _ _ _ _ _ E) as Z. pose proof (en_pay _ _ _ _ _ _ E) as P. pose proof (se_count _ _ _ _ Z) as C1.
  unfold cut_short. destruct (Z.eq_dec (count_true (active z)) 1) as [C|C].
  - replace (2 <=? count_true (active z)) with false by lia. cbn [andb].
    destruct (payouts_fold c z C (se_active _ _ _ _ Z) (se_commits _ _ _ _ Z)) as (pay' & P' & H). rewrite P in P'. injection P' as <-.
    rewrite (sum_by_seat pay (fun i => (if nth i (active z) false then pot z else 0) + - committed z i) (num_players c));
      [|apply E|intros i Hi; rewrite (H i Hi); destruct (nth i (active z) false); lia].
    rewrite map_sumZ_add, map_sumZ_opp. rewrite <- (se_active _ _ _ _ Z) at 1. rewrite one_active_sum, C, (se_pot _ _ _ _ Z).
    rewrite <- (sum_by_seat (pot_commits z) (committed z) (num_players c)); [lia|apply Z|reflexivity].
  - replace (2 <=? count_true (active z)) with true by lia. cbn [andb]. destruct (Nat.ltb_spec (street z) (num_streets c)) as [L|L].
    + destruct (payouts_early c z C L (se_active _ _ _ _ Z) (se_commits _ _ _ _ Z)) as (pay' & P' & H). rewrite P in P'. injection P' as <-.
      rewrite (sum_by_seat pay (fun i => - (if nth i (active z) false then 0 else committed z i)) (num_players c));
        [|apply E|intros i Hi; rewrite (H i Hi); destruct (nth i (active z) false); lia].
      rewrite map_sumZ_opp. unfold folded_chips. now rewrite (se_commits _ _ _ _ Z).
    + destruct (show_payouts_total c z pay C L (se_commits _ _ _ _ Z) (se_hole _ _ _ _ Z) (se_button _ _ _ _ Z) (se_nonneg _ _ _ _ Z) (or_introl (se_pot _ _ _ _ Z)) P). lia.
Qed.
Lemma cut_short_same c s b z : settled c s b z -> cut_short c z = cut_short c (fst (step c s b)) /\ folded_chips z = folded_chips (fst (step c s b)).
Proof.
  intros Z. destruct (se_same _ _ _ _ Z) as (E1 & E2 & E3 & _). unfold cut_short, folded_chips, committed. rewrite E1, E2, E3. auto.
Qed.

(** exactly: chips disappear only when the hand is cut short, and then exactly those of the folded players *)
Theorem C19_exact : forall c s b, fair c s -> in_progress s ->
  let s' := fst (step c s b) in
  action s' = None ->
  sumZ (stacks s') = all_chips s - (if cut_short c s' then folded_chips s' else 0).
Proof.
  intros c s b F Hp. cbv zeta. intros Hn. destruct (step_ended c s b F Hp Hn) as (z & pay & o & E).
  rewrite (ended_sum _ _ _ _ _ _ E), (ended_total _ _ _ _ _ _ E).
  destruct (cut_short_same c s b z (en_settled _ _ _ _ _ _ E)) as [-> ->]. lia.
Qed.
Print Assumptions C19_exact.
Theorem C19_partial : forall c s b, fair c s -> in_progress s ->
  let s' := fst (step c s b) in
  action s' = None -> (count_true (active s') <= 1 \/ (num_streets c <= street s')%nat) ->
  sumZ (stacks s') = all_chips s.
Proof.
  intros c s b F Hp. cbv zeta. intros Hn H. rewrite (C19_exact c s b F Hp Hn). unfold cut_short.
  replace ((2 <=? _) && _) with false by lia. lia.
Qed.
Print Assumptions C19_partial.
(** in particular when everybody left in the hand has acted on the last street *)
Theorem C19_acted : forall c s0 bs b, street_start c s0 ->
  let s := run_steps c s0 bs in
  let s' := fst (step c s b) in
  fair c s -> in_progress s -> street s = street s0 -> action s' = None ->
  (forall j, (j < num_players c)%nat -> is_active s' j -> acted_since s0 s' j) ->
  sumZ (stacks s') = all_chips s.
Proof.
  intros c s0 bs b H. cbv zeta. intros F Hp Es Hn Ha. apply C19_partial; try assumption.
  now apply (C39_partial c s0 bs b H).
Qed.
Print Assumptions C19_acted.
Theorem C19_refuted : ~ forall c s b, fair c s -> in_progress s ->
  let s' := fst (step c s b) in action s' = None -> sumZ (stacks s') = all_chips s.
Proof.
  intros H.
  assert (K : exists c s, fair c s /\ action s = Some 1%nat /\ action (fst (step c s (PyInt (-1)))) = None /\
    sumZ (stacks (fst (step c s (PyInt (-1))))) = 14 /\ all_chips s = 15).
  { play short_game (new_hand :: bets [5]) c s E. split; [exact (played_fair _ _ _ _ E)|]. plays E. }
  destruct K as (c & s & F & K1 & K2 & K3 & K4). specialize (H c s (PyInt (-1)) F). cbv zeta in H.
  rewrite K3, K4 in H. assert (X : 14 = 15) by (apply H; [unfold in_progress; rewrite K1; discriminate|exact K2]). discriminate X.
Qed.
Print Assumptions C19_refuted.

Theorem C20_exact : forall c s b, fair c s -> in_progress s ->
  let s' := fst (step c s b) in
  action s' = None ->
  exists out, snd (step c s b) = Ok out /\ List.length (out_payouts out) = num_players c /\
    sumZ (out_payouts out) = - (if cut_short c s' then folded_chips s' else 0).
Proof.
  intros c s b F Hp. cbv zeta. intros Hn. destruct (step_ended c s b F Hp Hn) as (z & pay & o & E).
  exists (mkOut o pay (done_list c z)). split; [apply E|]. split; [apply E|]. cbn [out_payouts].
  rewrite (ended_total _ _ _ _ _ _ E). destruct (cut_short_same c s b z (en_settled _ _ _ _ _ _ E)) as [-> ->]. reflexivity.
Qed.
Print Assumptions C20_exact.
Theorem C20_partial : forall c s b out, fair c s -> in_progress s ->
  let s' := fst (step c s b) in
  action s' = None -> (count_true (active s') <= 1 \/ (num_streets c <= street s')%nat) ->
  snd (step c s b) = Ok out -> sumZ (out_payouts out) = 0.
Proof.
  intros c s b out F Hp. cbv zeta. intros Hn H Ho. destruct (C20_exact c s b F Hp Hn) as (out' & H1 & _ & H2).
  rewrite Ho in H1. injection H1 as <-. rewrite H2. unfold cut_short. replace ((2 <=? _) && _) with false by lia. lia.
Qed.
Print Assumptions C20_partial.
Theorem C20_refuted : ~ forall c s b out, fair c s -> in_progress s ->
  action (fst (step c s b)) = None -> snd (step c s b) = Ok out -> sumZ (out_payouts out) = 0.
Proof.
  intros H.
  assert (K : exists c s, fair c s /\ action s = Some 1%nat /\ action (fst (step c s (PyInt (-1)))) = None /\
    match snd (step c s (PyInt (-1))) with Ok out => Some (sumZ (out_payouts out)) | Err _ => None end = Some (-1)).
  { play short_game (new_hand :: bets [5]) c s E. split; [exact (played_fair _ _ _ _ E)|]. plays E. }
  destruct K as (c & s & F & K1 & K2 & K3). destruct (snd (step c s (PyInt (-1)))) as [out|e] eqn:Eo; [|discriminate K3]. injection K3 as K3.
  rewrite (H c s (PyInt (-1)) out F) in K3; [discriminate K3|unfold in_progress; rewrite K1; discriminate|exact K2|exact Eo].
Qed.
Print Assumptions C20_refuted.

(** a hand that goes to a showdown, and one that ends by folding *)
Example C20_example :
  (exists c s, fair c s /\ action s = Some 1%nat /\ action (fst (step c s (PyInt (-1)))) = None /\
     street (fst (step c s (PyInt (-1)))) = 2%nat /\ num_streets c = 2%nat /\
     match snd (step c s (PyInt (-1))) with Ok out => Some (out_payouts out) | Err _ => None end = Some [7; -2; -5]) /\
  (exists c s, fair c s /\ action s = Some 1%nat /\ action (fst (step c s (PyInt (-1)))) = None /\
     count_true (active (fst (step c s (PyInt (-1))))) = 1 /\
     match snd (step c s (PyInt (-1))) with Ok out => Some (out_payouts out) | Err _ => None end = Some [0; -1; 1]).
Proof.
  split.
  - play no_limit_3 ([OTrick [demo_card 51; demo_card 3; demo_card 4; demo_card 0]; new_hand] ++ bets [2;1;0;0;3;3]) c s E. split; [exact (played_fair _ _ _ _ E)|]. plays E.
  - play no_limit_3 (new_hand :: bets [-1]) c s E. split; [exact (played_fair _ _ _ _ E)|]. plays E.
Qed.
(** a hand decided at showdown, and one decided by a fold *)
Example C19_example :
  (exists c s, fair c s /\ action s = Some 1%nat /\ action (fst (step c s (PyInt (-1)))) = None /\
     count_true (active (fst (step c s (PyInt (-1))))) = 2 /\ street (fst (step c s (PyInt (-1)))) = 2%nat /\ num_streets c = 2%nat /\
     pot s = 12 /\ stacks (fst (step c s (PyInt (-1)))) = [27; 18; 15]) /\
  (exists c s, fair c s /\ action (fst (step c s (PyInt (-1)))) = None /\
     count_true (active (fst (step c s (PyInt (-1))))) = 1 /\ stacks (fst (step c s (PyInt (-1)))) = [20; 19; 21]).
Proof.
  split.
  - play no_limit_3 ([OTrick [demo_card 51; demo_card 3; demo_card 4; demo_card 0]; new_hand] ++ bets [2;1;0;0;3;3]) c s E. split; [exact (played_fair _ _ _ _ E)|]. plays E.
  - play no_limit_3 (new_hand :: bets [-1]) c s E. split; [exact (played_fair _ _ _ _ E)|]. plays E.
Qed.

(** ** C37 Nobody loses more than they put in *)
Lemma ended_floor c s b z pay o i : ended c s b z pay o -> (i < num_players c)%nat -> - committed z i <= nth i pay 0.
Proof.
  intros E Hi. pose proof (en_settled _ _ _ _ _ _ E) as Z. pose proof (en_pay _ _ _ _ _ _ E) as P. pose proof (se_count _ _ _ _ Z) as C1.
  pose proof (se_nonneg _ _ _ _ Z) as Nn.
  destruct (Z.eq_dec (count_true (active z)) 1) as [C|C].
  - destruct (payouts_fold c z C (se_active _ _ _ _ Z) (se_commits _ _ _ _ Z)) as (pay' & P' & H). rewrite P in P'. injection P' as <-.
    rewrite (H i Hi). destruct (nth i (active z) false); [|lia]. rewrite (se_pot _ _ _ _ Z).
    assert (0 <= sumZ (pot_commits z)) by (apply MoneyFacts.sumZ_nonneg; intros k _; apply Nn). lia.
  - destruct (Nat.lt_ge_cases (street z) (num_streets c)) as [L|L].
    + destruct (payouts_early c z C L (se_active _ _ _ _ Z) (se_commits _ _ _ _ Z)) as (pay' & P' & H). rewrite P in P'. injection P' as <-.
      rewrite (H i Hi). specialize (Nn i). destruct (nth i (active z) false); lia.
    + now apply (show_payouts_total c z pay C L (se_commits _ _ _ _ Z) (se_hole _ _ _ _ Z) (se_button _ _ _ _ Z) Nn (or_introl (se_pot _ _ _ _ Z)) P).
Qed.
Theorem C37_payout : forall c s b, fair c s -> in_progress s ->
  let s' := fst (step c s b) in
  action s' = None ->
  exists out, snd (step c s b) = Ok out /\ forall i, (i < num_players c)%nat ->
    - committed s' i <= nth i (out_payouts out) 0 /\
    (* the chips left to the player after the last bet, plus the payout, plus what is given back *)
    stack_of s' i = (stack_of s i - put_in c s b i) + (nth i (out_payouts out) 0 + committed s' i) /\
    stack_of s i - put_in c s b i <= stack_of s' i /\
    (0 <= stack_of s i -> 0 <= stack_of s' i).
Proof.
  intros c s b F Hp. cbv zeta. intros Hn. destruct (step_ended c s b F Hp Hn) as (z & pay & o & E).
  pose proof (en_settled _ _ _ _ _ _ E) as Z. destruct (se_same _ _ _ _ Z) as (_ & E2 & _).
  exists (mkOut o pay (done_list c z)). split; [apply E|]. cbn [out_payouts]. intros i Hi.
  pose proof (ended_floor c s b z pay o i E Hi) as Fl. rewrite (ended_stack _ _ _ _ _ _ i E Hi).
  assert (Ec : committed (fst (step c s b)) i = committed z i) by (unfold committed; now rewrite E2).
  rewrite Ec. pose proof (se_put _ _ _ _ Z i Hi) as Ep. pose proof (se_keep _ _ _ _ Z i) as Ek. repeat split; lia.
Qed.
Print Assumptions C37_payout.
Example C37_example : exists c s, fair c s /\ in_progress s /\ action (fst (step c s (PyInt (-1)))) = None /\
  match snd (step c s (PyInt (-1))) with Ok out => Some (out_payouts out) | Err _ => None end = Some [7; -2; -5] /\
  pot_commits (fst (step c s (PyInt (-1)))) = [5; 2; 5].
Proof.
  play no_limit_3 ([OTrick [demo_card 51; demo_card 3; demo_card 4; demo_card 0]; new_hand] ++ bets [2;1;0;0;3;3]) c s E. split; [exact (played_fair _ _ _ _ E)|].
  split; [unfold in_progress; assert (X : action s = Some 1%nat) by by_play E; rewrite X; discriminate|]. plays E.
Qed.

(** ** C38 Stepping a finished hand is harmless *)
Theorem C38_state : forall c s b, action s = None -> fst (step c s b) = s.
Proof. intros c s b H. unfold step. now rewrite H. Qed.
Print Assumptions C38_state.
(** after a showdown the same answer is given again, to any bet, any number of times *)
Theorem C38_partial : forall c s b bs b', fair c s -> in_progress s ->
  let s' := fst (step c s b) in
  action s' = None -> 2 <= count_true (active s') -> (num_streets c <= street s')%nat ->
  run_steps c s' bs = s' /\ snd (step c s' b') = snd (step c s b).
Proof.
  intros c s b bs b' F Hp. cbv zeta. intros Hn Hc Hs. split.
  { revert Hn. generalize (fst (step c s b)). induction bs as [|x bs IH]; intros s' Hn; [reflexivity|].
    change (run_steps c s' (x :: bs)) with (run_steps c (fst (step c s' x)) bs). rewrite (C38_state c s' x Hn). now apply IH. }
  destruct (step_ended c s b F Hp Hn) as (z & pay & o & E). pose proof (en_settled _ _ _ _ _ _ E) as Z.
  destruct (se_same _ _ _ _ Z) as (E1 & _ & E3 & _). rewrite E1 in Hc. rewrite E3 in Hs.
  rewrite (en_out _ _ _ _ _ _ E). rewrite (en_state _ _ _ _ _ _ E). unfold step. cbn [action finish_hand]. cbn [snd]. unfold step_idle.
  assert (A : any_true (active (finish_hand z pay)) = true).
  { cbn [finish_hand active]. destruct (count_true_pos (active z) ltac:(lia)) as (j & Hj & Aj). apply any_true_spec. eauto. }
  rewrite A. assert (D : done_list c (finish_hand z pay) = done_list c z).
  { unfold done_list. cbn [finish_hand street active stacks]. replace (Nat.leb (num_streets c) (street z)) with true by lia. reflexivity. }
  assert (P : payouts c (finish_hand z pay) = payouts c z).
  { assert (C : count_true (active z) <> 1) by lia.
    destruct (show_payouts c z C Hs (se_commits _ _ _ _ Z) (se_hole _ _ _ _ Z) (se_button _ _ _ _ Z) (se_nonneg _ _ _ _ Z) (or_introl (se_pot _ _ _ _ Z))) as [(e & X1 & X2)|(st & X1 & _ & _ & X2)];
    destruct (show_payouts c (finish_hand z pay) C Hs (se_commits _ _ _ _ Z) (se_hole _ _ _ _ Z) (se_button _ _ _ _ Z) (se_nonneg _ _ _ _ Z) (or_intror (Z.le_refl 0))) as [(e' & Y1 & Y2)|(st' & Y1 & _ & _ & Y2)];
    cbn [finish_hand active hole_cards community_cards] in Y1; rewrite X1 in Y1; try discriminate Y1.
    - injection Y1 as <-. congruence.
    - injection Y1 as <-. rewrite X2, Y2. reflexivity. }
  rewrite D, P, (en_pay _ _ _ _ _ _ E). cbn [bind]. rewrite (en_done _ _ _ _ _ _ E), (en_obs _ _ _ _ _ _ E). reflexivity.
Qed.
Print Assumptions C38_partial.
(** after a fold the winner is told to have lost *)
Theorem C38_after_fold : forall c s b b', fair c s -> in_progress s ->
  let s' := fst (step c s b) in
  action s' = None -> count_true (active s') = 1 ->
  exists out, snd (step c s' b') = Ok out /\ out_done out = repeat true (num_players c) /\
    forall i, (i < num_players c)%nat -> nth i (out_payouts out) 0 = - committed s' i.
Proof.
  intros c s b b' F Hp. cbv zeta. intros Hn Hc. destruct (step_ended c s b F Hp Hn) as (z & pay & o & E). pose proof (en_settled _ _ _ _ _ _ E) as Z.
  destruct (se_same _ _ _ _ Z) as (E1 & _ & E3 & _). rewrite E1 in Hc.
  rewrite (en_state _ _ _ _ _ _ E). unfold step. cbn [action finish_hand]. cbn [snd]. unfold step_idle.
  assert (A : any_true (active (finish_hand z pay)) = true).
  { cbn [finish_hand active]. destruct (count_true_pos (active z) ltac:(lia)) as (j & Hj & Aj). apply any_true_spec. eauto. }
  rewrite A. assert (D : done_list c (finish_hand z pay) = repeat true (num_players c)).
  { unfold done_list. cbn [finish_hand street active stacks]. rewrite Hc. now rewrite orb_true_r. }
  destruct (payouts_fold c (finish_hand z pay) Hc (se_active _ _ _ _ Z) (se_commits _ _ _ _ Z)) as (pay' & P' & H).
  rewrite P', D. cbn [bind].
  assert (T : all_true (repeat true (num_players c)) = true) by (rewrite all_true_spec, repeat_length; intros i Hi; now apply nth_repeat_lt).
  rewrite T, (en_obs _ _ _ _ _ _ E). cbn [bind]. eexists. split; [reflexivity|]. cbn [out_done out_payouts]. split; [reflexivity|].
  intros i Hi. rewrite (H i Hi). unfold committed. cbn [finish_hand active pot pot_commits]. destruct (nth i (active z) false); lia.
Qed.
Print Assumptions C38_after_fold.
Theorem C38_refuted : ~ forall c s b b' out out', fair c s -> in_progress s ->
  let s' := fst (step c s b) in
  action s' = None -> snd (step c s b) = Ok out -> snd (step c s' b') = Ok out' ->
  out_payouts out = out_payouts out' /\ out_done out = out_done out'.
Proof.
  intros H.
  assert (K : exists c s, fair c s /\ action s = Some 1%nat /\ action (fst (step c s (PyInt (-1)))) = None /\
    match snd (step c s (PyInt (-1))) with Ok out => Some (out_payouts out) | Err _ => None end = Some [0; -1; 1] /\
    match snd (step c (fst (step c s (PyInt (-1)))) (PyInt 0)) with Ok out => Some (out_payouts out) | Err _ => None end = Some [0; -1; -2]).
  { play no_limit_3 (new_hand :: bets [-1]) c s E. split; [exact (played_fair _ _ _ _ E)|]. plays E. }
  destruct K as (c & s & F & K1 & K2 & K3 & K4).
  destruct (snd (step c s (PyInt (-1)))) as [out|e] eqn:Eo; [|discriminate K3]. injection K3 as K3.
  destruct (snd (step c (fst (step c s (PyInt (-1)))) (PyInt 0))) as [out'|e] eqn:Eo'; [|discriminate K4]. injection K4 as K4.
  assert (X : out_payouts out = out_payouts out' /\ out_done out = out_done out').
  { apply (H c s (PyInt (-1)) (PyInt 0) out out' F); [unfold in_progress; rewrite K1; discriminate|exact K2|exact Eo|exact Eo']. }
  destruct X as [X _]. rewrite K3, K4 in X. discriminate X.
Qed.
Print Assumptions C38_refuted.
Example C38_example : exists c s, fair c s /\ in_progress s /\ action (fst (step c s (PyInt (-1)))) = None /\
  count_true (active (fst (step c s (PyInt (-1))))) = 2 /\ street (fst (step c s (PyInt (-1)))) = num_streets c /\
  match snd (step c (fst (step c s (PyInt (-1)))) (PyInt 7)) with Ok out => Some (out_payouts out) | Err _ => None end = Some [7; -2; -5].
Proof.
  play no_limit_3 ([OTrick [demo_card 51; demo_card 3; demo_card 4; demo_card 0]; new_hand] ++ bets [2;1;0;0;3;3]) c s E. split; [exact (played_fair _ _ _ _ E)|].
  split; [unfold in_progress; assert (X : action s = Some 1%nat) by by_play E; rewrite X; discriminate|].
  assert (X1 : street (fst (step c s (PyInt (-1)))) = 2%nat) by by_play E. assert (X2 : num_streets c = 2%nat) by by_play E. rewrite X1, X2.
  split; [by_play E|]. split; [by_play E|]. split; [reflexivity|by_play E].
Qed.
