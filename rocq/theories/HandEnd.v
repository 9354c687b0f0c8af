(** * HandEnd: the step that ends a hand *)
From Coq Require Import ZifyBool ZifyNat Arith Permutation.
From Verif Require Import PyBase PyFacts CardModel EvalModel EngineModel EngineSpec EngineFacts BetFacts MoneyFacts ShowSpec ShowFacts SideFacts.

(** the state [z] in which the hand is settled, just before the chips are paid out *)
Record settled (c : config) (s : state) (b : pynum) (z : state) : Prop := mkSettled {
  se_step : step c s b = step_end c z;
  se_active : List.length (active z) = num_players c;
  se_commits : List.length (pot_commits z) = num_players c;
  se_stacks : List.length (stacks z) = num_players c;
  se_button : (button z < num_players c)%nat;
  se_hole : List.length (hole_cards z) = num_players c;
  se_pot : pot z = sumZ (pot_commits z);
  se_chips : all_chips z = all_chips s;
  se_nonneg : forall i, 0 <= committed z i;
  se_count : 1 <= count_true (active z);
  se_keep : forall i, 0 <= stack_of s i -> 0 <= stack_of z i;
  se_put : forall i, (i < num_players c)%nat -> stack_of z i = stack_of s i - put_in c s b i;
  se_players : (2 <= num_players c)%nat;
  se_turn : action z <> None;
  se_same : active (fst (step c s b)) = active z /\ pot_commits (fst (step c s b)) = pot_commits z /\
    street (fst (step c s b)) = street z /\ button (fst (step c s b)) = button z /\
    hole_cards (fst (step c s b)) = hole_cards z /\ community_cards (fst (step c s b)) = community_cards z
}.
Lemma step_settled c s b : fair c s -> in_progress s ->
  (after_bet c s b = None /\ fst (step c s b) = s /\ is_ok (snd (step c s b)) = false) \/ exists z, settled c s b z.
Proof.
  intros F Hp. pose proof (fair_money c s F) as M. pose proof (mo_cfg _ _ M) as W. pose proof (mo_wf _ _ M) as I.
  destruct (step_anatomy c s b Hp) as [E|(s1 & H1 & E)]; [now left|right]. exists (settle c s1).
  destruct (after_bet_wf c s b s1 W I H1) as (A1 & A2 & A3 & A4 & A5 & A6 & A7 & A8 & A9 & A10 & A11).
  destruct (settle_wf c s1 W A1 A2 A3 A4 A5 A6 A7 A8 A9 A10) as (_ & B1 & B2 & B3 & B4 & B5 & B6 & B7 & B8 & B9).
  destruct (after_bet_money c s b s1 M H1) as (C1 & C2 & C3). pose proof (settle_keep c s1 W) as K.
  assert (Ec : pot_commits (fst (step c s b)) = pot_commits s1 /\ active (fst (step c s b)) = active s1).
  { rewrite E. destruct (step_end_cases c (settle c s1)) as [(e & _ & ->)|[(pay & _ & _ & ->)|(pay & _ & _ & ->)]]; cbn [fst finish_hand pot_commits active];
      split; apply K. }
  destruct Ec as [Ec Ea].
  split; try assumption.
  - rewrite (sk_pot _ _ K), (sk_commits _ _ K). exact A8.
  - congruence.
  - intros i. unfold committed. rewrite (sk_commits _ _ K). apply C1.
  - rewrite (sk_active _ _ K). exact A9.
  - intros i Hi. unfold stack_of. rewrite (sk_stacks _ _ K). now apply C3.
  - intros i Hi. unfold put_in, committed, stack_of. rewrite Ec, (sk_stacks _ _ K).
    destruct (after_bet_effect c s b s1 H1) as (a & call & mi & ma & bet & folds & B).
    pose proof (be_turn _ _ _ _ _ _ _ _ _ _ B) as Ta. destruct (wf_turn _ _ I a Ta) as [La _].
    rewrite (be_commits _ _ _ _ _ _ _ _ _ _ B), (be_stacks _ _ _ _ _ _ _ _ _ _ B).
    rewrite !add_at_nth by (rewrite ?(wf_commits _ _ I), ?(wf_stacks _ _ I); exact La). destruct (Nat.eqb i a); lia.
  - apply (cw_two _ W).
  - destruct B9 as (x & -> & _). discriminate.
  - rewrite E. destruct (step_end_cases c (settle c s1)) as [(e & _ & ->)|[(pay & _ & _ & ->)|(pay & _ & _ & ->)]]; cbn [fst]; repeat split.
Qed.

Record ended (c : config) (s : state) (b : pynum) (z : state) (pay : list Z) (o : obs) : Prop := mkEnded {
  en_settled : settled c s b z;
  en_pay : payouts c z = Ok pay;
  en_length : List.length pay = num_players c;
  en_done : all_true (done_list c z) = true;
  en_state : fst (step c s b) = finish_hand z pay;
  en_obs : observation c (finish_hand z pay) true = Ok o;
  en_out : snd (step c s b) = Ok (mkOut o pay (done_list c z))
}.
Lemma finish_obs c z pay : (0 < List.length (hole_cards z))%nat -> exists o, observation c (finish_hand z pay) true = Ok o.
Proof.
  intros H. unfold observation. cbn [bind finish_hand action hole_cards]. unfold get_last.
  destruct (rev (hole_cards z)) as [|h l] eqn:E; [|cbn [bind]; eauto].
  apply (f_equal (@List.length _)) in E. rewrite rev_length in E. cbn in E. lia.
Qed.
Lemma step_ended c s b : fair c s -> in_progress s -> action (fst (step c s b)) = None -> exists z pay o, ended c s b z pay o.
Proof.
  intros F Hp Hn. destruct (step_settled c s b F Hp) as [(_ & E & _)|(z & Z)]; [rewrite E in Hn; contradiction|].
  exists z. destruct (step_end_cases c z) as [(e & _ & E)|[(pay & P & D & E)|(pay & _ & _ & E)]];
    rewrite <- (se_step _ _ _ _ Z) in E; [rewrite E in Hn; cbn [fst] in Hn; now apply (se_turn _ _ _ _ Z) in Hn| |rewrite E in Hn; now apply (se_turn _ _ _ _ Z) in Hn].
  destruct (finish_obs c z pay) as (o & Ho); [rewrite (se_hole _ _ _ _ Z); pose proof (se_players _ _ _ _ Z); lia|].
  exists pay, o. split; try assumption.
  - exact (payouts_length c z pay (se_active _ _ _ _ Z) (se_commits _ _ _ _ Z) P).
  - rewrite (se_step _ _ _ _ Z). unfold step_end. rewrite P, D. cbn [snd]. rewrite Ho. reflexivity.
Qed.
Lemma ended_stack c s b z pay o i : ended c s b z pay o -> (i < num_players c)%nat ->
  stack_of (fst (step c s b)) i = stack_of z i + nth i pay 0 + committed z i.
Proof.
  intros E Hi. pose proof (en_settled _ _ _ _ _ _ E) as Z. rewrite (en_state _ _ _ _ _ _ E). unfold stack_of, committed. cbn [finish_hand stacks].
  rewrite !add_lists_nth; [reflexivity|rewrite (se_stacks _ _ _ _ Z); symmetry; apply (en_length _ _ _ _ _ _ E)|].
  rewrite (se_commits _ _ _ _ Z). apply add_lists_length; [apply Z|apply E].
Qed.
Lemma ended_sum c s b z pay o : ended c s b z pay o -> sumZ (stacks (fst (step c s b))) = all_chips s + sumZ pay.
Proof.
  intros E. pose proof (en_settled _ _ _ _ _ _ E) as Z. rewrite (en_state _ _ _ _ _ _ E). cbn [finish_hand stacks].
  rewrite !add_lists_sum.
  - rewrite <- (se_chips _ _ _ _ Z). unfold all_chips. rewrite (se_pot _ _ _ _ Z). lia.
  - rewrite (se_stacks _ _ _ _ Z). symmetry. apply E.
  - rewrite (se_commits _ _ _ _ Z). apply add_lists_length; [apply Z|apply E].
Qed.

(** ** the three ways a hand ends *)
(** only one player left *)
Lemma payouts_fold c z : count_true (active z) = 1 -> List.length (active z) = num_players c -> List.length (pot_commits z) = num_players c ->
  exists pay, payouts c z = Ok pay /\ forall i, (i < num_players c)%nat -> nth i pay 0 = if nth i (active z) false then pot z - committed z i else - committed z i.
Proof.
  intros H La Lc. unfold payouts. rewrite H. cbn [Z.eqb Pos.eqb]. eexists. split; [reflexivity|]. intros i Hi.
  rewrite (map_combine_nth _ _ _ _ _ (0, false) 0) by (rewrite ?combine_length, ?map_length, ?combine_length; lia).
  rewrite combine_nth_lt by (rewrite ?map_length, ?combine_length; lia).
  rewrite (map_combine_nth _ _ _ _ _ 0 false) by lia. cbn [fst snd]. unfold committed. destruct (nth i (active z) false); lia.
Qed.
(** everybody left is all in but the hand has not gone to showdown *)
Lemma payouts_early c z : count_true (active z) <> 1 -> (street z < num_streets c)%nat -> List.length (active z) = num_players c -> List.length (pot_commits z) = num_players c ->
  exists pay, payouts c z = Ok pay /\ forall i, (i < num_players c)%nat -> nth i pay 0 = if nth i (active z) false then 0 else - committed z i.
Proof.
  intros H Hs La Lc. unfold payouts. replace (count_true (active z) =? 1) with false by lia. replace (Nat.leb (num_streets c) (street z)) with false by lia.
  eexists. split; [reflexivity|]. intros i Hi. rewrite (map_combine_nth _ _ _ _ _ 0 false) by lia. cbn [fst snd]. reflexivity.
Qed.
(** showdown *)
Definition show_of (c : config) (s : state) : showdown :=
  mkShow (num_players c) (fun i => nth i (active s) false)
         (fun i => match evaluate (the_evaluator c) (nth i (hole_cards s) []) (community_cards s) with Ok v => v | Err _ => 0 end)
         (committed s).
Lemma evaluate_max e h cm v : evaluate e h cm = Ok v -> v <= t_max_rank (e_table e).
Proof.
  unfold evaluate. destruct (card_combs e h cm) as [cs|]; [|discriminate]. cbn [bind].
  assert (X : forall l m, match fold_res (fun minimum comb => let* score := table_lookup (e_table e) comb in Ok (if score <? minimum then score else minimum)) l m with Ok v => v <= m | Err _ => True end).
  { induction l as [|x l IH]; intros m; [cbn; lia|]. cbn [fold_res]. destruct (table_lookup (e_table e) x) as [sc|]; [|exact I]. cbn [bind].
    specialize (IH (if sc <? m then sc else m)). match goal with |- match ?t with _ => _ end => destruct t as [r|]; [|exact I] end.
    destruct (sc <? m) eqn:E; lia. }
  intros H. specialize (X cs (t_max_rank (e_table e))). now rewrite H in X.
Qed.
Lemma map_res_nth {A B} (f : A -> result B) l r : map_res f l = Ok r -> forall i x, nth_error l i = Some x -> exists y, nth_error r i = Some y /\ f x = Ok y.
Proof.
  revert r; induction l as [|a l IH]; intros r H i x Hx; [destruct i; discriminate|]. cbn [map_res] in H.
  destruct (f a) as [y|] eqn:E; [|discriminate]. cbn [bind] in H. destruct (map_res f l) as [r'|]; [|discriminate]. cbn [bind] in H. injection H as <-.
  destruct i as [|i]; [injection Hx as ->; exists y; auto|]. now apply (IH r' eq_refl i x).
Qed.
Lemma eval_hands_spec c s st : List.length (hole_cards s) = num_players c -> eval_hands c (active s) (hole_cards s) (community_cards s) = Ok st ->
  List.length st = num_players c /\
  forall i, (i < num_players c)%nat ->
    (nth i (active s) false = true -> nth i st 0 = sd_rank (show_of c s) i /\ nth i st 0 < worst_hand c /\
       evaluate (the_evaluator c) (nth i (hole_cards s) []) (community_cards s) = Ok (nth i st 0)) /\
    (nth i (active s) false = false -> nth i st 0 = worst_hand c).
Proof.
  intros Lh H. unfold eval_hands in H. pose proof (map_res_length _ _ _ H) as L. rewrite seq_length in L. split; [exact L|].
  intros i Hi. destruct (map_res_nth _ _ _ H i i) as (y & Hy & Ey); [rewrite (nth_error_nth' _ 0%nat) by (rewrite seq_length; exact Hi); f_equal; now rewrite seq_nth|].
  rewrite (nth_error_nth _ _ 0 Hy). destruct (nth i (active s) false); split; intros E; try discriminate; [|now injection Ey as <-].
  unfold get in Ey. rewrite (nth_error_nth' _ []) in Ey by lia. cbn [bind] in Ey. cbn [show_of sd_rank]. rewrite Ey. split; [reflexivity|].
  split; [apply evaluate_max in Ey; unfold worst_hand; lia|reflexivity].
Qed.
Lemma nonneg_forall (l : list Z) : (forall i, 0 <= nth i l 0) -> Forall (fun x => 0 <= x) l.
Proof. intros H. apply Forall_forall. intros x Hx. destruct (In_nth _ _ 0 Hx) as (i & _ & <-). apply H. Qed.

(** the pots dealt out at a showdown, and the payouts *)
Definition pots_of (c : config) (z : state) (st : list Z) : list (list nat * Z) := show_pots (worst_hand c) st (pot_commits z).
Lemma show_payouts c z : count_true (active z) <> 1 -> (num_streets c <= street z)%nat ->
  List.length (pot_commits z) = num_players c -> List.length (hole_cards z) = num_players c -> (button z < num_players c)%nat ->
  (forall i, 0 <= committed z i) -> (pot z = sumZ (pot_commits z) \/ pot z <= 0) ->
  (exists e, eval_hands c (active z) (hole_cards z) (community_cards z) = Err e /\ payouts c z = Err e) \/
  (exists st, eval_hands c (active z) (hole_cards z) (community_cards z) = Ok st /\
    let pots := pots_of c z st in
    let base := map (share pots) (seq 0 (num_players c)) in
    Forall (good_pot (num_players c)) pots /\ sumZ base + odd_chips pots = sumZ (pot_commits z) /\
    payouts c z = if odd_chips pots =? 0 then Ok (sub_lists base (pot_commits z))
                  else match first_after (button z) (num_players c) base with
                       | Some q => Ok (sub_lists (add_at base (q - button z) (odd_chips pots)) (pot_commits z))
                       | None => Err IndexError
                       end).
Proof.
  intros Hc Hs Lc Lh Hb Hn Hp. unfold payouts. replace (count_true (active z) =? 1) with false by lia.
  replace (Nat.leb (num_streets c) (street z)) with true by lia. unfold eval_round.
  destruct (eval_hands c (active z) (hole_cards z) (community_cards z)) as [st|e] eqn:E; [right|left; exists e; auto].
  exists st. split; [reflexivity|]. cbv zeta. destruct (eval_hands_spec c z st Lh E) as [Ls _]. cbn [bind].
  destruct (split_pots_spec (num_players c) (button z) (worst_hand c) (pot z) st (pot_commits z) Ls Lc Hb) as (S1 & S2 & S3 & _);
    [apply nonneg_forall; exact Hn|exact Hp|].
  unfold pots_of. split; [exact S2|]. split; [exact S3|]. rewrite S1.
  destruct (odd_chips (show_pots (worst_hand c) st (pot_commits z)) =? 0); [reflexivity|]. now destruct (first_after _ _ _).
Qed.
(** gross winnings *)
Lemma show_payouts_total c z pay : count_true (active z) <> 1 -> (num_streets c <= street z)%nat ->
  List.length (pot_commits z) = num_players c -> List.length (hole_cards z) = num_players c -> (button z < num_players c)%nat ->
  (forall i, 0 <= committed z i) -> (pot z = sumZ (pot_commits z) \/ pot z <= 0) -> payouts c z = Ok pay ->
  sumZ pay = 0 /\ forall i, - committed z i <= nth i pay 0.
Proof.
  intros Hc Hs Lc Lh Hb Hn Hp H. destruct (show_payouts c z Hc Hs Lc Lh Hb Hn Hp) as [(e & _ & E)|(st & _ & G & T & E)]; [congruence|].
  cbv zeta in *. rewrite H in E. set (base := map _ _) in *. set (pots := pots_of c z st) in *.
  assert (Lb : List.length base = num_players c) by (unfold base; now rewrite map_length, seq_length).
  assert (Bn : forall i, 0 <= nth i base 0).
  { intros i. unfold base. destruct (Nat.lt_ge_cases i (num_players c)) as [L|L]; [|rewrite nth_overflow by (now rewrite map_length, seq_length); lia].
    rewrite (map_nth_lt _ _ _ _ 0%nat) by (now rewrite seq_length). eapply share_nonneg. exact G. }
  pose proof (odd_nonneg _ _ G) as On.
  destruct (odd_chips pots =? 0) eqn:E0.
  - injection E as ->. split; [rewrite sub_lists_sum by congruence; lia|].
    intros i. rewrite sub_lists_nth by congruence. specialize (Bn i). unfold committed. lia.
  - destruct (first_after (button z) (num_players c) base) as [q|] eqn:Eq; [|discriminate]. injection E as ->.
    apply first_after_spec in Eq. assert (Lq : (q - button z < List.length base)%nat) by lia. split.
    + rewrite sub_lists_sum by (rewrite add_at_length; congruence). rewrite add_at_sum by exact Lq. lia.
    + intros i. rewrite sub_lists_nth by (rewrite add_at_length; congruence). rewrite add_at_nth by exact Lq.
      pose proof (Bn i) as B1. pose proof (Bn (q - button z)%nat) as B2. unfold committed. destruct (Nat.eqb_spec i (q - button z)) as [->|]; lia.
Qed.
