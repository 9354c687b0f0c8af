(** * PropNumpySeats: property C91 (at the array dealer only the order of the seats matters) *)
From Coq Require Import ZifyBool ZifyNat Arith Permutation.
From Verif Require Import PyBase PyFacts CardModel CardProofs EvalModel EngineModel EngineSpec EngineFacts BetFacts EngineDemo MoneyFacts
  PropRound ShowSpec ShowFacts SideFacts SideExists HandEnd PropSide PaidSpec PaidFacts SeatsSpec PropSeats
  NumpyModel NumpySpec NumpyFacts PropNumpy PropNumpyEnds NumpyPaidSpec PropNumpyPaid PropNumpyBetter.

Section Seats.
Variables n r : nat.
Hypothesis Hr : (r < n)%nat.
Variable c : config.
Hypothesis Hn : num_players c = n.
Local Notation tl := (t_list r).
Local Notation sg := (t_seat n r).
Local Notation T := (t_state n r).

(** ** The pots *)
Lemma in_sg w i : (forall j, In j w -> (j < n)%nat) -> (i < n)%nat -> existsb (Nat.eqb (sg i)) (map sg w) = existsb (Nat.eqb i) w.
Proof.
  intros Lt Hi. induction w as [|x w IH]; [reflexivity|]. cbn [map existsb]. rewrite (sg_eqb n r Hr) by (try assumption; apply Lt; now left).
  f_equal. apply IH. intros j Hj. apply Lt. now right.
Qed.
Lemma nodup_sg w : (forall j, In j w -> (j < n)%nat) -> NoDup w -> NoDup (map sg w).
Proof.
  intros Lt. induction 1 as [|x w N1 N2 IH]; cbn [map]; constructor.
  - intros Hx. apply in_map_iff in Hx. destruct Hx as (y & E & Hy). apply N1. apply (sg_inj n r Hr) in E; [now subst|apply Lt; now right|apply Lt; now left].
  - apply IH. intros j Hj. apply Lt. now right.
Qed.
Lemma array_t d d' a p : moved n r d d' -> array_pots d a p -> array_pots d' a (t_pots n r p).
Proof.
  intros M. induction 1 as [a N|a w b q Hw (x & Hx & Ex) Hb Hq IH|a w b q No Nd Hw (x & Hx & Lx & Ex) Hb Hq IH]; cbn [t_pots map fst snd].
  - apply array_none. intros j Lj. rewrite (mv_n' _ _ _ _ M) in Lj. destruct (sg_onto n r Hr j Lj) as (i & Hi & <-).
    rewrite (mv_put _ _ _ _ M) by exact Hi. apply N. now rewrite (mv_n _ _ _ _ M).
  - assert (Lt : forall i, In i w -> (i < n)%nat) by (intros i Hi; apply (proj2 Hw) in Hi; rewrite <- (mv_n _ _ _ _ M); apply Hi).
    rewrite <- (between_t n r Hr c Hn d d' a b M). apply array_next; [now apply (winners_t n r Hr) with d| | |exact IH].
    + exists (sg x). split; [now apply in_map|]. now rewrite (mv_put _ _ _ _ M) by (now apply Lt).
    + intros j Hj. apply in_map_iff in Hj. destruct Hj as (i & <- & Hi). rewrite (mv_put _ _ _ _ M) by (now apply Lt). now apply Hb.
  - rewrite (mv_n _ _ _ _ M) in *. rewrite <- (between_t n r Hr c Hn d d' a b M).
    apply array_folded; rewrite ?(mv_n' _ _ _ _ M); [| | | | |exact IH].
    + intros j C. pose proof (proj1 C) as Lj. rewrite (mv_n' _ _ _ _ M) in Lj. destruct (sg_onto n r Hr j Lj) as (i & Hi & <-).
      apply (No i). now apply (contends_t n r Hr d d' a i M Hi).
    + apply nodup_sg; [|exact Nd]. intros j. apply Hw.
    + intros j. split.
      * intros Hj. apply in_map_iff in Hj. destruct Hj as (i & <- & Hi). apply (sg_lt n r Hr). now apply Hw.
      * intros Lj. destruct (sg_onto n r Hr j Lj) as (i & Hi & <-). apply in_map. now apply Hw.
    + exists (sg x). rewrite (mv_put _ _ _ _ M) by exact Hx. splits; [now apply (sg_lt n r Hr)|exact Lx|exact Ex].
    + intros j Lj. destruct (sg_onto n r Hr j Lj) as (i & Hi & <-). rewrite (mv_put _ _ _ _ M) by exact Hi. now apply Hb.
Qed.
Lemma array_share_t d a p i : sd_players d = n -> array_pots d a p -> (i < n)%nat -> share (t_pots n r p) (sg i) = share p i.
Proof.
  intros Hd H Hi. induction H as [a N|a w b q Hw Hx Hb Hq IH|a w b q No Nd Hw Hx Hb Hq IH]; [reflexivity| |];
    unfold share, t_pots in *; cbn [map fst snd]; unfold sumZ in *; cbn [fold_right]; rewrite IH, map_length, in_sg; try reflexivity; try exact Hi; intros k Hk.
  - apply (proj2 Hw) in Hk. rewrite <- Hd. apply Hk.
  - apply Hw in Hk. now rewrite <- Hd.
Qed.

(** the first seat after the button is the same player *)
Lemma shifted_t b i j : (b < n)%nat -> (i < n)%nat -> (j < n)%nat ->
  (shifted n b i <= shifted n b j)%nat -> (shifted n (sg b) (sg i) <= shifted n (sg b) (sg j))%nat.
Proof.
  intros Hb Hi Hj. unfold shifted.
  destruct (sg_cases n r Hr b Hb) as [[? ->]|[? ->]], (sg_cases n r Hr i Hi) as [[? ->]|[? ->]], (sg_cases n r Hr j Hj) as [[? ->]|[? ->]];
  repeat match goal with |- context[Nat.leb ?x ?y] => destruct (Nat.leb_spec x y) end; lia.
Qed.
Lemma shifted_inj b i j : (i < n)%nat -> (j < n)%nat -> shifted n b i = shifted n b j -> i = j.
Proof. intros Hi Hj. unfold shifted. destruct (Nat.leb_spec i b), (Nat.leb_spec j b); lia. Qed.

(** ** The end of a step *)
Lemma np_payouts_t z : seated n z -> fit z ->
  match np_payouts c z with
  | Ok pay => np_payouts c (T z) = Ok (tl pay) /\ List.length pay = n
  | Err _ => exists e, np_payouts c (T z) = Err e
  end.
Proof.
  intros D F. pose proof D as [L1 L2 L3 L4 L5 L6 L7 L8]. pose proof F as (F1 & F2 & F3).
  assert (PL : forall pay, np_payouts c z = Ok pay -> List.length pay = n).
  { intros pay Hpay. destruct (np_payouts_facts c z pay) as [X _]; rewrite ?Hn in *; assumption. }
  destruct (Z.eq_dec (count_true (active z)) 1) as [E1|N1]; [|destruct (le_lt_dec (num_streets c) (street z)) as [Es|Es]].
  - destruct (np_payouts c z) as [pay|e] eqn:P.
    2:{ unfold np_payouts in P. replace (count_true (active z) =? 1) with true in P by lia. discriminate P. }
    split; [|now apply PL]. clear PL. revert P. unfold np_payouts. cbn [t_state active pot_commits pot street].
    rewrite <- (count_perm _ _ (t_perm r (active z))). replace (count_true (active z) =? 1) with true by lia. intros P. injection P as <-. f_equal.
    rewrite (t_combine n r Hr (pot_commits z)), t_map by assumption.
    rewrite (t_combine n r Hr) by (rewrite ?map_length, ?combine_length; lia).
    rewrite (t_combine n r Hr) by (rewrite ?combine_length, ?map_length, ?combine_length; lia). apply t_map.
  - pose proof (seated_t n r Hr z D) as D'. pose proof (fit_t n r Hr c Hn z D F) as (F1' & F2' & F3').
    assert (N1' : count_true (active (T z)) <> 1) by (cbn [t_state active]; now rewrite <- (count_perm _ _ (t_perm r (active z)))).
    pose proof (eval_t n r Hr c Hn (active z) (hole_cards z) (community_cards z) L1 L6) as Ev.
    destruct (np_show_payouts c z N1 Es) as [(e & E & P)|(st & E & G & Tt & P)]; rewrite ?Hn; try assumption;
      destruct (np_show_payouts c (T z) N1' Es) as [(e' & E' & P')|(st' & E' & G' & Tt' & P')]; rewrite ?Hn; try assumption; try apply D';
      cbn [t_state active hole_cards community_cards] in E'.
    + rewrite P. eauto.
    + exfalso. rewrite E in Ev. destruct Ev as (x & Ev). rewrite Ev in E'. discriminate E'.
    + exfalso. rewrite E, E' in Ev. discriminate Ev.
    + cbv zeta in *. rewrite Hn in *.
      assert (SP : array_pots (show_of c z) 0 (np_pots_of c z st)).
      { destruct (eval_hands_spec c z st ltac:(now rewrite Hn) E) as [Ls Hst]. rewrite Hn in *.
        apply np_show_array with (n := n); try assumption; try reflexivity.
        + intros i Hi Ai. destruct (Hst i Hi) as [H _]. destruct (H Ai) as (H1 & H3 & _). auto.
        + intros i Hi Ai. destruct (Hst i Hi) as [_ H]. now apply H. }
      assert (SP' : array_pots (show_of c (T z)) 0 (np_pots_of c (T z) st')).
      { destruct (eval_hands_spec c (T z) st' ltac:(rewrite Hn; apply D') E') as [Ls Hst]. rewrite Hn in *.
        apply np_show_array with (n := n); try assumption; try reflexivity; [apply D'| |].
        + intros i Hi Ai. destruct (Hst i Hi) as [H _]. destruct (H Ai) as (H1 & H3 & _). auto.
        + intros i Hi Ai. destruct (Hst i Hi) as [_ H]. now apply H. }
      destruct (array_pots_unique _ _ _ SP' _ (array_t _ _ _ _ (show_moved n r Hr c Hn z D) SP)) as [U1 U2]. rewrite odd_t in U1.
      set (pots := np_pots_of c z st) in *. set (pots' := np_pots_of c (T z) st') in *. clearbody pots pots'.
      assert (Sh : forall i, (i < n)%nat -> share pots' (sg i) = share pots i).
      { intros i Hi. rewrite U2. now apply (array_share_t (show_of c z) 0). }
      assert (Bs : map (share pots') (seq 0 n) = tl (map (share pots) (seq 0 n))) by (apply (map_t n r Hr c Hn); exact Sh).
      rewrite U1, Bs in P'. cbn [t_state pot_commits button] in P'.
      destruct P as [(O1 & P)|[(O1 & O2 & P)|(O1 & q & Q1 & Q2 & Q3 & P)]]; destruct P' as [(O1' & P')|[(O1' & O2' & P')|(O1' & q' & Q1' & Q2' & Q3' & P')]]; try lia.
      * rewrite P. split; [|now apply PL]. rewrite P'. f_equal. apply (t_sub_lists n r Hr); [now rewrite map_length, seq_length|exact L2].
      * rewrite P. eauto.
      * exfalso. destruct (sg_onto n r Hr q' Q1') as (i & Hi & <-). rewrite Sh in Q2' by exact Hi. rewrite O2 in Q2' by exact Hi. lia.
      * exfalso. specialize (O2' (sg q) (sg_lt n r Hr q Q1)). rewrite Sh in O2' by exact Q1. lia.
      * rewrite P. split; [|now apply PL]. rewrite P'. f_equal.
        assert (Eq : q' = sg q).
        { destruct (sg_onto n r Hr q' Q1') as (i & Hi & <-). f_equal. rewrite Sh in Q2' by exact Hi.
          pose proof (Q3 i Hi Q2') as A1. apply (shifted_t _ _ _ L7 Q1 Hi) in A1.
          pose proof (Q3' (sg q) (sg_lt n r Hr q Q1) ltac:(rewrite Sh; assumption)) as A2.
          apply (sg_inj n r Hr i q Hi Q1). apply (shifted_inj (sg (button z))); [now apply sg_lt|now apply sg_lt|lia]. }
        subst q'. rewrite (t_add_at n r Hr) by (try exact Q1; now rewrite map_length, seq_length).
        apply (t_sub_lists n r Hr); [now rewrite add_at_length, map_length, seq_length|exact L2].
  - destruct (np_payouts c z) as [pay|e] eqn:P.
    2:{ unfold np_payouts in P. replace (count_true (active z) =? 1) with false in P by lia. replace (Nat.leb (num_streets c) (street z)) with false in P by lia. discriminate P. }
    split; [|now apply PL]. clear PL. revert P. unfold np_payouts. cbn [t_state active pot_commits pot street].
    rewrite <- (count_perm _ _ (t_perm r (active z))). replace (count_true (active z) =? 1) with false by lia.
    replace (Nat.leb (num_streets c) (street z)) with false by lia. intros P. injection P as <-. f_equal.
    rewrite (t_combine n r Hr (pot_commits z)) by assumption. apply t_map.
Qed.
Lemma np_done_t z : seated n z -> np_done_list c (T z) = tl (np_done_list c z).
Proof.
  intros D. unfold np_done_list. cbn [t_state street active]. rewrite <- (count_perm _ _ (t_perm r (active z))).
  destruct (Nat.leb (num_streets c) (street z) || (count_true (active z) <=? 1)); [now rewrite (t_repeat n r Hr)|]. apply t_map.
Qed.
Lemma np_step_end_t z : seated n z -> fit z ->
  fst (np_step_end c (T z)) = T (fst (np_step_end c z)) /\
  match snd (np_step_end c z) with
  | Ok out => snd (np_step_end c (T z)) = Ok (t_out n r (nth (n - 1) (tl (hole_cards (fst (np_step_end c z)))) []) out)
  | Err _ => exists e, snd (np_step_end c (T z)) = Err e
  end.
Proof.
  intros D F. pose proof (np_payouts_t z D F) as P. pose proof D as [L1 L2 L3 L4 L5 L6 L7 L8]. unfold np_step_end. cbv zeta. rewrite np_done_t by exact D.
  rewrite <- (all_true_perm _ _ (t_perm r (np_done_list c z))).
  destruct (np_payouts c z) as [pay|e]; [destruct P as [P Lp]|destruct P as (e' & P)]; rewrite P; cbn [fst snd]; [|split; [reflexivity|eauto]].
  destruct (all_true (np_done_list c z)).
  - assert (E : finish_hand (T z) (tl pay) = T (finish_hand z pay)).
    { unfold finish_hand, t_state. cbn [action active button community_cards the_deck history hole_cards largest_raise pot pot_commits stacks street
        street_commits street_option street_raises option_map]. rewrite !(t_add_lists n r Hr); try assumption; [reflexivity|now apply add_lists_length]. }
    rewrite E. split; [reflexivity|]. unfold observation. cbn [bind t_state finish_hand action hole_cards option_map].
    rewrite !(last_nth n r Hr c Hn _ []) by (rewrite ?(t_length n r Hr); lia). rewrite (t_length n r Hr), L6. cbn [bind]. reflexivity.
  - split; [reflexivity|]. rewrite (observation_t n r Hr c z false (nth (n - 1) (tl (hole_cards z)) []) D).
    destruct (observation c z false) as [o|e]; cbn [bind]; [reflexivity|eauto].
Qed.
Lemma np_step_t s b : np_fair c s -> in_progress s -> (button s < n)%nat ->
  fst (np_step c (T s) b) = T (fst (np_step c s b)) /\
  match snd (np_step c s b) with
  | Ok out => snd (np_step c (T s) b) = Ok (t_out n r (nth (n - 1) (tl (hole_cards (fst (np_step c s b)))) []) out)
  | Err _ => exists e, snd (np_step c (T s) b) = Err e
  end.
Proof.
  intros F Hp Hb. pose proof (np_fair_money c s F) as M. rewrite wrap_small in M by (now rewrite Hn).
  pose proof (mo_wf _ _ M) as I. pose proof (mo_cfg _ _ M) as W. unfold in_progress in Hp.
  destruct (action s) as [a|] eqn:Ea; [|now destruct Hp]. destruct (wf_turn _ _ I a Ea) as [Ha _]. rewrite Hn in Ha.
  assert (D : seated n s).
  { destruct I as [I1 I2 I3 I4 I5 I6 I7 I8 I9 I10]. rewrite Hn in *. split; try assumption; [|now exists a]. apply I8. rewrite Ea. discriminate. }
  assert (St : np_step c s b = match py_round b with Err e => (s, Err e) | Ok bet0 => match bet_sizes c s with Err e => (s, Err e) | Ok (call, mi, ma) =>
     let '(bet, folds) := np_settle_bet (pynum_neg b) bet0 call mi ma in let s1 := place_bet c s a (pynum_neg b) bet folds call in
     np_step_end c (if all_agreed s1 then next_street c s1 else s1) end end) by (unfold np_step; rewrite Ea; reflexivity).
  assert (St' : np_step c (T s) b = match py_round b with Err e => (T s, Err e) | Ok bet0 => match bet_sizes c (T s) with Err e => (T s, Err e) | Ok (call, mi, ma) =>
     let '(bet, folds) := np_settle_bet (pynum_neg b) bet0 call mi ma in let s1 := place_bet c (T s) (sg a) (pynum_neg b) bet folds call in
     np_step_end c (if all_agreed s1 then next_street c s1 else s1) end end) by (unfold np_step; cbn [t_state action]; rewrite Ea; reflexivity).
  rewrite (sizes_t n r Hr) in St' by exact D.
  destruct (py_round b) as [bet0|e] eqn:Er; [|rewrite St, St'; split; [reflexivity|cbn; eauto]].
  destruct (bet_sizes c s) as [[[call mi] ma]|e] eqn:Eb; [|rewrite St, St'; split; [reflexivity|cbn; eauto]].
  destruct (np_settle_bet (pynum_neg b) bet0 call mi ma) as [bet folds] eqn:Es. cbv zeta in *.
  destruct (place_t n r Hr c Hn s a (pynum_neg b) bet folds call D Ea Ha) as [Pt D1]. rewrite Pt in St'.
  set (s1 := place_bet c s a (pynum_neg b) bet folds call) in *. fold (settle c s1) in St. fold (settle c (T s1)) in St'.
  destruct (settle_t n r Hr c Hn s1 D1) as [Se D2]. rewrite Se in St'.
  assert (L : limits s a call mi ma) by (apply (money_limits c); [exact M|exact Ea|exact Eb]).
  assert (L' : limits (wrap c s) a call mi ma) by (rewrite wrap_small; [exact L|now rewrite Hn]).
  rewrite (np_settle_same _ _ _ _ _ _ _ L' Er) in Es.
  assert (H1 : after_bet c s b = Some s1) by (unfold after_bet; rewrite Ea, Er, Eb, Es; reflexivity).
  destruct (after_bet_wf c s b s1 W I H1) as (A1 & A2 & A3 & A4 & A5 & A6 & A7 & A8 & A9 & A10 & A11).
  destruct (after_bet_money c s b s1 M H1) as (C1 & C2 & C3). pose proof (settle_keep c s1 W) as Kp.
  rewrite St, St'. apply np_step_end_t; [exact D2|].
  unfold fit. splits.
  - intros i. unfold committed. rewrite (sk_commits _ _ Kp). apply C1.
  - rewrite (sk_pot _ _ Kp), (sk_commits _ _ Kp). exact A8.
  - rewrite (sk_active _ _ Kp). exact A9.
Qed.

(** ** Winning probabilities *)
Lemma np_win_t s m samples : List.length (active s) = n -> List.length (hole_cards s) = n ->
  match np_win_probabilities c s m samples with
  | Ok p => np_win_probabilities c (T s) m samples = Ok (tl p)
  | Err _ => exists e, np_win_probabilities c (T s) m samples = Err e
  end.
Proof.
  intros La Lh. unfold np_win_probabilities. cbn [t_state community_cards the_deck active hole_cards]. cbv zeta.
  set (N := ncr _ _). destruct (if N <? 1000 then _ else _) as [combos|e]; cbn [bind]; [|eauto]. rewrite Hn.
  assert (G : match map_res (fun extra => eval_hands c (active s) (hole_cards s) (community_cards s ++ extra)) combos with
    | Ok hs => map_res (fun extra => eval_hands c (tl (active s)) (tl (hole_cards s)) (community_cards s ++ extra)) combos = Ok (map tl hs) /\
               Forall (fun h => List.length h = n) hs
    | Err _ => exists e, map_res (fun extra => eval_hands c (tl (active s)) (tl (hole_cards s)) (community_cards s ++ extra)) combos = Err e
    end).
  { induction combos as [|x combos IH]; cbn [map_res]; [split; [reflexivity|constructor]|].
    pose proof (eval_t n r Hr c Hn (active s) (hole_cards s) (community_cards s ++ x) La Lh) as Ev.
    destruct (eval_hands c (active s) (hole_cards s) (community_cards s ++ x)) as [hs|e] eqn:E; cbn [bind].
    - rewrite Ev. cbn [bind]. assert (Lhs : List.length hs = n) by (unfold eval_hands in E; apply map_res_length in E; now rewrite E, seq_length).
      destruct (map_res (fun extra => eval_hands c (active s) (hole_cards s) (community_cards s ++ extra)) combos) as [q|e]; cbn [bind].
      + destruct IH as [-> IF]. cbn [bind map]. split; [reflexivity|]. now constructor.
      + destruct IH as (e' & ->). cbn [bind]. eauto.
    - destruct Ev as (e' & ->). cbn [bind]. eauto. }
  destruct (map_res (fun extra => eval_hands c (active s) (hole_cards s) (community_cards s ++ extra)) combos) as [hs|e]; cbn [bind];
    [|destruct G as (e' & ->); cbn [bind]; eauto].
  destruct G as [-> Fh]. cbn [bind]. rewrite map_length. destruct (Nat.eqb (List.length hs) 0); [eauto|]. destruct (negb _); [eauto|].
  assert (X : forall w, List.length w = n ->
    fold_left (fun won h => add_lists won (map (fun x => b2z (x =? minZ h)) h)) (map tl hs) (tl w) =
    tl (fold_left (fun won h => add_lists won (map (fun x => b2z (x =? minZ h)) h)) hs w)).
  { induction Fh as [|h hs Lh1 Fh IH]; intros w Lw; [reflexivity|]. cbn [map fold_left].
    rewrite <- (minZ_perm _ _ (t_perm r h)), t_map, (t_add_lists n r Hr) by (rewrite ?map_length; assumption).
    apply IH. apply add_lists_length; [exact Lw|now rewrite map_length]. }
  specialize (X (repeat 0 n) (repeat_length _ _)). rewrite (t_repeat n r Hr) in X. rewrite X.
  rewrite <- (sumZ_perm _ _ (t_perm r (fold_left _ hs _))). now rewrite t_map.
Qed.

(** ** A new hand: up to the counter of the button *)
Lemma t_wrap s : T (wrap c s) = T s.
Proof.
  unfold wrap, set_button, t_state. cbn [action active button community_cards the_deck history hole_cards largest_raise pot pot_commits stacks street
    street_commits street_option street_raises]. f_equal. unfold t_seat. rewrite Hn. apply Nat.add_mod_idemp_l. lia.
Qed.
Lemma np_reset_t s rnd rnd' rs d' : np_fair c s ->
  t_deal r n (nth 0 (num_community_cards c) 0) (num_hole_cards c) (deck_shuffle rnd (the_deck s)) (deck_shuffle rnd' d') ->
  match snd (np_reset c s rnd false rs) with
  | Ok o => wrap c (fst (np_reset c (set_deck (T s) d') rnd' false rs)) = T (fst (np_reset c s rnd false rs)) /\
            map_ok (wrap_obs c) (snd (np_reset c (set_deck (T s) d') rnd' false rs)) = Ok (t_obs n r [] o)
  | Err e => snd (np_reset c (set_deck (T s) d') rnd' false rs) = Err e
  end.
Proof.
  intros F H. pose proof (np_fair_money c s F) as M. pose proof (mo_wf _ _ M) as I. pose proof (mo_cfg _ _ M) as W.
  pose proof (reset_t n r Hr c Hn W (wrap c s) rnd rnd' rs d' I H) as R. rewrite t_wrap in R.
  assert (Ws : wrap c (set_deck (T s) d') = set_deck (T s) d').
  { apply wrap_small. cbn [set_deck t_state button]. rewrite Hn. apply Nat.mod_upper_bound. lia. }
  destruct (np_reset_wrap c s rnd false rs W) as [E1 E2]. destruct (np_reset_wrap c (set_deck (T s) d') rnd' false rs W) as [E3 E4].
  rewrite Ws in E3, E4. rewrite <- E1, <- E2 in R. rewrite <- E3, <- E4 in R. clear E1 E2 E3 E4. rewrite t_wrap in R.
  destruct (snd (np_reset c s rnd false rs)) as [o|e]; cbn [map_ok] in R.
  - destruct R as [R1 R2]. split; [exact R1|]. rewrite R2. f_equal. unfold wrap_obs, t_obs. cbn [o_action o_active o_button o_call o_community_cards o_hole_cards o_max_raise o_min_raise o_pot o_stacks o_street_commits].
    f_equal. unfold t_seat. rewrite Hn. apply Nat.add_mod_idemp_l. lia.
  - destruct (snd (np_reset c (set_deck (T s) d') rnd' false rs)) as [o|e']; cbn [map_ok] in R; [discriminate R|exact R].
Qed.
End Seats.

(** ** Theorems *)
(** A bet, as long as the counter of the button is a seat.  There is no condition on the showdown: odd chips, folds and ties move
    with the players too, unlike at the list dealer (C83_odd_chips). *)
Theorem C91_step : forall c s b r, np_fair c s -> in_progress s -> (button s < num_players c)%nat -> (r < num_players c)%nat ->
  let n := num_players c in
  let s' := fst (np_step c s b) in
  fst (np_step c (t_state n r s) b) = t_state n r s' /\
  match snd (np_step c s b) with
  | Ok out => snd (np_step c (t_state n r s) b) = Ok (t_out n r (nth (n - 1) (t_list r (hole_cards s')) []) out)
  | Err _ => exists e, snd (np_step c (t_state n r s) b) = Err e
  end.
Proof. intros c s b r F Hp Hb Hr. cbv zeta. apply np_step_t; try assumption. reflexivity. Qed.
Print Assumptions C91_step.

(** any number of bets *)
Theorem C91_hand : forall c bs s r, np_fair c s -> (button s < num_players c)%nat -> (r < num_players c)%nat ->
  np_run_steps c (t_state (num_players c) r s) bs = t_state (num_players c) r (np_run_steps c s bs).
Proof.
  intros c. induction bs as [|b bs IH]; intros s r F Hb Hr; [reflexivity|].
  unfold np_run_steps. cbn [fold_left]. fold (np_run_steps c (fst (np_step c (t_state (num_players c) r s) b)) bs). fold (np_run_steps c (fst (np_step c s b)) bs).
  assert (E : fst (np_step c (t_state (num_players c) r s) b) = t_state (num_players c) r (fst (np_step c s b)) /\ button (fst (np_step c s b)) = button s).
  { destruct (action s) as [a|] eqn:Ea.
    - assert (Hp : in_progress s) by (unfold in_progress; rewrite Ea; discriminate). split; [apply (C91_step c s b r F Hp Hb Hr)|].
      destruct (np_step_settled c s b (np_fair_money c s F) Hp) as [(_ & -> & _)|(z & Z)]; [reflexivity|]. apply (np_same _ _ _ _ Z).
    - unfold np_step. cbn [t_state action]. rewrite Ea. split; reflexivity. }
  destruct E as [-> E]. apply IH; [|now rewrite E|exact Hr]. exact (np_fair_op c s (OStep b) F I I).
Qed.
Print Assumptions C91_hand.

(** A new hand, the button moving on: the moved players are dealt the cards they would have had.  The counters of the button may
    differ by the number of players, so they are compared as seats ([wrap]). *)
Theorem C91_reset : forall c s rnd rnd' rs r d', np_fair c s -> (r < num_players c)%nat ->
  let n := num_players c in
  t_deal r n (nth 0 (num_community_cards c) 0) (num_hole_cards c) (deck_shuffle rnd (the_deck s)) (deck_shuffle rnd' d') ->
  match snd (np_reset c s rnd false rs) with
  | Ok o => wrap c (fst (np_reset c (set_deck (t_state n r s) d') rnd' false rs)) = t_state n r (fst (np_reset c s rnd false rs)) /\
            map_ok (wrap_obs c) (snd (np_reset c (set_deck (t_state n r s) d') rnd' false rs)) = Ok (t_obs n r [] o)
  | Err e => snd (np_reset c (set_deck (t_state n r s) d') rnd' false rs) = Err e
  end.
Proof. intros c s rnd rnd' rs r d' F Hr. cbv zeta. intros H. apply np_reset_t; try assumption. reflexivity. Qed.
Print Assumptions C91_reset.

(** the winning probabilities of the players, for the same samples *)
Theorem C91_win : forall c s r m samples, np_fair c s -> in_progress s -> (r < num_players c)%nat ->
  match np_win_probabilities c s m samples with
  | Ok p => np_win_probabilities c (t_state (num_players c) r s) m samples = Ok (t_list r p)
  | Err _ => exists e, np_win_probabilities c (t_state (num_players c) r s) m samples = Err e
  end.
Proof.
  intros c s r m samples F Hp Hr. pose proof (mo_wf _ _ (np_fair_money c s F)) as I. apply np_win_t; try assumption; [reflexivity|apply I|].
  apply (wf_hole _ _ I). exact Hp.
Qed.
Print Assumptions C91_win.

(** In the fifth hand at a table of four the counter of the button is 4, its seat 0.  Seats 0 to 2 tie, one chip is odd: it goes to
    seat 0, the last one in the order after the button.  With the counter reduced to the seat it goes to seat 1, and when the
    players move on it stays with the player who was in seat 1. *)
Definition fifth_ops := [OTrick [demo_card 48; demo_card 49; demo_card 50; demo_card 0]; OReset [] true true] ++ bets [-1; -1; -1] ++
  (OReset [] false true :: bets [-1; -1; -1]) ++ (OReset [] false true :: bets [-1; -1; -1]) ++ (OReset [] false true :: bets [-1; -1; -1]) ++
  [OSetStacks [10; 10; 20; 20]; OReset [] false false] ++ bets [20; 20; 20].
Theorem C91_refuted : exists c s, np_fair c s /\ in_progress s /\ num_players c = 4%nat /\ button s = 4%nat /\
  let pays x := match snd x with Ok out => Ok (out_payouts out) | Err e => Err e end in
  pays (np_step c s (PyInt 20)) = Ok [4; 3; 13; -20] /\
  pays (np_step c (wrap c s) (PyInt 20)) = Ok [3; 4; 13; -20] /\
  pays (np_step c (t_state 4 1 s) (PyInt 20)) = Ok [-20; 3; 4; 13] /\
  pays (np_step c (t_state 4 3 s) (PyInt 20)) = Ok [4; 13; -20; 3].
Proof.
  assert (G : exists c s, np_fair c s /\ action s = Some 2%nat /\ num_players c = 4%nat /\ button s = 4%nat /\
    let pays x := match snd x with Ok out => Ok (out_payouts out) | Err e => Err e end in
    pays (np_step c s (PyInt 20)) = Ok [4; 3; 13; -20] /\
    pays (np_step c (wrap c s) (PyInt 20)) = Ok [3; 4; 13; -20] /\
    pays (np_step c (t_state 4 1 s) (PyInt 20)) = Ok [-20; 3; 4; 13] /\
    pays (np_step c (t_state 4 3 s) (PyInt 20)) = Ok [4; 13; -20; 3]).
  { np_play side_game fifth_ops c s E. split; [exact (np_played_fair _ _ _ _ E)|]. cbv zeta. np_plays E. }
  destruct G as (c & s & F & A & G). exists c, s. split; [exact F|]. split; [unfold in_progress; rewrite A; discriminate|exact G].
Qed.
Print Assumptions C91_refuted.

(** the hand of C83_odd_chips at the array dealer: the odd chip moves with the players *)
Example C91_example : exists c s, np_fair c s /\ in_progress s /\ num_players c = 4%nat /\ button s = 0%nat /\
  let pays r := match snd (np_step c (t_state 4 r s) (PyInt 20)) with Ok out => Ok (out_payouts out) | Err e => Err e end in
  pays 0%nat = Ok [3; 4; 13; -20] /\ pays 1%nat = Ok [-20; 3; 4; 13] /\
  pays 2%nat = Ok [13; -20; 3; 4] /\ pays 3%nat = Ok [4; 13; -20; 3].
Proof.
  assert (G : exists c s, np_fair c s /\ action s = Some 2%nat /\ num_players c = 4%nat /\ button s = 0%nat /\
    let pays r := match snd (np_step c (t_state 4 r s) (PyInt 20)) with Ok out => Ok (out_payouts out) | Err e => Err e end in
    pays 0%nat = Ok [3; 4; 13; -20] /\ pays 1%nat = Ok [-20; 3; 4; 13] /\ pays 2%nat = Ok [13; -20; 3; 4] /\ pays 3%nat = Ok [4; 13; -20; 3]).
  { np_play side_game side_ops c s E. split; [exact (np_played_fair _ _ _ _ E)|]. cbv zeta. np_plays E. }
  destruct G as (c & s & F & A & G). exists c, s. split; [exact F|]. split; [unfold in_progress; rewrite A; discriminate|exact G].
Qed.
