(** * PropForget: C101, what a new hand depends on *)
From Coq Require Import ZifyBool ZifyNat Arith.
From Verif Require Import PyBase PyFacts CardModel CardSpec EvalModel EngineModel EngineSpec EngineFacts BetFacts MoneyFacts EngineDemo HandEnd PropBetting PropRound PropHidden
  NumpyModel NumpySpec NumpyFacts PropNumpy PropNumpyHidden.

(** ** Specification *)
(** the two decks are tricked in the same way, or neither is *)
Definition tricked_alike (s t : state) : Prop :=
  d_tricked (the_deck t) = d_tricked (the_deck s) /\ d_top (the_deck t) = d_top (the_deck s) /\ d_bottom (the_deck t) = d_bottom (the_deck s).
Definition not_a_trick (o : op) : Prop := match o with OTrick _ => False | _ => True end.
(** the two states differ in much that a hand leaves behind *)
Definition two_pasts (s t : state) : Prop := history s <> history t /\ pot_commits s <> pot_commits t /\ street s <> street t /\
  List.length (community_cards s) <> List.length (community_cards t) /\ largest_raise s <> largest_raise t /\ active s <> active t.

(** ** The parts of a deck that stay *)
Definition kind_of (d : deck) := (d_num_ranks d, d_num_suits d, d_full d).
Definition tricks_of (d : deck) := (d_tricked d, d_top d, d_bottom d).
Lemma draw_kind n d : kind_of (snd (deck_draw n d)) = kind_of d /\ tricks_of (snd (deck_draw n d)) = tricks_of d.
Proof. unfold deck_draw. destruct (draw_loop _ _ _). split; reflexivity. Qed.
Lemma deal_kind m k : forall d, kind_of (snd (deal_hands k m d)) = kind_of d /\ tricks_of (snd (deal_hands k m d)) = tricks_of d.
Proof.
  induction k as [|k IH]; intros d; [split; reflexivity|]. cbn [deal_hands]. pose proof (draw_kind m d) as [D1 D2]. destruct (deck_draw m d) as [h d1]. cbn [snd] in D1, D2.
  specialize (IH d1). destruct (deal_hands k m d1) as [hs d2]. cbn [snd] in *. rewrite <- D1, <- D2. exact IH.
Qed.
Lemma move_deck c s : the_deck (move_action c s) = the_deck s.
Proof. unfold move_action. destruct (move_loop _ _ _ _ _ _ _); reflexivity. Qed.
Lemma loop_kind c f : forall s, kind_of (the_deck (street_loop c f s)) = kind_of (the_deck s) /\ tricks_of (the_deck (street_loop c f s)) = tricks_of (the_deck s).
Proof.
  induction f as [|f IH]; intros s; [split; reflexivity|]. cbn [street_loop]. destruct (Nat.leb _ _); [split; reflexivity|].
  pose proof (draw_kind (nth (S (street s)) (num_community_cards c) 0) (the_deck s)) as [D1 D2]. destruct (deck_draw _ _) as [cs d]. cbn [snd] in D1, D2. rewrite <- D1, <- D2.
  destruct (_ <=? 1); [|split; reflexivity]. match goal with |- kind_of (the_deck (street_loop c f ?x)) = _ /\ _ => destruct (IH x) as [E1 E2]; rewrite E1, E2 end. split; reflexivity.
Qed.
Lemma place_settle_kind c s a f b fo ca : let z := settle c (place_bet c s a f b fo ca) in
  kind_of (the_deck z) = kind_of (the_deck s) /\ tricks_of (the_deck z) = tricks_of (the_deck s).
Proof.
  cbv zeta. set (s1 := place_bet c s a f b fo ca). assert (D : the_deck s1 = the_deck s) by (unfold s1, place_bet; now rewrite move_deck). rewrite <- D. clearbody s1. clear D.
  unfold settle. destruct (all_agreed s1); [|split; reflexivity]. unfold next_street. cbn [the_deck]. match goal with |- context [street_loop c ?f ?x] => destruct (loop_kind c f x) as [E1 E2] end.
  rewrite move_deck in E1, E2. split; [exact E1|exact E2].
Qed.
Lemma step_kind c s b : kind_of (the_deck (fst (step c s b))) = kind_of (the_deck s) /\ tricks_of (the_deck (fst (step c s b))) = tricks_of (the_deck s).
Proof.
  unfold step. destruct (action s) as [a|]; [|split; reflexivity]. destruct (py_round b) as [bet0|]; [|split; reflexivity].
  destruct (bet_sizes c s) as [[[call mi] ma]|]; [|split; reflexivity]. destruct (settle_bet _ _ _ _ _) as [bet folds].
  pose proof (place_settle_kind c s a (pynum_neg b) bet folds call) as X. cbv zeta in X. unfold settle in X.
  set (z := if all_agreed _ then _ else _) in *. clearbody z. unfold step_end. destruct (payouts c z); [|exact X]. destruct (all_true (done_list c z)); exact X.
Qed.
Lemma np_step_kind c s b : kind_of (the_deck (fst (np_step c s b))) = kind_of (the_deck s) /\ tricks_of (the_deck (fst (np_step c s b))) = tricks_of (the_deck s).
Proof.
  unfold np_step. destruct (action s) as [a|]; [|split; reflexivity]. destruct (py_round b) as [bet0|]; [|split; reflexivity].
  destruct (bet_sizes c s) as [[[call mi] ma]|]; [|split; reflexivity]. destruct (np_settle_bet _ _ _ _ _) as [bet folds].
  pose proof (place_settle_kind c s a (pynum_neg b) bet folds call) as X. cbv zeta in X. unfold settle in X.
  set (z := if all_agreed _ then _ else _) in *. clearbody z. unfold np_step_end. destruct (np_payouts c z); [|exact X]. destruct (all_true (np_done_list c z)); exact X.
Qed.
Lemma reset_kind c s rnd rb rs : kind_of (the_deck (fst (reset c s rnd rb rs))) = kind_of (the_deck s) /\ tricks_of (the_deck (fst (reset c s rnd rb rs))) = tricks_of (the_deck s).
Proof.
  unfold reset. destruct (reset_active c s rs) as [act stk]. destruct (_ && _); [split; reflexivity|]. destruct (num_community_cards c) as [|cc rest]; [split; reflexivity|].
  pose proof (draw_kind cc (deck_shuffle rnd (the_deck s))) as [D1 D2]. destruct (deck_draw _ _) as [k d1]. pose proof (deal_kind (num_hole_cards c) (num_players c) d1) as [E1 E2]. destruct (deal_hands _ _ _) as [h d2]. cbn [fst snd] in *.
  rewrite !move_deck. cbn [collect_multiple_bets the_deck]. destruct (Nat.ltb 2 (num_players c)); rewrite ?move_deck; cbn [the_deck]; rewrite E1, E2, D1, D2; split; reflexivity.
Qed.
Lemma np_reset_kind c s rnd rb rs : kind_of (the_deck (fst (np_reset c s rnd rb rs))) = kind_of (the_deck s) /\ tricks_of (the_deck (fst (np_reset c s rnd rb rs))) = tricks_of (the_deck s).
Proof.
  unfold np_reset. destruct (reset_active c s rs) as [act stk]. destruct (_ && _); [split; reflexivity|]. destruct (num_community_cards c) as [|cc rest]; [split; reflexivity|].
  pose proof (draw_kind cc (deck_shuffle rnd (the_deck s))) as [D1 D2]. destruct (deck_draw _ _) as [k d1]. pose proof (deal_kind (num_hole_cards c) (num_players c) d1) as [E1 E2]. destruct (deal_hands _ _ _) as [h d2]. cbn [fst snd] in *.
  rewrite !move_deck. cbn [np_collect_multiple_bets the_deck]. destruct (Nat.ltb 2 (num_players c)); rewrite ?move_deck; cbn [the_deck]; rewrite E1, E2, D1, D2; split; reflexivity.
Qed.
Lemma run_kind c ops : forall s, kind_of (the_deck (run c s ops)) = kind_of (the_deck s).
Proof.
  induction ops as [|o ops IH]; intros s; [reflexivity|]. change (run c s (o :: ops)) with (run c (apply_op c s o) ops). rewrite IH. clear IH. destruct o as [rnd rb rs|b|cs| |l]; cbn [apply_op].
  - apply reset_kind. - apply step_kind. - unfold deck_trick. destruct (map_res _ cs); reflexivity. - reflexivity. - reflexivity.
Qed.
Lemma np_run_kind c ops : forall s, kind_of (the_deck (np_run c s ops)) = kind_of (the_deck s).
Proof.
  induction ops as [|o ops IH]; intros s; [reflexivity|]. change (np_run c s (o :: ops)) with (np_run c (np_apply_op c s o) ops). rewrite IH. clear IH. destruct o as [rnd rb rs|b|cs| |l]; cbn [np_apply_op].
  - apply np_reset_kind. - apply np_step_kind. - unfold deck_trick. destruct (map_res _ cs); reflexivity. - reflexivity. - reflexivity.
Qed.
Lemma run_tricks c ops : forall s, Forall not_a_trick ops -> tricks_of (the_deck s) = (false, [], []) -> tricks_of (the_deck (run c s ops)) = (false, [], []).
Proof.
  induction ops as [|o ops IH]; intros s F H; [exact H|]. inversion F as [|? ? F1 F2]; subst. change (run c s (o :: ops)) with (run c (apply_op c s o) ops). apply IH; [exact F2|]. clear IH F F2.
  destruct o as [rnd rb rs|b|cs| |l]; cbn [apply_op].
  - rewrite (proj2 (reset_kind c s rnd rb rs)). exact H. - rewrite (proj2 (step_kind c s b)). exact H. - destruct F1. - reflexivity. - exact H.
Qed.
Lemma np_run_tricks c ops : forall s, Forall not_a_trick ops -> tricks_of (the_deck s) = (false, [], []) -> tricks_of (the_deck (np_run c s ops)) = (false, [], []).
Proof.
  induction ops as [|o ops IH]; intros s F H; [exact H|]. inversion F as [|? ? F1 F2]; subst. change (np_run c s (o :: ops)) with (np_run c (np_apply_op c s o) ops). apply IH; [exact F2|]. clear IH F F2.
  destruct o as [rnd rb rs|b|cs| |l]; cbn [np_apply_op].
  - rewrite (proj2 (np_reset_kind c s rnd rb rs)). exact H. - rewrite (proj2 (np_step_kind c s b)). exact H. - destruct F1. - reflexivity. - exact H.
Qed.
Lemma shuffle_same rnd d e : kind_of e = kind_of d -> tricks_of e = tricks_of d -> deck_shuffle rnd e = deck_shuffle rnd d.
Proof. unfold kind_of, tricks_of, deck_shuffle. intros K T. injection K as -> -> ->. injection T as -> -> ->. reflexivity. Qed.
Lemma Dealer_tricks rnd w c s : Dealer rnd w = Ok (c, s) -> tricks_of (the_deck s) = (false, [], []).
Proof.
  intros D. pose proof (bd_deck _ _ _ _ (Dealer_inv _ _ _ _ D)) as H. unfold Deck in H. destruct (_ || _); [discriminate H|]. destruct (_ || _); [discriminate H|].
  destruct (deck_full _ _) as [full|]; [|discriminate H]. cbn [bind] in H. injection H as H. rewrite <- H. reflexivity.
Qed.

(** ** C101 A new hand depends on the past only through the stacks, the button and the tricked cards *)
(** Two sessions at one table.  If the deck is tricked in the same way after both, the stacks are the
    same or are given out anew, and the button is the same or goes back, then a reset answers the same
    after both and leaves the same table: nothing later can tell the two sessions apart. *)
Theorem C101_sessions : forall c s0 ops ops' rnd rb rs, let s := run c s0 ops in let t := run c s0 ops' in
  tricked_alike s t -> (rs = false -> stacks t = stacks s) -> (rb = false -> button t = button s) ->
  snd (reset c t rnd rb rs) = snd (reset c s rnd rb rs) /\
  (is_ok (snd (reset c s rnd rb rs)) = true -> fst (reset c t rnd rb rs) = fst (reset c s rnd rb rs)).
Proof.
  intros c s0 ops ops' rnd rb rs. cbv zeta. intros (T1 & T2 & T3) Hs Hb.
  assert (D : deck_shuffle rnd (the_deck (run c s0 ops')) = deck_shuffle rnd (the_deck (run c s0 ops))).
  { apply shuffle_same; [now rewrite !run_kind|unfold tricks_of; now rewrite T1, T2, T3]. }
  set (s := run c s0 ops) in *. set (t := run c s0 ops') in *. clearbody s t. clear T1 T2 T3.
  unfold reset. assert (R : reset_active c t rs = reset_active c s rs).
  { unfold reset_active. destruct rs; [reflexivity|]. now rewrite Hs. }
  rewrite R, D. clear R D. destruct (reset_active c s rs) as [act stk]. destruct (_ && _); [split; [reflexivity|intros X; discriminate X]|].
  assert (B : (if rb then 0%nat else Nat.modulo (button t + 1) (num_players c)) = (if rb then 0%nat else Nat.modulo (button s + 1) (num_players c))).
  { destruct rb; [reflexivity|]. now rewrite Hb. }
  rewrite B. destruct (num_community_cards c) as [|cc rest]; [split; [reflexivity|intros X; discriminate X]|].
  destruct (deck_draw _ _) as [k d1]. destruct (deal_hands _ _ _) as [h d2]. split; reflexivity.
Qed.
Print Assumptions C101_sessions.

(** Without tricks, a table that is reset with both flags is like a new one. *)
Theorem C101_fresh : forall w rnd0 c s0 ops rnd, Dealer rnd0 w = Ok (c, s0) -> Forall not_a_trick ops ->
  snd (reset c (run c s0 ops) rnd true true) = snd (reset c s0 rnd true true) /\
  (is_ok (snd (reset c s0 rnd true true)) = true -> fst (reset c (run c s0 ops) rnd true true) = fst (reset c s0 rnd true true)).
Proof.
  intros w rnd0 c s0 ops rnd D F. pose proof (Dealer_tricks _ _ _ _ D) as T. pose proof (run_tricks c ops s0 F T) as T'.
  apply (C101_sessions c s0 [] ops rnd true true); [|intros X; discriminate X|intros X; discriminate X].
  rewrite <- T in T'. unfold tricks_of in T'. injection T' as E1 E2 E3. split; [exact E1|]. split; [exact E2|exact E3].
Qed.
Print Assumptions C101_fresh.

(** The same for the array dealer. *)
Theorem C101_array_sessions : forall c s0 ops ops' rnd rb rs, let s := np_run c s0 ops in let t := np_run c s0 ops' in
  tricked_alike s t -> (rs = false -> stacks t = stacks s) -> (rb = false -> button t = button s) ->
  snd (np_reset c t rnd rb rs) = snd (np_reset c s rnd rb rs) /\
  (is_ok (snd (np_reset c s rnd rb rs)) = true -> fst (np_reset c t rnd rb rs) = fst (np_reset c s rnd rb rs)).
Proof.
  intros c s0 ops ops' rnd rb rs. cbv zeta. intros (T1 & T2 & T3) Hs Hb.
  assert (D : deck_shuffle rnd (the_deck (np_run c s0 ops')) = deck_shuffle rnd (the_deck (np_run c s0 ops))).
  { apply shuffle_same; [now rewrite !np_run_kind|unfold tricks_of; now rewrite T1, T2, T3]. }
  set (s := np_run c s0 ops) in *. set (t := np_run c s0 ops') in *. clearbody s t. clear T1 T2 T3.
  unfold np_reset. assert (R : reset_active c t rs = reset_active c s rs).
  { unfold reset_active. destruct rs; [reflexivity|]. now rewrite Hs. }
  rewrite R, D. clear R D. destruct (reset_active c s rs) as [act stk]. destruct (_ && _); [split; [reflexivity|intros X; discriminate X]|].
  assert (B : (if rb then 0%nat else (button t + Nat.modulo 1 (num_players c))%nat) = (if rb then 0%nat else (button s + Nat.modulo 1 (num_players c))%nat)).
  { destruct rb; [reflexivity|]. now rewrite Hb. }
  rewrite B. destruct (num_community_cards c) as [|cc rest]; [split; [reflexivity|intros X; discriminate X]|].
  destruct (deck_draw _ _) as [k d1]. destruct (deal_hands _ _ _) as [h d2]. split; reflexivity.
Qed.
Print Assumptions C101_array_sessions.
Theorem C101_array_fresh : forall w rnd0 c s0 ops rnd, Dealer rnd0 w = Ok (c, s0) -> Forall not_a_trick ops ->
  snd (np_reset c (np_run c s0 ops) rnd true true) = snd (np_reset c s0 rnd true true) /\
  (is_ok (snd (np_reset c s0 rnd true true)) = true -> fst (np_reset c (np_run c s0 ops) rnd true true) = fst (np_reset c s0 rnd true true)).
Proof.
  intros w rnd0 c s0 ops rnd D F. pose proof (Dealer_tricks _ _ _ _ D) as T. pose proof (np_run_tricks c ops s0 F T) as T'.
  apply (C101_array_sessions c s0 [] ops rnd true true); [|intros X; discriminate X|intros X; discriminate X].
  rewrite <- T in T'. unfold tricks_of in T'. injection T' as E1 E2 E3. split; [exact E1|]. split; [exact E2|exact E3].
Qed.
Print Assumptions C101_array_fresh.

(** *** Examples *)
(** two hands that end in different ways, after which everybody buys back to 20 chips *)
Definition past_1 := new_hand :: bets [-1; -1] ++ [OSetStacks [20; 20; 20]].
Definition past_2 := new_hand :: bets [10; 9; 8; 4; 4; 4] ++ [OSetStacks [20; 20; 20]].
Definition past_of (s : state) := (history s, pot_commits s, (street s, largest_raise s), active s, List.length (community_cards s)).
Definition left_1 : list (nat * Z * bool) * list Z * (nat * Z) * list bool * nat :=
  ([(0%nat, 0, true); (1%nat, 0, true)], [0; 1; 2], (0%nat, 2), [false; false; true], 0%nat).
Definition left_2 : list (nat * Z * bool) * list Z * (nat * Z) * list bool * nat :=
  ([(0%nat, 10, false); (1%nat, 9, false); (2%nat, 8, false); (1%nat, 0, false); (2%nat, 0, false); (0%nat, 0, false)], [10; 10; 10], (2%nat, 8), [true; true; true], 1%nat).
Lemma different_pasts s t : past_of s = left_1 -> past_of t = left_2 -> two_pasts s t.
Proof.
  unfold past_of, left_1, left_2. intros H K. injection H as H1 H2 H3 H4 H5 H6. injection K as K1 K2 K3 K4 K5 K6.
  unfold two_pasts. rewrite H1, H2, H3, H4, H5, H6, K1, K2, K3, K4, K5, K6. splits; discriminate.
Qed.
Definition tricksb (s t : state) : bool := negb (d_tricked (the_deck s)) && negb (d_tricked (the_deck t)) &&
  Nat.eqb (List.length (d_top (the_deck s) ++ d_top (the_deck t) ++ d_bottom (the_deck s) ++ d_bottom (the_deck t))) 0.
Lemma tricksb_spec s t : tricksb s t = true -> tricked_alike s t.
Proof.
  unfold tricksb, tricked_alike. intros H. apply andb_prop in H. destruct H as [H H3]. apply andb_prop in H. destruct H as [H1 H2]. apply Nat.eqb_eq, length_zero_iff_nil in H3.
  apply app_eq_nil in H3. destruct H3 as [-> H3]. apply app_eq_nil in H3. destruct H3 as [-> H3]. apply app_eq_nil in H3. destruct H3 as [-> ->].
  destruct (d_tricked (the_deck s)); [discriminate H1|]. destruct (d_tricked (the_deck t)); [discriminate H2|]. splits; reflexivity.
Qed.
Example C101_example : exists c s0, fair c s0 /\ all_allowed c s0 past_1 = true /\ all_allowed c s0 past_2 = true /\
  let s := run c s0 past_1 in let t := run c s0 past_2 in
  two_pasts s t /\ tricked_alike s t /\ stacks t = stacks s /\ button t = button s /\
  is_ok (snd (reset c s [] false false)) = true /\ is_ok (snd (reset c s0 [] true true)) = true.
Proof.
  assert (K : exists c s0, fair c s0 /\ let s := run c s0 past_1 in let t := run c s0 past_2 in
    (all_allowed c s0 past_1 = true /\ all_allowed c s0 past_2 = true /\ past_of s = left_1 /\ past_of t = left_2) /\
    (stacks s = [20; 20; 20] /\ stacks t = [20; 20; 20] /\ button s = 0%nat /\ button t = 0%nat) /\
    (is_ok (snd (reset c s [] false false)) = true /\ is_ok (snd (reset c s0 [] true true)) = true /\ tricksb s t = true)).
  { play no_limit_3 (@nil op) c s0 E. split; [exact (played_fair _ _ _ _ E)|]. cbv zeta. plays E. }
  destruct K as (c & s0 & F & (A1 & A2 & A3 & A4) & (B1 & B2 & B3 & B4) & (C1 & C2 & C3)). cbv zeta in *. exists c, s0. splits.
  - exact F.
  - exact A1.
  - exact A2.
  - apply different_pasts; [exact A3|exact A4].
  - apply tricksb_spec. exact C3.
  - now rewrite B1, B2.
  - now rewrite B3, B4.
  - exact C1.
  - exact C2.
Qed.
Example C101_array_example : exists c s0, np_fair c s0 /\ np_all_allowed c s0 past_1 = true /\ np_all_allowed c s0 past_2 = true /\
  let s := np_run c s0 past_1 in let t := np_run c s0 past_2 in
  two_pasts s t /\ tricked_alike s t /\ stacks t = stacks s /\ button t = button s /\
  is_ok (snd (np_reset c s [] false false)) = true /\ is_ok (snd (np_reset c s0 [] true true)) = true.
Proof.
  assert (K : exists c s0, np_fair c s0 /\ let s := np_run c s0 past_1 in let t := np_run c s0 past_2 in
    (np_all_allowed c s0 past_1 = true /\ np_all_allowed c s0 past_2 = true /\ past_of s = left_1 /\ past_of t = left_2) /\
    (stacks s = [20; 20; 20] /\ stacks t = [20; 20; 20] /\ button s = 0%nat /\ button t = 0%nat) /\
    (is_ok (snd (np_reset c s [] false false)) = true /\ is_ok (snd (np_reset c s0 [] true true)) = true /\ tricksb s t = true)).
  { np_play no_limit_3 (@nil op) c s0 E. split; [exact (np_played_fair _ _ _ _ E)|]. cbv zeta. np_plays E. }
  destruct K as (c & s0 & F & (A1 & A2 & A3 & A4) & (B1 & B2 & B3 & B4) & (C1 & C2 & C3)). cbv zeta in *. exists c, s0. splits.
  - exact F.
  - exact A1.
  - exact A2.
  - apply different_pasts; [exact A3|exact A4].
  - apply tricksb_spec. exact C3.
  - now rewrite B1, B2.
  - now rewrite B3, B4.
  - exact C1.
  - exact C2.
Qed.
