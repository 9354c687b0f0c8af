(** * PropAlike: C100, the names of the suits and the order of the cards in a hand do not matter at the table *)
From Coq Require Import ZifyBool ZifyNat Arith Permutation.
From Verif Require Import PyBase PyFacts CardModel CardSpec CardProofs EvalModel EvalSpec PropEval EngineModel EngineSpec EngineFacts BetFacts MoneyFacts EngineDemo HandEnd PropBetting PropRound PropHidden
  NumpyModel NumpySpec NumpyFacts PropNumpy PropNumpyHidden.

(** ** Specification *)
(** the card [y] is the card [x] in the suit that [p] gives for its suit *)
Definition recoloured (p : nat -> nat) (x y : card) : Prop :=
  exists i j, (i < 13)%nat /\ (j < 4)%nat /\ x = the_card i j /\ y = the_card i (p j).
(** the same for several cards, in any order *)
Definition hand_like (p : nat -> nat) (x y : list card) : Prop := exists h, Forall2 (recoloured p) x h /\ Permutation h y.
(** two tables with the same chips, bets and turns, at which corresponding cards lie; the cards still to come are in the
    same order *)
Record alike (p : nat -> nat) (s t : state) : Prop := mkAlike {
  al_play : same_play s t;
  al_board : hand_like p (community_cards s) (community_cards t);
  al_hands : Forall2 (hand_like p) (hole_cards s) (hole_cards t);
  al_deck : Forall2 (recoloured p) (d_cards (the_deck s)) (d_cards (the_deck t))
}.

(** two observations that differ in their cards only, and there correspond *)
Definition obs_like (p : nat -> nat) (o o' : obs) : Prop := exists k h, hand_like p (o_community_cards o) k /\ hand_like p (o_hole_cards o) h /\
  o' = mkObs (o_action o) (o_active o) (o_button o) (o_call o) k h (o_max_raise o) (o_min_raise o) (o_pot o) (o_stacks o) (o_street_commits o).
(** two replies: the same exception, or the same payouts and the same [done] *)
Definition reply_like (p : nat -> nat) (r r' : result step_out) : Prop :=
  match r, r' with
  | Ok o, Ok o' => obs_like p (out_obs o) (out_obs o') /\ out_payouts o' = out_payouts o /\ out_done o' = out_done o
  | Err e, Err e' => e' = e
  | _, _ => False
  end.

(** ** Cards *)
Lemma hand_like_app p x y x' y' : hand_like p x y -> hand_like p x' y' -> hand_like p (x ++ x') (y ++ y').
Proof. intros (h & H1 & H2) (h' & H1' & H2'). exists (h ++ h'). split; [now apply Forall2_app|now apply Permutation_app]. Qed.
Lemma like_same p x y : Forall2 (recoloured p) x y -> hand_like p x y.
Proof. intros H. exists y. split; [exact H|apply Permutation_refl]. Qed.
Lemma recoloured_cards p x y : Forall2 (recoloured p) x y -> exists h, Forall (fun z => fst z < 13 /\ snd z < 4)%nat h /\ x = cards_of h /\ y = cards_of (rename p h).
Proof.
  induction 1 as [|a b x y (i & j & Hi & Hj & -> & ->) _ (h & F & -> & ->)]; [exists []; splits; [constructor|reflexivity|reflexivity]|].
  exists ((i, j) :: h). splits; [constructor; [now split|exact F]|reflexivity|reflexivity].
Qed.
Lemma like_evaluate e s0 r c m low order p x y b b' : Evaluator s0 r c m low order = Ok e -> suit_renaming p -> hand_like p x y -> hand_like p b b' ->
  evaluate e y b' = evaluate e x b.
Proof.
  intros E Hp (h & H1 & H2) (k & K1 & K2). rewrite <- (C12_order_irrelevant _ _ _ _ _ _ e h y k b' E H2 K2).
  destruct (recoloured_cards p x h H1) as (u & U1 & -> & ->). destruct (recoloured_cards p b k K1) as (v & V1 & -> & ->).
  apply (C14_evaluate _ _ _ _ _ _ e p u v E Hp). apply Forall_app. now split.
Qed.
Lemma draw_loop_like p n : forall x y a b, Forall2 (recoloured p) x y -> Forall2 (recoloured p) a b ->
  Forall2 (recoloured p) (fst (draw_loop n x a)) (fst (draw_loop n y b)) /\ Forall2 (recoloured p) (snd (draw_loop n x a)) (snd (draw_loop n y b)).
Proof.
  induction n as [|n IH]; intros x y a b H Ha; [split; assumption|]. cbn [draw_loop]. destruct H as [|u v x y Huv H]; [split; [exact Ha|constructor]|]. apply IH; [exact H|]. apply Forall2_app; [exact Ha|]. now constructor.
Qed.
Lemma draw_like p n d e : Forall2 (recoloured p) (d_cards d) (d_cards e) ->
  Forall2 (recoloured p) (fst (deck_draw n d)) (fst (deck_draw n e)) /\ Forall2 (recoloured p) (d_cards (snd (deck_draw n d))) (d_cards (snd (deck_draw n e))).
Proof.
  intros H. unfold deck_draw. destruct (draw_loop_like p (Z.to_nat n) _ _ [] [] H (Forall2_nil _)) as [H1 H2].
  destruct (draw_loop (Z.to_nat n) (d_cards d) []); destruct (draw_loop (Z.to_nat n) (d_cards e) []). now split.
Qed.
Lemma deal_like p m k : forall d e, Forall2 (recoloured p) (d_cards d) (d_cards e) ->
  Forall2 (hand_like p) (fst (deal_hands k m d)) (fst (deal_hands k m e)) /\ Forall2 (recoloured p) (d_cards (snd (deal_hands k m d))) (d_cards (snd (deal_hands k m e))).
Proof.
  induction k as [|k IH]; intros d e H; [split; [constructor|exact H]|]. cbn [deal_hands]. destruct (draw_like p m d e H) as [H1 H2].
  destruct (deck_draw m d) as [h d1]. destruct (deck_draw m e) as [h' e1]. cbn [fst snd] in *. destruct (IH d1 e1 H2) as [H3 H4].
  destruct (deal_hands k m d1) as [hs d2]. destruct (deal_hands k m e1) as [hs' e2]. cbn [fst snd] in *. split; [|exact H4]. constructor; [now apply like_same|exact H3].
Qed.

(** ** Streets *)
Lemma alike_recard p s k d h : hand_like p (community_cards s) k -> Forall2 (hand_like p) (hole_cards s) h -> Forall2 (recoloured p) (d_cards (the_deck s)) (d_cards d) ->
  alike p s (recard s k d h).
Proof. intros. split; try assumption. apply recard_same_play. Qed.
Lemma alike_loop p c f : forall s k d h, alike p s (recard s k d h) -> exists k' d', street_loop c f (recard s k d h) = recard (street_loop c f s) k' d' h /\ alike p (street_loop c f s) (recard (street_loop c f s) k' d' h).
Proof.
  induction f as [|f IH]; intros s k d h A; [exists k, d; split; [reflexivity|exact A]|]. cbn [street_loop]. destruct A as [A1 A2 A3 A4]. cbn [recard community_cards hole_cards the_deck] in A2, A3, A4.
  change (street (recard s k d h)) with (street s). change (active (recard s k d h)) with (active s). change (stacks (recard s k d h)) with (stacks s).
  destruct (Nat.leb (num_streets c) (S (street s))); [exists k, d; split; [reflexivity|now apply alike_recard]|].
  change (the_deck (recard s k d h)) with d. change (community_cards (recard s k d h)) with k.
  destruct (draw_like p (nth (S (street s)) (num_community_cards c) 0) _ _ A4) as [D1 D2].
  destruct (deck_draw (nth (S (street s)) (num_community_cards c) 0) d) as [cs1 d1].
  destruct (deck_draw (nth (S (street s)) (num_community_cards c) 0) (the_deck s)) as [cs2 d2]. cbn [fst snd] in D1, D2.
  assert (B : hand_like p (community_cards s ++ cs2) (k ++ cs1)) by (apply hand_like_app; [exact A2|now apply like_same]).
  destruct (_ <=? 1); [|exists (k ++ cs1), d1; split; [reflexivity|now apply alike_recard]].
  match goal with |- exists k' d', _ = recard (street_loop c f ?x) _ _ _ /\ _ => destruct (IH x (k ++ cs1) d1 h) as (k' & d' & E & X) end; [now apply alike_recard|].
  exists k', d'. split; [exact E|exact X].
Qed.
Lemma alike_settle p c s k d h : alike p s (recard s k d h) -> exists k' d', settle c (recard s k d h) = recard (settle c s) k' d' h /\ alike p (settle c s) (recard (settle c s) k' d' h).
Proof.
  intros A. unfold settle. change (all_agreed (recard s k d h)) with (all_agreed s). destruct (all_agreed s); [|exists k, d; split; [reflexivity|exact A]].
  unfold next_street. change (set_action (recard s k d h) (Some (button (recard s k d h)))) with (recard (set_action s (Some (button s))) k d h). rewrite recard_move.
  destruct A as [A1 A2 A3 A4]. cbn [recard community_cards hole_cards the_deck] in A2, A3, A4.
  assert (M : forall z, community_cards (move_action c z) = community_cards z /\ hole_cards (move_action c z) = hole_cards z /\ the_deck (move_action c z) = the_deck z).
  { intros z. unfold move_action. destruct (move_loop _ _ _ _ _ _ _); splits; reflexivity. }
  destruct (M (set_action s (Some (button s)))) as (M1 & M2 & M3).
  destruct (alike_loop p c (S (num_streets c)) (move_action c (set_action s (Some (button s)))) k d h) as (k' & d' & E & X).
  { apply alike_recard; rewrite ?M1, ?M2, ?M3; assumption. }
  rewrite E. exists k', d'. split; [reflexivity|]. destruct X as [X1 X2 X3 X4]. apply alike_recard; assumption.
Qed.

(** ** The end of a step *)
Lemma reachable_evaluator c s : reachable c s -> exists ns nr nc m low order, Evaluator ns nr nc m low order = Ok (the_evaluator c).
Proof. induction 1 as [w rnd s H|]; [|assumption]. pose proof (bd_eval _ _ _ _ (Dealer_inv _ _ _ _ H)) as E. do 6 eexists. exact E. Qed.
Lemma Forall2_nth_error {A B} (R : A -> B -> Prop) l m : Forall2 R l m -> forall i,
  match nth_error l i, nth_error m i with Some x, Some y => R x y | None, None => True | _, _ => False end.
Proof. induction 1 as [|x y l m H _ IH]; intros [|i]; cbn [nth_error]; auto. apply IH. Qed.
Lemma alike_eval c p z k d h : (exists ns nr nc m low order, Evaluator ns nr nc m low order = Ok (the_evaluator c)) -> suit_renaming p -> alike p z (recard z k d h) ->
  eval_hands c (active z) h k = eval_hands c (active z) (hole_cards z) (community_cards z).
Proof.
  intros (ns & nr & nc & m & low & order & E) Hp [_ A2 A3 _]. cbn [recard community_cards hole_cards the_deck] in A2, A3.
  unfold eval_hands. induction (seq 0 (num_players c)) as [|j l IH]; [reflexivity|]. cbn [map_res]. rewrite IH. clear IH.
  destruct (nth j (active z) false); [|reflexivity]. unfold get. pose proof (Forall2_nth_error _ _ _ A3 j) as X.
  destruct (nth_error (hole_cards z) j); destruct (nth_error h j); [|destruct X|destruct X|reflexivity]. cbn [bind]. now rewrite (like_evaluate _ _ _ _ _ _ _ p _ _ _ _ E Hp X A2).
Qed.

Lemma Forall2_get_last {A B} (R : A -> B -> Prop) l m : Forall2 R l m ->
  match get_last l, get_last m with Ok x, Ok y => R x y | Err e, Err e' => e' = e | _, _ => False end.
Proof.
  intros H. unfold get_last. assert (X : Forall2 R (rev l) (rev m)).
  { induction H as [|x y l m Hx H IH]; [constructor|]. cbn [rev]. apply Forall2_app; [exact IH|]. constructor; [exact Hx|constructor]. }
  destruct X as [|x y l' m' Hx X]; [reflexivity|exact Hx].
Qed.
Lemma alike_observation c p s t b : alike p s t ->
  match observation c s b, observation c t b with Ok o, Ok o' => obs_like p o o' | Err e, Err e' => e' = e | _, _ => False end.
Proof.
  intros [A1 A2 A3 A4]. rewrite (same_play_recard s t A1). set (k := community_cards t) in *. set (d := the_deck t) in *. set (h := hole_cards t) in *. clearbody k d h.
  unfold observation. change (bet_sizes c (recard s k d h)) with (bet_sizes c s). cbn [recard action hole_cards active button community_cards pot stacks street_commits].
  destruct (if b then Ok (0, 0, 0) else bet_sizes c s) as [[[x y] z]|e]; [|reflexivity]. cbn [bind].
  destruct (action s) as [a|].
  - unfold get. pose proof (Forall2_nth_error _ _ _ A3 a) as X. destruct (nth_error (hole_cards s) a) as [u|]; destruct (nth_error h a) as [v|]; [|destruct X|destruct X|reflexivity].
    cbn [bind]. exists k, v. splits; [exact A2|exact X|reflexivity].
  - pose proof (Forall2_get_last _ _ _ A3) as X. destruct (get_last (hole_cards s)) as [u|e]; destruct (get_last h) as [v|e']; [|destruct X|destruct X|exact X].
    cbn [bind]. exists k, v. splits; [exact A2|exact X|reflexivity].
Qed.
Lemma alike_payouts c p z k d h : (exists ns nr nc m low order, Evaluator ns nr nc m low order = Ok (the_evaluator c)) -> suit_renaming p -> alike p z (recard z k d h) ->
  payouts c (recard z k d h) = payouts c z /\ np_payouts c (recard z k d h) = np_payouts c z.
Proof.
  intros E Hp A. pose proof (alike_eval c p z k d h E Hp A) as X.
  unfold payouts, eval_round, np_payouts, np_eval_round. cbn [recard active hole_cards community_cards pot_commits pot street button]. rewrite X. split; reflexivity.
Qed.
Lemma alike_finish p s t pay : alike p s t -> alike p (finish_hand s pay) (finish_hand t pay).
Proof. intros [A1 A2 A3 A4]. split; try assumption. destruct A1. split; cbn [finish_hand action active button history largest_raise pot pot_commits stacks street street_commits street_option street_raises]; congruence. Qed.
Lemma alike_end c p z k d h : (exists ns nr nc m low order, Evaluator ns nr nc m low order = Ok (the_evaluator c)) -> suit_renaming p -> alike p z (recard z k d h) ->
  alike p (fst (step_end c z)) (fst (step_end c (recard z k d h))) /\ reply_like p (snd (step_end c z)) (snd (step_end c (recard z k d h))).
Proof.
  intros E Hp A. unfold step_end. rewrite (proj1 (alike_payouts c p z k d h E Hp A)). change (done_list c (recard z k d h)) with (done_list c z).
  destruct (payouts c z) as [pay|e]; [|split; [exact A|reflexivity]]. cbn [fst snd].
  assert (B : alike p (if all_true (done_list c z) then finish_hand z pay else z) (if all_true (done_list c z) then finish_hand (recard z k d h) pay else recard z k d h)).
  { destruct (all_true (done_list c z)); [now apply alike_finish|exact A]. }
  split; [exact B|]. pose proof (alike_observation c p _ _ (all_true (done_list c z)) B) as O.
  destruct (observation c _ _) as [o|e]; destruct (observation c _ _) as [o'|e']; [|destruct O|destruct O|exact O]. cbn [bind reply_like out_obs out_payouts out_done]. splits; [exact O|reflexivity|reflexivity].
Qed.
Lemma np_alike_end c p z k d h : (exists ns nr nc m low order, Evaluator ns nr nc m low order = Ok (the_evaluator c)) -> suit_renaming p -> alike p z (recard z k d h) ->
  alike p (fst (np_step_end c z)) (fst (np_step_end c (recard z k d h))) /\ reply_like p (snd (np_step_end c z)) (snd (np_step_end c (recard z k d h))).
Proof.
  intros E Hp A. unfold np_step_end. rewrite (proj2 (alike_payouts c p z k d h E Hp A)). change (np_done_list c (recard z k d h)) with (np_done_list c z).
  destruct (np_payouts c z) as [pay|e]; [|split; [exact A|reflexivity]]. cbn [fst snd].
  assert (B : alike p (if all_true (np_done_list c z) then finish_hand z pay else z) (if all_true (np_done_list c z) then finish_hand (recard z k d h) pay else recard z k d h)).
  { destruct (all_true (np_done_list c z)); [now apply alike_finish|exact A]. }
  split; [exact B|]. pose proof (alike_observation c p _ _ (all_true (np_done_list c z)) B) as O.
  destruct (observation c _ _) as [o|e]; destruct (observation c _ _) as [o'|e']; [|destruct O|destruct O|exact O]. cbn [bind reply_like out_obs out_payouts out_done]. splits; [exact O|reflexivity|reflexivity].
Qed.
Lemma place_cards c s a f b fo ca : community_cards (place_bet c s a f b fo ca) = community_cards s /\ hole_cards (place_bet c s a f b fo ca) = hole_cards s /\ the_deck (place_bet c s a f b fo ca) = the_deck s.
Proof. unfold place_bet, move_action. destruct (move_loop _ _ _ _ _ _ _); splits; reflexivity. Qed.
Lemma alike_place p c s k d h a f b fo ca : alike p s (recard s k d h) -> exists k' d', settle c (place_bet c (recard s k d h) a f b fo ca) = recard (settle c (place_bet c s a f b fo ca)) k' d' h /\
  alike p (settle c (place_bet c s a f b fo ca)) (recard (settle c (place_bet c s a f b fo ca)) k' d' h).
Proof.
  intros [A1 A2 A3 A4]. rewrite recard_place. apply alike_settle. destruct (place_cards c s a f b fo ca) as (P1 & P2 & P3). apply alike_recard; rewrite ?P1, ?P2, ?P3; assumption.
Qed.

Definition rules_of (c : config) : Prop := exists ns nr nc m low order, Evaluator ns nr nc m low order = Ok (the_evaluator c).
Lemma alike_step c s t b p : rules_of c -> suit_renaming p -> alike p s t ->
  alike p (fst (step c s b)) (fst (step c t b)) /\ reply_like p (snd (step c s b)) (snd (step c t b)).
Proof.
  intros E Hp A. pose proof (same_play_recard s t (al_play _ _ _ A)) as X. rewrite X in A |- *.
  set (k := community_cards t) in *. set (d := the_deck t) in *. set (h := hole_cards t) in *. clearbody k d h. clear X.
  unfold step. change (action (recard s k d h)) with (action s). destruct (action s) as [a|].
  - destruct (py_round b) as [bet0|e]; [|split; [exact A|reflexivity]]. change (bet_sizes c (recard s k d h)) with (bet_sizes c s).
    destruct (bet_sizes c s) as [[[call mi] ma]|e]; [|split; [exact A|reflexivity]]. destruct (settle_bet _ _ _ _ _) as [bet folds].
    destruct (alike_place p c s k d h a (pynum_neg b) bet folds call A) as (k' & d' & E1 & B). unfold settle in E1, B. rewrite E1. apply alike_end; assumption.
  - split; [exact A|]. cbn [snd]. unfold step_idle. rewrite (proj1 (alike_payouts c p s k d h E Hp A)). change (done_list c (recard s k d h)) with (done_list c s). change (active (recard s k d h)) with (active s).
    destruct (any_true (active s)); [|reflexivity]. destruct (payouts c s) as [pay|e]; [|reflexivity]. cbn [bind]. pose proof (alike_observation c p _ _ (all_true (done_list c s)) A) as O.
    destruct (observation c s _) as [o|e]; destruct (observation c _ _) as [o'|e']; [|destruct O|destruct O|exact O]. cbn [bind reply_like out_obs out_payouts out_done]. splits; [exact O|reflexivity|reflexivity].
Qed.
Lemma np_alike_step c s t b p : rules_of c -> suit_renaming p -> alike p s t ->
  alike p (fst (np_step c s b)) (fst (np_step c t b)) /\ reply_like p (snd (np_step c s b)) (snd (np_step c t b)).
Proof.
  intros E Hp A. pose proof (same_play_recard s t (al_play _ _ _ A)) as X. rewrite X in A |- *.
  set (k := community_cards t) in *. set (d := the_deck t) in *. set (h := hole_cards t) in *. clearbody k d h. clear X.
  unfold np_step. change (action (recard s k d h)) with (action s). destruct (action s) as [a|].
  - destruct (py_round b) as [bet0|e]; [|split; [exact A|reflexivity]]. change (bet_sizes c (recard s k d h)) with (bet_sizes c s).
    destruct (bet_sizes c s) as [[[call mi] ma]|e]; [|split; [exact A|reflexivity]]. destruct (np_settle_bet _ _ _ _ _) as [bet folds].
    destruct (alike_place p c s k d h a (pynum_neg b) bet folds call A) as (k' & d' & E1 & B). unfold settle in E1, B. rewrite E1. apply np_alike_end; assumption.
  - split; [exact A|]. cbn [snd]. unfold np_step_idle. rewrite (proj2 (alike_payouts c p s k d h E Hp A)). change (np_done_list c (recard s k d h)) with (np_done_list c s). change (active (recard s k d h)) with (active s).
    destruct (any_true (active s)); [|reflexivity]. destruct (np_payouts c s) as [pay|e]; [|reflexivity]. cbn [bind]. pose proof (alike_observation c p _ _ (all_true (np_done_list c s)) A) as O.
    destruct (observation c s _) as [o|e]; destruct (observation c _ _) as [o'|e']; [|destruct O|destruct O|exact O]. cbn [bind reply_like out_obs out_payouts out_done]. splits; [exact O|reflexivity|reflexivity].
Qed.

(** ** C100 The names of the suits and the order of the cards in a hand do not matter *)
(** Two tables whose cards correspond.  The same bets are answered in the same way at both: with the
    same payouts, with observations that differ in the cards only, and with the same exceptions. *)
Theorem C100_hand : forall c s t bs p, reachable c s -> suit_renaming p -> alike p s t ->
  Forall2 (reply_like p) (replies c s bs) (replies c t bs) /\ alike p (run_steps c s bs) (run_steps c t bs).
Proof.
  intros c s t bs p R Hp. pose proof (reachable_evaluator c s R) as E. clear R. revert s t. induction bs as [|b bs IH]; intros s t A; [split; [constructor|exact A]|].
  destruct (alike_step c s t b p E Hp A) as [A1 A2]. destruct (IH _ _ A1) as [B1 B2]. split; [constructor; assumption|exact B2].
Qed.
Print Assumptions C100_hand.

(** A new hand: shuffles that put corresponding cards in corresponding places lead to such tables. *)
Theorem C100_reset : forall c s t rnd rnd' rb rs o p, stacks t = stacks s -> button t = button s ->
  Forall2 (recoloured p) (d_cards (deck_shuffle rnd (the_deck s))) (d_cards (deck_shuffle rnd' (the_deck t))) ->
  snd (reset c s rnd rb rs) = Ok o ->
  alike p (fst (reset c s rnd rb rs)) (fst (reset c t rnd' rb rs)) /\
  exists o', snd (reset c t rnd' rb rs) = Ok o' /\ obs_like p o o'.
Proof.
  intros c s t rnd rnd' rb rs o p Hs Hb Hd Ho.
  assert (A : alike p (fst (reset c s rnd rb rs)) (fst (reset c t rnd' rb rs)) /\ snd (reset c t rnd' rb rs) = observation c (fst (reset c t rnd' rb rs)) false /\ snd (reset c s rnd rb rs) = observation c (fst (reset c s rnd rb rs)) false).
  { unfold reset in *. assert (R : reset_active c t rs = reset_active c s rs) by (unfold reset_active; now rewrite Hs). rewrite R, Hb. clear R.
    destruct (reset_active c s rs) as [act stk]. destruct (negb rs && (count_true act <=? 1)); [discriminate Ho|].
    destruct (num_community_cards c) as [|cc0 rest]; [discriminate Ho|].
    destruct (draw_like p cc0 _ _ Hd) as [D1 D2].
    destruct (deck_draw cc0 (deck_shuffle rnd (the_deck s))) as [k1 d1]. destruct (deck_draw cc0 (deck_shuffle rnd' (the_deck t))) as [k2 d2]. cbn [fst snd] in D1, D2.
    destruct (deal_like p (num_hole_cards c) (num_players c) d1 d2 D2) as [D3 D4].
    destruct (deal_hands (num_players c) (num_hole_cards c) d1) as [h1 e1]. destruct (deal_hands (num_players c) (num_hole_cards c) d2) as [h2 e2]. cbn [fst snd] in D3, D4.
    cbn [fst snd] in *. set (b := if rb then O else _) in *. clear Ho. split; [|split; reflexivity].
    match goal with |- alike _ ?x ?y => set (s' := x) in *; set (t' := y) in * end.
    assert (E : t' = recard s' k2 e2 h2).
    { subst s' t'. destruct (Nat.ltb 2 (num_players c)); rewrite <- ?recard_move, <- ?recard_collect, <- ?recard_move, <- ?recard_collect, <- ?recard_move; reflexivity. }
    assert (M : community_cards s' = k1 /\ hole_cards s' = h1 /\ the_deck s' = e1).
    { subst s'. assert (M : forall z, community_cards (move_action c z) = community_cards z /\ hole_cards (move_action c z) = hole_cards z /\ the_deck (move_action c z) = the_deck z).
      { intros z. unfold move_action. destruct (move_loop _ _ _ _ _ _ _); splits; reflexivity. }
      match goal with |- context [move_action c (move_action c ?z)] => destruct (M (move_action c z)) as (-> & -> & ->); destruct (M z) as (-> & -> & ->) end.
      cbn [collect_multiple_bets community_cards hole_cards the_deck]. destruct (Nat.ltb 2 (num_players c)); [|splits; reflexivity].
      match goal with |- context [move_action c ?z] => destruct (M z) as (-> & -> & ->) end. splits; reflexivity. }
    destruct M as (M1 & M2 & M3). rewrite E. apply alike_recard; rewrite ?M1, ?M2, ?M3; [now apply like_same|exact D3|exact D4]. }
  destruct A as (A & E1 & E2). split; [exact A|]. rewrite E1. rewrite E2 in Ho. pose proof (alike_observation c p _ _ false A) as O. rewrite Ho in O.
  destruct (observation c (fst (reset c t rnd' rb rs)) false) as [o'|]; [|destruct O]. exists o'. split; [reflexivity|exact O].
Qed.
Print Assumptions C100_reset.

(** The same for the array dealer. *)
Theorem C100_array_hand : forall c s t bs p, np_fair c s -> suit_renaming p -> alike p s t ->
  Forall2 (reply_like p) (np_replies c s bs) (np_replies c t bs) /\ alike p (np_run_steps c s bs) (np_run_steps c t bs).
Proof.
  intros c s t bs p R Hp. assert (E : rules_of c).
  { induction R as [w rnd s H|]; [|assumption]. pose proof (bd_eval _ _ _ _ (Dealer_inv _ _ _ _ H)) as E. do 6 eexists. exact E. }
  clear R. revert s t. induction bs as [|b bs IH]; intros s t A; [split; [constructor|exact A]|].
  destruct (np_alike_step c s t b p E Hp A) as [A1 A2]. destruct (IH _ _ A1) as [B1 B2]. split; [constructor; assumption|exact B2].
Qed.
Print Assumptions C100_array_hand.

Theorem C100_array_reset : forall c s t rnd rnd' rb rs o p, stacks t = stacks s -> button t = button s ->
  Forall2 (recoloured p) (d_cards (deck_shuffle rnd (the_deck s))) (d_cards (deck_shuffle rnd' (the_deck t))) ->
  snd (np_reset c s rnd rb rs) = Ok o ->
  alike p (fst (np_reset c s rnd rb rs)) (fst (np_reset c t rnd' rb rs)) /\
  exists o', snd (np_reset c t rnd' rb rs) = Ok o' /\ obs_like p o o'.
Proof.
  intros c s t rnd rnd' rb rs o p Hs Hb Hd Ho.
  assert (A : alike p (fst (np_reset c s rnd rb rs)) (fst (np_reset c t rnd' rb rs)) /\ snd (np_reset c t rnd' rb rs) = observation c (fst (np_reset c t rnd' rb rs)) false /\ snd (np_reset c s rnd rb rs) = observation c (fst (np_reset c s rnd rb rs)) false).
  { unfold np_reset in *. assert (R : reset_active c t rs = reset_active c s rs) by (unfold reset_active; now rewrite Hs). rewrite R, Hb. clear R.
    destruct (reset_active c s rs) as [act stk]. destruct (negb rs && (count_true act <=? 1)); [discriminate Ho|].
    destruct (num_community_cards c) as [|cc0 rest]; [discriminate Ho|].
    destruct (draw_like p cc0 _ _ Hd) as [D1 D2].
    destruct (deck_draw cc0 (deck_shuffle rnd (the_deck s))) as [k1 d1]. destruct (deck_draw cc0 (deck_shuffle rnd' (the_deck t))) as [k2 d2]. cbn [fst snd] in D1, D2.
    destruct (deal_like p (num_hole_cards c) (num_players c) d1 d2 D2) as [D3 D4].
    destruct (deal_hands (num_players c) (num_hole_cards c) d1) as [h1 e1]. destruct (deal_hands (num_players c) (num_hole_cards c) d2) as [h2 e2]. cbn [fst snd] in D3, D4.
    cbn [fst snd] in *. set (b := if rb then O else _) in *. clear Ho. split; [|split; reflexivity].
    match goal with |- alike _ ?x ?y => set (s' := x) in *; set (t' := y) in * end.
    assert (E : t' = recard s' k2 e2 h2).
    { subst s' t'. destruct (Nat.ltb 2 (num_players c)); rewrite <- ?recard_move, <- ?np_recard_collect, <- ?recard_move, <- ?np_recard_collect, <- ?recard_move; reflexivity. }
    assert (M : community_cards s' = k1 /\ hole_cards s' = h1 /\ the_deck s' = e1).
    { subst s'. assert (M : forall z, community_cards (move_action c z) = community_cards z /\ hole_cards (move_action c z) = hole_cards z /\ the_deck (move_action c z) = the_deck z).
      { intros z. unfold move_action. destruct (move_loop _ _ _ _ _ _ _); splits; reflexivity. }
      match goal with |- context [move_action c (move_action c ?z)] => destruct (M (move_action c z)) as (-> & -> & ->); destruct (M z) as (-> & -> & ->) end.
      cbn [np_collect_multiple_bets community_cards hole_cards the_deck]. destruct (Nat.ltb 2 (num_players c)); [|splits; reflexivity].
      match goal with |- context [move_action c ?z] => destruct (M z) as (-> & -> & ->) end. splits; reflexivity. }
    destruct M as (M1 & M2 & M3). rewrite E. apply alike_recard; rewrite ?M1, ?M2, ?M3; [now apply like_same|exact D3|exact D4]. }
  destruct A as (A & E1 & E2). split; [exact A|]. rewrite E1. rewrite E2 in Ho. pose proof (alike_observation c p _ _ false A) as O. rewrite Ho in O.
  destruct (observation c (fst (np_reset c t rnd' rb rs)) false) as [o'|]; [|destruct O]. exists o'. split; [reflexivity|exact O].
Qed.
Print Assumptions C100_array_reset.

(** *** Examples *)
(** two hole cards each; the deck is stacked at both tables but for its last card (a list of all cards
    would be ignored, see C05), spades and hearts are exchanged at
    the second one, and there the seat 0 gets its two cards in the other order *)
Definition two_cards := mkRaw 3 2 (Listed [1; 2; 0]) (Listed [0; 0; 0]) (Listed [RawInf; RawInf]) (Listed [RawCountInf; RawCountInf]) 4 13 2 (Listed [0; 1]) 1 0 20 true None.
Definition other_suit (j : nat) : nat := match j with 0 => 1 | 1 => 0 | _ => j end%nat.
Definition order_1 : list (nat * nat) := (12, 0)%nat :: (5, 1)%nat :: (7, 2)%nat :: (7, 0)%nat :: (5, 0)%nat :: (12, 3)%nat :: [].
Definition order_2 : list (nat * nat) := (5, 0)%nat :: (12, 1)%nat :: (7, 2)%nat :: (7, 1)%nat :: (5, 1)%nat :: (12, 3)%nat :: [].
Definition rest_of (l : list (nat * nat)) : list (nat * nat) :=
  filter (fun x => negb (existsb (fun y => Nat.eqb (fst x) (fst y) && Nat.eqb (snd x) (snd y)) l)) (flat_map (fun i => map (pair i) (seq 0 4)) (seq 0 13)).
Definition stacked_1 := [OTrick (cards_of (order_1 ++ removelast (rest_of order_1))); OReset [] true true].
Definition stacked_2 := [OTrick (cards_of (order_2 ++ map (fun x => (fst x, other_suit (snd x))) (removelast (rest_of order_1)))); OReset [] true true].

Definition recolouredb (p : nat -> nat) (x y : card) : bool :=
  existsb (fun i => existsb (fun j => list_card_eqb [x] [the_card i j] && list_card_eqb [y] [the_card i (p j)]) (seq 0 4)) (seq 0 13).
Fixpoint forall2b {A B} (f : A -> B -> bool) (l : list A) (m : list B) : bool :=
  match l, m with [], [] => true | x :: l', y :: m' => f x y && forall2b f l' m' | _, _ => false end.
Definition hand_likeb (p : nat -> nat) (x y : list card) : bool := forall2b (recolouredb p) x y || forall2b (recolouredb p) x (rev y).
Lemma forall2b_spec {A B} (R : A -> B -> Prop) f : (forall x y, f x y = true -> R x y) -> forall l m, forall2b f l m = true -> Forall2 R l m.
Proof.
  intros H. induction l as [|x l IH]; intros [|y m]; cbn [forall2b]; intros E; try discriminate E; [constructor|]. apply andb_prop in E. destruct E as [E1 E2]. constructor; auto.
Qed.
Lemma recolouredb_spec p x y : recolouredb p x y = true -> recoloured p x y.
Proof.
  unfold recolouredb. intros H. apply existsb_exists in H. destruct H as (i & Hi & H). apply existsb_exists in H. destruct H as (j & Hj & H). apply in_seq in Hi. apply in_seq in Hj.
  apply andb_prop in H. destruct H as [H1 H2]. apply list_card_eqb_eq in H1. apply list_card_eqb_eq in H2. injection H1 as ->. injection H2 as ->. exists i, j. splits; [lia|lia|reflexivity|reflexivity].
Qed.
Lemma hand_likeb_spec p x y : hand_likeb p x y = true -> hand_like p x y.
Proof.
  unfold hand_likeb. intros H. apply orb_prop in H. destruct H as [H|H]; apply (forall2b_spec (recoloured p) _ (recolouredb_spec p)) in H.
  - now apply like_same.
  - exists (rev y). split; [exact H|]. apply Permutation_sym, Permutation_rev.
Qed.
Definition cards_alikeb (p : nat -> nat) (s t : state) : bool := hand_likeb p (community_cards s) (community_cards t) &&
  forall2b (hand_likeb p) (hole_cards s) (hole_cards t) && forall2b (recolouredb p) (d_cards (the_deck s)) (d_cards (the_deck t)).
Lemma alike_check p s t : play_of s = play_of t -> cards_alikeb p s t = true -> alike p s t.
Proof.
  intros P H. apply andb_prop in H. destruct H as [H H3]. apply andb_prop in H. destruct H as [H1 H2]. split.
  - unfold play_of in P. injection P as Q1 Q2 Q3 Q4 Q5 Q6 Q7 Q8 Q9 Q10 Q11 Q12. split; symmetry; assumption.
  - now apply hand_likeb_spec.
  - exact (forall2b_spec _ _ (hand_likeb_spec p) _ _ H2).
  - exact (forall2b_spec _ _ (recolouredb_spec p) _ _ H3).
Qed.
Lemma other_suit_renaming : suit_renaming other_suit.
Proof. split; [intros [|[|j]]; cbn [other_suit]; lia|]. intros [|[|i]] [|[|j]]; cbn [other_suit]; lia. Qed.

Definition opening : option nat * list bool * nat * list (nat * Z * bool) * Z * (Z * list Z * list Z * nat) * (list Z * list bool * Z) :=
  (Some 0%nat, [true; true; true], 0%nat, [], 2, (3, [0; 1; 2], [20; 19; 18], 0%nat), ([0; 1; 2], [false; false; false], 0)).
Definition some_bets := map PyInt [10; 9; 8; 4; 4; 4].
Example C100_example : exists c s t, reachable c s /\ reachable c t /\ in_progress s /\ suit_renaming other_suit /\ alike other_suit s t /\
  nth 0 (hole_cards s) [] = cards_of [(12, 0); (5, 1)]%nat /\ nth 0 (hole_cards t) [] = cards_of [(5, 0); (12, 1)]%nat /\
  action (run_steps c s some_bets) = None /\ stacks (run_steps c s some_bets) <> stacks s /\ forallb is_ok (replies c s some_bets) = true.
Proof.
  assert (K : exists c s0, fair c s0 /\
    let s := run c s0 stacked_1 in let t := run c s0 stacked_2 in
    (all_allowed c s0 stacked_1 = true /\ all_allowed c s0 stacked_2 = true) /\
    (action s = Some 0%nat /\ play_of s = opening /\ play_of t = opening /\ cards_alikeb other_suit s t = true) /\
    (nth 0 (hole_cards s) [] = cards_of [(12, 0); (5, 1)]%nat /\ nth 0 (hole_cards t) [] = cards_of [(5, 0); (12, 1)]%nat) /\
    (action (run_steps c s some_bets) = None /\ stacks s = [20; 19; 18] /\ stacks (run_steps c s some_bets) = [25; 10; 25] /\ forallb is_ok (replies c s some_bets) = true)).
  { play two_cards (@nil op) c s0 E. split; [exact (played_fair _ _ _ _ E)|]. cbv zeta. plays E. }
  destruct K as (c & s0 & F & (A1 & A2) & (B1 & B2 & B2' & B3) & (C1 & C2) & (D1 & D2 & D3 & D4)). cbv zeta in *.
  exists c, (run c s0 stacked_1), (run c s0 stacked_2).
  split; [apply fair_reachable, fair_run; [exact F|exact A1|reflexivity]|]. split; [apply fair_reachable, fair_run; [exact F|exact A2|reflexivity]|].
  split; [unfold in_progress; rewrite B1; discriminate|]. split; [exact other_suit_renaming|]. split; [apply alike_check; [now rewrite B2, B2'|exact B3]|].
  split; [exact C1|]. split; [exact C2|]. split; [exact D1|]. split; [rewrite D2, D3; discriminate|exact D4].
Qed.
Example C100_array_example : exists c s t, np_fair c s /\ np_fair c t /\ in_progress s /\ suit_renaming other_suit /\ alike other_suit s t /\
  nth 0 (hole_cards s) [] = cards_of [(12, 0); (5, 1)]%nat /\ nth 0 (hole_cards t) [] = cards_of [(5, 0); (12, 1)]%nat /\
  action (np_run_steps c s some_bets) = None /\ stacks (np_run_steps c s some_bets) <> stacks s /\ forallb is_ok (np_replies c s some_bets) = true.
Proof.
  assert (K : exists c s0, np_fair c s0 /\
    let s := np_run c s0 stacked_1 in let t := np_run c s0 stacked_2 in
    (np_all_allowed c s0 stacked_1 = true /\ np_all_allowed c s0 stacked_2 = true) /\
    (action s = Some 0%nat /\ play_of s = opening /\ play_of t = opening /\ cards_alikeb other_suit s t = true) /\
    (nth 0 (hole_cards s) [] = cards_of [(12, 0); (5, 1)]%nat /\ nth 0 (hole_cards t) [] = cards_of [(5, 0); (12, 1)]%nat) /\
    (action (np_run_steps c s some_bets) = None /\ stacks s = [20; 19; 18] /\ stacks (np_run_steps c s some_bets) = [25; 10; 25] /\ forallb is_ok (np_replies c s some_bets) = true)).
  { np_play two_cards (@nil op) c s0 E. split; [exact (np_played_fair _ _ _ _ E)|]. cbv zeta. np_plays E. }
  destruct K as (c & s0 & F & (A1 & A2) & (B1 & B2 & B2' & B3) & (C1 & C2) & (D1 & D2 & D3 & D4)). cbv zeta in *.
  exists c, (np_run c s0 stacked_1), (np_run c s0 stacked_2).
  split; [apply np_fair_run; [exact F|exact A1]|]. split; [apply np_fair_run; [exact F|exact A2]|].
  split; [unfold in_progress; rewrite B1; discriminate|]. split; [exact other_suit_renaming|]. split; [apply alike_check; [now rewrite B2, B2'|exact B3]|].
  split; [exact C1|]. split; [exact C2|]. split; [exact D1|]. split; [rewrite D2, D3; discriminate|exact D4].
Qed.
