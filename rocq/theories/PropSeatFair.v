(** * PropSeatFair: C99, no seat is favoured by the deal *)
From Coq Require Import ZifyBool ZifyNat Arith Permutation Factorial FinFun.
From Verif Require Import PyBase PyFacts CardModel CardProofs DeckProofs EvalModel EngineModel EngineSpec EngineFacts BetFacts MoneyFacts EngineDemo PropBetting PropRound PropReset
  NumpyModel NumpySpec NumpyFacts PropNumpy PropNumpyCards ShuffleModel PropShuffle.

(** ** Specification *)
(** seats [i] and [k] exchange their cards, everybody else keeps them *)
Definition other_seat (i k j : nat) : nat := if Nat.eqb j i then k else if Nat.eqb j k then i else j.
Definition exchange (i k : nat) (hands : list (list card)) : list (list card) :=
  map (fun j => nth (other_seat i k j) hands []) (seq 0 (List.length hands)).
(** with the board and the cards still to come, the hand of seat [i] beats the hands of all other seats *)
Definition best_of_all (beats : list card -> list card -> list card -> list card -> Prop) (i : nat) (board : list card) (hands : list (list card)) (rest : list card) : Prop :=
  forall j, (j < List.length hands)%nat -> j <> i -> beats board rest (nth i hands []) (nth j hands []).

(** ** Counting *)
Lemma exactly_along (R : list nat -> list nat -> Prop) (P Q : list nat -> Prop) m :
  (forall a, P a -> exists b, R a b /\ Q b) -> (forall b, Q b -> exists a, R a b /\ P a) ->
  (forall a b b', R a b -> R a b' -> b = b') -> (forall a a' b, R a b -> R a' b -> a = a') -> exactly m P -> exactly m Q.
Proof.
  intros H1 H2 F1 F2 (L & N & Ll & HL).
  assert (G : forall l, (forall a, In a l -> P a) -> exists M, Forall2 (fun b a => R a b /\ Q b) M l).
  { induction l as [|a l IH]; intros Hl; [exists []; constructor|]. destruct (IH (fun x Hx => Hl x (or_intror Hx))) as (M & HM).
    destruct (H1 a (Hl a (or_introl eq_refl))) as (b & B). exists (b :: M). now constructor. }
  destruct (G L (fun a Ha => proj1 (HL a) Ha)) as (M & HM). exists M. split; [|split].
  - apply (Forall2_NoDup _ M L) in HM; [exact HM| |exact N]. intros b a a' [X _] [Y _]. exact (F2 a a' b X Y).
  - rewrite <- Ll. clear - HM. induction HM; [reflexivity|]. cbn [List.length]. now f_equal.
  - destruct (Forall2_pick _ _ _ HM) as [P1 P2]. intros b. split.
    + intros Hb. destruct (P1 b Hb) as (a & _ & _ & X). exact X.
    + intros Hb. destruct (H2 b Hb) as (a & X & Pa). destruct (P2 a (proj2 (HL a) Pa)) as (b' & B1 & B2 & _). now rewrite (F1 a b b' X B2).
Qed.

(** ** Exchanging hands in an order of the deck *)
Lemma other_seat_twice i k j : other_seat i k (other_seat i k j) = j.
Proof. unfold other_seat. destruct (Nat.eqb_spec j i); [|destruct (Nat.eqb_spec j k)]; repeat match goal with |- context [Nat.eqb ?x ?y] => destruct (Nat.eqb_spec x y) end; congruence. Qed.
Lemma other_seat_lt i k j n : (i < n)%nat -> (k < n)%nat -> (j < n)%nat -> (other_seat i k j < n)%nat.
Proof. intros. unfold other_seat. destruct (Nat.eqb j i); [assumption|]. destruct (Nat.eqb j k); assumption. Qed.
Lemma exchange_length i k hs : List.length (exchange i k hs) = List.length hs.
Proof. unfold exchange. now rewrite map_length, seq_length. Qed.
Lemma exchange_nth i k hs j : (j < List.length hs)%nat -> nth j (exchange i k hs) [] = nth (other_seat i k j) hs [].
Proof.
  intros H. unfold exchange. rewrite (nth_indep _ [] (nth (other_seat i k 0) hs [])) by (now rewrite map_length, seq_length).
  rewrite (map_nth (fun j => nth (other_seat i k j) hs []) (seq 0 (List.length hs)) 0%nat j). now rewrite seq_nth.
Qed.
Lemma exchange_twice i k hs : (i < List.length hs)%nat -> (k < List.length hs)%nat -> exchange i k (exchange i k hs) = hs.
Proof.
  intros Hi Hk. apply (nth_ext _ _ [] []); [now rewrite !exchange_length|]. intros j Hj. rewrite !exchange_length in Hj.
  rewrite exchange_nth by (now rewrite exchange_length). rewrite exchange_nth by (now apply other_seat_lt). now rewrite other_seat_twice.
Qed.
Lemma exchange_perm i k hs : (i < List.length hs)%nat -> (k < List.length hs)%nat -> Permutation hs (exchange i k hs).
Proof.
  intros Hi Hk. apply (Permutation_nth _ _ []). split; [apply exchange_length|]. exists (other_seat i k). split; [|split].
  - intros x Hx. now apply other_seat_lt.
  - intros x y _ _ E. rewrite <- (other_seat_twice i k x), <- (other_seat_twice i k y). now rewrite E.
  - intros x Hx. now apply exchange_nth.
Qed.
Lemma concat_perm {A} (l l' : list (list A)) : Permutation l l' -> Permutation (List.concat l) (List.concat l').
Proof.
  induction 1 as [|x l l' _ IH|x y l|l l' l'' _ IH1 _ IH2]; cbn [List.concat]; [constructor|now apply Permutation_app_head| |now apply (perm_trans IH1)].
  rewrite !app_assoc. apply Permutation_app_tail, Permutation_app_comm.
Qed.
Lemma app_same {A} (a b a' b' : list A) : List.length a = List.length a' -> a ++ b = a' ++ b' -> a = a' /\ b = b'.
Proof.
  revert a'. induction a as [|x a IH]; intros [|y a'] L E; try discriminate L; [now split|]. cbn [app] in E. injection E as <- E. destruct (IH a' ltac:(now injection L) E) as [-> ->]. now split.
Qed.
Lemma concat_same {A} h (l l' : list (list A)) : Forall (fun x => List.length x = h) l -> Forall (fun x => List.length x = h) l' -> List.length l = List.length l' ->
  List.concat l = List.concat l' -> l = l'.
Proof.
  intros H. revert l'. induction H as [|x l Hx Hl IH]; intros [|y l'] H' L E; try discriminate L; [reflexivity|]. inversion H'; subst. cbn [List.concat] in E.
  destruct (app_same _ _ _ _ (eq_sym H1) E) as [-> E']. f_equal. apply IH; [assumption|now injection L|exact E'].
Qed.
(** what is dealt from an order of the deck *)
Record dealt_from (b n h : nat) (o : list card) (board : list card) (hands : list (list card)) (rest : list card) : Prop := mkDealt {
  df_order : o = board ++ List.concat hands ++ rest;
  df_board : List.length board = b;
  df_hands : List.length hands = n;
  df_each : Forall (fun x => List.length x = h) hands
}.
Lemma dealt_unique b n h o B H r B' H' r' : dealt_from b n h o B H r -> dealt_from b n h o B' H' r' -> B = B' /\ H = H' /\ r = r'.
Proof.
  intros [D1 D2 D3 D4] [E1 E2 E3 E4]. rewrite D1 in E1. apply app_same in E1; [|congruence]. destruct E1 as [-> E1].
  assert (Lc : forall l : list (list card), Forall (fun x => List.length x = h) l -> List.length (List.concat l) = (List.length l * h)%nat).
  { induction 1 as [|x l Hx _ IH]; [reflexivity|]. cbn [List.concat List.length]. rewrite app_length, IH, Hx. lia. }
  apply app_same in E1; [|rewrite !Lc by assumption; congruence]. destruct E1 as [E1 ->]. split; [reflexivity|]. split; [|reflexivity].
  apply (concat_same h); try assumption. congruence.
Qed.
Lemma reset_dealt c s rb rs : cfg_wf c -> wf c s -> d_tricked (the_deck s) = false -> is_ok (snd (reset c s [] rb rs)) = true ->
  let cards := d_full (the_deck s) in
  let b := Z.to_nat (nth 0 (num_community_cards c) 0) in let h := Z.to_nat (num_hole_cards c) in
  (b + num_players c * h <= List.length cards)%nat -> forall js,
  let s' := fst (reset c s (source js (List.length cards)) rb rs) in
  dealt_from b (num_players c) h (py_shuffle js cards) (community_cards s') (hole_cards s') (d_cards (the_deck s')).
Proof.
  intros Wc Wf T H. cbv zeta. intros Le js. destruct (deal_effect c s rb rs Wc Wf T H) as [G E0]. destruct (G js) as [Ge Gl]. clear G. set (s' := fst (reset c s _ rb rs)) in *.
  set (o := py_shuffle js (d_full (the_deck s))) in *.
  assert (Lo : List.length o = List.length (d_full (the_deck s))) by (symmetry; apply Permutation_length, py_shuffle_perm).
  split.
  - rewrite (re_comm _ _ _ _ _ _ Ge), (re_hole _ _ _ _ _ _ Ge), (re_deck _ _ _ _ _ _ Ge). cbn [set_cards d_cards]. rewrite Gl, E0. rewrite <- skipn_skipn_comp.
    now rewrite !firstn_skipn.
  - rewrite (re_comm _ _ _ _ _ _ Ge), Gl, E0, firstn_length. lia.
  - apply Ge.
  - apply Forall_forall. intros x Hx. apply (In_nth _ _ []) in Hx. destruct Hx as (i & Hi & <-). rewrite (re_hole_len _ _ _ _ _ _ Ge) in Hi. rewrite (re_hole_nth _ _ _ _ _ _ Ge i Hi), Gl, firstn_length, skipn_length, E0.
    assert ((i * Z.to_nat (num_hole_cards c) + Z.to_nat (num_hole_cards c) <= num_players c * Z.to_nat (num_hole_cards c))%nat) by nia. lia.
Qed.
Lemma exchange_same : forall c s ns nr rb rs i k m (Q : list card -> list (list card) -> list card -> Prop), cfg_wf c -> wf c s -> deck_wf ns nr (the_deck s) -> d_tricked (the_deck s) = false -> is_ok (snd (reset c s [] rb rs)) = true ->
  let cards := d_full (the_deck s) in
  let s' js := fst (reset c s (source js (List.length cards)) rb rs) in
  (Z.to_nat (nth 0 (num_community_cards c) 0%Z) + num_players c * Z.to_nat (num_hole_cards c) <= List.length cards)%nat ->
  (i < num_players c)%nat -> (k < num_players c)%nat ->
  exactly m (fun js => possible_draws (List.length cards) js /\ Q (community_cards (s' js)) (hole_cards (s' js)) (d_cards (the_deck (s' js)))) ->
  exactly m (fun js => possible_draws (List.length cards) js /\ Q (community_cards (s' js)) (exchange i k (hole_cards (s' js))) (d_cards (the_deck (s' js)))).
Proof.
  intros c s ns nr rb rs i k m Q Wc Wf W T H. cbv zeta. intros Le Hi Hk. pose proof (reset_dealt c s rb rs Wc Wf T H Le) as D. cbv zeta in D.
  set (cards := d_full (the_deck s)) in *. set (s' := fun js => fst (reset c s (source js (List.length cards)) rb rs)) in *. pose proof (full_NoDup _ _ _ W) as N. fold cards in N.
  assert (G : forall js, exists js', possible_draws (List.length cards) js' /\
    community_cards (s' js') = community_cards (s' js) /\ hole_cards (s' js') = exchange i k (hole_cards (s' js)) /\ d_cards (the_deck (s' js')) = d_cards (the_deck (s' js))).
  { intros js. destruct (D js) as [D1 D2 D3 D4]. fold (s' js) in *.
    assert (P : Permutation cards (community_cards (s' js) ++ List.concat (exchange i k (hole_cards (s' js))) ++ d_cards (the_deck (s' js)))).
    { eapply perm_trans; [apply (py_shuffle_perm js)|]. rewrite D1. apply Permutation_app_head, Permutation_app_tail, concat_perm, exchange_perm; lia. }
    destruct (shuffle_bijection cards _ N P) as (js' & [J1 J2] & _). exists js'. split; [exact J1|]. specialize (D js'). fold (s' js') in D.
    eapply dealt_unique; [exact D|]. rewrite J2. split; [reflexivity|exact D2|now rewrite exchange_length|].
    apply Forall_forall. intros x Hx. rewrite Forall_forall in D4. apply D4. eapply Permutation_in; [apply Permutation_sym, (exchange_perm i k); lia|exact Hx]. }
  assert (U : forall js js', possible_draws (List.length cards) js -> possible_draws (List.length cards) js' -> community_cards (s' js) = community_cards (s' js') -> hole_cards (s' js) = hole_cards (s' js') ->
    d_cards (the_deck (s' js)) = d_cards (the_deck (s' js')) -> js = js').
  { intros js js' J J' E1 E2 E3. pose proof (df_order _ _ _ _ _ _ _ (D js)) as O1. pose proof (df_order _ _ _ _ _ _ _ (D js')) as O2. fold (s' js) in O1. fold (s' js') in O2.
    rewrite <- E1, <- E2, <- E3, <- O1 in O2. destruct (shuffle_bijection cards (py_shuffle js cards) N (py_shuffle_perm js cards)) as (x & _ & X).
    rewrite <- (X js (conj J eq_refl)). apply X. now split. }
  assert (Ln : forall js, List.length (hole_cards (s' js)) = num_players c) by (intros js; exact (df_hands _ _ _ _ _ _ _ (D js))).
  assert (Tw : forall js, exchange i k (exchange i k (hole_cards (s' js))) = hole_cards (s' js)) by (intros js; apply exchange_twice; rewrite Ln; assumption).
  apply (exactly_along (fun a b => possible_draws (List.length cards) a /\ possible_draws (List.length cards) b /\ community_cards (s' b) = community_cards (s' a) /\
    hole_cards (s' b) = exchange i k (hole_cards (s' a)) /\ d_cards (the_deck (s' b)) = d_cards (the_deck (s' a)))).
  - intros a [A1 A2]. destruct (G a) as (b & B1 & B2 & B3 & B4). exists b. split; [splits; assumption|]. split; [exact B1|]. now rewrite B2, B3, B4, Tw.
  - intros b [B1 B2]. destruct (G b) as (a & A1 & A2 & A3 & A4). exists a. split; [splits; [exact A1|exact B1|now symmetry|now rewrite A3, Tw|now symmetry]|]. split; [exact A1|]. now rewrite A2, A3, A4.
  - intros a b b' (X1 & X2 & X3 & X4 & X5) (Y1 & Y2 & Y3 & Y4 & Y5). apply U; try assumption; congruence.
  - intros a a' b (X1 & X2 & X3 & X4 & X5) (Y1 & Y2 & Y3 & Y4 & Y5). apply U; try assumption; try congruence.
Qed.

Lemma exactly_iff m (P Q : list nat -> Prop) : (forall js, P js <-> Q js) -> exactly m P <-> exactly m Q.
Proof. intros H. split; intros (L & N & Ll & HL); exists L; (split; [exact N|]); (split; [exact Ll|]); intros js; rewrite HL; [apply H|symmetry; apply H]. Qed.
Lemma exchange_iff : forall c s ns nr rb rs i k m (Q : list card -> list (list card) -> list card -> Prop), cfg_wf c -> wf c s -> deck_wf ns nr (the_deck s) -> d_tricked (the_deck s) = false -> is_ok (snd (reset c s [] rb rs)) = true ->
  let cards := d_full (the_deck s) in
  let s' js := fst (reset c s (source js (List.length cards)) rb rs) in
  (Z.to_nat (nth 0 (num_community_cards c) 0%Z) + num_players c * Z.to_nat (num_hole_cards c) <= List.length cards)%nat ->
  (i < num_players c)%nat -> (k < num_players c)%nat ->
  (exactly m (fun js => possible_draws (List.length cards) js /\ Q (community_cards (s' js)) (hole_cards (s' js)) (d_cards (the_deck (s' js)))) <->
   exactly m (fun js => possible_draws (List.length cards) js /\ Q (community_cards (s' js)) (exchange i k (hole_cards (s' js))) (d_cards (the_deck (s' js))))).
Proof.
  intros c s ns nr rb rs i k m Q Wc Wf W T H. cbv zeta. intros Le Hi Hk. split; [exact (exchange_same c s ns nr rb rs i k m Q Wc Wf W T H Le Hi Hk)|].
  intros X. pose proof (exchange_same c s ns nr rb rs i k m (fun b hs r => Q b (exchange i k hs) r) Wc Wf W T H Le Hi Hk X) as Y. cbv beta in Y. revert Y. apply exactly_iff.
  intros js. pose proof (df_hands _ _ _ _ _ _ _ (reset_dealt c s rb rs Wc Wf T H Le js)) as Ln. cbv zeta in Ln. rewrite exchange_twice by (rewrite Ln; assumption). reflexivity.
Qed.
Lemma best_exchange beats i k B hs r : (i < List.length hs)%nat -> (k < List.length hs)%nat ->
  best_of_all beats i B (exchange i k hs) r <-> best_of_all beats k B hs r.
Proof.
  intros Hi Hk. unfold best_of_all. rewrite exchange_length. rewrite (exchange_nth i k hs i Hi).
  assert (Ei : other_seat i k i = k) by (unfold other_seat; now rewrite Nat.eqb_refl). rewrite Ei.
  assert (Ek : other_seat i k k = i) by (rewrite <- Ei at 2; apply other_seat_twice).
  split; intros H j Hj Nj.
  - specialize (H (other_seat i k j) (other_seat_lt i k j _ Hi Hk Hj)). rewrite exchange_nth, other_seat_twice in H by (now apply other_seat_lt). apply H.
    intros X. apply Nj. rewrite <- (other_seat_twice i k j), X. exact Ei.
  - rewrite exchange_nth by exact Hj. apply H; [now apply other_seat_lt|]. intros X. apply Nj. rewrite <- (other_seat_twice i k j), X. exact Ek.
Qed.

(** ** C99 *)
(** Whatever one asks about the first community cards, the hole cards of all seats and the cards that are still to come, in
    their order: as many draws of [random.shuffle] give yes as give yes when two seats have exchanged their cards. *)
Theorem C99_exchange : forall c s rb rs i k m (Q : list card -> list (list card) -> list card -> Prop), reachable c s -> d_tricked (the_deck s) = false ->
  is_ok (snd (reset c s [] rb rs)) = true ->
  let cards := d_full (the_deck s) in
  let s' js := fst (reset c s (source js (List.length cards)) rb rs) in
  (Z.to_nat (nth 0 (num_community_cards c) 0%Z) + num_players c * Z.to_nat (num_hole_cards c) <= List.length cards)%nat ->
  (i < num_players c)%nat -> (k < num_players c)%nat ->
  (exactly m (fun js => possible_draws (List.length cards) js /\ Q (community_cards (s' js)) (hole_cards (s' js)) (d_cards (the_deck (s' js)))) <->
   exactly m (fun js => possible_draws (List.length cards) js /\ Q (community_cards (s' js)) (exchange i k (hole_cards (s' js))) (d_cards (the_deck (s' js))))).
Proof.
  intros c s rb rs i k m Q R T H. cbv zeta. intros Le Hi Hk. destruct (reachable_deck c s R) as (ns & nr & W). exact (exchange_iff c s ns nr rb rs i k m Q (reachable_cfg c s R) (reachable_wf c s R) W T H Le Hi Hk).
Qed.
Print Assumptions C99_exchange.
(** In particular every seat is dealt the best hand of all equally often, whatever hands beat others on which boards. *)
Theorem C99_best : forall c s rb rs i k m beats, reachable c s -> d_tricked (the_deck s) = false -> is_ok (snd (reset c s [] rb rs)) = true ->
  let cards := d_full (the_deck s) in
  let s' js := fst (reset c s (source js (List.length cards)) rb rs) in
  (Z.to_nat (nth 0 (num_community_cards c) 0%Z) + num_players c * Z.to_nat (num_hole_cards c) <= List.length cards)%nat ->
  (i < num_players c)%nat -> (k < num_players c)%nat ->
  (exactly m (fun js => possible_draws (List.length cards) js /\ best_of_all beats i (community_cards (s' js)) (hole_cards (s' js)) (d_cards (the_deck (s' js)))) <->
   exactly m (fun js => possible_draws (List.length cards) js /\ best_of_all beats k (community_cards (s' js)) (hole_cards (s' js)) (d_cards (the_deck (s' js))))).
Proof.
  intros c s rb rs i k m beats R T H. cbv zeta. intros Le Hi Hk. rewrite (C99_exchange c s rb rs i k m (best_of_all beats i) R T H Le Hi Hk). apply exactly_iff.
  intros js. destruct (reachable_deck c s R) as (ns & nr & W). pose proof (df_hands _ _ _ _ _ _ _ (reset_dealt c s rb rs (reachable_cfg c s R) (reachable_wf c s R) T H Le js)) as Ln. cbv zeta in Ln.
  rewrite best_exchange by (rewrite Ln; assumption). reflexivity.
Qed.
Print Assumptions C99_best.
(** the same at the array dealer *)
Theorem C99_array_exchange : forall c s rb rs i k m (Q : list card -> list (list card) -> list card -> Prop), np_fair c s -> d_tricked (the_deck s) = false ->
  is_ok (snd (np_reset c s [] rb rs)) = true ->
  let cards := d_full (the_deck s) in
  let s' js := fst (np_reset c s (source js (List.length cards)) rb rs) in
  (Z.to_nat (nth 0 (num_community_cards c) 0%Z) + num_players c * Z.to_nat (num_hole_cards c) <= List.length cards)%nat ->
  (i < num_players c)%nat -> (k < num_players c)%nat ->
  (exactly m (fun js => possible_draws (List.length cards) js /\ Q (community_cards (s' js)) (hole_cards (s' js)) (d_cards (the_deck (s' js)))) <->
   exactly m (fun js => possible_draws (List.length cards) js /\ Q (community_cards (s' js)) (exchange i k (hole_cards (s' js))) (d_cards (the_deck (s' js))))).
Proof.
  intros c s rb rs i k m Q F T H. cbv zeta. intros Le Hi Hk. destruct (np_fair_deck c s F) as (ns & nr & W). pose proof (np_fair_money c s F) as M. pose proof (mo_cfg _ _ M) as Wc.
  assert (H' : is_ok (snd (reset c (wrap c s) [] rb rs)) = true) by (rewrite <- (proj2 (np_reset_wrap c s [] rb rs Wc)); now destruct (snd (np_reset c s [] rb rs))).
  pose proof (exchange_iff c (wrap c s) ns nr rb rs i k m Q Wc (mo_wf _ _ M) W T H' Le Hi Hk) as X. cbv zeta in X.
  eapply iff_trans; [|eapply iff_trans; [exact X|]]; apply exactly_iff; intros js; change (the_deck (wrap c s)) with (the_deck s); rewrite <- (proj1 (np_reset_wrap c s _ rb rs Wc)); reflexivity.
Qed.
Print Assumptions C99_array_exchange.
Theorem C99_array_best : forall c s rb rs i k m beats, np_fair c s -> d_tricked (the_deck s) = false -> is_ok (snd (np_reset c s [] rb rs)) = true ->
  let cards := d_full (the_deck s) in
  let s' js := fst (np_reset c s (source js (List.length cards)) rb rs) in
  (Z.to_nat (nth 0 (num_community_cards c) 0%Z) + num_players c * Z.to_nat (num_hole_cards c) <= List.length cards)%nat ->
  (i < num_players c)%nat -> (k < num_players c)%nat ->
  (exactly m (fun js => possible_draws (List.length cards) js /\ best_of_all beats i (community_cards (s' js)) (hole_cards (s' js)) (d_cards (the_deck (s' js)))) <->
   exactly m (fun js => possible_draws (List.length cards) js /\ best_of_all beats k (community_cards (s' js)) (hole_cards (s' js)) (d_cards (the_deck (s' js))))).
Proof.
  intros c s rb rs i k m beats F T H. cbv zeta. intros Le Hi Hk. rewrite (C99_array_exchange c s rb rs i k m (best_of_all beats i) F T H Le Hi Hk). apply exactly_iff.
  intros js. pose proof (np_fair_money c s F) as M. pose proof (mo_cfg _ _ M) as Wc.
  assert (H' : is_ok (snd (reset c (wrap c s) [] rb rs)) = true) by (rewrite <- (proj2 (np_reset_wrap c s [] rb rs Wc)); now destruct (snd (np_reset c s [] rb rs))).
  pose proof (df_hands _ _ _ _ _ _ _ (reset_dealt c (wrap c s) rb rs Wc (mo_wf _ _ M) T H' Le js)) as Ln. change (the_deck (wrap c s)) with (the_deck s) in Ln. rewrite <- (proj1 (np_reset_wrap c s _ rb rs Wc)) in Ln.
  change (List.length (hole_cards (fst (np_reset c s (source js (List.length (d_full (the_deck s)))) rb rs))) = num_players c) in Ln.
  rewrite best_exchange by (rewrite Ln; assumption). reflexivity.
Qed.
Print Assumptions C99_array_best.

(** the hypotheses are met in the middle of a session, and the two sides are not empty *)
Example C99_example : exists c s, reachable c s /\ d_tricked (the_deck s) = false /\ is_ok (snd (reset c s [] false false)) = true /\ num_players c = 3%nat /\
  (Z.to_nat (nth 0 (num_community_cards c) 0%Z) + num_players c * Z.to_nat (num_hole_cards c) <= List.length (d_full (the_deck s)))%nat.
Proof.
  play no_limit_3 (new_hand :: bets [-1; -1]) c s E. split; [exact (fair_reachable _ _ (played_fair _ _ _ _ E))|].
  split; [by_play E|]. split; [by_play E|]. split; [by_play E|].
  assert (X : Nat.leb (Z.to_nat (nth 0 (num_community_cards c) 0%Z) + num_players c * Z.to_nat (num_hole_cards c)) (List.length (d_full (the_deck s))) = true) by by_play E.
  clear E. now apply Nat.leb_le.
Qed.
Example C99_array_example : exists c s, np_fair c s /\ d_tricked (the_deck s) = false /\ is_ok (snd (np_reset c s [] false false)) = true /\ num_players c = 3%nat /\
  (Z.to_nat (nth 0 (num_community_cards c) 0%Z) + num_players c * Z.to_nat (num_hole_cards c) <= List.length (d_full (the_deck s)))%nat.
Proof.
  np_play no_limit_3 (new_hand :: bets [-1; -1]) c s E. split; [exact (np_played_fair _ _ _ _ E)|].
  split; [np_by_play E|]. split; [np_by_play E|]. split; [np_by_play E|].
  assert (X : Nat.leb (Z.to_nat (nth 0 (num_community_cards c) 0%Z) + num_players c * Z.to_nat (num_hole_cards c)) (List.length (d_full (the_deck s))) = true) by np_by_play E.
  clear E. now apply Nat.leb_le.
Qed.
