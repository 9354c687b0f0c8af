(** * PropNumpyWin: more properties of the dealer on arrays, engine_numpy.py (C70, C71) *)
From Coq Require Import ZifyBool ZifyNat Arith.
From Verif Require Import PyBase PyFacts CardModel EvalModel EvalSpec EvalCount EvalFinal EngineModel EngineSpec EngineFacts BetFacts EngineDemo MoneyFacts PropRound PropReset PropBetting PropWin NumpyModel NumpySpec NumpyFacts PropNumpy.

(** ** C70 Win probabilities *)
Lemma prodZ_acc l : forall x, fold_left Z.mul l x = x * prodZ l.
Proof.
  unfold prodZ. induction l as [|y l IH]; intros x; cbn [fold_left]; [lia|]. rewrite IH. rewrite (IH (1 * y)). lia.
Qed.
Lemma prodZ_cons x l : prodZ (x :: l) = x * prodZ l.
Proof. unfold prodZ at 1. cbn [fold_left]. rewrite prodZ_acc. lia. Qed.
Lemma prodZ_app l m : prodZ (l ++ m) = prodZ l * prodZ m.
Proof. induction l as [|x l IH]; [change (prodZ []) with 1; cbn [app]; ring|]. cbn [app]. rewrite !prodZ_cons, IH. ring. Qed.
Definition falling (n k : nat) : Z := prodZ (zrange_down (Z.of_nat n) (Z.of_nat n - Z.of_nat k)).
Lemma falling_S n k : falling (S n) (S k) = Z.of_nat (S n) * falling n k.
Proof.
  unfold falling, zrange_down. replace (Z.to_nat (Z.of_nat (S n) - (Z.of_nat (S n) - Z.of_nat (S k)))) with (S k) by lia.
  replace (Z.to_nat (Z.of_nat n - (Z.of_nat n - Z.of_nat k))) with k by lia. cbn [seq map]. rewrite prodZ_cons, Z.sub_0_r. do 2 f_equal.
  rewrite <- seq_shift, map_map. apply map_ext. intros i. lia.
Qed.
Definition factZ (k : nat) : Z := prodZ (zrange 1 (Z.of_nat k + 1)).
Lemma factZ_S k : factZ (S k) = Z.of_nat (S k) * factZ k.
Proof.
  unfold factZ, zrange. replace (Z.to_nat (Z.of_nat (S k) + 1 - 1)) with (S k) by lia. replace (Z.to_nat (Z.of_nat k + 1 - 1)) with k by lia.
  rewrite seq_S, map_app, prodZ_app. cbn [map]. rewrite prodZ_cons. unfold prodZ at 2. cbn [fold_left]. lia.
Qed.
Lemma factZ_pos k : 0 < factZ k.
Proof. induction k as [|k IH]; [unfold factZ; cbn; lia|]. rewrite factZ_S. nia. Qed.
Lemma binom_0 n : binom n 0 = 1%nat. Proof. now destruct n. Qed.
Lemma binom_out n : forall k, (n < k)%nat -> binom n k = 0%nat.
Proof. induction n as [|n IH]; intros [|k] H; cbn [binom]; try lia. rewrite !IH by lia. reflexivity. Qed.
(** k * C(n, k) = n * C(n - 1, k - 1), added up *)
Lemma binom_absorb n : forall k, (Z.of_nat (S k)) * Z.of_nat (binom (S n) (S k)) = Z.of_nat (S n) * Z.of_nat (binom n k).
Proof.
  induction n as [|n IH]; intros k.
  - cbn [binom]. destruct k as [|k]; cbn [binom]; lia.
  - change (binom (S (S n)) (S k)) with (binom (S n) k + binom (S n) (S k))%nat. rewrite Nat2Z.inj_add, Z.mul_add_distr_l, IH.
    destruct k as [|k]; [rewrite !binom_0; lia|]. pose proof (IH k) as H1.
    change (binom (S n) (S k)) with (binom n k + binom n (S k))%nat in *. rewrite Nat2Z.inj_add in *. nia.
Qed.
Lemma falling_binom n : forall k, (k <= n)%nat -> falling n k = Z.of_nat (binom n k) * factZ k.
Proof.
  induction n as [|n IH]; intros [|k] H; [reflexivity|lia|rewrite binom_0; unfold falling, zrange_down; replace (Z.to_nat _) with 0%nat by lia; reflexivity|].
  rewrite falling_S, IH, factZ_S by lia. pose proof (binom_absorb n k) as X.
  rewrite Z.mul_assoc, <- X. ring.
Qed.
Lemma binom_sym n : forall k, (k <= n)%nat -> binom n k = binom n (n - k).
Proof.
  assert (G : forall m k, binom (m + k) k = binom (m + k) m).
  { induction m as [|m IHm]; intros k; [cbn [Nat.add]; rewrite binom_0; induction k as [|k IHk]; [reflexivity|cbn [binom]; rewrite IHk, binom_out by lia; lia]|].
    induction k as [|k IHk]; [rewrite Nat.add_0_r, binom_0; specialize (IHm 0%nat); rewrite Nat.add_0_r, binom_0 in IHm; cbn [binom]; rewrite <- IHm, binom_out by lia; lia|].
    replace (S m + S k)%nat with (S (S m + k)) by lia. pose proof (IHm (S k)) as X. replace (m + S k)%nat with (S m + k)%nat in X by lia.
    remember (S m + k)%nat as q eqn:Eq. cbn [binom]. lia. }
  intros k H. pose proof (G (n - k)%nat k) as X. now replace (n - k + k)%nat with n in X by lia.
Qed.
Lemma ncr_binom n k : (k <= n)%nat -> ncr (Z.of_nat n) (Z.of_nat k) = Z.of_nat (binom n k).
Proof.
  intros H. unfold ncr. set (r := Nat.min k (n - k)).
  replace (Z.min (Z.of_nat k) (Z.of_nat n - Z.of_nat k)) with (Z.of_nat r) by lia.
  change (falling n r / factZ r = Z.of_nat (binom n k)).
  rewrite falling_binom by lia. rewrite Z.div_mul by (pose proof (factZ_pos r); lia). f_equal.
  destruct (Nat.le_ge_cases k (n - k)) as [L|L]; [now replace r with k by lia|]. replace r with (n - k)%nat by lia. symmetry. now apply binom_sym.
Qed.
Lemma ncr_out n k : 0 <= n -> k < 0 \/ n < k -> ncr n k = 1.
Proof.
  intros Hn H. unfold ncr, zrange_down, zrange. replace (Z.to_nat (n - (n - Z.min k (n - k)))) with 0%nat by lia.
  replace (Z.to_nat (Z.min k (n - k) + 1 - 1)) with 0%nat by lia. reflexivity.
Qed.
Lemma fold_maps {A B C} (f : A -> result B) (g : C -> B -> C) l : forall w,
  fold_res (fun w x => let* h := f x in Ok (g w h)) l w = let* hs := map_res f l in Ok (fold_left g hs w).
Proof.
  induction l as [|x l IH]; intros w; [reflexivity|]. cbn [map_res fold_res].
  destruct (f x) as [y|]; [|reflexivity]. cbn [bind]. rewrite IH. destruct (map_res f l) as [r|]; reflexivity.
Qed.
Lemma best_exists c s x hs : cfg_wf c -> List.length (hole_cards s) = num_players c -> (exists j, (j < num_players c)%nat /\ is_active s j) ->
  eval_hands c (active s) (hole_cards s) (community_cards s ++ x) = Ok hs -> exists i, (i < num_players c)%nat /\ among_best c s (community_cards s ++ x) i = true.
Proof.
  intros W Lh A E. pose proof (cw_two _ W) as H2.
  destruct (best_strength c s x hs 0%nat W Lh A E ltac:(lia)) as [Ls _]. destruct (minZ_reached hs ltac:(lia)) as (i & Hi & Em). rewrite Ls in Hi.
  exists i. split; [exact Hi|]. destruct (best_strength c s x hs i W Lh A E Hi) as [_ <-]. lia.
Qed.
Lemma map_res_length {A B} (f : A -> result B) l : forall hs, map_res f l = Ok hs -> List.length hs = List.length l.
Proof.
  induction l as [|x l IH]; intros hs H; cbn [map_res] in H; [injection H as <-; reflexivity|].
  destruct (f x); [|discriminate H]. cbn [bind] in H. destruct (map_res f l) as [r|]; [|discriminate H]. cbn [bind] in H. injection H as <-. cbn. f_equal. now apply IH.
Qed.
(** The probabilities are [won / total] for the boards that are looked at: all completions if there are fewer than 1000 of them, and
    otherwise the [n] random samples. *)
Theorem C70_probabilities : forall c s n samples ps, np_fair c s ->
  List.length (hole_cards s) = num_players c -> (exists j, (j < num_players c)%nat /\ is_active s j) ->
  np_win_probabilities c s n samples = Ok ps ->
  exists l total, 0 < total /\ List.length ps = num_players c /\ sumZ (map fst ps) = total /\
    ((exists all, completions_of c s all /\ 0 < Z.of_nat (List.length all) < 1000 /\ l = all) \/
     (exists all, completions_of c s all /\ 1000 <= Z.of_nat (List.length all) /\ l = firstn (Z.to_nat n) samples /\ Z.of_nat (List.length l) = n)) /\
    forall i, (i < num_players c)%nat ->
      nth i ps (0, 0) = (Z.of_nat (List.length (filter (fun x => among_best c s (community_cards s ++ x) i) l)), total) /\
      (~ is_active s i -> fst (nth i ps (0, 0)) = 0).
Proof.
  intros c s n samples ps F Lh A H. pose proof (mo_cfg _ _ (np_fair_money c s F)) as W. unfold np_win_probabilities in H.
  set (k := sumZ (num_community_cards c) - Z.of_nat (List.length (community_cards s))) in *.
  set (N := List.length (d_cards (the_deck s))) in *.
  set (cc := if ncr (Z.of_nat N) k <? 1000 then combinations (d_cards (the_deck s)) k else Ok (firstn (Z.to_nat n) samples)) in *.
  destruct cc as [l|] eqn:Ecc; [|discriminate H]. cbn [bind] in H.
  destruct (map_res _ l) as [hs|] eqn:Eh; [|discriminate H]. cbn [bind] in H. pose proof (map_res_length _ _ _ Eh) as Ll.
  destruct (Nat.eqb_spec (List.length hs) 0) as [Z0|Z0]; [discriminate H|].
  destruct (negb (Z.of_nat (List.length hs) =? (if ncr (Z.of_nat N) k <? 1000 then ncr (Z.of_nat N) k else n))) eqn:En; [discriminate H|].
  set (won := fold_left _ hs _) in *. injection H as <-.
  assert (E : fold_res (fun won extra => let* hs := eval_hands c (active s) (hole_cards s) (community_cards s ++ extra) in
              Ok (add_lists won (map (fun h => b2z (h =? minZ hs)) hs))) l (repeat 0 (num_players c)) = Ok won).
  { rewrite (fold_maps (fun extra => eval_hands c (active s) (hole_cards s) (community_cards s ++ extra)) (fun won hs => add_lists won (map (fun h => b2z (h =? minZ hs)) hs))), Eh. reflexivity. }
  destruct (win_fold c s l W Lh A (repeat 0 (num_players c)) won (repeat_length _ _) E) as [L Nw].
  assert (N' : forall i, (i < num_players c)%nat -> nth i won 0 = Z.of_nat (List.length (filter (fun x => among_best c s (community_cards s ++ x) i) l))).
  { intros i Hi. rewrite (Nw i Hi), nth_repeat_lt by exact Hi. lia. }
  assert (Cs : 0 <= k -> completions_of c s (combs (Z.to_nat k) (d_cards (the_deck s)))).
  { intros Hk. split; [|intros ND; now apply combs_nodup]. intros x. rewrite combs_sublist. split; intros [X Y]; split; try assumption; subst k; lia. }
  assert (Lc : List.length (combs (Z.to_nat k) (d_cards (the_deck s))) = binom N (Z.to_nat k)) by apply combs_length.
  exists l, (sumZ won). split.
  { assert (P : 0 < sumZ won).
    { destruct l as [|x0 l0]; [cbn in Ll; lia|]. cbn [map_res] in Eh.
      destruct (eval_hands c (active s) (hole_cards s) (community_cards s ++ x0)) as [h0|] eqn:E0; [|discriminate Eh].
      pose proof (cw_two _ W) as H2. destruct A as (j & Hj & Aj).
      destruct (best_exists c s x0 h0 W Lh (ex_intro _ j (conj Hj Aj)) E0) as (q & Hq & Bq).
      assert (Nn : forall i, (i < List.length won)%nat -> 0 <= nth i won 0) by (intros i Hi; rewrite N' by lia; lia).
      pose proof (sumZ_nth_le won q Nn ltac:(lia)) as Le. rewrite N' in Le by exact Hq. cbn [filter] in Le. rewrite Bq in Le. cbn [List.length] in Le. lia. }
    exact P. }
  split; [now rewrite map_length|]. split; [now rewrite map_map, map_id|]. split.
  - destruct (Z_lt_le_dec k 0) as [Kn|Kn]; [exfalso|destruct (Z_lt_le_dec (Z.of_nat N) k) as [Kb|Kb]; [exfalso|]].
    + subst cc. rewrite ncr_out in Ecc by lia. change (1 <? 1000) with true in Ecc. unfold combinations in Ecc. replace (k <? 0) with true in Ecc by lia. discriminate Ecc.
    + subst cc. rewrite ncr_out in Ecc by lia. change (1 <? 1000) with true in Ecc. unfold combinations in Ecc. replace (k <? 0) with false in Ecc by lia. injection Ecc as <-.
      rewrite Lc, binom_out in Ll by lia. lia.
    + subst cc. pose proof (ncr_binom N (Z.to_nat k) ltac:(lia)) as Eb. rewrite Z2Nat.id in Eb by exact Kn. rewrite Eb in Ecc, En.
      destruct (Z.of_nat (binom N (Z.to_nat k)) <? 1000) eqn:E1.
      * left. exists l. unfold combinations in Ecc. replace (k <? 0) with false in Ecc by lia. injection Ecc as <-. split; [now apply Cs|]. split; [|reflexivity]. rewrite Lc in *. lia.
      * right. exists (combs (Z.to_nat k) (d_cards (the_deck s))). split; [now apply Cs|]. rewrite Lc. injection Ecc as <-. split; [lia|]. split; [reflexivity|]. lia.
  - intros i Hi. rewrite (map_nth_lt _ _ _ _ 0) by lia. rewrite (N' i Hi). split; [reflexivity|]. cbn [fst].
    intros X. unfold is_active in X. apply not_true_is_false in X. unfold among_best. rewrite X. cbn [andb].
    clear. induction l as [|y l IH]; [reflexivity|]. cbn [filter]. exact IH.
Qed.
Print Assumptions C70_probabilities.

(** Below 1000 completions the two dealers give the same answer, whatever [n] and the samples are. *)
Theorem C70_agrees : forall c s n samples missing, np_fair c s ->
  List.length (hole_cards s) = num_players c -> (exists j, (j < num_players c)%nat /\ is_active s j) ->
  sumZ (num_community_cards c) = Z.of_nat (List.length (community_cards s)) + Z.of_nat missing ->
  (missing <= List.length (d_cards (the_deck s)))%nat -> Z.of_nat (binom (List.length (d_cards (the_deck s))) missing) < 1000 ->
  np_win_probabilities c s n samples = win_probabilities c s.
Proof.
  intros c s n samples k F Lh A Ek Hk Hb. pose proof (mo_cfg _ _ (np_fair_money c s F)) as W.
  unfold np_win_probabilities, win_probabilities, win_counts.
  replace (sumZ (num_community_cards c) - Z.of_nat (List.length (community_cards s))) with (Z.of_nat k) by lia.
  rewrite (ncr_binom _ _ Hk). replace (_ <? 1000) with true by lia.
  unfold combinations. replace (Z.of_nat k <? 0) with false by lia. rewrite Nat2Z.id. cbn [bind].
  pose proof (combs_length (d_cards (the_deck s)) k) as Lc. pose proof (binom_pos (List.length (d_cards (the_deck s))) k Hk) as Bp.
  set (l := combs k (d_cards (the_deck s))) in *.
  rewrite (fold_maps (fun extra => eval_hands c (active s) (hole_cards s) (community_cards s ++ extra)) (fun won hs => add_lists won (map (fun h => b2z (h =? minZ hs)) hs))).
  destruct (map_res _ l) as [hs|] eqn:Eh; [|reflexivity]. cbn [bind]. pose proof (map_res_length _ _ _ Eh) as Ll.
  replace (Nat.eqb (List.length hs) 0) with false by lia. replace (Z.of_nat (List.length hs) =? _) with true by lia. cbn [negb].
  set (won := fold_left _ hs _).
  assert (E : fold_res (fun won extra => let* hs := eval_hands c (active s) (hole_cards s) (community_cards s ++ extra) in
              Ok (add_lists won (map (fun h => b2z (h =? minZ hs)) hs))) l (repeat 0 (num_players c)) = Ok won).
  { rewrite (fold_maps (fun extra => eval_hands c (active s) (hole_cards s) (community_cards s ++ extra)) (fun won hs => add_lists won (map (fun h => b2z (h =? minZ hs)) hs))), Eh. reflexivity. }
  destruct (win_fold c s l W Lh A (repeat 0 (num_players c)) won (repeat_length _ _) E) as [L Nw].
  assert (N' : forall i, (i < num_players c)%nat -> nth i won 0 = Z.of_nat (List.length (filter (fun x => among_best c s (community_cards s ++ x) i) l))).
  { intros i Hi. rewrite (Nw i Hi), nth_repeat_lt by exact Hi. lia. }
  assert (P : 0 < sumZ won).
  { clearbody l. destruct l as [|x0 l0]; [cbn in Ll; cbn in Lc; lia|]. cbn [map_res] in Eh.
    destruct (eval_hands c (active s) (hole_cards s) (community_cards s ++ x0)) as [h0|] eqn:E0; [|discriminate Eh].
    destruct (best_exists c s x0 h0 W Lh A E0) as (q & Hq & Bq).
    assert (Nn : forall i, (i < List.length won)%nat -> 0 <= nth i won 0) by (intros i Hi; rewrite N' by lia; lia).
    pose proof (sumZ_nth_le won q Nn ltac:(lia)) as Le. rewrite N' in Le by exact Hq. cbn [filter] in Le. rewrite Bq in Le. cbn [List.length] in Le. lia. }
  replace (sumZ won =? 0) with false by lia. reflexivity.
Qed.
Print Assumptions C70_agrees.
(** The hand of [C45_example], where all boards are looked at; and a hand before the flop, where two samples are. *)
Definition sample_game := demo 2 4 [1; 2] [0; 0] [RawInf; RawInf; RawInf; RawInf] [RawCountInf; RawCountInf; RawCountInf; RawCountInf] [0; 3; 1; 1] 20.
Definition two_samples := [map demo_card [0; 5; 10; 15; 20]%nat; map demo_card [48; 49; 50; 51; 4]%nat].
Example C70_example :
  (exists c s, np_fair c s /\ List.length (hole_cards s) = num_players c /\ (exists j, (j < num_players c)%nat /\ is_active s j) /\
    np_win_probabilities c s 10000 [] = Ok [(0, 10); (7, 10); (3, 10)]) /\
  (exists c s, np_fair c s /\ List.length (hole_cards s) = num_players c /\ (exists j, (j < num_players c)%nat /\ is_active s j) /\
    ncr (Z.of_nat (List.length (d_cards (the_deck s)))) 5 = 2118760 /\ is_ok (np_win_probabilities c s 2 two_samples) = true).
Proof.
  split.
  - assert (K : exists c s, np_fair c s /\ List.length (hole_cards s) = 3%nat /\ num_players c = 3%nat /\
      np_win_probabilities c s 10000 [] = Ok [(0, 10); (7, 10); (3, 10)] /\ active s = [false; true; true]).
    { np_play win_game (OReset [4; 4; 3; 2; 0; 1; 0]%nat true true :: bets [-1]) c s E. split; [exact (np_played_fair _ _ _ _ E)|]. np_plays E. }
    destruct K as (c & s & R & K1 & K2 & K3 & K4). exists c, s. split; [exact R|]. rewrite K1, K2. split; [reflexivity|].
    split; [exists 1%nat; split; [lia|unfold is_active; now rewrite K4]|]. exact K3.
  - assert (K : exists c s, np_fair c s /\ List.length (hole_cards s) = 2%nat /\ num_players c = 2%nat /\
      ncr (Z.of_nat (List.length (d_cards (the_deck s)))) 5 = 2118760 /\ is_ok (np_win_probabilities c s 2 two_samples) = true /\ active s = [true; true]).
    { np_play sample_game [OReset [] true true] c s E. split; [exact (np_played_fair _ _ _ _ E)|]. np_plays E. }
    destruct K as (c & s & R & K1 & K2 & K3 & K4 & K5). exists c, s. split; [exact R|]. rewrite K1, K2. split; [reflexivity|].
    split; [exists 1%nat; split; [lia|unfold is_active; now rewrite K5]|]. split; [exact K3|exact K4].
Qed.

(** ** C71 Button, positions and turns *)
(** The button moves one seat on with every hand, or to seat 0; what the attribute holds is the number of hands. *)
Theorem C71_button : forall c s rnd rb rs, np_fair c s -> is_ok (snd (np_reset c s rnd rb rs)) = true ->
  let s' := fst (np_reset c s rnd rb rs) in
  button s' = (if rb then 0 else button s + 1)%nat /\
  button_seat c s' = (if rb then 0 else (button_seat c s + 1) mod num_players c)%nat.
Proof.
  intros c s rnd rb rs F Hok. cbv zeta. pose proof (mo_cfg _ _ (np_fair_money c s F)) as W. pose proof (cw_two _ W) as H2.
  assert (E : button (fst (np_reset c s rnd rb rs)) = (if rb then 0 else button s + 1)%nat).
  { unfold np_reset in *. destruct (reset_active c s rs) as [act stk]. destruct (_ && _); [discriminate Hok|].
    destruct (num_community_cards c) as [|cc0 r]; [discriminate Hok|]. destruct (deck_draw _ _) as [comm d1]. destruct (deal_hands _ _ d1) as [holes d2].
    cbn [fst]. rewrite (Nat.mod_small 1) by lia.
    assert (Bm : forall x, button (move_action c x) = button x) by (intros x; unfold move_action; destruct (move_loop _ _ _ _ _ _ _); reflexivity).
    rewrite !Bm.
    repeat match goal with |- context [button (np_collect_multiple_bets c ?x ?y ?z)] => change (button (np_collect_multiple_bets c x y z)) with (button x) end.
    destruct (Nat.ltb 2 (num_players c)); [rewrite Bm|]; destruct rb; reflexivity. }
  split; [exact E|]. unfold button_seat. rewrite E. destruct rb; [now apply Nat.mod_small; lia|]. rewrite (Nat.add_mod_idemp_l (button s)) by lia. reflexivity.
Qed.
Print Assumptions C71_button.
(** Blinds and antes are posted, and the first turn is had, clockwise from the seat of the button. *)
Theorem C71_positions : forall c s rnd rb rs, np_fair c s -> is_ok (snd (np_reset c s rnd rb rs)) = true ->
  let n := num_players c in
  let s' := fst (np_reset c s rnd rb rs) in
  let stack i := if rs then start_stack c else stack_of s i in
  exists start, (start < n)%nat /\ is_active s' start /\
    (n = 2%nat -> start = button_seat c s') /\
    ((2 < n)%nat -> next_in_hand n (active s') (button_seat c s') start) /\
    (exists second a, next_in_hand n (active s') start second /\ action s' = Some a /\ next_in_hand n (active s') second a) /\
    forall k, (k < n)%nat ->
      let seat := ((start + k) mod n)%nat in
      let ante := if (0 <? stack seat) && nth seat (active s') false then nth k (antes c) 0 else 0 in
      let blind := if (0 <? stack seat - ante) && nth seat (active s') false then nth k (blinds c) 0 else 0 in
      committed s' seat = ante + blind /\ street_committed s' seat = blind.
Proof.
  intros c s rnd rb rs F Hok. cbv zeta. pose proof (np_fair_money c s F) as M. pose proof (mo_cfg _ _ M) as W.
  destruct (np_reset_wrap c s rnd rb rs W) as [E1 E2].
  assert (Hok' : is_ok (snd (reset c (wrap c s) rnd rb rs)) = true) by (rewrite <- E2; destruct (snd (np_reset c s rnd rb rs)); [reflexivity|discriminate Hok]).
  pose proof (reset_positions c (wrap c s) rnd rb rs W (mo_wf _ _ M) Hok') as P. cbv zeta in P. rewrite <- E1 in P. exact P.
Qed.
Print Assumptions C71_positions.
(** The turn passes to the next player in the hand; on a new street it starts again after the button. *)
Theorem C71_next : forall c s b a a', np_fair c s -> action s = Some a ->
  let s' := fst (np_step c s b) in
  is_ok (snd (np_step c s b)) = true -> action s' = Some a' ->
  (street s' = street s -> next_in_hand (num_players c) (active s') a a') /\
  (street s' <> street s -> next_in_hand (num_players c) (active s') (button_seat c s') a').
Proof.
  intros c s b a a' F Ha. cbv zeta. intros Hok Ha'. pose proof (np_fair_money c s F) as M. pose proof (mo_cfg _ _ M) as W. pose proof (cw_two _ W) as H2.
  destruct (np_step_anatomy c s b ltac:(lia) M ltac:(rewrite Ha; discriminate)) as [(_ & _ & E)|(s1 & z & H1 & Ez & Eb & Es)]; [rewrite E in Hok; discriminate Hok|].
  assert (Z : fst (np_step c s b) = z).
  { rewrite Es in *. destruct (np_step_end_cases c z) as [(e & _ & E)|[(pay & _ & _ & E)|(pay & _ & _ & E)]]; [rewrite E; reflexivity| |exact E].
    exfalso. rewrite E in Ha'. discriminate Ha'. }
  rewrite Z in *. unfold button_seat. rewrite Eb.
  pose proof (settle_next c (wrap c s) b a s1 W (mo_wf _ _ M) Ha H1 a') as P. rewrite <- Ez in P. exact (P Ha').
Qed.
Print Assumptions C71_next.
Theorem C71_in_hand : forall c s a, np_fair c s -> action s = Some a -> (a < num_players c)%nat /\ is_active s a.
Proof. intros c s a F Ha. exact (wf_turn _ _ (mo_wf _ _ (np_fair_money c s F)) a Ha). Qed.
Print Assumptions C71_in_hand.
(** The button a player observes need not be the number of a seat: it is 3 in the fourth hand of three players. *)
Theorem C71_refuted : ~ forall c s rnd rb rs o, np_fair c s -> snd (np_reset c s rnd rb rs) = Ok o -> (o_button o < num_players c)%nat.
Proof.
  intros H.
  assert (K : exists c s, np_fair c s /\ num_players c = 3%nat /\ map_ok o_button (snd (np_reset c s [] false true)) = Ok 3%nat).
  { np_play no_limit_3 [new_hand; OReset [] false true; OReset [] false true] c s E. split; [exact (np_played_fair _ _ _ _ E)|]. np_plays E. }
  destruct K as (c & s & F & K1 & K2). destruct (snd (np_reset c s [] false true)) as [o|] eqn:E; [|discriminate K2].
  cbn [map_ok] in K2. injection K2 as K2. specialize (H c s [] false true o F E). lia.
Qed.
Print Assumptions C71_refuted.
(** the fourth hand: the attribute is 3, the seat 0; seats 1 and 2 post, seat 0 acts, then seat 1; the flop starts at seat 1 *)
Example C71_example : exists c s, np_fair c s /\ button s = 3%nat /\ button_seat c s = 0%nat /\ num_players c = 3%nat /\
  pot_commits s = [0; 1; 2] /\ action s = Some 0%nat /\
  action (np_run_steps c s (map PyInt [2])) = Some 1%nat /\
  street (np_run_steps c s (map PyInt [2; 1; 0])) = 1%nat /\ action (np_run_steps c s (map PyInt [2; 1; 0])) = Some 1%nat.
Proof. np_play no_limit_3 [new_hand; OReset [] false true; OReset [] false true; OReset [] false true] c s E. split; [exact (np_played_fair _ _ _ _ E)|]. np_plays E. Qed.
