(** * PropFloat: C77, the floats returned by [win_probabilities] *)
From Coq Require Import ZifyBool ZifyNat Arith Qabs Lqa Lia Permutation.
From Verif Require Import PyBase PyFacts CardModel CardSpec CardProofs DeckProofs EvalModel EvalSpec EvalCount EvalFinal EngineModel EngineSpec EngineFacts BetFacts EngineDemo MoneyFacts PropRound ShowSpec HandEnd PropWin NumpyModel NumpySpec NumpyFacts PropNumpy PropNumpyWin FloatModel FloatSpec FloatFacts.

Local Open Scope Q_scope.

(** ** Specification *)
(** on how many of the boards [l] the player is among the best *)
Definition wins (c : config) (s : state) (l : list (list card)) (i : nat) : Z :=
  Z.of_nat (List.length (filter (fun x => among_best c s (community_cards s ++ x) i) l)).
(** ... and how many such wins there are altogether *)
Definition all_wins (c : config) (s : state) (l : list (list card)) : Z :=
  sumZ (map (wins c s l) (seq 0 (num_players c))).
(** the exact sum of a list of numbers *)
Fixpoint sumQ (l : list Q) : Q := match l with [] => 0 | x :: r => x + sumQ r end.
(** what is wanted of the floats for the boards [l] *)
Definition float_shares (c : config) (s : state) (l : list (list card)) (fs : list Q) : Prop :=
  (0 < all_wins c s l)%Z /\ List.length fs = num_players c /\
  forall i, (i < num_players c)%nat -> rounds_to (inject_Z (wins c s l i) / inject_Z (all_wins c s l)) (nth i fs 0).

Lemma list_as_map {A} (l : list A) d : l = map (fun i => nth i l d) (seq 0 (List.length l)).
Proof.
  induction l as [|x l IH]; [reflexivity|]. cbn [List.length seq map nth]. f_equal. rewrite <- seq_shift, map_map. exact IH.
Qed.
Lemma wins_range c s l i : (i < num_players c)%nat -> (0 <= wins c s l i <= all_wins c s l)%Z.
Proof.
  intros Hi. split; [unfold wins; lia|]. unfold all_wins.
  pose proof (sumZ_nth_le (map (wins c s l) (seq 0 (num_players c))) i) as X. rewrite map_length, seq_length in X.
  rewrite (map_nth_lt _ _ _ _ 0%nat) in X by (rewrite seq_length; exact Hi). rewrite seq_nth in X by exact Hi. apply X; [|exact Hi].
  intros j Hj. rewrite (map_nth_lt _ _ _ _ 0%nat) by (rewrite seq_length; exact Hj). unfold wins. lia.
Qed.
Lemma shares_of c s l total ps : (0 < total)%Z -> List.length ps = num_players c -> sumZ (map fst ps) = total ->
  (forall i, (i < num_players c)%nat -> nth i ps (0, 0)%Z = (wins c s l i, total)) ->
  let fs := map (fun p => true_div (fst p) (snd p)) ps in
  total = all_wins c s l /\ float_shares c s l fs /\ (forall i, (i < num_players c)%nat -> nth i fs 0 = true_div (wins c s l i) (all_wins c s l)).
Proof.
  intros T L S N. cbv zeta.
  assert (E : total = all_wins c s l).
  { rewrite <- S. rewrite (list_as_map ps (0, 0)%Z), L, map_map. unfold all_wins. f_equal. apply map_ext_in. intros i Hi. apply in_seq in Hi. rewrite N by lia. reflexivity. }
  assert (Nf : forall i, (i < num_players c)%nat -> nth i (map (fun p => true_div (fst p) (snd p)) ps) 0 = true_div (wins c s l i) (all_wins c s l)).
  { intros i Hi. rewrite (map_nth_lt _ _ _ _ (0, 0)%Z) by lia. rewrite N by exact Hi. cbn [fst snd]. now rewrite E. }
  split; [exact E|]. split; [|exact Nf]. split; [lia|]. split; [now rewrite map_length|]. intros i Hi. rewrite Nf by exact Hi.
  pose proof (wins_range c s l i Hi). apply true_div_rounds; lia.
Qed.

(** ** C77 Win probabilities as floats *)
(** Every float is the double nearest to the exact share of wins over all completions of the board. *)
Theorem C77_rounded : forall c s fs, reachable c s ->
  List.length (hole_cards s) = num_players c -> (exists j, (j < num_players c)%nat /\ is_active s j) ->
  float_probabilities c s = Ok fs ->
  exists l, completions_of c s l /\ float_shares c s l fs.
Proof.
  intros c s fs R Lh A H. unfold float_probabilities in H. destruct (win_probabilities c s) as [ps|] eqn:E; [|discriminate H]. cbn [bind] in H.
  injection H as H. destruct (C45_probabilities c s ps R Lh A E) as (l & total & Hl & T & L & S & N).
  exists l. split; [exact Hl|]. rewrite <- H. apply (shares_of c s l total ps T L S). intros i Hi. apply (N i Hi).
Qed.
Print Assumptions C77_rounded.

(** The same at the array dealer, over the boards it looks at (C70). *)
Theorem C77_rounded_array : forall c s n samples fs, np_fair c s ->
  List.length (hole_cards s) = num_players c -> (exists j, (j < num_players c)%nat /\ is_active s j) ->
  np_float_probabilities c s n samples = Ok fs ->
  exists l, float_shares c s l fs /\
    ((completions_of c s l /\ (0 < Z.of_nat (List.length l) < 1000)%Z) \/ (l = firstn (Z.to_nat n) samples /\ Z.of_nat (List.length l) = n)).
Proof.
  intros c s n samples fs R Lh A H. unfold np_float_probabilities in H. destruct (np_win_probabilities c s n samples) as [ps|] eqn:E; [|discriminate H]. cbn [bind] in H.
  injection H as H. destruct (C70_probabilities c s n samples ps R Lh A E) as (l & total & T & L & S & Hl & N).
  exists l. split.
  - rewrite <- H. apply (shares_of c s l total ps T L S). intros i Hi. apply (N i Hi).
  - destruct Hl as [(all & X1 & X2 & X3)|(all & X1 & X2 & X3 & X4)]; [left|right]; [subst all|]; auto.
Qed.
Print Assumptions C77_rounded_array.

(** The nearest double is unique, so the shares determine the floats. *)
Theorem C77_determined : forall c s l fs gs, float_shares c s l fs -> float_shares c s l gs ->
  forall i, nth i fs 0 == nth i gs 0.
Proof.
  intros c s l fs gs (T & L & F) (_ & L' & G) i. destruct (le_lt_dec (num_players c) i) as [O|O]; [rewrite !nth_overflow by lia; reflexivity|].
  apply (rounds_unique (inject_Z (wins c s l i) / inject_Z (all_wins c s l))); [|now apply F|now apply G].
  apply Qle_shift_div_l; [now apply inject_pos|]. rewrite Qmult_0_l. change 0 with (inject_Z 0). rewrite <- Zle_Qle. now apply wins_range.
Qed.
Print Assumptions C77_determined.

(** The floats are in the order of the numbers of wins, lie between 0 and 1, and folded players have exactly 0. *)
Lemma share_facts c s l i : (0 < all_wins c s l)%Z -> (i < num_players c)%nat ->
  let q := inject_Z (wins c s l i) / inject_Z (all_wins c s l) in 0 <= q <= 1 /\ q * inject_Z (all_wins c s l) == inject_Z (wins c s l i).
Proof.
  intros T Hi. cbv zeta. pose proof (wins_range c s l i Hi) as R. pose proof (inject_pos _ T) as P. split; [split|].
  - apply Qle_shift_div_l; [exact P|]. rewrite Qmult_0_l. change 0 with (inject_Z 0). rewrite <- Zle_Qle. lia.
  - apply Qle_shift_div_r; [exact P|]. rewrite Qmult_1_l, <- Zle_Qle. lia.
  - field. lra.
Qed.
Theorem C77_range : forall c s l fs, float_shares c s l fs -> forall i, (i < num_players c)%nat ->
  0 <= nth i fs 0 <= 1 /\ (wins c s l i = 0%Z -> nth i fs 0 == 0) /\ (wins c s l i = all_wins c s l -> nth i fs 0 == 1) /\ (~ is_active s i -> nth i fs 0 == 0).
Proof.
  intros c s l fs (T & L & F) i Hi. destruct (share_facts c s l i T Hi) as [Q1 Q2]. pose proof (inject_pos _ T) as P.
  specialize (F i Hi). set (q := inject_Z (wins c s l i) / inject_Z (all_wins c s l)) in *.
  assert (Z0 : wins c s l i = 0%Z -> nth i fs 0 == 0).
  { intros E. rewrite E in Q2. change (inject_Z 0) with 0 in Q2. assert (Eq : q == 0) by nra. destruct F as (_ & N & _).
    specialize (N _ (double_int 0 ltac:(reflexivity))). change (inject_Z 0) with 0 in N. rewrite Eq in N. change (Qabs (0 - 0)) with 0 in N. qabs; lra. }
  split; [exact (rounds_range q _ Q1 F)|]. split; [exact Z0|]. split.
  - intros E. rewrite E in Q2. assert (Eq : q == 1) by nra. destruct F as (_ & N & _).
    specialize (N _ (double_int 1 ltac:(reflexivity))). change (inject_Z 1) with 1 in N. rewrite Eq in N. change (Qabs (1 - 1)) with 0 in N. qabs; lra.
  - intros X. apply Z0. unfold is_active in X. apply not_true_is_false in X. unfold wins, among_best. rewrite X. cbn [andb].
    clear. induction l as [|y l IH]; [reflexivity|]. cbn [filter]. exact IH.
Qed.
Print Assumptions C77_range.
Theorem C77_order : forall c s l fs, float_shares c s l fs -> forall i j, (i < num_players c)%nat -> (j < num_players c)%nat ->
  (wins c s l i <= wins c s l j)%Z -> nth i fs 0 <= nth j fs 0.
Proof.
  intros c s l fs (T & L & F) i j Hi Hj H. destruct (share_facts c s l i T Hi) as [_ Q2]. destruct (share_facts c s l j T Hj) as [Q3 Q4]. pose proof (inject_pos _ T) as P.
  destruct (Z.eq_dec (wins c s l i) (wins c s l j)) as [E|E].
  - pose proof (F i Hi) as A. pose proof (F j Hj) as B. rewrite E in A. rewrite (rounds_unique _ _ _ (proj1 Q3) A B). lra.
  - apply (rounds_mono _ _ _ _) with (2 := F i Hi) (3 := F j Hj). apply (Qmult_lt_r _ _ _ P). rewrite Q2, Q4, <- Zlt_Qlt. lia.
Qed.
Print Assumptions C77_order.

(** Every float is within 2^-54 of the exact share, and their sum within n * 2^-54 of one. *)
Lemma share_error c s l fs : float_shares c s l fs -> forall i, (i < num_players c)%nat ->
  Qabs (nth i fs 0 - inject_Z (wins c s l i) / inject_Z (all_wins c s l)) <= 1 # Z.to_pos (2 ^ 54).
Proof.
  intros (T & L & F) i Hi. destruct (share_facts c s l i T Hi) as [Q1 _]. pose proof (wins_range c s l i Hi) as R.
  rewrite (rounds_unique _ _ _ (proj1 Q1) (F i Hi) (true_div_rounds (wins c s l i) (all_wins c s l) ltac:(lia) T)). now apply true_div_error.
Qed.
Lemma sumQ_error (f g : nat -> Q) t : forall l, (forall i, In i l -> Qabs (f i - g i) <= t) ->
  Qabs (sumQ (map f l) - sumQ (map g l)) <= inject_Z (Z.of_nat (List.length l)) * t.
Proof.
  induction l as [|i l IH]; intros H; [change (0 <= 0 * t); lra|]. cbn [map sumQ List.length].
  assert (E : inject_Z (Z.of_nat (S (List.length l))) == inject_Z (Z.of_nat (List.length l)) + 1) by (rewrite Nat2Z.inj_succ, <- Z.add_1_r, inject_Z_plus; reflexivity).
  rewrite E. specialize (IH (fun j Hj => H j (or_intror Hj))). specialize (H i (or_introl eq_refl)).
  set (n := inject_Z (Z.of_nat (List.length l))) in *. setoid_replace (f i + sumQ (map f l) - (g i + sumQ (map g l))) with ((f i - g i) + (sumQ (map f l) - sumQ (map g l))) by ring.
  pose proof (Qabs_triangle (f i - g i) (sumQ (map f l) - sumQ (map g l))). lra.
Qed.
Lemma sumQ_shares (w : nat -> Z) t : ~ t == 0 -> forall l, sumQ (map (fun i => inject_Z (w i) / t) l) * t == inject_Z (sumZ (map w l)).
Proof.
  intros T. induction l as [|i l IH]; [reflexivity|]. cbn [map sumQ]. rewrite sumZ_cons, inject_Z_plus, <- IH. field. exact T.
Qed.
Theorem C77_sum : forall c s l fs, float_shares c s l fs ->
  Qabs (sumQ fs - 1) <= inject_Z (Z.of_nat (num_players c)) * (1 # Z.to_pos (2 ^ 54)).
Proof.
  intros c s l fs Sh. pose proof (share_error c s l fs Sh) as Er. destruct Sh as (T & L & F). pose proof (inject_pos _ T) as P.
  pose proof (sumQ_error (fun i => nth i fs 0) (fun i => inject_Z (wins c s l i) / inject_Z (all_wins c s l)) _ (seq 0 (num_players c))
                (fun i Hi => Er i (proj2 (proj1 (in_seq _ _ _) Hi)))) as X.
  rewrite seq_length in X. rewrite <- L in X at 1. rewrite <- (list_as_map fs 0) in X.
  pose proof (sumQ_shares (wins c s l) (inject_Z (all_wins c s l)) ltac:(lra) (seq 0 (num_players c))) as Y.
  change (sumZ (map (wins c s l) (seq 0 (num_players c)))) with (all_wins c s l) in Y.
  set (g := sumQ (map (fun i => inject_Z (wins c s l i) / inject_Z (all_wins c s l)) (seq 0 (num_players c)))) in *.
  assert (G : g == 1) by (clearbody g; nra). rewrite G in X. exact X.
Qed.
Print Assumptions C77_sum.

(** Below 2^53 wins nothing is lost by rounding: zero, one and the order of the floats are those of the exact shares. *)
Theorem C77_faithful : forall c s l fs, float_shares c s l fs -> (all_wins c s l < 2 ^ 53)%Z ->
  forall i, (i < num_players c)%nat ->
  (nth i fs 0 == 0 <-> wins c s l i = 0%Z) /\ (nth i fs 0 == 1 <-> wins c s l i = all_wins c s l) /\
  forall j, (j < num_players c)%nat -> (nth i fs 0 < nth j fs 0 <-> (wins c s l i < wins c s l j)%Z).
Proof.
  intros c s l fs Sh B i Hi. destruct (C77_range c s l fs Sh i Hi) as (_ & R0 & R1 & _). pose proof (C77_order c s l fs Sh) as Or.
  assert (St : forall i j, (i < num_players c)%nat -> (j < num_players c)%nat -> (wins c s l i < wins c s l j)%Z -> nth i fs 0 < nth j fs 0).
  { clear i Hi R0 R1. intros i j Hi Hj H. pose proof (share_error c s l fs Sh i Hi) as Ei. pose proof (share_error c s l fs Sh j Hj) as Ej.
    destruct Sh as (T & L & F). destruct (share_facts c s l i T Hi) as [_ Q2]. destruct (share_facts c s l j T Hj) as [_ Q4]. pose proof (inject_pos _ T) as P.
    set (qi := inject_Z (wins c s l i) / inject_Z (all_wins c s l)) in *. set (qj := inject_Z (wins c s l j) / inject_Z (all_wins c s l)) in *.
    assert (H1 : (wins c s l i + 1 <= wins c s l j)%Z) by lia. rewrite Zle_Qle, inject_Z_plus in H1. change (inject_Z 1) with 1 in H1.
    rewrite Zlt_Qlt in B. set (t := inject_Z (all_wins c s l)) in *.
    assert (G : (qj - qi) * t >= 1) by lra. assert (D : (1 # Z.to_pos (2 ^ 53)) < qj - qi).
    { apply (Qmult_lt_r _ _ t P). eapply Qlt_le_trans; [|exact G]. 
      assert (W : (1 # Z.to_pos (2 ^ 53)) * inject_Z (2 ^ 53) == 1) by reflexivity. assert (W0 : 0 < 1 # Z.to_pos (2 ^ 53)) by reflexivity.
      rewrite <- W. rewrite !(Qmult_comm (1 # _)). apply Qmult_lt_r; assumption. }
    assert (W : (1 # Z.to_pos (2 ^ 53)) == (2 # 1) * (1 # Z.to_pos (2 ^ 54))) by reflexivity. rewrite W in D. set (u := 1 # Z.to_pos (2 ^ 54)) in *. clearbody u qi qj. clear W F Q2 Q4 G H1. qabs; lra. }
  destruct Sh as (T & L & F). pose proof (wins_range c s l i Hi) as R. pose proof (inject_pos _ T) as P. destruct (share_facts c s l i T Hi) as [Q1 Q2]. specialize (F i Hi).
  set (q := inject_Z (wins c s l i) / inject_Z (all_wins c s l)) in *. rewrite Zlt_Qlt in B. set (t := inject_Z (all_wins c s l)) in *.
  split; [split; [|exact R0]|split; [split; [|exact R1]|]].
  - intros E. destruct (Z.eq_dec (wins c s l i) 0) as [Z0|Z0]; [exact Z0|exfalso]. assert (0 < nth i fs 0); [|lra]. apply (rounds_zero q); [|exact F].
    assert (H1 : (1 <= wins c s l i)%Z) by lia. rewrite Zle_Qle in H1. change (inject_Z 1) with 1 in H1.
    apply (Qmult_le_r _ _ t P). rewrite Q2. eapply Qle_trans; [|exact H1].
    assert (W : (2 # 1) ^ (-1074) * inject_Z (2 ^ 53) <= 1) by (vm_compute; discriminate). assert (W0 : 0 < (2 # 1) ^ (-1074)) by apply two_pow_pos.
    set (u := (2 # 1) ^ (-1074)) in *. clearbody u. nra.
  - intros E. destruct (Z.eq_dec (wins c s l i) (all_wins c s l)) as [Z1|Z1]; [exact Z1|exfalso]. assert (nth i fs 0 < 1); [|lra]. apply (rounds_one q); [|exact F].
    assert (H1 : (wins c s l i + 1 <= all_wins c s l)%Z) by lia. rewrite Zle_Qle, inject_Z_plus in H1. change (inject_Z 1) with 1 in H1. fold t in H1.
    apply (Qmult_lt_r _ _ t P). rewrite Q2.
    assert (W : (2 # 1) ^ (-54) * inject_Z (2 ^ 53) == 1 # 2) by reflexivity. assert (W0 : 0 < (2 # 1) ^ (-54)) by apply two_pow_pos.
    set (u := (2 # 1) ^ (-54)) in *. clearbody u. nra.
  - intros j Hj. split; [|now apply St]. intros H. destruct (Z_lt_le_dec (wins c s l i) (wins c s l j)) as [X|X]; [exact X|exfalso].
    pose proof (Or j i Hj Hi X). lra.
Qed.
Print Assumptions C77_faithful.

(** Hands in which every player holds a card of the deck are below that bound: [n] players and at most [52 - n] undealt cards. *)
Lemma binom_pow n : forall k, (Z.of_nat (binom n k) <= 2 ^ Z.of_nat n)%Z.
Proof.
  induction n as [|n IH]; intros k.
  - destruct k; cbn; lia.
  - destruct k as [|k]; cbn [binom].
    + pose proof (Z.pow_pos_nonneg 2 (Z.of_nat (S n)) ltac:(lia) ltac:(lia)). lia.
    + rewrite Nat2Z.inj_succ, Z.pow_succ_r by lia. pose proof (IH k). pose proof (IH (S k)). lia.
Qed.
Lemma less_pow n : (Z.of_nat n < 2 ^ Z.of_nat n)%Z.
Proof. induction n as [|n IH]; [reflexivity|]. rewrite Nat2Z.inj_succ, Z.pow_succ_r by lia. lia. Qed.
Lemma all_wins_bound c s l : (all_wins c s l <= Z.of_nat (num_players c) * Z.of_nat (List.length l))%Z.
Proof.
  unfold all_wins. rewrite <- (seq_length (num_players c) 0) at 2. induction (seq 0 (num_players c)) as [|i r IH]; [cbn; lia|].
  cbn [map List.length]. rewrite sumZ_cons. assert (wins c s l i <= Z.of_nat (List.length l))%Z; [|lia].
  unfold wins. apply inj_le. clear. induction l as [|x l IH]; [reflexivity|]. cbn [filter List.length]. destruct (among_best _ _ _ _); cbn [List.length]; lia.
Qed.
Lemma concat_least (l : list (list card)) n : List.length l = n -> (forall i, (i < n)%nat -> nth i l [] <> []) -> (n <= List.length (List.concat l))%nat.
Proof.
  revert n. induction l as [|x l IH]; intros n L H; [cbn in L; lia|]. cbn [List.concat List.length] in *. rewrite app_length.
  destruct n as [|n]; [lia|]. specialize (IH n ltac:(lia) (fun i Hi => H (S i) ltac:(lia))). pose proof (H O ltac:(lia)) as H0. cbn [nth] in H0.
  destruct x; [contradiction|]. cbn [List.length]. lia.
Qed.
Lemma nodup_last {A} (a b : list A) : NoDup (a ++ b) -> NoDup b.
Proof. induction a as [|x a IH]; intros H; [exact H|]. inversion H; subst. now apply IH. Qed.
Theorem C77_dealt : forall w rnd c s0 ops, Dealer rnd w = Ok (c, s0) -> all_allowed c s0 ops = true -> distinct_trick_ops ops ->
  let s := run c s0 ops in
  List.length (hole_cards s) = num_players c -> (forall i, (i < num_players c)%nat -> nth i (hole_cards s) [] <> []) ->
  forall l, completions_of c s l -> (all_wins c s l < 2 ^ 53)%Z.
Proof.
  intros w rnd c s0 ops H Al D. cbv zeta. pose proof (C30_no_card_twice w rnd c s0 ops H Al D) as X. cbv zeta in X. set (s := run c s0 ops) in *. destruct X as [Pm Nd].
  intros Lh Hh l [Hl Hn].
  assert (Len : (List.length (community_cards s) + (List.length (List.concat (hole_cards s)) + List.length (d_cards (the_deck s))) <= 52)%nat).
  { rewrite <- !app_length, (Permutation_length Pm).
    assert (Dw : exists d, deck_wf (Z.to_nat (rw_num_suits w)) (Z.to_nat (rw_num_ranks w)) d).
    { pose proof (Dealer_inv _ _ _ _ H) as B. destruct (new_deck_inv _ _ _ _ (bd_deck _ _ _ _ B)) as [D1 D2 D3]. eexists. exact D1. }
    destruct Dw as [d Dw]. rewrite deck_cards_length. pose proof (dw_s _ _ _ Dw). pose proof (dw_r _ _ _ Dw). nia. }
  pose proof (concat_least _ _ Lh Hh) as Lc.
  assert (Ll : (Z.of_nat (List.length l) <= 2 ^ Z.of_nat (List.length (d_cards (the_deck s))))%Z).
  { set (k := Z.to_nat (sumZ (num_community_cards c) - Z.of_nat (List.length (community_cards s)))).
    pose proof (binom_pow (List.length (d_cards (the_deck s))) k) as Bp. rewrite <- combs_length in Bp. eapply Z.le_trans; [|exact Bp]. apply inj_le.
    apply NoDup_incl_length.
    - apply Hn. apply (NoDup_map_inv c_int). rewrite !map_app in Nd. exact (nodup_last _ _ (nodup_last _ _ Nd)).
    - intros x Hx. apply Hl in Hx. apply combs_sublist. split; [|apply Hx]. destruct Hx as [_ Hx]. subst k. lia. }
  pose proof (all_wins_bound c s l) as Bw. pose proof (less_pow (num_players c)) as Pn.
  assert (G : (2 ^ Z.of_nat (num_players c) * 2 ^ Z.of_nat (List.length (d_cards (the_deck s))) <= 2 ^ 52)%Z).
  { rewrite <- Z.pow_add_r by lia. apply Z.pow_le_mono_r; lia. }
  change (2 ^ 53)%Z with (2 * 2 ^ 52)%Z. set (W := (2 ^ 52)%Z) in *. assert (0 < W)%Z by (subst W; reflexivity). clearbody W.
  set (u := (2 ^ Z.of_nat (num_players c))%Z) in *. set (v := (2 ^ Z.of_nat (List.length (d_cards (the_deck s))))%Z) in *. nia.
Qed.
Print Assumptions C77_dealt.

(** The hand of [C45_example]: 7/10 and 3/10 are not doubles; the floats are the usual 0.7 and 0.3, and their exact sum is not one. *)
Example C77_example : exists c s l fs, reachable c s /\ List.length (hole_cards s) = num_players c /\ (exists j, (j < num_players c)%nat /\ is_active s j) /\
  (forall i, (i < num_players c)%nat -> nth i (hole_cards s) [] <> []) /\
  float_probabilities c s = Ok fs /\ float_shares c s l fs /\ all_wins c s l = 10%Z /\
  nth 0 fs 0 == 0 /\ nth 1 fs 0 == 6305039478318694 # 9007199254740992 /\ nth 2 fs 0 == 5404319552844595 # 18014398509481984 /\
  sumQ fs == 1 - (1 # 18014398509481984).
Proof.
  assert (K : exists c s, reachable c s /\ List.length (hole_cards s) = 3%nat /\ num_players c = 3%nat /\
    win_probabilities c s = Ok [(0, 10); (7, 10); (3, 10)]%Z /\ active s = [false; true; true] /\ map (@List.length card) (hole_cards s) = [1; 1; 1]%nat).
  { play win_game (OReset [4; 4; 3; 2; 0; 1; 0]%nat true true :: bets [-1]%Z) c s E. split; [exact (played_reachable _ _ _ _ E)|]. plays E. }
  destruct K as (c & s & R & K1 & K2 & K3 & K4 & K5).
  assert (Lh : List.length (hole_cards s) = num_players c) by now rewrite K1, K2.
  assert (A : exists j, (j < num_players c)%nat /\ is_active s j) by (exists 1%nat; split; [lia|unfold is_active; now rewrite K4]).
  destruct (C45_probabilities c s _ R Lh A K3) as (l & total & Hl & T & L & S & N).
  assert (E : float_probabilities c s = Ok (map (fun p => true_div (fst p) (snd p)) [(0, 10); (7, 10); (3, 10)]%Z)) by (unfold float_probabilities; rewrite K3; reflexivity).
  destruct (shares_of c s l total _ T L S (fun i Hi => proj1 (N i Hi))) as (E1 & E2 & _).
  exists c, s, l, (map (fun p => true_div (fst p) (snd p)) [(0, 10); (7, 10); (3, 10)]%Z).
  split; [exact R|]. split; [exact Lh|]. split; [exact A|]. split.
  { intros i Hi X. rewrite K2 in Hi. assert (Y : nth i (map (@List.length card) (hole_cards s)) 0%nat = 0%nat) by (change 0%nat with (List.length (@nil card)); rewrite map_nth, X; reflexivity).
    rewrite K5 in Y. destruct i as [|[|[|i]]]; cbn in Y; lia. }
  split; [exact E|]. split; [exact E2|]. split; [rewrite <- E1, <- S; reflexivity|].
  split; [reflexivity|]. split; [reflexivity|]. split; reflexivity.
Qed.
