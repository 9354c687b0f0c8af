(** * PropCover: property C87 (nobody wins more from another player than they put in themselves) *)
From Coq Require Import ZifyBool ZifyNat Arith.
From Verif Require Import PyBase PyFacts CardModel EvalModel EngineModel EngineSpec EngineFacts BetFacts EngineDemo MoneyFacts
  PropRound ShowSpec ShowFacts SideFacts SideExists HandEnd PropSide SolventSpec
  NumpyModel NumpySpec NumpyFacts PropNumpy.

(** the chips of all players, of each of them at most as many as seat [i] has put in; the own chips
    of seat [i] are among them *)
Definition matched (c : config) (s : state) (i : nat) : Z :=
  sumZ (map (fun j => Z.min (committed s j) (committed s i)) (seq 0 (num_players c))).

Lemma matched_own c s i : (forall j, 0 <= committed s j) -> (i < num_players c)%nat -> committed s i <= matched c s i.
Proof.
  intros Hn Hi. unfold matched. assert (Hin : In i (seq 0 (num_players c))) by (apply in_seq; lia). revert Hin. generalize (seq 0 (num_players c)).
  assert (G : forall l, 0 <= sumZ (map (fun j => Z.min (committed s j) (committed s i)) l)).
  { induction l as [|j l IH]; [cbn; lia|]. cbn [map]. rewrite sumZ_cons. pose proof (Hn j). pose proof (Hn i). lia. }
  induction l as [|j l IH]; intros []; cbn [map]; rewrite sumZ_cons; [subst j; pose proof (G l); lia|]. specialize (IH H). pose proof (Hn j). pose proof (Hn i). lia.
Qed.
Lemma matched_all c s i : List.length (pot_commits s) = num_players c -> (forall j, (j < num_players c)%nat -> committed s j <= committed s i) ->
  matched c s i = sumZ (pot_commits s).
Proof.
  intros L H. unfold matched. transitivity (sumZ (map (fun j => nth j (pot_commits s) 0) (seq 0 (num_players c)))).
  - f_equal. apply map_ext_in. intros j Hj. apply in_seq in Hj. unfold committed in *. specialize (H j). lia.
  - rewrite <- L. f_equal. clear. induction (pot_commits s) as [|x l IH]; [reflexivity|]. cbn [List.length seq map nth]. f_equal. rewrite <- seq_shift, map_map. exact IH.
Qed.
Lemma odd_pots_nonneg d a p : side_pots d a p -> 0 <= odd_chips p.
Proof.
  induction 1 as [a H|a w b r Hw (i & Hi & Hib) Hb S IH]; [cbn; lia|]. unfold odd_chips in *. cbn [map]. rewrite sumZ_cons. cbn [fst snd].
  destruct w as [|x w]; [destruct Hi|]. pose proof (Z.mod_pos_bound (chips_between d a b) (Z.of_nat (List.length (x :: w)))) as B. cbn [List.length] in *. lia.
Qed.
(** the hands that end without a showdown *)
Lemma matched_fold c z pay : List.length (active z) = num_players c -> List.length (pot_commits z) = num_players c -> pot z = sumZ (pot_commits z) ->
  (forall i, 0 <= committed z i) -> covered_folds (show_of c z) -> count_true (active z) = 1 \/ (street z < num_streets c)%nat -> payouts c z = Ok pay ->
  forall i, (i < num_players c)%nat -> nth i pay 0 + committed z i <= matched c z i.
Proof.
  intros La Lc Hpot Hn Cov Hc P i Hi. pose proof (matched_own c z i Hn Hi) as Ow. pose proof (Hn i) as Hni.
  destruct (Z.eq_dec (count_true (active z)) 1) as [C|C].
  - destruct (payouts_fold c z C La Lc) as (pay' & P' & H). rewrite P in P'. injection P' as <-. rewrite (H i Hi). destruct (nth i (active z) false) eqn:Ai; [|lia].
    rewrite (matched_all c z i Lc); [lia|]. intros j Hj. destruct (nth j (active z) false) eqn:Aj.
    + rewrite (count_true_one _ i j C Ai Aj). lia.
    + destruct (Cov j Hj Aj) as (k & _ & Ak & Le). cbn [show_of sd_in sd_put] in Ak, Le. now rewrite (count_true_one _ i k C Ai Ak).
  - destruct (payouts_early c z C ltac:(lia) La Lc) as (pay' & P' & H). rewrite P in P'. injection P' as <-. rewrite (H i Hi). destruct (nth i (active z) false); lia.
Qed.

(** ** C87 Nobody wins more from another player than they put in themselves *)
(** The list dealer: however the hand ends, if the folded players are covered and the ties regular
    (C34), everybody takes from the table at most what everybody put in up to their own amount,
    except for the odd chips of the side pots, which go to one player. *)
Theorem C87_partial : forall c s b, fair c s -> in_progress s ->
  let s' := fst (step c s b) in
  action s' = None -> covered_folds (show_of c s') -> regular_ties (show_of c s') ->
  exists out pots q, snd (step c s b) = Ok out /\ side_pots (show_of c s') 0 pots /\ 0 <= odd_chips pots /\
    forall i, (i < num_players c)%nat ->
      nth i (out_payouts out) 0 + committed s' i <= matched c s' i + (if Nat.eqb i q then odd_chips pots else 0).
Proof.
  intros c s b F Hp. cbv zeta. intros Hn Cov Reg.
  destruct (Z_le_gt_dec 2 (count_true (active (fst (step c s b))))) as [Hc|Hc]; [destruct (le_lt_dec (num_streets c) (street (fst (step c s b)))) as [Hs|Hs]|].
  - destruct (C34_partial c s b F Hp Hn Hc Hs Cov Reg) as (out & pots & H1 & _ & H3 & (q & _ & H4) & H5).
    exists out, pots, q. split; [exact H1|]. split; [exact H3|]. split; [exact (odd_pots_nonneg _ _ _ H3)|].
    intros i Hi. rewrite (H4 i Hi). pose proof (H5 i Hi) as X. unfold matched. lia.
  - destruct (step_ended c s b F Hp Hn) as (z & pay & o & E). pose proof (en_settled _ _ _ _ _ _ E) as Z. destruct (side_pots_exist (show_of c (fst (step c s b))) 0) as (pots & SP).
    pose proof (odd_pots_nonneg _ _ _ SP) as On. exists (mkOut o pay (done_list c z)), pots, O. split; [apply E|]. split; [exact SP|]. split; [exact On|].
    rewrite (show_of_same _ _ _ _ Z) in Cov. destruct (se_same _ _ _ _ Z) as (E1 & E2 & E3 & _). rewrite E3 in Hs.
    intros i Hi. pose proof (matched_fold c z pay (se_active _ _ _ _ Z) (HandEnd.se_commits _ _ _ _ Z) (se_pot _ _ _ _ Z) (se_nonneg _ _ _ _ Z) Cov (or_intror Hs) (en_pay _ _ _ _ _ _ E) i Hi) as X.
    unfold matched, committed in *. rewrite E2. cbn [out_payouts]. destruct (Nat.eqb i 0); lia.
  - destruct (step_ended c s b F Hp Hn) as (z & pay & o & E). pose proof (en_settled _ _ _ _ _ _ E) as Z. destruct (side_pots_exist (show_of c (fst (step c s b))) 0) as (pots & SP).
    pose proof (odd_pots_nonneg _ _ _ SP) as On. exists (mkOut o pay (done_list c z)), pots, O. split; [apply E|]. split; [exact SP|]. split; [exact On|].
    rewrite (show_of_same _ _ _ _ Z) in Cov. destruct (se_same _ _ _ _ Z) as (E1 & E2 & E3 & _). rewrite E1 in Hc.
    assert (C1 : count_true (active z) = 1) by (pose proof (se_count _ _ _ _ Z); lia).
    intros i Hi. pose proof (matched_fold c z pay (se_active _ _ _ _ Z) (HandEnd.se_commits _ _ _ _ Z) (se_pot _ _ _ _ Z) (se_nonneg _ _ _ _ Z) Cov (or_introl C1) (en_pay _ _ _ _ _ _ E) i Hi) as X.
    unfold matched, committed in *. rewrite E2. cbn [out_payouts]. destruct (Nat.eqb i 0); lia.
Qed.
Print Assumptions C87_partial.

(** Without regular ties it is false: seat 0, all in for a single chip, takes 19 chips, 18 of them from
    the two players who put in 20.  Seat 2 has the best hand and is all in for one chip too; seats 0 and
    1 are tied behind it, and seat 0 shares in the side pot above its own chip. *)
Definition one_chip_ops := [OTrick [demo_card 44; demo_card 45; demo_card 48; demo_card 0]; OSetStacks [1; 20; 1; 20]; OReset [] true false] ++ bets [20; 20; 20].
Theorem C87_refuted : ~ forall c s b out i, fair c s -> in_progress s ->
  let s' := fst (step c s b) in
  action s' = None -> snd (step c s b) = Ok out -> covered_folds (show_of c s') -> (i < num_players c)%nat ->
  nth i (out_payouts out) 0 + committed s' i <= matched c s' i + odd_chips (pots_fun (S (num_players c)) (show_of c s') 0).
Proof.
  intros H.
  assert (K : exists c s, fair c s /\ action s = Some 2%nat /\ action (fst (step c s (PyInt 20))) = None /\ num_players c = 4%nat /\
    pot_commits (fst (step c s (PyInt 20))) = [1; 20; 1; 20] /\ covered_foldsb (show_of c (fst (step c s (PyInt 20)))) = true /\
    odd_chips (pots_fun 5 (show_of c (fst (step c s (PyInt 20)))) 0) = 0 /\
    match snd (step c s (PyInt 20)) with Ok out => Some (out_payouts out) | Err _ => None end = Some [18; -1; 3; -20]).
  { play side_game one_chip_ops c s E. split; [exact (played_fair _ _ _ _ E)|]. plays E. }
  destruct K as (c & s & F & K1 & K2 & K3 & K4 & K5 & K6 & K7). destruct (snd (step c s (PyInt 20))) as [out|] eqn:Eo; [|discriminate K7]. injection K7 as K7.
  specialize (H c s (PyInt 20) out 0%nat F). cbv zeta in H. unfold matched, committed in H. rewrite K3, K4, K6, K7 in H. cbn [nth map seq] in H.
  enough (X : 19 <= 4) by lia. apply H; [unfold in_progress; rewrite K1; discriminate|exact K2|exact Eo|now apply covered_foldsb_ok|lia].
Qed.
Print Assumptions C87_refuted.
(** three levels of chips and a tie: seat 0 shares the first pot, and its share is all it can get *)
Definition three_levels := [OTrick [demo_card 48; demo_card 49; demo_card 44; demo_card 0]; OSetStacks [5; 10; 20; 20]; OReset [] true false] ++ bets [20; 20; 20].
Example C87_example : exists c s, fair c s /\ in_progress s /\
  let s' := fst (step c s (PyInt 20)) in
  action s' = None /\ covered_folds (show_of c s') /\ regular_ties (show_of c s') /\ num_players c = 4%nat /\
  map (fun i => stack_of s' i) [0; 1; 2; 3]%nat = [10; 25; 20; 0] /\ map (matched c s') [0; 1; 2; 3]%nat = [20; 35; 55; 55].
Proof.
  assert (K : exists c s, fair c s /\ action s = Some 2%nat /\
    let s' := fst (step c s (PyInt 20)) in
    action s' = None /\ covered_foldsb (show_of c s') = true /\ regular_tiesb (show_of c s') = true /\ num_players c = 4%nat /\
    map (fun i => stack_of s' i) [0; 1; 2; 3]%nat = [10; 25; 20; 0] /\ map (matched c s') [0; 1; 2; 3]%nat = [20; 35; 55; 55]).
  { play side_game three_levels c s E. split; [exact (played_fair _ _ _ _ E)|]. cbv zeta. plays E. }
  destruct K as (c & s & F & K1 & K2 & K3 & K4 & K5 & K6 & K7). exists c, s. split; [exact F|]. split; [unfold in_progress; rewrite K1; discriminate|]. cbv zeta.
  split; [exact K2|]. split; [now apply covered_foldsb_ok|]. split; [now apply regular_tiesb_ok|]. auto.
Qed.

(** ** The array dealer: any ties *)
Lemma np_matched c s b : np_fair c s -> in_progress s ->
  let s' := fst (np_step c s b) in
  action s' = None -> covered_folds (show_of c s') ->
  exists out pots q, snd (np_step c s b) = Ok out /\ side_pots (show_of c s') 0 pots /\ 0 <= odd_chips pots /\
    forall i, (i < num_players c)%nat ->
      nth i (out_payouts out) 0 + committed s' i <= matched c s' i + (if Nat.eqb i q then odd_chips pots else 0).
Proof.
  intros F Hp. cbv zeta. intros Hn Cov.
  destruct (Z_le_gt_dec 2 (count_true (active (fst (np_step c s b))))) as [Hc|Hc].
  - destruct (C66_partial c s b F Hp Hn Hc Cov) as (out & pots & H1 & _ & H3 & (q & _ & _ & H4) & _ & H5).
    exists out, pots, q. split; [exact H1|]. split; [exact H3|]. split; [exact (odd_pots_nonneg _ _ _ H3)|].
    intros i Hi. rewrite (H4 i Hi). pose proof (H5 i Hi) as X. unfold matched. lia.
  - destruct (np_step_ended c s b (np_fair_money c s F) Hp Hn) as (z & pay & o & E). pose proof (ne_settled _ _ _ _ _ _ E) as Z.
    destruct (side_pots_exist (show_of c (fst (np_step c s b))) 0) as (pots & SP).
    pose proof (odd_pots_nonneg _ _ _ SP) as On. eexists _, pots, O. split; [apply E|]. split; [exact SP|]. split; [exact On|].
    rewrite (np_show_same _ _ _ _ Z) in Cov. destruct (np_same _ _ _ _ Z) as (E1 & E2 & E3 & _). rewrite E1 in Hc.
    assert (C1 : count_true (active z) = 1) by (pose proof (ns_count _ _ _ _ Z); lia). pose proof (ne_pay _ _ _ _ _ _ E) as P. rewrite np_payouts_same in P by (now left).
    intros i Hi. pose proof (matched_fold c z pay (ns_active _ _ _ _ Z) (ns_commits _ _ _ _ Z) (ns_pot _ _ _ _ Z) (ns_nonneg _ _ _ _ Z) Cov (or_introl C1) P i Hi) as X.
    unfold matched, committed in *. rewrite E2. cbn [out_payouts]. destruct (Nat.eqb i 0); lia.
Qed.
Theorem C87_array_partial : forall c s b, np_fair c s -> in_progress s ->
  let s' := fst (np_step c s b) in
  action s' = None -> covered_folds (show_of c s') ->
  exists out pots q, snd (np_step c s b) = Ok out /\ side_pots (show_of c s') 0 pots /\ 0 <= odd_chips pots /\
    forall i, (i < num_players c)%nat ->
      nth i (out_payouts out) 0 + committed s' i <= matched c s' i + (if Nat.eqb i q then odd_chips pots else 0).
Proof. exact np_matched. Qed.
Print Assumptions C87_array_partial.
(** Every hand of a table without debts and with equal antes: no condition on the showdown. *)
Theorem C87_array_solvent : forall c s b, equal_antes c -> np_solvent c s -> in_progress s ->
  let s' := fst (np_step c s b) in
  action s' = None ->
  exists out pots q, snd (np_step c s b) = Ok out /\ side_pots (show_of c s') 0 pots /\ 0 <= odd_chips pots /\
    forall i, (i < num_players c)%nat ->
      nth i (out_payouts out) 0 + committed s' i <= matched c s' i + (if Nat.eqb i q then odd_chips pots else 0).
Proof.
  intros c s b Eq So Hp. cbv zeta. intros Hn. pose proof (np_solvent_fair c s So) as F. apply np_matched; try assumption.
  destruct (np_step_ended c s b (np_fair_money c s F) Hp Hn) as (z & pay & o & E). pose proof (ne_settled _ _ _ _ _ _ E) as Z.
  rewrite (np_show_same _ _ _ _ Z). exact (np_step_covered c s b z Eq So Hp Z).
Qed.
Print Assumptions C87_array_solvent.
(** The odd chips cannot be left out: they go to the first winner after the button, also when this
    winner has no chips in the pot they come from.  Seat 1, all in for 5 chips, takes 21. *)
Definition odd_chip_ops := [OTrick [demo_card 0; demo_card 51; demo_card 44; demo_card 45]; OSetStacks [10; 5; 10; 10]; OReset [] true false] ++ bets [20; 20; 20].
Theorem C87_array_refuted : ~ forall c s b out i, equal_antes c -> np_solvent c s -> in_progress s ->
  let s' := fst (np_step c s b) in
  action s' = None -> snd (np_step c s b) = Ok out -> (i < num_players c)%nat ->
  nth i (out_payouts out) 0 + committed s' i <= matched c s' i.
Proof.
  intros H.
  assert (K : exists c s, np_solvent c s /\ antes c = [0; 0; 0; 0] /\ action s = Some 2%nat /\ action (fst (np_step c s (PyInt 20))) = None /\ num_players c = 4%nat /\
    pot_commits (fst (np_step c s (PyInt 20))) = [10; 5; 10; 10] /\
    match snd (np_step c s (PyInt 20)) with Ok out => Some (out_payouts out) | Err _ => None end = Some [-10; 16; -3; -3]).
  { np_play side_game odd_chip_ops c s E. split; [apply (np_played_solvent _ _ _ _ E); vm_compute; reflexivity|]. np_plays E. }
  destruct K as (c & s & F & K0 & K1 & K2 & K3 & K4 & K5). destruct (snd (np_step c s (PyInt 20))) as [out|] eqn:Eo; [|discriminate K5]. injection K5 as K5.
  specialize (H c s (PyInt 20) out 1%nat). cbv zeta in H. unfold matched, committed in H. rewrite K3, K4, K5 in H. cbn [nth map seq] in H.
  enough (X : 21 <= 20) by lia. apply H; [exists 0; rewrite K0; repeat constructor|exact F|unfold in_progress; rewrite K1; discriminate|exact K2|exact Eo|lia].
Qed.
Print Assumptions C87_array_refuted.
