(** * PropOrbit: C97, over one round of the table everybody posts the same *)
From Coq Require Import ZifyBool ZifyNat Arith Permutation.
From Verif Require Import PyBase PyFacts CardModel EvalModel EngineModel EngineSpec EngineFacts BetFacts MoneyFacts EngineDemo PropBetting PropRound PropReset
  NumpyModel NumpySpec NumpyFacts PropNumpy PropNumpyWin.

(** ** Specification *)
(** everybody has chips, and more of them than any ante *)
Definition can_post (c : config) (chips : nat -> Z) : Prop :=
  forall i, (i < num_players c)%nat -> 0 < chips i /\ Forall (fun a => a < chips i) (antes c).
Definition not_reset (o : op) : Prop := match o with OReset _ _ _ => False | _ => True end.
(** what the [k]-th position posts *)
Definition position_posts (c : config) (k : nat) : Z := nth k (antes c) 0 + nth k (blinds c) 0.
(** the states right after the deals of successive hands of a session, in all of which everybody can post; between two
    deals anything else may happen: bets, tricked decks, stacks set by the caller *)
Inductive hands (c : config) : state -> list state -> Prop :=
| hands_end s : hands c s []
| hands_deal s rnd rs l : is_ok (snd (reset c s rnd false rs)) = true ->
    can_post c (fun i => if rs then start_stack c else stack_of s i) ->
    hands c (fst (reset c s rnd false rs)) l -> hands c s (fst (reset c s rnd false rs) :: l)
| hands_other s o l : not_reset o -> allowed c s o -> hands c (apply_op c s o) l -> hands c s l.
(** any successive hands, whoever can post *)
Inductive deals (c : config) : state -> list state -> Prop :=
| deals_end s : deals c s []
| deals_deal s rnd rs l : is_ok (snd (reset c s rnd false rs)) = true ->
    deals c (fst (reset c s rnd false rs)) l -> deals c s (fst (reset c s rnd false rs) :: l)
| deals_other s o l : not_reset o -> allowed c s o -> deals c (apply_op c s o) l -> deals c s l.
(** the same as [hands] at the array dealer *)
Inductive np_hands (c : config) : state -> list state -> Prop :=
| np_hands_end s : np_hands c s []
| np_hands_deal s rnd rs l : is_ok (snd (np_reset c s rnd false rs)) = true ->
    can_post c (fun i => if rs then start_stack c else stack_of s i) ->
    np_hands c (fst (np_reset c s rnd false rs)) l -> np_hands c s (fst (np_reset c s rnd false rs) :: l)
| np_hands_other s o l : not_reset o -> np_allowed c s o -> match o with OSetStacks st => Forall (fun x => 0 <= x) st | _ => True end ->
    np_hands c (np_apply_op c s o) l -> np_hands c s l.

(** ** Going round *)
Lemma mod_once a n : (a < 2 * n)%nat -> (a mod n = if Nat.ltb a n then a else a - n)%nat.
Proof.
  intros H. destruct (Nat.ltb_spec a n) as [X|X]; [now apply Nat.mod_small|]. replace a with ((a - n) + 1 * n)%nat at 1 by lia. rewrite Nat.mod_add by lia. apply Nat.mod_small. lia.
Qed.
Lemma seq_perm n (f : nat -> nat) : (forall t, (t < n)%nat -> (f t < n)%nat) -> (forall t u, (t < n)%nat -> (u < n)%nat -> f t = f u -> t = u) ->
  Permutation (map f (seq 0 n)) (seq 0 n).
Proof.
  intros H1 H2. apply NoDup_Permutation_bis.
  - assert (G : forall l, NoDup l -> (forall t, In t l -> (t < n)%nat) -> NoDup (map f l)).
    { induction l as [|t l IH]; intros N Hl; [constructor|]. inversion N as [|? ? N1 N2]; subst. cbn [map]. constructor; [|apply IH; [exact N2|intros u Hu; apply Hl; now right]].
      intros X. apply in_map_iff in X. destruct X as (u & E & X). rewrite (H2 u t) in X; [contradiction|apply Hl; now right|apply Hl; now left|exact E]. }
    apply G; [apply seq_NoDup|]. intros t Ht. apply in_seq in Ht. lia.
  - rewrite map_length. apply le_n.
  - intros x Hx. apply in_map_iff in Hx. destruct Hx as (t & <- & Ht). apply in_seq in Ht. apply in_seq. specialize (H1 t). lia.
Qed.
(** the hands of a session, seen from outside: the button goes on by one seat, and the seats post by their distance from it *)
Definition shift (n : nat) : nat := if Nat.ltb 2 n then 1%nat else 0%nat.
Record posted (c : config) (seat : state -> nat) (b : nat) (s : state) : Prop := mkPosted {
  po_button : seat s = b;
  po_posts : forall k, (k < num_players c)%nat -> committed s ((b + shift (num_players c) + k) mod num_players c) = position_posts c k
}.
Lemma list_as_map {A B} (f : A -> B) (l : list A) d : map f l = map (fun t => f (nth t l d)) (seq 0 (List.length l)).
Proof. induction l as [|x l IH]; [reflexivity|]. cbn [List.length seq map nth]. rewrite <- seq_shift, map_map. f_equal. exact IH. Qed.
Lemma go_round c seat b (l : list state) d : (2 <= num_players c)%nat -> (b < num_players c)%nat -> List.length l = num_players c ->
  (forall t, (t < num_players c)%nat -> posted c seat ((b + t) mod num_players c) (nth t l d)) ->
  Permutation (map seat l) (seq 0 (num_players c)) /\
  forall i, (i < num_players c)%nat -> Permutation (map (fun s => committed s i) l) (map (position_posts c) (seq 0 (num_players c))).
Proof.
  intros H2 Hb L H. rewrite (list_as_map seat l d), L. set (n := num_players c) in *. split.
  - rewrite (map_ext_in _ (fun t => (b + t) mod n)%nat) by (intros t Ht; apply in_seq in Ht; apply (po_button _ _ _ _ (H t ltac:(lia)))).
    apply seq_perm; [intros t Ht; apply Nat.mod_upper_bound; lia|]. intros t u Ht Hu. rewrite !mod_once by lia. destruct (Nat.ltb_spec (b + t) n); destruct (Nat.ltb_spec (b + u) n); lia.
  - intros i Hi. rewrite (list_as_map (fun s => committed s i) l d), L. set (st := fun t => ((b + t) mod n + shift n)%nat). assert (Hs : (shift n <= 1)%nat) by (unfold shift; destruct (Nat.ltb 2 n); lia).
    set (k := fun t => if Nat.ltb (st t) n then if Nat.ltb i (st t) then (i + n - st t)%nat else (i - st t)%nat else i).
    assert (Hm : forall t, (t < n)%nat -> ((b + t) mod n < n)%nat) by (intros t Ht; apply Nat.mod_upper_bound; lia).
    assert (Kb : forall t, (t < n)%nat -> (k t < n)%nat) by (intros t Ht; unfold k; destruct (Nat.ltb_spec (st t) n); [destruct (Nat.ltb_spec i (st t)); lia|exact Hi]).
    assert (Ki : forall t, (t < n)%nat -> ((st t + k t) mod n)%nat = i).
    { intros t Ht. specialize (Hm t Ht). unfold k. destruct (Nat.ltb_spec (st t) n) as [X|X].
      - destruct (Nat.ltb_spec i (st t)) as [Y|Y].
        + replace (st t + (i + n - st t))%nat with (i + 1 * n)%nat by lia. rewrite Nat.mod_add by lia. now apply Nat.mod_small.
        + replace (st t + (i - st t))%nat with i by lia. now apply Nat.mod_small.
      - assert (E : st t = n) by (subst st; cbv beta in *; lia). rewrite E. replace (n + i)%nat with (i + 1 * n)%nat by lia. rewrite Nat.mod_add by lia. now apply Nat.mod_small. }
    rewrite (map_ext_in _ (fun t => position_posts c (k t))).
    2:{ intros t Ht. apply in_seq in Ht. rewrite <- (po_posts _ _ _ _ (H t ltac:(lia)) (k t) (Kb t ltac:(lia))). f_equal. symmetry. apply Ki. lia. }
    rewrite <- map_map with (f := k). apply Permutation_map, seq_perm; [exact Kb|].
    intros t u Ht Hu E. assert (E1 : ((b + t) mod n = (b + u) mod n)%nat).
    { specialize (Hm t Ht) as Mt. specialize (Hm u Hu) as Mu. unfold k, st in E. destruct (Nat.ltb_spec ((b + t) mod n + shift n) n); destruct (Nat.ltb_spec ((b + u) mod n + shift n) n);
        repeat match type of E with context [Nat.ltb ?x ?y] => destruct (Nat.ltb_spec x y) end; lia. }
    rewrite !mod_once in E1 by lia. destruct (Nat.ltb_spec (b + t) n); destruct (Nat.ltb_spec (b + u) n); lia.
Qed.
Lemma perm_sum l l' : Permutation l l' -> sumZ l = sumZ l'.
Proof. induction 1; rewrite ?sumZ_cons in *; lia. Qed.
Lemma sum_posts c : List.length (antes c) = num_players c -> List.length (blinds c) = num_players c ->
  sumZ (map (position_posts c) (seq 0 (num_players c))) = sumZ (antes c) + sumZ (blinds c).
Proof.
  unfold position_posts. generalize (antes c) as a, (blinds c) as b, (num_players c) as n. intros a b n. revert a b. induction n as [|n IH]; intros [|x a] [|y b] La Lb; try discriminate; [reflexivity|].
  cbn [seq map]. rewrite <- seq_shift, map_map, !sumZ_cons. cbn [nth]. rewrite (IH a b) by (cbn [List.length] in La, Lb; lia). lia.
Qed.
(** a deal at which everybody can post *)
Lemma deal_posts c s rnd rs : cfg_wf c -> wf c s -> is_ok (snd (reset c s rnd false rs)) = true ->
  can_post c (fun i => if rs then start_stack c else stack_of s i) ->
  posted c button ((button s + 1) mod num_players c) (fst (reset c s rnd false rs)).
Proof.
  intros W I H P. pose proof (cw_two _ W) as H2. set (n := num_players c) in *.
  assert (A : forall i, (i < n)%nat -> nth i (active (fst (reset c s rnd false rs))) false = true).
  { intros i Hi. destruct (reset_spec c s rnd false rs W I) as [(_ & _ & E)|[(_ & E)|(_ & _ & _ & E)]]; [rewrite E in H; discriminate H|rewrite E in H; discriminate H|].
    rewrite (re_active _ _ _ _ _ _ E). destruct rs; [now apply nth_repeat_lt|]. destruct (P i Hi) as [P1 _].
    rewrite (nth_indep _ false (0 <? 0)) by (rewrite map_length, (wf_stacks _ _ I); exact Hi). rewrite map_nth. unfold stack_of in P1. lia. }
  assert (B : button (fst (reset c s rnd false rs)) = ((button s + 1) mod n)%nat).
  { destruct (reset_spec c s rnd false rs W I) as [(_ & _ & E)|[(_ & E)|(_ & _ & _ & E)]]; [rewrite E in H; discriminate H|rewrite E in H; discriminate H|]. exact (re_button _ _ _ _ _ _ E). }
  split; [exact B|]. intros k Hk. fold n in Hk |- *.
  destruct (reset_positions c s rnd false rs W I H) as (st & S1 & _ & S2 & S3 & _ & S4). fold n in S1, S2, S3, S4.
  assert (Hb : ((button s + 1) mod n < n)%nat) by (apply Nat.mod_upper_bound; lia).
  assert (E : (((button s + 1) mod n + shift n + k) mod n = (st + k) mod n)%nat).
  { rewrite <- B. unfold shift. destruct (Nat.ltb_spec 2 n) as [X|X].
    - specialize (S3 X). destruct S3 as (i & Hi & -> & _ & F). assert (i = 1)%nat.
      { destruct (Nat.eq_dec i 1) as [|Hn]; [assumption|]. exfalso. specialize (F 1%nat ltac:(lia)). rewrite A in F by (apply Nat.mod_upper_bound; lia). discriminate F. }
      subst i. now rewrite Nat.add_mod_idemp_l by lia.
    - rewrite (S2 ltac:(lia)). now rewrite Nat.add_0_r. }
  rewrite E. destruct (S4 k Hk) as [C _]. cbv zeta in C. assert (Hi : ((st + k) mod n < n)%nat) by (apply Nat.mod_upper_bound; lia). rewrite (A _ Hi) in C.
  destruct (P _ Hi) as [P1 P2]. cbv beta in P1, P2. rewrite !andb_true_r in C.
  assert (P3 : nth k (antes c) 0 < if rs then start_stack c else stack_of s ((st + k) mod n)) by (rewrite Forall_forall in P2; apply P2, nth_In; rewrite (cw_antes _ W); exact Hk).
  replace (0 <? (if rs then start_stack c else stack_of s ((st + k) mod n))) with true in C by lia.
  match type of C with context [0 <? ?x - ?y] => replace (0 <? x - y) with true in C by lia end. exact C.
Qed.

(** ** C97 *)
Lemma step_button c s b : cfg_wf c -> button (fst (step c s b)) = button s.
Proof.
  intros W. destruct (action s) as [a|] eqn:Ha; [|unfold step; now rewrite Ha].
  destruct (step_take c s b a W Ha) as [(-> & _)|(call & mi & ma & bet & folds & s1 & H1 & P)]; [reflexivity|].
  rewrite (sp_button _ _ _ _ _ _ _ _ _ _ _ P). exact (be_button _ _ _ _ _ _ _ _ _ _ (sp_bet _ _ _ _ _ _ _ _ _ _ _ P)).
Qed.
Lemma hands_posted c s l : hands c s l -> reachable c s -> forall t d, (t < List.length l)%nat -> posted c button ((button s + 1 + t) mod num_players c) (nth t l d).
Proof.
  induction 1 as [s|s rnd rs l H P _ IH|s o l H A _ IH]; intros R t d Ht; [cbn in Ht; lia| |].
  - pose proof (reachable_cfg c s R) as W. pose proof (cw_two _ W) as H2. pose proof (deal_posts c s rnd rs W (reachable_wf c s R) H P) as D.
    destruct t as [|t]; cbn [nth]; [rewrite Nat.add_0_r; exact D|]. cbn [List.length] in Ht.
    specialize (IH (reach_op c s (OReset rnd false rs) R (or_intror H)) t d ltac:(lia)). cbn [apply_op] in IH. rewrite (po_button _ _ _ _ D) in IH.
    rewrite <- Nat.add_assoc, Nat.add_mod_idemp_l in IH by lia. replace (button s + 1 + S t)%nat with (button s + 1 + (1 + t))%nat by lia. exact IH.
  - specialize (IH (reach_op c s o R A) t d Ht). assert (E : button (apply_op c s o) = button s); [|rewrite E in IH; exact IH].
    destruct o as [rnd rb rs|b|cs| |st]; [destruct H|exact (step_button c s b (reachable_cfg c s R))| |reflexivity|reflexivity]. cbn [apply_op]. now destruct (deck_trick cs (the_deck s)).
Qed.
(** Over as many hands as there are players, when everybody can post in each of them, every seat has the button once and is
    once in every position: it posts the ante and blind of each position exactly once, and so the same total as every other
    seat. *)
Theorem C97_round_partial : forall c s l, reachable c s -> hands c s l -> List.length l = num_players c ->
  Permutation (map button l) (seq 0 (num_players c)) /\
  forall i, (i < num_players c)%nat ->
    Permutation (map (fun s1 => committed s1 i) l) (map (position_posts c) (seq 0 (num_players c))) /\
    sumZ (map (fun s1 => committed s1 i) l) = sumZ (antes c) + sumZ (blinds c).
Proof.
  intros c s l R H L. pose proof (reachable_cfg c s R) as W. pose proof (cw_two _ W) as H2.
  destruct (go_round c button ((button s + 1) mod num_players c) l s H2 ltac:(apply Nat.mod_upper_bound; lia) L) as [G1 G2].
  { intros t Ht. rewrite Nat.add_mod_idemp_l by lia. apply (hands_posted c s l H R). lia. }
  split; [exact G1|]. intros i Hi. specialize (G2 i Hi). split; [exact G2|]. rewrite (perm_sum _ _ G2). apply sum_posts; apply W.
Qed.
Print Assumptions C97_round_partial.

(** the same at the array dealer, with the button as a seat *)
Lemma np_step_button c s b : np_fair c s -> button (fst (np_step c s b)) = button s.
Proof.
  intros F. destruct (action s) as [a|] eqn:Ea; [|unfold np_step; now rewrite Ea].
  assert (Hp : in_progress s) by (unfold in_progress; rewrite Ea; discriminate).
  destruct (np_step_settled c s b (np_fair_money c s F) Hp) as [(_ & -> & _)|(z & Z)]; [reflexivity|]. rewrite (ns_step _ _ _ _ Z), <- (ns_button _ _ _ _ Z).
  destruct (np_step_end_cases c z) as [(e & _ & Y)|[(pay & _ & _ & Y)|(pay & _ & _ & Y)]]; rewrite Y; reflexivity.
Qed.
Lemma np_hands_posted c s l : np_hands c s l -> np_fair c s -> forall t d, (t < List.length l)%nat -> posted c (button_seat c) ((button s + 1 + t) mod num_players c) (nth t l d).
Proof.
  induction 1 as [s|s rnd rs l H P _ IH|s o l H A A' _ IH]; intros F t d Ht; [cbn in Ht; lia| |].
  - pose proof (np_fair_money c s F) as M. pose proof (mo_cfg _ _ M) as W. pose proof (cw_two _ W) as H2.
    assert (H' : is_ok (snd (reset c (wrap c s) rnd false rs)) = true) by (rewrite <- (proj2 (np_reset_wrap c s rnd false rs W)); now destruct (snd (np_reset c s rnd false rs))).
    pose proof (deal_posts c (wrap c s) rnd rs W (mo_wf _ _ M) H' P) as D. rewrite <- (proj1 (np_reset_wrap c s rnd false rs W)) in D.
    change (button (wrap c s)) with (button s mod num_players c)%nat in D. rewrite Nat.add_mod_idemp_l in D by lia.
    assert (D' : posted c (button_seat c) ((button s + 1) mod num_players c) (fst (np_reset c s rnd false rs))) by (destruct D as [D1 D2]; split; [exact D1|exact D2]).
    destruct t as [|t]; cbn [nth]; [rewrite Nat.add_0_r; exact D'|]. cbn [List.length] in Ht.
    assert (F' : np_fair c (fst (np_reset c s rnd false rs))) by (apply (np_fair_op c s (OReset rnd false rs) F); [now right|exact I]).
    specialize (IH F' t d ltac:(lia)). pose proof (po_button _ _ _ _ D') as E. unfold button_seat in E.
    rewrite <- Nat.add_assoc, <- Nat.add_mod_idemp_l, E, Nat.add_mod_idemp_l in IH by lia. replace (button s + 1 + S t)%nat with (button s + 1 + (1 + t))%nat by lia. exact IH.
  - specialize (IH (np_fair_op c s o F A A') t d Ht). assert (E : button (np_apply_op c s o) = button s); [|rewrite E in IH; exact IH].
    destruct o as [rnd rb rs|b|cs| |st]; [destruct H|exact (np_step_button c s b F)| |reflexivity|reflexivity]. cbn [np_apply_op]. now destruct (deck_trick cs (the_deck s)).
Qed.
Theorem C97_array_round_partial : forall c s l, np_fair c s -> np_hands c s l -> List.length l = num_players c ->
  Permutation (map (button_seat c) l) (seq 0 (num_players c)) /\
  forall i, (i < num_players c)%nat ->
    Permutation (map (fun s1 => committed s1 i) l) (map (position_posts c) (seq 0 (num_players c))) /\
    sumZ (map (fun s1 => committed s1 i) l) = sumZ (antes c) + sumZ (blinds c).
Proof.
  intros c s l F H L. pose proof (mo_cfg _ _ (np_fair_money c s F)) as W. pose proof (cw_two _ W) as H2.
  destruct (go_round c (button_seat c) ((button s + 1) mod num_players c) l s H2 ltac:(apply Nat.mod_upper_bound; lia) L) as [G1 G2].
  { intros t Ht. rewrite Nat.add_mod_idemp_l by lia. apply (np_hands_posted c s l H F). lia. }
  split; [exact G1|]. intros i Hi. specialize (G2 i Hi). split; [exact G2|]. rewrite (perm_sum _ _ G2). apply sum_posts; apply W.
Qed.
Print Assumptions C97_array_round_partial.

(** It fails when somebody else is out of the game: the button stays at the empty seat for a hand and the positions are
    counted from the first player after it, so that of four players with seat 1 empty, seats 0, 2 and 3 post 3, 2 and 5
    chips in the four hands of a round with blinds of 1 and 2. *)
Fixpoint some_hands (c : config) (k : nat) (s : state) : list state :=
  match k with O => [] | S k => let s1 := fst (reset c s [] false false) in s1 :: some_hands c k (set_stacks s1 [20; 0; 20; 20]) end.
Fixpoint some_ok (c : config) (k : nat) (s : state) : bool :=
  match k with O => true | S k => is_ok (snd (reset c s [] false false)) && some_ok c k (set_stacks (fst (reset c s [] false false)) [20; 0; 20; 20]) end.
Lemma some_deals c k : num_players c = 4%nat -> forall s, some_ok c k s = true -> deals c s (some_hands c k s).
Proof.
  intros N. induction k as [|k IH]; intros s H; [apply deals_end|]. cbn [some_ok] in H. apply andb_true_iff in H. destruct H as [H1 H2]. cbn [some_hands].
  apply deals_deal; [exact H1|]. apply (deals_other c _ (OSetStacks [20; 0; 20; 20])); [exact I|symmetry; exact N|]. now apply IH.
Qed.
Theorem C97_refuted : ~ forall c s l i j, reachable c s -> deals c s l -> List.length l = num_players c -> (i < num_players c)%nat -> (j < num_players c)%nat ->
  (forall s1, In s1 l -> is_active s1 i /\ is_active s1 j /\ 0 < stack_of s1 i /\ 0 < stack_of s1 j) ->
  sumZ (map (fun s1 => committed s1 i) l) = sumZ (map (fun s1 => committed s1 j) l).
Proof.
  intros H.
  assert (K : exists c s, reachable c s /\ num_players c = 4%nat /\ some_ok c 4 s = true /\
    forallb (fun s1 => nth 2 (active s1) false && nth 3 (active s1) false && (0 <? stack_of s1 2) && (0 <? stack_of s1 3)) (some_hands c 4 s) = true /\
    map (fun s1 => committed s1 2%nat) (some_hands c 4 s) = [1; 0; 0; 1] /\ map (fun s1 => committed s1 3%nat) (some_hands c 4 s) = [2; 1; 0; 2]).
  { play no_limit_4 [new_hand; OSetStacks [20; 0; 20; 20]] c s E. split; [exact (fair_reachable _ _ (played_fair _ _ _ _ E))|].
    split; [by_play E|]. split; [by_play E|]. split; [by_play E|]. split; by_play E. }
  destruct K as (c & s & R & K1 & K2 & K3 & K4 & K5). rewrite forallb_forall in K3.
  specialize (H c s (some_hands c 4 s) 2%nat 3%nat R (some_deals c 4 K1 s K2)). rewrite K4, K5, K1 in H.
  assert (X : sumZ [1; 0; 0; 1] = sumZ [2; 1; 0; 2]); [|vm_compute in X; discriminate X].
  apply H; [reflexivity|lia|lia|]. intros s1 H1. specialize (K3 s1 H1). apply andb_true_iff in K3. destruct K3 as [K3 X4]. apply andb_true_iff in K3. destruct K3 as [K3 X3]. apply andb_true_iff in K3. destruct K3 as [X1 X2].
  split; [exact X1|]. split; [exact X2|]. split; lia.
Qed.
Print Assumptions C97_refuted.

(** three hands of three players with folds in between: a round in which everybody can post *)
Definition next_deal (c : config) (s : state) : state := fst (reset c s [] false false).
Definition two_folds (c : config) (s : state) : state := fst (step c (fst (step c s (PyInt (-1)))) (PyInt (-1))).
Lemma three_can_post c s x y z : num_players c = 3%nat -> antes c = [0; 0; 0] -> stacks s = [x; y; z] -> (0 <? x) && (0 <? y) && (0 <? z) = true ->
  can_post c (fun i => if false then start_stack c else stack_of s i).
Proof.
  intros N An T Q i Hi. rewrite N in Hi. rewrite An. assert (G : 0 < stack_of s i) by (unfold stack_of; rewrite T; destruct i as [|[|[|i]]]; cbn [nth]; lia). split; [exact G|repeat constructor; exact G].
Qed.
Lemma hands_next c s l : is_ok (snd (reset c s [] false false)) = true -> can_post c (fun i => if false then start_stack c else stack_of s i) ->
  hands c (two_folds c (next_deal c s)) l -> hands c s (next_deal c s :: l).
Proof.
  intros H P K. apply hands_deal; [exact H|exact P|]. apply (hands_other c _ (OStep (PyInt (-1)))); [exact I|exact I|]. apply (hands_other c _ (OStep (PyInt (-1)))); [exact I|exact I|]. exact K.
Qed.
Definition round_of (c : config) (s : state) : list state :=
  let s2 := two_folds c (next_deal c s) in [next_deal c s; next_deal c s2; next_deal c (two_folds c (next_deal c s2))].
Example C97_example : exists c s, reachable c s /\ hands c s (round_of c s) /\ List.length (round_of c s) = num_players c /\ num_players c = 3%nat /\
  map (fun s1 => map (committed s1) [0; 1; 2]%nat) (round_of c s) = [[2; 0; 1]; [1; 2; 0]; [0; 1; 2]] /\ map button (round_of c s) = [1; 2; 0]%nat.
Proof.
  play no_limit_3 (new_hand :: bets [-1; -1]) c s E.
  assert (N : num_players c = 3%nat) by by_play E. assert (An : antes c = [0; 0; 0]) by by_play E.
  assert (T1 : stacks s = [20; 19; 21]) by by_play E. assert (T2 : stacks (two_folds c (next_deal c s)) = [21; 19; 20]) by by_play E.
  assert (T3 : stacks (two_folds c (next_deal c (two_folds c (next_deal c s)))) = [20; 20; 20]) by by_play E.
  assert (O1 : is_ok (snd (reset c s [] false false)) = true) by by_play E.
  assert (O2 : is_ok (snd (reset c (two_folds c (next_deal c s)) [] false false)) = true) by by_play E.
  assert (O3 : is_ok (snd (reset c (two_folds c (next_deal c (two_folds c (next_deal c s)))) [] false false)) = true) by by_play E.
  assert (X1 : map (fun s1 => map (committed s1) [0; 1; 2]%nat) (round_of c s) = [[2; 0; 1]; [1; 2; 0]; [0; 1; 2]]) by by_play E.
  assert (X2 : map button (round_of c s) = [1; 2; 0]%nat) by by_play E.
  pose proof (fair_reachable _ _ (played_fair _ _ _ _ E)) as R. clear E.
  split; [exact R|]. split; [|split; [rewrite N; reflexivity|split; [exact N|split; [exact X1|exact X2]]]].
  unfold round_of. cbv zeta. apply hands_next; [exact O1|exact (three_can_post c _ _ _ _ N An T1 eq_refl)|].
  apply hands_next; [exact O2|exact (three_can_post c _ _ _ _ N An T2 eq_refl)|].
  apply hands_next; [exact O3|exact (three_can_post c _ _ _ _ N An T3 eq_refl)|]. apply hands_end.
Qed.
(** and at the array dealer *)
Definition np_next_deal (c : config) (s : state) : state := fst (np_reset c s [] false false).
Definition np_two_folds (c : config) (s : state) : state := fst (np_step c (fst (np_step c s (PyInt (-1)))) (PyInt (-1))).
Lemma np_hands_next c s l : is_ok (snd (np_reset c s [] false false)) = true -> can_post c (fun i => if false then start_stack c else stack_of s i) ->
  np_hands c (np_two_folds c (np_next_deal c s)) l -> np_hands c s (np_next_deal c s :: l).
Proof.
  intros H P K. apply np_hands_deal; [exact H|exact P|]. apply (np_hands_other c _ (OStep (PyInt (-1)))); [exact I|exact I|exact I|]. apply (np_hands_other c _ (OStep (PyInt (-1)))); [exact I|exact I|exact I|]. exact K.
Qed.
Definition np_round_of (c : config) (s : state) : list state :=
  let s2 := np_two_folds c (np_next_deal c s) in [np_next_deal c s; np_next_deal c s2; np_next_deal c (np_two_folds c (np_next_deal c s2))].
Example C97_array_example : exists c s, np_fair c s /\ np_hands c s (np_round_of c s) /\ List.length (np_round_of c s) = num_players c /\ num_players c = 3%nat /\
  map (fun s1 => map (committed s1) [0; 1; 2]%nat) (np_round_of c s) = [[2; 0; 1]; [1; 2; 0]; [0; 1; 2]] /\ map (button_seat c) (np_round_of c s) = [1; 2; 0]%nat.
Proof.
  np_play no_limit_3 (new_hand :: bets [-1; -1]) c s E.
  assert (N : num_players c = 3%nat) by np_by_play E. assert (An : antes c = [0; 0; 0]) by np_by_play E.
  assert (T1 : stacks s = [20; 19; 21]) by np_by_play E. assert (T2 : stacks (np_two_folds c (np_next_deal c s)) = [21; 19; 20]) by np_by_play E.
  assert (T3 : stacks (np_two_folds c (np_next_deal c (np_two_folds c (np_next_deal c s)))) = [20; 20; 20]) by np_by_play E.
  assert (O1 : is_ok (snd (np_reset c s [] false false)) = true) by np_by_play E.
  assert (O2 : is_ok (snd (np_reset c (np_two_folds c (np_next_deal c s)) [] false false)) = true) by np_by_play E.
  assert (O3 : is_ok (snd (np_reset c (np_two_folds c (np_next_deal c (np_two_folds c (np_next_deal c s)))) [] false false)) = true) by np_by_play E.
  assert (X1 : map (fun s1 => map (committed s1) [0; 1; 2]%nat) (np_round_of c s) = [[2; 0; 1]; [1; 2; 0]; [0; 1; 2]]) by np_by_play E.
  assert (X2 : map (button_seat c) (np_round_of c s) = [1; 2; 0]%nat) by np_by_play E.
  pose proof (np_played_fair _ _ _ _ E) as R. clear E.
  split; [exact R|]. split; [|split; [rewrite N; reflexivity|split; [exact N|split; [exact X1|exact X2]]]].
  unfold np_round_of. cbv zeta. apply np_hands_next; [exact O1|exact (three_can_post c _ _ _ _ N An T1 eq_refl)|].
  apply np_hands_next; [exact O2|exact (three_can_post c _ _ _ _ N An T2 eq_refl)|].
  apply np_hands_next; [exact O3|exact (three_can_post c _ _ _ _ N An T3 eq_refl)|]. apply np_hands_end.
Qed.
