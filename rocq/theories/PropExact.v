(** * PropExact: exact forms of properties whose full statement is false *)
From Coq Require Import Permutation ZifyBool ZifyNat Arith FMapPositive.
From Verif Require Import PyBase PyFacts CardModel CardSpec DeckSpec CardProofs DeckProofs PropCards.

(** ** C05: every list of cards of the deck, repeated or not *)
(** the card is one of the list *)
Definition named (top : list card) (x : card) : bool := existsb (fun t => c_int t =? c_int x) top.

Lemma filter_nth {A} (q : A -> bool) (def : A) (l : list A) :
  map (fun i => nth i l def) (filter (fun i => q (nth i l def)) (seq 0 (List.length l))) = filter q l.
Proof.
  transitivity (filter q (map (fun i => nth i l def) (seq 0 (List.length l)))); [|f_equal; apply map_nth_seq].
  generalize (seq 0 (List.length l)) as js. induction js as [|i js IH]; [reflexivity|]. cbn [filter map]. destruct (q (nth i l def)); cbn [map]; now rewrite IH.
Qed.

Lemma bottom_named s r d top idcs : deck_wf s r d ->
  map_res (fun c => index_of c (d_full d) 0) top = Ok idcs ->
  at_idcs (d_full d) (filter (fun i => negb (existsb (Nat.eqb i) idcs)) (seq 0 (Z.to_nat (d_num_ranks d * d_num_suits d))))
  = filter (fun x => negb (named top x)) (d_full d).
Proof.
  intros W E. destruct (trick_idcs _ _ _ _ _ W E) as [Fi Mi].
  assert (L : List.length (d_full d) = (r * s)%nat)
    by (rewrite (dw_full _ _ _ W); apply deck_cards_length).
  assert (Ln : Z.to_nat (d_num_ranks d * d_num_suits d) = List.length (d_full d)).
  { destruct W as [? ? Hns Hnr _ _]. rewrite L, Hns, Hnr. lia. }
  rewrite Ln. set (def := mkCard 0 0 0).
  rewrite (at_idcs_map _ _ def).
  2:{ apply Forall_forall. intros x Hx. apply filter_In in Hx. destruct Hx as [Hx _]. apply in_seq in Hx. lia. }
  rewrite <- (filter_nth _ def). f_equal. apply filter_ext_in. intros i Hi. apply in_seq in Hi. f_equal.
  rewrite (at_idcs_map _ _ def) in Mi by (rewrite L; exact Fi).
  assert (N : forall a b, (a < List.length (d_full d))%nat -> (b < List.length (d_full d))%nat ->
            c_int (nth a (d_full d) def) = c_int (nth b (d_full d) def) -> a = b).
  { intros a b Ha Hb Q.
    assert (Nd : NoDup (map c_int (d_full d))) by (rewrite (dw_full _ _ _ W); apply deck_cards_NoDup; destruct W; lia).
    rewrite NoDup_nth with (d := c_int def) in Nd. apply Nd; rewrite ?map_length; try assumption.
    now rewrite !map_nth. }
  apply eq_true_iff_eq. unfold named. rewrite !existsb_exists. split.
  - intros (k & Hk & Q). apply Nat.eqb_eq in Q. subst k.
    assert (Hin : In (c_int (nth i (d_full d) def)) (map c_int top)).
    { rewrite <- Mi, map_map. apply in_map_iff. exists i. auto. }
    apply in_map_iff in Hin. destruct Hin as (t & Et & Ht). exists t. split; [exact Ht|]. lia.
  - intros (t & Ht & Q). apply Z.eqb_eq in Q.
    assert (Hin : In (c_int t) (map c_int top)) by now apply in_map.
    rewrite <- Mi, map_map in Hin. apply in_map_iff in Hin. destruct Hin as (k & Ek & Hk). exists k. split; [exact Hk|].
    apply Nat.eqb_eq. rewrite Forall_forall in Fi. specialize (Fi k Hk). apply N; [lia|lia|]. congruence.
Qed.

Theorem C05_exact : forall s r d top ops rnd,
  deck_wf s r d -> incl top (d_full d) -> only_draw_shuffle ops ->
  exists d1, deck_trick top d = Ok d1 /\
    let cards := d_cards (deck_shuffle rnd (fst (deck_run d1 ops))) in
    let others := filter (fun x => negb (named top x)) (d_full d) in
    (top <> [] /\ others <> [] -> exists rest, cards = top ++ rest /\ Permutation rest others) /\
    (top = [] \/ others = [] -> cards = d_cards (deck_shuffle rnd (deck_untrick d))).
Proof.
  intros s r d top ops rnd W Hin Hops. destruct (trick_total _ _ _ _ W Hin) as [d1 H]. exists d1. split; [exact H|].
  destruct (only_draw_shuffle_same ops (d1, []) Hops) as (Ef & Et & Etop & Ebot).
  cbn [fst] in Ef, Et, Etop, Ebot. fold (deck_run d1 ops) in *.
  unfold deck_trick in H.
  destruct (map_res (fun c => index_of c (d_full d) 0) top) as [idcs|] eqn:E; [|discriminate].
  destruct (trick_idcs _ _ _ _ _ W E) as [Fi Mi]. pose proof (bottom_named _ _ _ _ _ W E) as B.
  cbn [bind] in H. injection H as <-. cbn [d_full d_tricked d_top d_bottom] in Ef, Et, Etop, Ebot.
  assert (Htop : at_idcs (d_full d) idcs = top).
  { apply (map_int_inj s r d); [exact W| |exact Hin|exact Mi]. intros x Hx. eapply at_idcs_in; eauto. }
  cbv zeta. unfold deck_shuffle. cbn [d_cards deck_untrick d_tricked d_full andb].
  rewrite <- Ef, <- Et, <- Etop, <- Ebot. cbn [andb].
  set (bottom := filter (fun i => negb (existsb (Nat.eqb i) idcs)) _) in *.
  assert (Lt : List.length top = List.length idcs).
  { rewrite <- Htop. rewrite (at_idcs_map _ _ (mkCard 0 0 0)), map_length; [reflexivity|].
    rewrite (dw_full _ _ _ W), deck_cards_length. exact Fi. }
  assert (Lb : List.length (filter (fun x => negb (named top x)) (d_full d)) = List.length bottom).
  { rewrite <- B. rewrite (at_idcs_map _ _ (mkCard 0 0 0)), map_length; [reflexivity|].
    apply Forall_forall. intros x Hx. apply filter_In in Hx. destruct Hx as [Hx _]. apply in_seq in Hx.
    rewrite (dw_full _ _ _ W), deck_cards_length. destruct W as [? ? Hns Hnr _ _]. lia. }
  split.
  - intros [Nt No]. destruct top as [|t0 top']; [contradiction|].
    destruct (filter (fun x => negb (named (t0 :: top') x)) (d_full d)) as [|o0 os] eqn:Eo; [contradiction|].
    cbn [List.length] in Lt, Lb. rewrite <- Lt, <- Lb. cbn [Nat.eqb negb andb]. rewrite Htop, B, <- Eo in *.
    eexists. split; [reflexivity|]. apply Permutation_sym, shuf_perm.
  - intros [-> | Ho].
    + cbn [List.length] in Lt. rewrite <- Lt. reflexivity.
    + rewrite Ho in Lb. cbn [List.length] in Lb. rewrite <- Lb. cbn [Nat.eqb negb]. now rewrite andb_false_r.
Qed.
Print Assumptions C05_exact.

(** a list naming a card twice: the card is dealt twice; a list naming every card: ignored *)
Example C05_exact_met : exists d d1 d2, Deck [] 1 3 = Ok d /\ deck_wf 1 3 d /\
  deck_trick [the_card 12 0; the_card 12 0] d = Ok d1 /\
  deck_trick [the_card 12 0; the_card 10 0; the_card 11 0] d = Ok d2 /\
  d_cards (deck_shuffle [] d1) = [the_card 12 0; the_card 12 0; the_card 10 0; the_card 11 0] /\
  d_cards (deck_shuffle [] d2) = [the_card 10 0; the_card 11 0; the_card 12 0].
Proof.
  destruct (Deck [] 1 3) as [d|] eqn:E; [|discriminate E]. destruct (Deck_wf _ _ _ _ E) as (W & _).
  injection E as <-. eexists. eexists. eexists. split; [reflexivity|]. split; [exact W|]. repeat split; reflexivity.
Qed.

(** ** C15: which decks rank rarer classes higher, in terms of hands *)
From Verif Require Import EvalModel PokerSpec EvalSpec EngineModel EvalRank EvalCheck EvalHands EvalTable EvalCfg EvalMain
  EvalCount EvalRare EvalFinal EvalEnd PropEval.

Lemma counted_hand s r c low k : (r <= 13)%nat -> (0 < class_count s r c low k)%nat ->
  exists h, hand_of_deck s r c h /\ class_of s r c low h = k.
Proof.
  intros Hr H. unfold class_count in H. destruct (filter _ _) as [|h l] eqn:E; [cbn in H; lia|].
  assert (Hin : In h (filter (fun h => hclass_eqb (class_of s r c low h) k) (all_hands s r c))) by (rewrite E; now left).
  apply filter_In in Hin. destruct Hin as [Hin Hk]. exists h. split; [|now apply hclass_eqb_eq].
  unfold all_hands in Hin. apply combs_sublist in Hin. destruct Hin as [L S].
  split; [exact L|]. split; [exact (sublist_nodup _ _ S (deck_pairs_nodup s r))|].
  apply Forall_forall. intros p Hp. apply (in_deck_pairs s r p Hr). exact (sublist_incl _ _ S p Hp).
Qed.

Lemma rare_first_false fs l : NoDup l -> rare_first fs l = false ->
  exists a b, In a l /\ In b l /\ (class_pos a l < class_pos b l)%nat /\ freq fs b <> 0 /\ freq fs b < freq fs a.
Proof.
  induction l as [|k l IH]; intros N H; [discriminate|]. inversion N as [|? ? Nk Nl]; subst.
  cbn [rare_first] in H. apply andb_false_iff in H.
  assert (Hn : forall x, In x l -> hclass_eqb k x = false).
  { intros x Hx. destruct (hclass_eqb k x) eqn:E; [|reflexivity]. apply hclass_eqb_eq in E. subst. contradiction. }
  destruct H as [H|H].
  - assert (X : exists k', In k' l /\ (freq fs k' =? 0) || (freq fs k <=? freq fs k') = false).
    { clear -H. induction l as [|x l IH]; [discriminate|]. cbn [forallb] in H.
      destruct ((freq fs x =? 0) || (freq fs k <=? freq fs x)) eqn:E; [|exists x; split; [now left|exact E]].
      destruct (IH H) as (k' & A & B). exists k'. split; [now right|exact B]. }
    destruct X as (k' & Hk' & X). exists k, k'. split; [now left|]. split; [now right|].
    cbn [class_pos]. rewrite hclass_eqb_refl, (Hn k' Hk'). lia.
  - destruct (IH Nl H) as (a & b & Ha & Hb & Hp & Q). exists a, b. split; [now right|]. split; [now right|].
    cbn [class_pos]. rewrite (Hn a Ha), (Hn b Hb). split; [lia|exact Q].
Qed.

(** a straight flush and a hand of a class with more hands that beats it, on the decks with as
    many ranks as cards *)
Definition tight_flush (c : Z) : hand := map (fun i => (12 - i, 0)%nat) (seq 0 (Z.to_nat c)).
Definition tight_better (s c : Z) : hand :=
  if (s =? 2) && (c =? 4) then [(12, 0); (12, 1); (11, 0); (11, 1)]%nat
  else if c =? 3 then [(12, 0); (12, 1); (12, 2)]%nat
  else if c =? 4 then [(12, 0); (12, 1); (12, 2); (11, 0)]%nat
  else if s =? 4 then [(12, 0); (12, 1); (12, 2); (12, 3); (11, 0)]%nat
  else [(12, 0); (12, 1); (12, 2); (11, 0); (11, 1)]%nat.
Definition tight_bad (s c : Z) : bool :=
  negb (rarity_exception s c c) ||
  match LookupTable s c c false None with
  | Err _ => false
  | Ok t =>
    let fs := frequencies (Z.to_nat s) (Z.to_nat c) (Z.to_nat c) false in
    let cl := class_of (Z.to_nat s) (Z.to_nat c) (Z.to_nat c) false in
    (freq fs (cl (tight_flush c)) <? freq fs (cl (tight_better s c)))
    && match table_lookup t (cards_of (tight_flush c)), table_lookup t (cards_of (tight_better s c)) with
       | Ok va, Ok vb => vb <? va
       | _, _ => false
       end
  end.
Definition deck_hand_b (s r c : Z) (h : hand) : bool :=
  (Z.of_nat (List.length h) =? c)
  && forallb (fun p => (13 - r <=? Z.of_nat (fst p)) && (Z.of_nat (fst p) <? 13) && (Z.of_nat (snd p) <? s)) h
  && (fix nd (l : hand) := match l with [] => true | x :: l' =>
        negb (existsb (fun y => (Nat.eqb (fst x) (fst y)) && (Nat.eqb (snd x) (snd y))) l') && nd l' end) h.
Lemma deck_hand_ok s r c h : 0 <= r <= 13 -> deck_hand_b s r c h = true -> is_hand s r c h.
Proof.
  intros Hr H. unfold deck_hand_b in H. apply andb_true_iff in H. destruct H as [H Nd]. apply andb_true_iff in H. destruct H as [L F].
  split; [lia|]. split.
  - clear -Nd. induction h as [|x h IH]; constructor; apply andb_true_iff in Nd; destruct Nd as [A B]; [|now apply IH].
    intros Hx. apply negb_true_iff in A. assert (X : existsb (fun y => (fst x =? fst y)%nat && (snd x =? snd y)%nat) h = true).
    { apply existsb_exists. exists x. split; [exact Hx|]. now rewrite !Nat.eqb_refl. } rewrite X in A. discriminate A.
  - apply Forall_forall. rewrite forallb_forall in F. intros p Hp. specialize (F p Hp). lia.
Qed.
Lemma tight_sweep : forallb (fun s => forallb (fun c => tight_bad s c &&
    (negb (rarity_exception s c c) || deck_hand_b s c c (tight_flush c) && deck_hand_b s c c (tight_better s c)))
  [3; 4; 5]) [1; 2; 3; 4] = true.
Proof. vm_cast_no_check (eq_refl true). Qed.

(** the default order is the order of rarity -- a hand of a rarer class never loses to one of a
    more frequent class -- exactly on the decks outside [rarity_exception] *)
Theorem C15_exact_hands : forall s r c m low e,
  1 <= s <= 4 -> 1 <= r <= 13 -> Evaluator s r c m low None = Ok e ->
  ((forall a b va vb, is_hand s r c a -> is_hand s r c b -> lookup e a = Ok va -> lookup e b = Ok vb ->
     (class_count (Z.to_nat s) (Z.to_nat r) (Z.to_nat c) low (poker_class s r c low a)
      < class_count (Z.to_nat s) (Z.to_nat r) (Z.to_nat c) low (poker_class s r c low b))%nat ->
     va <= vb)
   <-> rarity_exception s r c = false).
Proof.
  intros s r c m low e Hs Hr He. split.
  2:{ intros Hx a b va vb Ha Hb Va Vb. exact (C15_rarity_partial s r c m low e a b va vb Hs Hr He Hx Ha Hb Va Vb). }
  intros H. destruct (rarity_exception s r c) eqn:Hx; [exfalso|reflexivity].
  destruct (Evaluator_inv _ _ _ _ _ _ _ He) as (Hc & Ht & _).
  pose proof (table_constructible _ _ _ _ _ Hs Hr Hc Ht) as Hcon.
  destruct (tight r c) eqn:Et.
  - destruct (tight_default s r c low _ Hs Hr Hc Ht Et) as [-> _].
    assert (H3 : 3 <= c) by (unfold tight in Et; lia). assert (E : r = c) by (unfold tight in Et; lia). subst r.
    pose proof tight_sweep as S. rewrite forallb_forall in S.
    specialize (S s ltac:(cbn [In]; lia)). rewrite forallb_forall in S. specialize (S c ltac:(cbn [In]; lia)).
    unfold tight_bad in S. rewrite Hx, Ht in S. cbn [negb orb] in S. cbv zeta in S.
    rewrite !andb_true_iff in S. destruct S as [[Sf Sl] [Sa Sb]].
    apply deck_hand_ok in Sa; [|lia]. apply deck_hand_ok in Sb; [|lia].
    destruct (table_lookup (e_table e) (cards_of (tight_flush c))) as [va|] eqn:Va; [|discriminate Sl].
    destruct (table_lookup (e_table e) (cards_of (tight_better s c))) as [vb|] eqn:Vb; [|discriminate Sl].
    rewrite <- !class_count_freq in Sf by lia.
    specialize (H _ _ va vb Sa Sb Va Vb). unfold poker_class in H. lia.
  - assert (Hh : hopeless r c low = false).
    { unfold hopeless. unfold constructible in Hcon. unfold rarity_exception in Hx. unfold tight in Et. destruct low; lia. }
    pose proof (rarity_all s r c low Hs Hr Hc) as R. unfold rarity_ok in R. rewrite Et, Hcon in R. cbn [negb] in R.
    destruct (LookupTable_built _ _ _ _ _ _ Ht) as
      (Hval & hs' & s1 & s2 & u1 & u2 & l1 & l2 & l3 & l4 & l5 & Hhs & B).
    rewrite Hhs in R. rewrite <- (b_ranking _ _ _ _ _ _ _ _ _ _ _ _ _ _ _ B), Hx in R.
    cbn [negb] in R. apply eqb_prop in R. fold (ranked_hands e) in R.
    assert (N : NoDup (ranked_hands e)).
    { destruct (built_nonneg _ _ _ _ _ _ Hs Hr Hc (I : order_perm None) Ht) as (hs & P & Er & Hn).
      unfold ranked_hands. rewrite Er. destruct (EvalRank.ranked_suffix _ Hn hs) as (z & E & _).
      assert (Nh : NoDup hs) by (eapply Permutation_NoDup; [exact P|unfold all_classes; nodup_tac]).
      rewrite E in Nh. clear -Nh. induction z as [|k z IH]; [exact Nh|]. inversion Nh; subst. now apply IH. }
    destruct (rare_first_false _ _ N R) as (ka & kb & Ia & Ib & Hp & F0 & Flt).
    rewrite <- class_counts_ok in F0 by assumption. rewrite <- !class_counts_ok in Flt by assumption.
    assert (Pb : (0 < class_count (Z.to_nat s) (Z.to_nat r) (Z.to_nat c) low kb)%nat) by (clear -F0; lia).
    assert (Pa : (class_count (Z.to_nat s) (Z.to_nat r) (Z.to_nat c) low kb
                  < class_count (Z.to_nat s) (Z.to_nat r) (Z.to_nat c) low ka)%nat) by (clear -Flt; lia).
    assert (Hr' : (Z.to_nat r <= 13)%nat) by (clear -Hr; lia).
    destruct (counted_hand _ _ _ _ _ Hr' (Nat.lt_trans _ _ _ Pb Pa)) as (a & Ha & Ka).
    destruct (counted_hand _ _ _ _ _ Hr' Pb) as (b & Hb & Kb).
    destruct (C08_default_order s r c m low e a Hs Hr He Ha) as (va & Va & _).
    destruct (C08_default_order s r c m low e b Hs Hr He Hb) as (vb & Vb & _).
    destruct (C09_ranking_partial s r c m low None e a b va vb Hs Hr I He ltac:(unfold tight in Et; lia) Ha Hb Va Vb) as [W _].
    assert (Hv : va < vb). { apply W. unfold wins, beats. rewrite Ka, Kb. apply orb_true_iff. left. apply Nat.ltb_lt. exact Hp. }
    specialize (H b a vb va Hb Ha Vb Va). unfold poker_class in H. rewrite Ka, Kb in H. specialize (H Pa). clear -H Hv. lia.
Qed.
Print Assumptions C15_exact_hands.

(** ** C46: the history accounts for every chip but the debts *)
From Verif Require Import EngineSpec EngineFacts BetFacts MoneyFacts EngineDemo PropBetting.

(** the history has an entry of player [i] *)
Definition has_acted (i : nat) (h : list (nat * Z * bool)) : bool :=
  existsb (fun e => Nat.eqb (fst (fst e)) i) h.
(** the chips a player in debt takes back from the pot at the first own turn (a negative number) *)
Definition taken_back (s1 : state) (i : nat) (h : list (nat * Z * bool)) : Z :=
  if has_acted i h then Z.min 0 (stack_of s1 i) else 0.

Theorem C46_exact : forall c s0 rnd rb rs bs i, fair c s0 -> is_ok (snd (reset c s0 rnd rb rs)) = true ->
  let s1 := fst (reset c s0 rnd rb rs) in
  let s := run_steps c s1 bs in
  committed s i = committed s1 i + recorded i (history s) + taken_back s1 i (history s).
Proof.
  intros c s0 rnd rb rs bs i F H. cbv zeta.
  assert (F1 : fair c (fst (reset c s0 rnd rb rs))) by (apply (fair_op c s0 (OReset rnd rb rs)); [exact F|now right|exact I]).
  assert (H0 : history (fst (reset c s0 rnd rb rs)) = []).
  { pose proof (fair_money c s0 F) as M. destruct (reset_spec c s0 rnd rb rs (mo_cfg _ _ M) (mo_wf _ _ M)) as [(_ & _ & E)|[(_ & E)|(_ & _ & _ & E)]];
      [rewrite E in H; discriminate|rewrite E in H; discriminate|exact (re_history _ _ _ _ _ _ E)]. }
  set (s1 := fst (reset c s0 rnd rb rs)) in *. clearbody s1. clear H F s0.
  set (inv := fun s => fair c s /\ committed s i = committed s1 i + recorded i (history s) + taken_back s1 i (history s) /\
    (in_progress s -> if has_acted i (history s) then 0 <= stack_of s i else stack_of s i = stack_of s1 i)).
  enough (G : forall l s, inv s -> inv (run_steps c s l)).
  { apply (G bs s1). split; [exact F1|]. unfold taken_back. rewrite H0. cbn [has_acted existsb recorded map sumZ fold_right]. lia. }
  induction l as [|b l IH]; intros s Is; [exact Is|].
  change (run_steps c s (b :: l)) with (run_steps c (fst (step c s b)) l). apply IH. clear IH.
  destruct Is as (Fs & Ec & Hs). split; [apply (fair_op c s (OStep b)); [exact Fs|exact I|exact I]|].
  pose proof (fair_money c s Fs) as M.
  destruct (action s) as [a|] eqn:Ea; [|unfold step; rewrite Ea; split; [exact Ec|exact Hs]].
  assert (P : in_progress s) by (unfold in_progress; congruence). specialize (Hs P).
  destruct (wf_turn _ _ (mo_wf _ _ M) a Ea) as [La Aa].
  destruct (step_take c s b a (mo_cfg _ _ M) Ea) as [(-> & _)|(call & mi & ma & bet & folds & s2 & _ & Q)]; [split; [exact Ec|intros _; exact Hs]|].
  pose proof (sp_bet _ _ _ _ _ _ _ _ _ _ _ Q) as B. destruct (be_round _ _ _ _ _ _ _ _ _ _ B) as (z & Hz & Hst).
  pose proof (money_limits c s a _ _ _ M Ea (be_sizes _ _ _ _ _ _ _ _ _ _ B)) as L.
  pose proof (settled_bet s a _ _ _ b z L Hz) as X. rewrite Hst in X. destruct X as (X1 & _ & _ & X4 & X5 & _).
  pose proof (parts_committed _ _ _ _ _ _ _ _ _ _ _ i (mo_wf _ _ M) La Q) as Pc.
  assert (Eh : history (fst (step c s b)) = history s ++ [(a, bet, pynum_neg b)])
    by (rewrite (sp_history _ _ _ _ _ _ _ _ _ _ _ Q); apply (be_history _ _ _ _ _ _ _ _ _ _ B)).
  assert (Ha : has_acted i (history s ++ [(a, bet, pynum_neg b)]) = has_acted i (history s) || Nat.eqb i a).
  { unfold has_acted. rewrite existsb_app. cbn [existsb fst]. rewrite orb_false_r. now rewrite (Nat.eqb_sym a i). }
  assert (Er : recorded i (history s ++ [(a, bet, pynum_neg b)]) = recorded i (history s) + (if Nat.eqb i a then bet else 0)).
  { rewrite recorded_app. unfold recorded at 2. cbn [map sumZ fold_right]. rewrite (Nat.eqb_sym a i). destruct (Nat.eqb i a); lia. }
  unfold stack_of in *. split.
  - rewrite Pc, Eh, Er. unfold taken_back in *. rewrite Ha, Ec. unfold stack_of in *.
    destruct (Nat.eqb_spec i a) as [->|]; [|rewrite orb_false_r; lia]. rewrite orb_true_r.
    destruct (has_acted a (history s)); [|rewrite Hs in *]; lia.
  - intros Hp. rewrite Eh, Ha. destruct (parts_going _ _ _ _ _ _ _ _ _ _ _ i (mo_cfg _ _ M) (mo_wf _ _ M) La Q Hp) as [Eg _].
    unfold stack_of in Eg. rewrite Eg.
    destruct (Nat.eqb_spec i a) as [->|]; [rewrite orb_true_r|rewrite orb_false_r; destruct (has_acted i (history s)); lia].
    lia.
Qed.
Print Assumptions C46_exact.

(** player 1 posts a blind of 2 with a stack of 1: at their turn one chip comes back *)
Example C46_exact_met : exists c s0, fair c s0 /\ is_ok (snd (reset c s0 [] true true)) = true /\
  stack_of (fst (reset c s0 [] true true)) 1 = -1 /\ committed (fst (reset c s0 [] true true)) 1 = 2 /\
  history (run_steps c (fst (reset c s0 [] true true)) (map PyInt [2; 2])) = [(0%nat, 0, false); (1%nat, 0, false)] /\
  committed (run_steps c (fst (reset c s0 [] true true)) (map PyInt [2; 2])) 1 = 1.
Proof.
  play (demo 2 1 [1; 2] [0; 0] [RawInf] [RawCountInf] [0] 1) (@nil op) c s E. split; [exact (played_fair _ _ _ _ E)|]. plays E.
Qed.

(** ** C25: all raises of a street *)
(** the raise rule of the street suits the raises made before: a fixed size is not below the
    largest raise of the hand, and the pot of a pot-limit game is not below it *)
Definition rule_fits (c : config) (s : state) : Prop :=
  match nth_error (raise_sizes c) (street s) with
  | Some (RInt z) => largest_raise s <= z
  | Some RPot => largest_raise s <= pot s
  | _ => True
  end.
(** the number of players with chips behind *)
Definition with_chips (c : config) (s : state) : nat :=
  List.length (filter (fun i => 0 <? stack_of s i) (seq 0 (num_players c))).

Lemma filter_le (f g : nat -> bool) l : (forall i, In i l -> g i = true -> f i = true) ->
  (List.length (filter g l) <= List.length (filter f l))%nat.
Proof.
  induction l as [|x l IH]; intros H; [reflexivity|]. cbn [filter].
  specialize (IH (fun i Hi => H i (or_intror Hi))). pose proof (H x (or_introl eq_refl)) as X.
  destruct (g x) eqn:Eg; [rewrite (X eq_refl)|destruct (f x)]; cbn [List.length]; lia.
Qed.
Lemma filter_lt (f g : nat -> bool) a l : In a l -> f a = true -> g a = false ->
  (forall i, In i l -> g i = true -> f i = true) ->
  (List.length (filter g l) < List.length (filter f l))%nat.
Proof.
  induction l as [|x l IH]; intros Hin Fa Ga H; [destruct Hin|]. cbn [filter].
  pose proof (H x (or_introl eq_refl)) as X. destruct Hin as [->|Hin].
  - rewrite Fa, Ga. cbn [List.length]. pose proof (filter_le f g l (fun i Hi => H i (or_intror Hi))). lia.
  - specialize (IH Hin Fa Ga (fun i Hi => H i (or_intror Hi))).
    destruct (g x) eqn:Eg; [rewrite (X eq_refl)|destruct (f x)]; cbn [List.length]; lia.
Qed.

Lemma step_fits c s b a o B : fair c s -> action s = Some a -> observation c s false = Ok o -> py_round b = Ok B ->
  rule_fits c s -> 0 <= stack_of s a -> let s' := fst (step c s b) in
  street s' = street s -> in_progress s' -> rule_fits c s'.
Proof.
  intros F Ha Ho Hb Hf Hst. cbv zeta. intros Hstr Hp. pose proof (fair_money c s F) as M.
  pose proof (mo_largest _ _ M ltac:(unfold in_progress; congruence)) as HL.
  pose proof (sane_bb c (mo_cfg _ _ M) (fair_sane c s F)) as Hbb.
  destruct (step_seen c s b a o B F Ha Ho Hb) as (bet & folds & s1 & P & Hs & L & La & Ea & F1 & F2 & F3 & F4 & F5 & F6).
  destruct (bet_sizes_cases c s a _ _ _ Ha (obs_sizes c s o Ho)) as (Ec & rs & cap & Er & Ecap & Cs). cbv zeta in *.
  pose proof (sp_bet _ _ _ _ _ _ _ _ _ _ _ P) as Bt.
  destruct (parts_going _ _ _ _ _ _ _ _ _ _ _ a (mo_cfg _ _ M) (mo_wf _ _ M) La P Hp) as [_ E'].
  assert (E2 : largest_raise (fst (step c s b)) = largest_raise s1 /\ pot (fst (step c s b)) = pot s1).
  { destruct (settle_cases c s1 (mo_cfg _ _ M)) as [[_ E2]|[_ E2]]; [rewrite E', E2; auto|]. exfalso.
    pose proof (se_street _ _ _ (ne_street _ _ _ E2)) as X. rewrite <- E', Hstr in X.
    rewrite (be_street _ _ _ _ _ _ _ _ _ _ Bt) in X. destruct (all_all_in s1); lia. }
  destruct E2 as [El Ep]. unfold rule_fits in *. rewrite Hstr, El, Ep, Er in *.
  rewrite (be_largest _ _ _ _ _ _ _ _ _ _ Bt), (be_pot _ _ _ _ _ _ _ _ _ _ Bt). unfold stack_of in *.
  destruct L as [L1 L2 L3 L4 L5 L6 L7].
  specialize (L6 Hst). destruct L6 as [L6 L6'].
  destruct folds.
  { rewrite (F3 eq_refl). cbn [Z.eqb negb andb]. destruct rs; [exact Hf| |exact Hf]. lia. }
  destruct (F6 eq_refl Hst) as [F7 F8]. specialize (F4 Hst).
  destruct rs as [z| |]; [| |exact I].
  - destruct (negb (bet =? 0) && _) eqn:En; [|exact Hf].
    assert (K : bet = 0 \/ bet = o_call o \/ bet <= z + raw_call s a).
    { rewrite F7, clean_bet_spec. cbv zeta.
      repeat (match goal with |- context [if ?b then _ else _] => destruct b eqn:? end); destruct Cs as [Cs|Cs]; lia. }
    lia.
  - destruct (negb (bet =? 0) && _) eqn:En; lia.
Qed.

Theorem C25_all_raises : forall c s bs cap, street_start c s -> 0 < big_blind c ->
  nth_error (num_raises c) (street s) = Some (Some cap) -> 0 <= cap -> rule_fits c s ->
  (forall j, (j < num_players c)%nat -> 0 <= stack_of s j) ->
  Z.of_nat (count_on_street (raises c) c s bs) <= cap + Z.of_nat (with_chips c s).
Proof.
  intros c s bs cap H Hbb Hcap H0 Hf Hn.
  destruct (action s) as [a0|] eqn:Ha0.
  2:{ enough (E : count_on_street (raises c) c s bs = 0%nat) by lia. destruct bs as [|b bs]; [reflexivity|]. cbn [count_on_street].
      unfold raises, step. rewrite Ha0. cbn [fst]. rewrite Ha0, Nat.eqb_refl. reflexivity. }
  destruct (street_start_raises c s H ltac:(unfold in_progress; congruence)) as [F E]. clear a0 Ha0 H.
  enough (G : Z.of_nat (count_on_street (raises c) c s bs) <= Z.max 0 (cap - street_raises s) + Z.of_nat (with_chips c s)) by lia.
  clear E H0. revert s F Hcap Hf Hn. induction bs as [|b bs IH]; intros s F Hcap Hf Hn; [cbn; lia|]. cbn [count_on_street].
  destruct (action s) as [a|] eqn:Ha.
  2:{ unfold raises. rewrite Ha. unfold step. rewrite Ha. cbn [fst]. rewrite Ha, Nat.eqb_refl. lia. }
  assert (F' : fair c (fst (step c s b))) by (apply (fair_op c s (OStep b)); [exact F|exact I|exact I]).
  assert (Hskip : fst (step c s b) = s -> raises c s b = false).
  { intros E. unfold raises, put_in. rewrite Ha, E. destruct (observation c s false); lia. }
  pose proof (fair_money c s F) as M.
  destruct (step_take c s b a (mo_cfg _ _ M) Ha) as [(E & _)|(call & mi & ma & bet & folds & s1 & H1 & P)].
  { rewrite (Hskip E), E, Nat.eqb_refl, Ha. exact (IH s F Hcap Hf Hn). }
  destruct (be_round _ _ _ _ _ _ _ _ _ _ (sp_bet _ _ _ _ _ _ _ _ _ _ _ P)) as (B & Hb & _).
  destruct (observation c s false) as [o|] eqn:Ho.
  2:{ exfalso. pose proof (be_sizes _ _ _ _ _ _ _ _ _ _ (sp_bet _ _ _ _ _ _ _ _ _ _ _ P)) as Sz. unfold observation in Ho. rewrite Sz, Ha in Ho.
      cbn [bind] in Ho. unfold get in Ho. destruct (nth_error (hole_cards s) a) eqn:Eh; [discriminate|]. apply nth_error_None in Eh.
      rewrite (wf_hole _ _ (mo_wf _ _ M) ltac:(congruence)) in Eh.
      destruct (wf_turn _ _ (mo_wf _ _ M) a Ha). lia. }
  destruct (wf_turn _ _ (mo_wf _ _ M) a Ha) as [La _]. pose proof (Hn a La) as Hst.
  destruct (step_raises c s b a o B cap F Hbb Ha Ho Hb Hcap) as [K1 K2]. cbv zeta in *.
  pose proof (mo_largest _ _ M ltac:(unfold in_progress; congruence)) as HL.
  (* a raise that is not full takes the whole stack *)
  assert (Short : raises c s b = true -> full_raise c s b = false -> put_in c s b a = stack_of s a).
  { apply (C25_other_raises_all_in c s a o b B F Ha Ho Hb).
    - intros z Hz. unfold rule_fits in Hf. now rewrite Hz in Hf.
    - destruct (bet_sizes_cases c s a _ _ _ Ha (obs_sizes c s o Ho)) as (Ec & rs & cp & Er & Ecp & Cs). cbv zeta in *.
      unfold rule_fits in Hf. rewrite Er in Hf. destruct Cs as [[_ Cs]|[_ Cs]]; [lia|].
      assert (Hrc : 0 <= raw_call s a) by (apply raw_call_nonneg; rewrite (wf_street _ _ (mo_wf _ _ M)); exact La).
      unfold stack_of in *. destruct rs; lia. }
  assert (Pos : raises c s b = true -> 0 < put_in c s b a) by (unfold raises; rewrite Ha, Ho; lia).
  assert (Le : put_in c s b a <= stack_of s a /\ 0 <= put_in c s b a).
  { destruct (step_seen c s b a o B F Ha Ho Hb) as (bet' & folds' & s1' & P' & _ & _ & _ & _ & X1 & _ & _ & X4 & _).
    unfold put_in. rewrite (parts_committed _ _ _ _ _ _ _ _ _ _ _ a (mo_wf _ _ M) La P'), Nat.eqb_refl. specialize (X4 Hst). lia. }
  assert (Rich : 0 < stack_of s a -> (1 <= with_chips c s)%nat).
  { intros Hpos. unfold with_chips. change 1%nat with (List.length [a]). apply NoDup_incl_length; [repeat constructor; intros []|].
    intros x [<-|[]]. apply filter_In. split; [apply in_seq; lia|lia]. }
  assert (Going : in_progress (fst (step c s b)) -> forall j, stack_of (fst (step c s b)) j = stack_of s j - (if Nat.eqb j a then put_in c s b a else 0)).
  { intros Hp j. unfold put_in. rewrite (parts_committed _ _ _ _ _ _ _ _ _ _ _ a (mo_wf _ _ M) La P), Nat.eqb_refl.
    destruct (parts_going _ _ _ _ _ _ _ _ _ _ _ j (mo_cfg _ _ M) (mo_wf _ _ M) La P Hp) as [X _]. rewrite X.
    destruct (Nat.eqb j a); lia. }
  assert (Mono : in_progress (fst (step c s b)) -> (with_chips c (fst (step c s b)) <= with_chips c s)%nat).
  { intros Hp. apply filter_le. intros j _ Hj. rewrite (Going Hp j) in Hj. destruct (Nat.eqb_spec j a) as [Ej|Ej]; [rewrite Ej in *|]; lia. }
  assert (Mono2 : in_progress (fst (step c s b)) -> raises c s b = true -> full_raise c s b = false ->
            (with_chips c (fst (step c s b)) < with_chips c s)%nat).
  { intros Hp R1 R2. apply (filter_lt _ _ a); [apply in_seq; lia| | |].
    - specialize (Pos R1). lia.
    - rewrite (Going Hp a), Nat.eqb_refl, (Short R1 R2). lia.
    - intros j _ Hj. rewrite (Going Hp j) in Hj. destruct (Nat.eqb_spec j a) as [Ej|Ej]; [rewrite Ej in *|]; lia. }
  assert (FR : full_raise c s b = true -> raises c s b = true) by (unfold full_raise, raises; rewrite Ha, Ho; lia).
  assert (One : raises c s b = true -> 1 <= Z.max 0 (cap - street_raises s) + Z.of_nat (with_chips c s)).
  { intros R1. specialize (Pos R1). specialize (Rich ltac:(lia)). lia. }
  destruct (Nat.eqb_spec (street (fst (step c s b))) (street s)) as [Es|Es].
  2:{ destruct (raises c s b); [specialize (One eq_refl)|]; lia. }
  destruct (action (fst (step c s b))) as [a'|] eqn:Ea'.
  2:{ destruct (raises c s b); [specialize (One eq_refl)|]; lia. }
  assert (Hp : in_progress (fst (step c s b))) by (unfold in_progress; congruence).
  specialize (K2 Es Hp). specialize (Mono Hp). specialize (Mono2 Hp).
  pose proof (step_fits c s b a o B F Ha Ho Hb Hf Hst Es Hp) as Hf'.
  assert (Hn' : forall j, (j < num_players c)%nat -> 0 <= stack_of (fst (step c s b)) j).
  { intros j Hj. rewrite (Going Hp j). specialize (Hn j Hj). destruct (Nat.eqb_spec j a) as [Ej|Ej]; [rewrite Ej in *|]; lia. }
  rewrite <- Es in Hcap. specialize (IH _ F' Hcap Hf' Hn').
  destruct (full_raise c s b) eqn:Ef; [rewrite (FR eq_refl); specialize (K1 eq_refl); lia|].
  destruct (raises c s b); [specialize (Mono2 eq_refl eq_refl)|]; lia.
Qed.
Print Assumptions C25_all_raises.

(** two raises on a street with cap 1: a short one by the player with 3 chips, then a full one *)
Example C25_all_raises_met : exists c s0, fair c s0 /\ is_ok (snd (reset c s0 [] true false)) = true /\ big_blind c = 2 /\
  nth_error (num_raises c) (street (fst (reset c s0 [] true false))) = Some (Some 1) /\
  nth_error (raise_sizes c) (street (fst (reset c s0 [] true false))) = Some RInf /\
  stacks (fst (reset c s0 [] true false)) = [3; 19; 18] /\ with_chips c (fst (reset c s0 [] true false)) = 3%nat /\
  count_on_street (raises c) c (fst (reset c s0 [] true false)) (map PyInt [3; 9; 9; 9]) = 2%nat.
Proof.
  play (demo 3 1 [1; 2; 0] [0; 0; 0] [RawInf] [RawCount 1] [0] 20) [OSetStacks [3; 20; 20]] c s E.
  split; [exact (played_fair _ _ _ _ E)|]. plays E.
Qed.

(** ** C24: when a raise may be smaller than the largest raise of the hand *)
Theorem C24_min_raise_exact : forall c s a o, fair c s -> action s = Some a -> observation c s false = Ok o ->
  0 <= stack_of s a -> o_max_raise o <> 0 -> o_min_raise o < stack_of s a ->
  (o_min_raise o - o_call o < largest_raise s <->
   exists z, nth_error (raise_sizes c) (street s) = Some (RInt z) /\ z < largest_raise s).
Proof.
  intros c s a o F Ha Ho Hst Hm Hlt. pose proof (fair_money c s F) as M.
  destruct (bet_sizes_cases c s a _ _ _ Ha (obs_sizes c s o Ho)) as (Ec & rs & cap & Er & Ecap & Cs). cbv zeta in *.
  pose proof (sane_bb c (mo_cfg _ _ M) (fair_sane c s F)) as Hbb.
  pose proof (mo_largest _ _ M ltac:(unfold in_progress; congruence)) as HL.
  pose proof (money_limits c s a _ _ _ M Ha (obs_sizes c s o Ho)) as [L1 L2 L3 L4 L5 L6 L7].
  unfold stack_of in *. specialize (L6 Hst). destruct L6 as [L6 L6']. rewrite Er.
  destruct Cs as [[_ Cs]|[_ Cs]]; [lia|]. destruct rs as [z| |].
  - split; [intros H; exists z; split; [reflexivity|]; lia|]. intros (z' & E & H). injection E as <-. lia.
  - split; [intros H; exfalso; lia|]. intros (z' & E & H). discriminate E.
  - split; [intros H; exfalso; lia|]. intros (z' & E & H). discriminate E.
Qed.
Print Assumptions C24_min_raise_exact.

(** ** C22, C23: players in debt (a forced bet was larger than their stack) *)
Theorem C22_debt : forall c s a o b B, fair c s -> action s = Some a -> observation c s false = Ok o -> py_round b = Ok B ->
  stack_of s a < 0 ->
  let s' := fst (step c s b) in
  put_in c s b a = stack_of s a /\ (in_progress s' -> stack_of s' a = 0) /\
  (~ is_active s' a <-> pynum_neg b = true).
Proof.
  intros c s a o b B F Ha Ho Hb Hst. cbv zeta.
  destruct (step_seen c s b a o B F Ha Ho Hb) as (bet & folds & s1 & P & Hs & L & La & Ea & F1 & F2 & F3 & F4 & F5 & F6).
  pose proof (fair_money c s F) as M. pose proof (F5 Hst) as ->.
  unfold put_in. rewrite (parts_committed _ _ _ _ _ _ _ _ _ _ _ a (mo_wf _ _ M) La P), Nat.eqb_refl.
  split; [lia|]. split.
  - intros Hp. destruct (parts_going _ _ _ _ _ _ _ _ _ _ _ a (mo_cfg _ _ M) (mo_wf _ _ M) La P Hp) as [X _]. rewrite X, Nat.eqb_refl. lia.
  - rewrite (parts_active _ _ _ _ _ _ _ _ _ _ _ a (mo_wf _ _ M) La Ea P).
    destruct L as [L1 L2 L3 L4 L5 L6 L7]. specialize (L7 Hst). pose proof (pynum_nonneg_round b B Hb) as Hr. unfold stack_of in Hst.
    destruct folds.
    + split; [intros _|intros _ [_ X]; apply X; auto]. destruct F2 as [F2 _]. specialize (F2 eq_refl). destruct F2 as [_ [F2|F2]]; [exact F2|].
      destruct (pynum_neg b); [reflexivity|]. exfalso. specialize (Hr eq_refl). lia.
    + destruct F2 as [_ F2]. split; [intros X; exfalso; apply X; split; [exact Ea|intros [_ Y]; discriminate Y]|].
      intros Hneg. exfalso. enough (false = true) by discriminate. apply F2. split; [lia|now left].
Qed.
Print Assumptions C22_debt.
Example C22_debt_met : exists c s, fair c s /\ action s = Some 1%nat /\ stack_of s 1 = -1 /\
  is_ok (observation c s false) = true /\ pot_commits s = [1; 2].
Proof.
  play (demo 2 1 [1; 2] [0; 0] [RawInf] [RawCountInf] [0] 1) (new_hand :: bets [2]) c s E. split; [exact (played_fair _ _ _ _ E)|]. plays E.
Qed.

(** ** C08, C10, C16 *)
(** a repeated class string is accepted and ruins the table: with "sf" named twice, four aces get
    a rank beyond the worst one, which has no class and loses to seven high *)
Definition twice_order : list string := ["sf"; "fk"; "fh"; "fl"; "st"; "tk"; "tp"; "pa"; "hc"; "sf"]%string.
Definition four_aces : hand := [(12, 0); (12, 1); (12, 2); (12, 3); (11, 0)]%nat.
Definition seven_high : hand := [(5, 0); (3, 1); (2, 2); (1, 3); (0, 0)]%nat.
Theorem C16_repetition_harm : exists e va vb, Evaluator 4 13 5 0 true (Some twice_order) = Ok e /\
  is_hand 4 13 5 four_aces /\ is_hand 4 13 5 seven_high /\
  poker_class 4 13 5 true four_aces = FK /\ poker_class 4 13 5 true seven_high = HC /\
  lookup e four_aces = Ok va /\ lookup e seven_high = Ok vb /\ vb < max_rank e < va /\
  get_rank_class e va = Err InvalidHandRankError /\
  evaluate e (cards_of four_aces) [] = Ok (max_rank e).
Proof.
  assert (A : match Evaluator 4 13 5 0 true (Some twice_order) with
              | Ok e => match lookup e four_aces, lookup e seven_high, evaluate e (cards_of four_aces) [] with
                        | Ok va, Ok vb, Ok w => (vb <? max_rank e) && (max_rank e <? va) && (w =? max_rank e)
                            && match get_rank_class e va with Err InvalidHandRankError => true | _ => false end
                        | _, _, _ => false
                        end
              | Err _ => false end = true) by vm_cast_no_check (eq_refl true).
  destruct (Evaluator 4 13 5 0 true (Some twice_order)) as [e|]; [|discriminate A].
  destruct (lookup e four_aces) as [va|] eqn:Ea; [|discriminate A].
  destruct (lookup e seven_high) as [vb|] eqn:Eb; [|discriminate A].
  destruct (evaluate e (cards_of four_aces) []) as [w|] eqn:Ew; [|discriminate A].
  rewrite !andb_true_iff in A. destruct A as [[[A1 A2] A3] A4].
  exists e, va, vb. split; [reflexivity|]. split; [hand_tac|]. split; [hand_tac|]. split; [reflexivity|]. split; [reflexivity|].
  split; [exact Ea|]. split; [exact Eb|]. split; [lia|]. split.
  - destruct (get_rank_class e va) as [k|x]; [discriminate A4|]. destruct x; first [reflexivity|discriminate A4].
  - apply Z.eqb_eq in A3. now rewrite A3 in Ew.
Qed.
Print Assumptions C16_repetition_harm.

(** on a deck with as many ranks as cards, in an order that does not rank flushes, a hand of one
    suit is given the class of the same ranks in mixed suits *)
Theorem C10_tight_suited : forall s r c m low order e a v,
  2 <= s <= 4 -> 1 <= r <= 13 -> order_perm order -> Evaluator s r c m low order = Ok e ->
  3 <= c -> r = c -> ~ In FL (ranked_hands e) ->
  is_hand s r c a -> same_suit a = true -> lookup e a = Ok v ->
  exists b, is_hand s r c b /\ same_suit b = false /\ map fst b = map fst a /\
    get_rank_class e v = Ok (poker_class s r c low b).
Proof.
  intros s r c m low order e a v Hs Hr Ho He H3 Hrc HF Ha Es Hv.
  destruct (C09_tight_suited s r c m low order e a Hs Hr Ho He H3 Hrc HF Ha Es) as (b & Hb & Sb & Eb & El).
  exists b. split; [exact Hb|]. split; [exact Sb|]. split; [exact Eb|].
  apply (C10_rank_class_of_hand_partial s r c m low order e b v ltac:(lia) Hr Ho He); [right; now right|exact Hb|congruence].
Qed.
Print Assumptions C10_tight_suited.

(** every hand has a rank exactly if the deck is not a single suit of as many ranks as cards with
    flushes ranked; there, the only hand has none *)
Theorem C08_exact : forall s r c m low order e,
  1 <= s <= 4 -> 1 <= r <= 13 -> order_perm order -> Evaluator s r c m low order = Ok e ->
  ((forall h, is_hand s r c h -> exists v, lookup e h = Ok v /\ 0 <= v <= max_rank e)
   <-> ~ (s = 1 /\ 3 <= c /\ r = c /\ In FL (ranked_hands e))) /\
  (s = 1 /\ 3 <= c /\ r = c /\ In FL (ranked_hands e) ->
   forall h, is_hand s r c h -> lookup e h = Err KeyError).
Proof.
  intros s r c m low order e Hs Hr Ho He. destruct (Evaluator_inv _ _ _ _ _ _ _ He) as (Hc & Ht & _).
  assert (K : s = 1 /\ 3 <= c /\ r = c /\ In FL (ranked_hands e) ->
              forall h, is_hand s r c h -> lookup e h = Err KeyError).
  { intros (-> & H3 & -> & HF) h Hh.
    destruct (LookupTable_built _ _ _ _ _ _ Ht) as
      (Hval & hs & s1 & s2 & u1 & u2 & l1 & l2 & l3 & l4 & l5 & Hhs & B).
    destruct (built_nonneg _ _ _ _ _ _ Hs Hr Hc Ho Ht) as (hs' & P & Er & Hn).
    assert (Nh : NoDup hs') by (eapply Permutation_NoDup; [exact P|unfold all_classes; nodup_tac]).
    assert (Cf : 0 < r_cum (t_ranking (e_table e)) FL).
    { rewrite Er. apply ranked_cum_pos; [exact Hn|exact Nh|]. unfold ranked_hands in HF. now rewrite Er in HF. }
    assert (Z0 : snd (hand_counts 1 c c low SF) = 0 /\ snd (hand_counts 1 c c low FL) = 0).
    { assert (A : forallb (fun c => forallb (fun low => (snd (hand_counts 1 c c low SF) =? 0) && (snd (hand_counts 1 c c low FL) =? 0))
                    [true; false]) [3; 4; 5] = true) by (vm_compute; reflexivity).
      rewrite forallb_forall in A. specialize (A c ltac:(cbn [In]; lia)). rewrite forallb_forall in A.
      specialize (A low ltac:(destruct low; cbn; tauto)). lia. }
    destruct Z0 as [Zs Zf].
    assert (Es1 : s1 = dict_empty).
    { destruct (flushes_add_inv _ _ _ _ _ _ (b_s1 _ _ _ _ _ _ _ _ _ _ _ _ _ _ _ B)) as [[_ X]|(_ & Lb & v & _ & X)]; [exact X|].
      rewrite Zs in Lb. rewrite X. destruct (straight_bits _ _ _ _); [reflexivity|cbn [List.length] in Lb; lia]. }
    assert (Es2 : s2 = dict_empty).
    { destruct (flushes_add_inv _ _ _ _ _ _ (b_s2 _ _ _ _ _ _ _ _ _ _ _ _ _ _ _ B)) as [[_ X]|(_ & Lb & v & _ & X)]; [congruence|].
      rewrite Zf in Lb. rewrite X. destruct (flush_bits _ _ _ _); [exact Es1|cbn [List.length] in Lb; lia]. }
    assert (Su : t_suited (e_table e) = dict_empty).
    { rewrite (b_suited _ _ _ _ _ _ _ _ _ _ _ _ _ _ _ B). replace (r_cum (t_ranking (e_table e)) FL =? 0) with false by lia. exact Es2. }
    assert (Hrange : in_range h)
      by exact (hand_in_range (Z.to_nat 1) (Z.to_nat c) (Z.to_nat c) ltac:(lia) ltac:(lia) h Hh).
    assert (Hss : same_suit h = true).
    { destruct Hh as (_ & _ & F). clear -F. destruct h as [|[i j] h]; [reflexivity|]. unfold same_suit.
      rewrite Forall_forall in F. apply forallb_forall. intros p Hp. apply Nat.eqb_eq.
      pose proof (F (i, j) (or_introl eq_refl)) as [_ F1]. pose proof (F p (or_intror Hp)) as [_ F2]. cbn [snd] in *.
      change (Z.to_nat 1) with 1%nat in *. lia. }
    unfold lookup. rewrite (lookup_ranks (e_table e) h); [|exact Hrange| |].
    - rewrite Hss, Su. unfold dict_find, dict_empty. destruct (_ <=? 0); [reflexivity|]. now rewrite PositiveMap.gempty.
    - destruct Hh as (L & _). destruct h; [cbn in L; lia|discriminate].
    - intros E. exact (same_suit_nodup (Z.to_nat 1) (Z.to_nat c) (Z.to_nat c) ltac:(lia) ltac:(lia) h Hh E). }
  split; [|exact K]. split.
  - intros H X. pose proof (K X) as K'. destruct X as (-> & H3 & -> & HF).
    set (h := map (fun i => (12 - i, 0)%nat) (seq 0 (Z.to_nat c))).
    assert (Hh : is_hand 1 c c h).
    { assert (A : forallb (fun c => deck_hand_b 1 c c (tight_flush c)) [3; 4; 5] = true) by reflexivity.
      rewrite forallb_forall in A. apply deck_hand_ok; [lia|]. exact (A c ltac:(cbn [In]; lia)). }
    destruct (H h Hh) as (v & V & _). rewrite (K' h Hh) in V. discriminate V.
  - intros Hx h Hh. apply (hand_has_rank s r c low order (e_table e) h Hs Hr Hc Ho Ht); [|exact Hh].
    intros (A & B & C). apply Hx. unfold tight in B. repeat split; try lia; exact C.
Qed.
Print Assumptions C08_exact.
