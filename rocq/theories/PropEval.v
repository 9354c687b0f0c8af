(** * PropEval: properties C07-C16 (hand evaluation)

    Hands are lists of (rank, suit) pairs, rank 0 (deuce) .. 12 (ace); [cards_of]
    gives the cards.  [Z.to_nat] only converts the deck parameters. *)
From Coq Require Import Permutation ZifyBool ZifyNat Arith.
From Verif Require Import PyBase PyFacts CardModel CardSpec EvalModel PokerSpec EvalSpec
  EngineModel ConfigsModel CardProofs EvalRank EvalCheck EvalHands EvalTable EvalCfg EvalMain EvalRare EvalFinal EvalEnd.

(** [a] beats [b] / [a] and [b] tie in the deck with [s] suits and [r] ranks, hands of
    [c] cards, for the given order of the classes *)
Definition wins (order : list hclass) (s r c : Z) (low : bool) (a b : hand) : Prop :=
  beats order (Z.to_nat s) (Z.to_nat r) (Z.to_nat c) low a b = true.
Definition ties (s r c : Z) (low : bool) (a b : hand) : Prop :=
  class_of (Z.to_nat s) (Z.to_nat r) (Z.to_nat c) low a = class_of (Z.to_nat s) (Z.to_nat r) (Z.to_nat c) low b
  /\ tie_of (Z.to_nat r) (Z.to_nat c) low a = tie_of (Z.to_nat r) (Z.to_nat c) low b.
Definition is_hand (s r c : Z) (h : hand) : Prop :=
  hand_of_deck (Z.to_nat s) (Z.to_nat r) (Z.to_nat c) h.
Definition poker_class (s r c : Z) (low : bool) (h : hand) : hclass :=
  class_of (Z.to_nat s) (Z.to_nat r) (Z.to_nat c) low h.
(** lookup of a hand; the classes in the order of the evaluator, best first; the worst rank *)
Definition lookup (e : evaluator) (h : hand) : result Z := table_lookup (e_table e) (cards_of h).
Definition ranked_hands (e : evaluator) : list hclass := r_ranked (t_ranking (e_table e)).
Definition max_rank (e : evaluator) : Z := t_max_rank (e_table e).

(** a small evaluator for the examples: 2 suits, 4 ranks (J Q K A), 3 cards *)
Definition small_eval : evaluator :=
  match Evaluator 2 4 3 0 false None with
  | Ok e => e
  | Err _ => mkEvaluator 0 0 0 0 (mkTable (fun _ => (0, 0)) (compute_ranking (fun _ => (0, 0)) []) dict_empty dict_empty)
  end.
Lemma small_eval_ok : Evaluator 2 4 3 0 false None = Ok small_eval.
Proof. vm_cast_no_check (eq_refl (Evaluator 2 4 3 0 false None)). Qed.

Ltac nodup_tac := repeat (apply NoDup_cons; [cbn; intros HH; repeat (destruct HH as [HH|HH]; [discriminate HH|]); exact HH|]); apply NoDup_nil.
Ltac hand_tac := split; [reflexivity|]; split; [nodup_tac|repeat (apply Forall_cons; [split; [split; [apply Nat.leb_le|apply Nat.ltb_lt]; reflexivity|apply Nat.ltb_lt; reflexivity]|]); apply Forall_nil].

(** ** C07 *)
Theorem C07_construction : forall s r c m low,
  1 <= s <= 4 -> 1 <= r <= 13 ->
  match Evaluator s r c m low None with
  | Ok e => 1 <= c <= 5 /\ constructible s r c low = true
  | Err InvalidHandSizeError => ~ (1 <= c <= 5)
  | Err AssertionError => 1 <= c <= 5 /\ constructible s r c low = false /\ key_error s r c low = false
  | Err KeyError => 1 <= c <= 5 /\ constructible s r c low = false /\ key_error s r c low = true
  | Err _ => False
  end.
Proof.
  intros s r c m low Hs Hr. destruct (Z_le_dec 1 c) as [H1|H1]; [destruct (Z_le_dec c 5) as [H5|H5]|].
  2,3: unfold Evaluator; replace ((c <? 1) || (5 <? c)) with true by lia; lia.
  pose proof (built_default s r c low Hs Hr ltac:(lia)) as H.
  pose proof (Evaluator_mandatory s r c m 0 low None) as M.
  destruct (Evaluator s r c m low None) as [e|x], (Evaluator s r c 0 low None) as [e'|x']; try contradiction.
  - split; [lia|exact H].
  - subst x'. destruct x; try discriminate; (split; [lia|]).
    + split; [now apply key_error_constructible|exact H].
    + apply andb_prop in H. destruct H as [H H']. apply negb_true_iff in H, H'. now split.
Qed.
Print Assumptions C07_construction.

Theorem C07_shipped : forall w, In w shipped_configs ->
  exists e, Evaluator (rw_num_suits w) (rw_num_ranks w) (rw_num_cards_for_hand w)
              (rw_mandatory_num_hole_cards w) (rw_low_end_straight w) (rw_order w) = Ok e.
Proof.
  intros w Hw.
  assert (A : forallb (fun w => is_ok (Evaluator (rw_num_suits w) (rw_num_ranks w) (rw_num_cards_for_hand w)
              (rw_mandatory_num_hole_cards w) (rw_low_end_straight w) (rw_order w))) shipped_configs = true)
    by vm_cast_no_check (eq_refl true).
  rewrite forallb_forall in A. specialize (A w Hw). destruct (Evaluator _ _ _ _ _ _) as [e|]; [now exists e|discriminate].
Qed.
Print Assumptions C07_shipped.

Example C07_example_bad : Evaluator 4 3 5 0 true None = Err AssertionError.
Proof. vm_compute. reflexivity. Qed.
Example C07_example_key : Evaluator 1 3 5 0 false None = Err KeyError.
Proof. vm_compute. reflexivity. Qed.

(** ** C08 *)
(** Full statement: false.  In a deck with one suit and as many ranks as a hand has cards, a
    custom order that puts the (impossible) flush after a possible class builds an evaluator
    that raises KeyError for every hand. *)
Definition c08_order : list string := ["sf"; "fk"; "fh"; "tk"; "tp"; "pa"; "st"; "fl"; "hc"]%string.
Theorem C08_every_hand_has_a_rank_refuted :
  exists e h, Evaluator 1 3 3 0 false (Some c08_order) = Ok e /\ NoDup c08_order /\
    is_hand 1 3 3 h /\ lookup e h = Err KeyError.
Proof.
  destruct (Evaluator 1 3 3 0 false (Some c08_order)) as [e|] eqn:E; [|vm_compute in E; discriminate].
  exists e, [(12, 0); (11, 0); (10, 0)]%nat. split; [reflexivity|]. split; [|split].
  - unfold c08_order. nodup_tac.
  - hand_tac.
  - vm_compute in E. injection E as <-. vm_compute. reflexivity.
Qed.
Print Assumptions C08_every_hand_has_a_rank_refuted.

(** With the default order every hand of every deck has a rank. *)
Theorem C08_default_order : forall s r c m low e h,
  1 <= s <= 4 -> 1 <= r <= 13 -> Evaluator s r c m low None = Ok e -> is_hand s r c h ->
  exists v, lookup e h = Ok v /\ 0 <= v <= max_rank e.
Proof.
  intros s r c m low e h Hs Hr He Hh. destruct (Evaluator_inv _ _ _ _ _ _ _ He) as (Hc & Ht & _).
  apply (hand_has_rank s r c low None (e_table e) h Hs Hr Hc I Ht); [|exact Hh].
  intros (_ & Et & HF). destruct (tight_default s r c low _ Hs Hr Hc Ht Et) as [_ N]. contradiction.
Qed.
Print Assumptions C08_default_order.

(** With a custom order (without repetitions), the decks of the refutation are the only exception. *)
Theorem C08_every_hand_has_a_rank_partial : forall s r c m low order e h,
  1 <= s <= 4 -> 1 <= r <= 13 -> NoDup order -> Evaluator s r c m low (Some order) = Ok e ->
  ~ (s = 1 /\ 3 <= c /\ r = c /\ In FL (ranked_hands e)) ->
  is_hand s r c h -> exists v, lookup e h = Ok v /\ 0 <= v <= max_rank e.
Proof.
  intros s r c m low order e h Hs Hr No He Hx Hh. destruct (Evaluator_inv _ _ _ _ _ _ _ He) as (Hc & Ht & _).
  apply (hand_has_rank s r c low (Some order) (e_table e) h Hs Hr Hc No Ht); [|exact Hh].
  intros (A & B & C). apply Hx. unfold tight in B. repeat split; try lia; exact C.
Qed.
Print Assumptions C08_every_hand_has_a_rank_partial.

Example C08_example : is_hand 2 4 3 [(12, 0); (12, 1); (9, 0)]%nat /\
  lookup small_eval [(12, 0); (12, 1); (9, 0)]%nat = Ok 11.
Proof. split; [hand_tac|vm_compute; reflexivity]. Qed.

(** ** C09 *)
(** Full statement: false in decks with as many ranks as a hand has cards: there the straight
    flush gets the same rank as the straight. *)
Theorem C09_ranking_refuted :
  exists e a b v, Evaluator 2 3 3 0 false None = Ok e /\
    is_hand 2 3 3 a /\ is_hand 2 3 3 b /\
    wins (ranked_hands e) 2 3 3 false a b /\ lookup e a = Ok v /\ lookup e b = Ok v.
Proof.
  destruct (Evaluator 2 3 3 0 false None) as [e|] eqn:E; [|vm_compute in E; discriminate].
  exists e, [(12, 0); (11, 0); (10, 0)]%nat, [(12, 0); (11, 1); (10, 0)]%nat, 2.
  split; [reflexivity|]. split; [hand_tac|]. split; [hand_tac|].
  vm_compute in E. injection E as <-. vm_compute. auto.
Qed.
Print Assumptions C09_ranking_refuted.

(** In all other decks, and for every order without repetitions. *)
Theorem C09_ranking_partial : forall s r c m low order e a b va vb,
  1 <= s <= 4 -> 1 <= r <= 13 -> order_perm order -> Evaluator s r c m low order = Ok e ->
  ~ (3 <= c /\ r = c) ->
  is_hand s r c a -> is_hand s r c b -> lookup e a = Ok va -> lookup e b = Ok vb ->
  (va < vb <-> wins (ranked_hands e) s r c low a b) /\
  (va = vb <-> ties s r c low a b).
Proof.
  intros s r c m low order e a b va vb Hs Hr Ho He Hx Ha Hb Va Vb.
  destruct (Evaluator_inv _ _ _ _ _ _ _ He) as (Hc & Ht & _).
  assert (Et : tight r c = false) by (unfold tight; lia).
  destruct (main_facts s r c low order (e_table e) Hs Hr Hc Ho Ht a Ha) as [hs F].
  assert (Oa : okh s r c (e_table e) a) by (split; [exact Ha|left; now left]).
  assert (Ob : okh s r c (e_table e) b) by (split; [exact Hb|left; now left]).
  destruct (compare_hands s r c low order (e_table e) Hs Hr Hc hs F a b va vb Oa Ob Va Vb) as [H1 H2].
  split; [|exact H2].
  unfold wins, ranked_hands. rewrite (beats_ranked s r c low order (e_table e) hs F a b va vb Oa Ob Va Vb).
  exact H1.
Qed.
Print Assumptions C09_ranking_partial.

(** The same for decks with as many ranks as cards, when flushes are ranked (which takes a
    custom order and two suits), or for two hands with mixed suits; and there a suited hand is
    ranked like the hand with the same ranks and mixed suits. *)
Theorem C09_tight_decks : forall s r c m low order e a b va vb,
  1 <= s <= 4 -> 1 <= r <= 13 -> order_perm order -> Evaluator s r c m low order = Ok e ->
  (In FL (ranked_hands e) /\ 2 <= s \/ same_suit a = false /\ same_suit b = false) ->
  is_hand s r c a -> is_hand s r c b -> lookup e a = Ok va -> lookup e b = Ok vb ->
  (va < vb <-> wins (ranked_hands e) s r c low a b) /\
  (va = vb <-> ties s r c low a b).
Proof.
  intros s r c m low order e a b va vb Hs Hr Ho He Hx Ha Hb Va Vb.
  destruct (Evaluator_inv _ _ _ _ _ _ _ He) as (Hc & Ht & _).
  destruct (main_facts s r c low order (e_table e) Hs Hr Hc Ho Ht a Ha) as [hs F].
  assert (Oa : okh s r c (e_table e) a).
  { split; [exact Ha|]. destruct Hx as [[H1 H2]|[H1 H2]]; [left; right; tauto|now right]. }
  assert (Ob : okh s r c (e_table e) b).
  { split; [exact Hb|]. destruct Hx as [[H1 H2]|[H1 H2]]; [left; right; tauto|now right]. }
  destruct (compare_hands s r c low order (e_table e) Hs Hr Hc hs F a b va vb Oa Ob Va Vb) as [H1 H2].
  split; [|exact H2].
  unfold wins, ranked_hands. rewrite (beats_ranked s r c low order (e_table e) hs F a b va vb Oa Ob Va Vb).
  exact H1.
Qed.
Print Assumptions C09_tight_decks.

Theorem C09_tight_suited : forall s r c m low order e a,
  2 <= s <= 4 -> 1 <= r <= 13 -> order_perm order -> Evaluator s r c m low order = Ok e ->
  3 <= c -> r = c -> ~ In FL (ranked_hands e) ->
  is_hand s r c a -> same_suit a = true ->
  exists b, is_hand s r c b /\ same_suit b = false /\ map fst b = map fst a /\ lookup e a = lookup e b.
Proof.
  intros s r c m low order e a Hs Hr Ho He H3 Hx HF Ha Es.
  destruct (Evaluator_inv _ _ _ _ _ _ _ He) as (Hc & Ht & _).
  apply (tight_suited s r c low order (e_table e) ltac:(lia) Hr Hc Ho Ht ltac:(unfold tight; lia) HF ltac:(lia) a Ha Es).
Qed.
Print Assumptions C09_tight_suited.

(** the usual order of the classes with the 52-card deck *)
Theorem C09_standard_deck : forall e, Evaluator 4 13 5 0 true None = Ok e ->
  ranked_hands e = [SF; FK; FH; FL; ST; TK; TP; PA; HC] /\ max_rank e = 7462.
Proof.
  intros e He.
  assert (A : match Evaluator 4 13 5 0 true None with
              | Ok e => r_ranked (t_ranking (e_table e)) = [SF; FK; FH; FL; ST; TK; TP; PA; HC]
                        /\ t_max_rank (e_table e) = 7462
              | Err _ => False end) by (vm_compute; auto).
  rewrite He in A. exact A.
Qed.
Print Assumptions C09_standard_deck.

Example C09_example : lookup small_eval [(12, 0); (11, 0); (10, 0)]%nat = Ok 3 /\
  lookup small_eval [(12, 1); (11, 0); (10, 0)]%nat = Ok 7 /\
  wins (ranked_hands small_eval) 2 4 3 false [(12, 0); (11, 0); (10, 0)]%nat [(12, 1); (11, 0); (10, 0)]%nat /\
  ~ (3 <= 3 /\ 4 = 3).
Proof. split; [vm_compute; reflexivity|]. split; [vm_compute; reflexivity|]. split; [vm_compute; reflexivity|lia]. Qed.

(** ** C10 *)
Theorem C10_rank_class_of_hand_partial : forall s r c m low order e h v,
  1 <= s <= 4 -> 1 <= r <= 13 -> order_perm order -> Evaluator s r c m low order = Ok e ->
  (~ (3 <= c /\ r = c) \/ In FL (ranked_hands e) /\ 2 <= s \/ same_suit h = false) ->
  is_hand s r c h -> lookup e h = Ok v ->
  get_rank_class e v = Ok (poker_class s r c low h).
Proof.
  intros s r c m low order e h v Hs Hr Ho He Hx Hh Hv.
  destruct (Evaluator_inv _ _ _ _ _ _ _ He) as (Hc & Ht & _).
  destruct (main_facts s r c low order (e_table e) Hs Hr Hc Ho Ht h Hh) as [hs F].
  assert (O : okh s r c (e_table e) h).
  { split; [exact Hh|]. destruct Hx as [H1|[[H1 H2]|H1]]; [left; left; unfold tight; lia|left; right; tauto|now right]. }
  unfold get_rank_class. pose proof (value_bounds s r c low order (e_table e) hs F h v O Hv) as V. cbv zeta in V.
  replace (v <? 0) with false by lia.
  rewrite (class_of_value s r c low order (e_table e) Hs Hr Hc hs F h v O Hv). reflexivity.
Qed.
Print Assumptions C10_rank_class_of_hand_partial.

Theorem C10_rank_class_of_hand_refuted :
  exists e h v, Evaluator 2 3 3 0 false None = Ok e /\ is_hand 2 3 3 h /\ lookup e h = Ok v /\
    poker_class 2 3 3 false h = SF /\ get_rank_class e v = Ok ST.
Proof.
  destruct (Evaluator 2 3 3 0 false None) as [e|] eqn:E; [|vm_compute in E; discriminate].
  exists e, [(12, 0); (11, 0); (10, 0)]%nat, 2.
  split; [reflexivity|]. split; [hand_tac|]. vm_compute in E. injection E as <-. vm_compute. auto.
Qed.
Print Assumptions C10_rank_class_of_hand_refuted.

(** every integer in 0 .. max_rank has a class, all others raise *)
Theorem C10_domain : forall s r c m low order e v,
  1 <= s <= 4 -> 1 <= r <= 13 -> order_perm order -> Evaluator s r c m low order = Ok e ->
  match get_rank_class e v with
  | Ok k => 0 <= v <= max_rank e /\ In k (ranked_hands e)
  | Err x => (v < 0 \/ max_rank e < v) /\ x = InvalidHandRankError
  end.
Proof.
  intros s r c m low order e v Hs Hr Ho He. destruct (Evaluator_inv _ _ _ _ _ _ _ He) as (Hc & Ht & _).
  pose proof (max_rank_pos _ _ _ _ _ _ Hs Hr Hc Ho Ht) as Hp.
  pose proof (rank_class_domain s r c low order (e_table e) v Hs Hr Hc Ho Ht Hp) as D.
  unfold get_rank_class, max_rank, ranked_hands. destruct (v <? 0) eqn:E; [split; [lia|reflexivity]|].
  destruct (find _ _) as [k|] eqn:Ef.
  - split; [|now apply find_some in Ef]. destruct D as [D _]. specialize (D (ex_intro _ k eq_refl)). lia.
  - split; [|reflexivity]. right. destruct (Z_lt_dec (t_max_rank (e_table e)) v) as [|H]; [assumption|].
    exfalso. destruct D as [_ D]. destruct D as [k Hk]; [lia|discriminate].
Qed.
Print Assumptions C10_domain.

(** better classes own smaller ranks *)
Theorem C10_intervals : forall e v v' k k', v <= v' ->
  get_rank_class e v = Ok k -> get_rank_class e v' = Ok k' ->
  (class_pos k (ranked_hands e) <= class_pos k' (ranked_hands e))%nat.
Proof.
  intros e v v' k k' Hv. unfold get_rank_class.
  destruct (v <? 0); [discriminate|]. destruct (v' <? 0); [discriminate|].
  destruct (find (fun h => v <=? _) _) as [x|] eqn:E; [|discriminate].
  destruct (find (fun h => v' <=? _) _) as [x'|] eqn:E'; [|discriminate].
  intros H H'. injection H as <-. injection H' as <-.
  exact (find_mono (r_cum (t_ranking (e_table e))) _ v v' x x' Hv E E').
Qed.
Print Assumptions C10_intervals.

Example C10_example : get_rank_class small_eval 11 = Ok PA /\ get_rank_class small_eval 7 = Ok ST /\
  get_rank_class small_eval (-1) = Err InvalidHandRankError /\
  get_rank_class small_eval 99 = Err InvalidHandRankError /\
  poker_class 2 4 3 false [(12, 0); (12, 1); (9, 0)]%nat = PA.
Proof. repeat split; vm_compute; reflexivity. Qed.

(** ** C11 *)
(** cards of the deck with [s] suits and [r] ranks *)
Definition from_deck (s r : Z) (cards : list card) : Prop :=
  forall x, In x cards ->
  exists i j, 13 - r <= Z.of_nat i < 13 /\ Z.of_nat j < s /\ x = the_card i j.

Lemma from_deck_incl s r cards : 1 <= s <= 4 -> 1 <= r <= 13 -> from_deck s r cards ->
  incl cards (deck_cards (Z.to_nat s) (Z.to_nat r)).
Proof.
  intros Hs Hr H x Hx. destruct (H x Hx) as (i & j & Hi & Hj & ->). apply in_deck_cards; [lia|].
  exists i, j. repeat split; lia.
Qed.

Lemma candidate_hand s r c m e hole community h : 1 <= s <= 4 -> 1 <= r <= 13 ->
  e_cfh e = c -> e_mandatory e = m -> 1 <= c -> 0 <= m <= c ->
  NoDup (hole ++ community) -> from_deck s r (hole ++ community) ->
  candidate e hole community h -> exists x, h = cards_of x /\ is_hand s r c x.
Proof.
  intros Hs Hr Ec Em Hc Hm N D Hcand.
  assert (G : sublist h (hole ++ community) /\ Z.of_nat (List.length h) = c).
  { unfold candidate in Hcand. rewrite Ec, Em in Hcand. destruct (m =? 0).
    - exact Hcand.
    - destruct Hcand as (a & b & -> & Sa & Sb & La & Lb). split; [now apply sublist_app|].
      rewrite app_length. lia. }
  destruct G as [Sh Lh].
  destruct (cards_as_hand (Z.to_nat s) (Z.to_nat r) h ltac:(lia) ltac:(lia)) as (x & -> & Nx & Fx).
  - eapply sublist_nodup; eassumption.
  - intros y Hy. apply (from_deck_incl s r _ Hs Hr D). eapply sublist_incl; eassumption.
  - exists x. split; [reflexivity|]. unfold is_hand, hand_of_deck. unfold cards_of in Lh. rewrite map_length in Lh.
    split; [lia|]. split; [exact Nx|exact Fx].
Qed.

(** [v] is the best rank among the admissible hands, [max_rank] if there is none *)
Definition best (e : evaluator) (hole community : list card) (v : Z) : Prop :=
  ((exists h, candidate e hole community h /\ table_lookup (e_table e) h = Ok v) \/
   ((forall h, ~ candidate e hole community h) /\ v = max_rank e)) /\
  (forall h, candidate e hole community h -> exists w, table_lookup (e_table e) h = Ok w /\ v <= w).

Theorem C11_best_hand : forall s r c m low order e hole community,
  1 <= s <= 4 -> 1 <= r <= 13 -> order_perm order -> Evaluator s r c m low order = Ok e ->
  0 <= m <= c ->
  (order = None \/ ~ (s = 1 /\ 3 <= c /\ r = c /\ In FL (ranked_hands e))) ->
  NoDup (hole ++ community) -> from_deck s r (hole ++ community) ->
  exists v, evaluate e hole community = Ok v /\ best e hole community v.
Proof.
  intros s r c m low order e hole community Hs Hr Ho He Hm Hx N D.
  destruct (Evaluator_inv _ _ _ _ _ _ _ He) as (Hc & Ht & Ec & Em).
  assert (Hex : ~ (s = 1 /\ tight r c = true /\ In FL (r_ranked (t_ranking (e_table e))))).
  { intros (A & B & C). destruct Hx as [->|Hx].
    - destruct (tight_default s r c low _ Hs Hr Hc Ht B) as [_ X]. contradiction.
    - apply Hx. unfold tight in B. repeat split; try lia; exact C. }
  assert (HL : forall h, candidate e hole community h ->
     exists w, table_lookup (e_table e) h = Ok w /\ 0 <= w <= max_rank e).
  { intros h Hh. destruct (candidate_hand s r c m e hole community h Hs Hr Ec Em ltac:(lia) Hm N D Hh) as (x & -> & Hx').
    exact (hand_has_rank s r c low order (e_table e) x Hs Hr Hc Ho Ht Hex Hx'). }
  pose proof (evaluate_spec e hole community ltac:(lia) ltac:(lia)) as S.
  destruct (evaluate e hole community) as [v|x] eqn:Ev.
  - exists v. split; [reflexivity|]. destruct S as (S1 & S2 & S3). split; [|exact S2].
    destruct (card_combs_ok e hole community ltac:(lia)) as (cs & _ & Hcs).
    destruct cs as [|h cs].
    + right. split; [intros h Hh; apply Hcs in Hh; destruct Hh|]. destruct S3 as [S3|(h & Hh & _)]; [exact S3|].
      apply Hcs in Hh. destruct Hh.
    + left. destruct S3 as [S3|S3]; [|exact S3]. assert (Hh : candidate e hole community h) by (apply Hcs; now left).
      exists h. split; [exact Hh|]. destruct (S2 h Hh) as (w & Hw & Hle). destruct (HL h Hh) as (w' & Hw' & Hb).
      assert (w = w') by congruence. subst w'. unfold max_rank in Hb. rewrite Hw. f_equal. lia.
  - exfalso. destruct S as (_ & h & Hh & Hl). destruct (HL h Hh) as (w & Hw & _). congruence.
Qed.
Print Assumptions C11_best_hand.

(** without any assumption on the cards: either some admissible hand has no rank (KeyError), or
    the result is the minimum of [max_rank] and the ranks of all admissible hands *)
Theorem C11_any_cards : forall s r c m low order e hole community,
  Evaluator s r c m low order = Ok e -> 0 <= m <= c ->
  match evaluate e hole community with
  | Ok v => v <= max_rank e /\
      (forall h, candidate e hole community h -> exists w, table_lookup (e_table e) h = Ok w /\ v <= w) /\
      (v = max_rank e \/ exists h, candidate e hole community h /\ table_lookup (e_table e) h = Ok v)
  | Err x => x = KeyError /\ exists h, candidate e hole community h /\ table_lookup (e_table e) h = Err KeyError
  end.
Proof.
  intros s r c m low order e hole community He Hm.
  destruct (Evaluator_inv _ _ _ _ _ _ _ He) as (Hc & Ht & Ec & Em).
  exact (evaluate_spec e hole community ltac:(lia) ltac:(lia)).
Qed.
Print Assumptions C11_any_cards.

(** [best] determines the result *)
Theorem C11_best_unique : forall e hole community v w,
  best e hole community v -> best e hole community w -> v = w.
Proof.
  intros e hole community v w [[(h & Hh & Hv)|[Nv Ev]] Bv] [[(h' & Hh' & Hw)|[Nw Ew]] Bw].
  - destruct (Bv h' Hh') as (x & Hx & Hle). destruct (Bw h Hh) as (y & Hy & Hle'). 
    assert (x = w) by congruence. assert (y = v) by congruence. lia.
  - exfalso. exact (Nw h Hh).
  - exfalso. exact (Nv h' Hh').
  - congruence.
Qed.
Print Assumptions C11_best_unique.

(** impossible numbers of mandatory hole cards *)
Theorem C11_bad_mandatory : forall s r c m low order e hole community,
  Evaluator s r c m low order = Ok e -> m < 0 \/ c < m ->
  evaluate e hole community = Err ValueError.
Proof.
  intros s r c m low order e hole community He Hm.
  destruct (Evaluator_inv _ _ _ _ _ _ _ He) as (Hc & Ht & Ec & Em). apply evaluate_bad_mandatory; lia.
Qed.
Print Assumptions C11_bad_mandatory.

Example C11_example :
  evaluate small_eval (cards_of [(12, 0); (9, 1)]%nat) (cards_of [(12, 1); (11, 0); (10, 0)]%nat) = Ok 3 /\
  evaluate small_eval (cards_of [(12, 0)]%nat) [] = Ok (max_rank small_eval).
Proof. split; vm_compute; reflexivity. Qed.

(** ** C12 *)
Theorem C12_order_irrelevant : forall s r c m low order e hole hole' community community',
  Evaluator s r c m low order = Ok e ->
  Permutation hole hole' -> Permutation community community' ->
  evaluate e hole community = evaluate e hole' community'.
Proof.
  intros s r c m low order e hole hole' com com' He P P'.
  destruct (Evaluator_inv _ _ _ _ _ _ _ He) as (Hc & _ & Ec & _). apply evaluate_perm; [lia|exact P|exact P'].
Qed.
Print Assumptions C12_order_irrelevant.

Example C12_example :
  evaluate small_eval (cards_of [(9, 1); (12, 0)]%nat) (cards_of [(10, 0); (12, 1); (11, 0)]%nat) = Ok 3.
Proof. vm_compute. reflexivity. Qed.

(** ** C13 *)
(** whenever the larger set of cards evaluates, so does the smaller, to a rank at least as large *)
Theorem C13_extra_community : forall s r c m low order e hole community extra v,
  Evaluator s r c m low order = Ok e ->
  evaluate e hole (community ++ extra) = Ok v ->
  exists w, evaluate e hole community = Ok w /\ v <= w.
Proof.
  intros s r c m low order e hole com extra v He Hv.
  destruct (Evaluator_inv _ _ _ _ _ _ _ He) as (Hc & _ & Ec & _).
  apply (evaluate_mono e hole com hole (com ++ extra) v); [lia| |exact Hv].
  intros h. unfold candidate. destruct (e_mandatory e =? 0).
  - intros [S L]. split; [|exact L]. rewrite app_assoc. now apply sublist_app_l.
  - intros (a & b & -> & Sa & Sb & La & Lb). exists a, b. repeat split; try assumption. now apply sublist_app_l.
Qed.
Print Assumptions C13_extra_community.

Theorem C13_extra_hole : forall s r c low order e hole extra community v,
  Evaluator s r c 0 low order = Ok e ->
  evaluate e (hole ++ extra) community = Ok v ->
  exists w, evaluate e hole community = Ok w /\ v <= w.
Proof.
  intros s r c low order e hole extra com v He Hv.
  destruct (Evaluator_inv _ _ _ _ _ _ _ He) as (Hc & _ & Ec & Em).
  rewrite (evaluate_perm e (hole ++ extra) (extra ++ hole) com com ltac:(lia) (Permutation_app_comm _ _) (Permutation_refl _)) in Hv.
  apply (evaluate_mono e hole com (extra ++ hole) com v); [lia| |exact Hv].
  intros h. unfold candidate. rewrite Em. cbn [Z.eqb]. intros [S L]. split; [|exact L].
  rewrite <- app_assoc. apply (sublist_app [] h extra (hole ++ com)); [constructor|exact S].
Qed.
Print Assumptions C13_extra_hole.

(** for distinct cards of the deck both evaluations succeed *)
Theorem C13_deck_cards : forall s r c m low e hole community extra,
  1 <= s <= 4 -> 1 <= r <= 13 -> Evaluator s r c m low None = Ok e -> 0 <= m <= c ->
  NoDup (hole ++ community ++ extra) -> from_deck s r (hole ++ community ++ extra) ->
  exists v w, evaluate e hole (community ++ extra) = Ok v /\ evaluate e hole community = Ok w /\ v <= w.
Proof.
  intros s r c m low e hole com extra Hs Hr He Hm N D.
  destruct (C11_best_hand s r c m low None e hole (com ++ extra) Hs Hr I He Hm (or_introl eq_refl) N D) as (v & Hv & _).
  destruct (C13_extra_community s r c m low None e hole com extra v He Hv) as (w & Hw & Hle).
  exists v, w. auto.
Qed.
Print Assumptions C13_deck_cards.

Example C13_example :
  evaluate small_eval (cards_of [(12, 0); (12, 1)]%nat) (cards_of [(9, 0)]%nat) = Ok 11 /\
  evaluate small_eval (cards_of [(12, 0); (12, 1)]%nat) (cards_of [(9, 0); (10, 1)]%nat) = Ok 6.
Proof. split; vm_compute; reflexivity. Qed.

(** ** C14 *)
Definition suit_renaming (p : nat -> nat) : Prop :=
  (forall j, j < 4 -> p j < 4)%nat /\ (forall i j, i < 4 -> j < 4 -> p i = p j -> i = j)%nat.

Theorem C14_lookup : forall e p h, suit_renaming p ->
  Forall (fun x => fst x < 13 /\ snd x < 4)%nat h ->
  lookup e (rename p h) = lookup e h.
Proof. intros e p h [H1 H2] F. exact (lookup_rename (e_table e) p h H1 H2 F). Qed.
Print Assumptions C14_lookup.

Lemma rename_cards_map p h : cards_of (rename p h)
  = map (fun x => the_card (fst x) (p (snd x))) h.
Proof. unfold cards_of, rename. now rewrite map_map. Qed.

Lemma candidate_map e (f g : nat * nat -> card) hole com y :
  candidate e (map f hole) (map f com) y ->
  exists h, y = map f h /\ incl h (hole ++ com) /\ candidate e (map g hole) (map g com) (map g h).
Proof.
  unfold candidate. destruct (e_mandatory e =? 0).
  - intros [S L]. rewrite <- map_app in S. apply sublist_map_inv in S. destruct S as (h & -> & S).
    exists h. split; [reflexivity|]. split; [now apply sublist_incl|]. rewrite map_length in *. split; [|exact L].
    rewrite <- map_app. clear L. induction S; cbn [map]; now constructor.
  - intros (a & b & -> & Sa & Sb & La & Lb). apply sublist_map_inv in Sa, Sb.
    destruct Sa as (a' & -> & Sa), Sb as (b' & -> & Sb). exists (a' ++ b'). split; [now rewrite map_app|].
    split. { apply incl_app; [apply incl_appl|apply incl_appr]; now apply sublist_incl. }
    rewrite map_length in La, Lb. exists (map g a'), (map g b'). rewrite map_app, !map_length. repeat split; try assumption.
    + clear La. induction Sa; cbn [map]; now constructor.
    + clear Lb. induction Sb; cbn [map]; now constructor.
Qed.

Theorem C14_evaluate : forall s r c m low order e p hole community,
  Evaluator s r c m low order = Ok e -> suit_renaming p ->
  Forall (fun x => fst x < 13 /\ snd x < 4)%nat (hole ++ community) ->
  evaluate e (cards_of (rename p hole)) (cards_of (rename p community))
  = evaluate e (cards_of hole) (cards_of community).
Proof.
  intros s r c m low order e p hole com He Hp F.
  destruct (Evaluator_inv _ _ _ _ _ _ _ He) as (Hc & _ & Ec & Em).
  destruct (Z_le_dec 0 m) as [H0|H0]; [destruct (Z_le_dec m c) as [H1|H1]|].
  2,3: rewrite !evaluate_bad_mandatory by lia; reflexivity.
  rewrite !rename_cards_map. unfold cards_of.
  set (f := fun x : nat * nat => the_card (fst x) (snd x)).
  set (g := fun x : nat * nat => the_card (fst x) (p (snd x))).
  assert (L : forall h, incl h (hole ++ com) -> table_lookup (e_table e) (map g h) = table_lookup (e_table e) (map f h)).
  { intros h Hh. unfold g. rewrite <- rename_cards_map. apply (C14_lookup e p h Hp).
    rewrite Forall_forall in *. intros x Hx. apply F, Hh, Hx. }
  apply evaluate_transfer; [lia|lia| |].
  - intros y Hy. destruct (candidate_map e g f hole com y Hy) as (h & -> & I & Hc2). exists (map f h).
    split; [exact Hc2|]. symmetry. now apply L.
  - intros y Hy. destruct (candidate_map e f g hole com y Hy) as (h & -> & I & Hc2). exists (map g h).
    split; [exact Hc2|]. now apply L.
Qed.
Print Assumptions C14_evaluate.

Example C14_example : suit_renaming (fun j => match j with 0 => 2 | 2 => 0 | j => j end)%nat.
Proof. split; [|intros [|[|[|[|]]]] [|[|[|[|]]]]]; try (intros [|[|[|[|]]]]); cbn; lia. Qed.

(** ** C15 *)
Theorem C15_rarity_partial : forall s r c m low e a b va vb,
  1 <= s <= 4 -> 1 <= r <= 13 -> Evaluator s r c m low None = Ok e ->
  rarity_exception s r c = false ->
  is_hand s r c a -> is_hand s r c b -> lookup e a = Ok va -> lookup e b = Ok vb ->
  (class_count (Z.to_nat s) (Z.to_nat r) (Z.to_nat c) low (poker_class s r c low a)
   < class_count (Z.to_nat s) (Z.to_nat r) (Z.to_nat c) low (poker_class s r c low b))%nat ->
  va <= vb.
Proof.
  intros s r c m low e a b va vb Hs Hr He Hx Ha Hb Va Vb Hlt.
  destruct (Evaluator_inv _ _ _ _ _ _ _ He) as (Hc & Ht & _).
  exact (rarity s r c low (e_table e) a b va vb Hs Hr Hc Ht Hx Ha Hb Va Vb Hlt).
Qed.
Print Assumptions C15_rarity_partial.

(** Full statement: false.  With three suits and 13 ranks, three of a kind (more hands) beats
    the straight (fewer hands). *)
Definition c15_trips : hand := [(12, 0); (12, 1); (12, 2); (3, 0); (4, 0)]%nat.
Definition c15_straight : hand := [(12, 0); (11, 1); (10, 2); (9, 0); (8, 0)]%nat.
Theorem C15_rarity_refuted :
  exists e va vb, Evaluator 3 13 5 0 true None = Ok e /\
    is_hand 3 13 5 c15_straight /\ is_hand 3 13 5 c15_trips /\
    lookup e c15_straight = Ok va /\ lookup e c15_trips = Ok vb /\ vb < va /\
    (class_count 3 13 5 true (poker_class 3 13 5 true c15_straight)
     < class_count 3 13 5 true (poker_class 3 13 5 true c15_trips))%nat.
Proof.
  assert (A : match Evaluator 3 13 5 0 true None with
              | Ok e => match lookup e c15_straight, lookup e c15_trips with
                        | Ok va, Ok vb => vb <? va
                        | _, _ => false
                        end
              | Err _ => false end = true) by vm_cast_no_check (eq_refl true).
  destruct (Evaluator 3 13 5 0 true None) as [e|]; [|discriminate].
  destruct (lookup e c15_straight) as [va|] eqn:Ea; [|discriminate].
  destruct (lookup e c15_trips) as [vb|] eqn:Eb; [|discriminate].
  exists e, va, vb. split; [reflexivity|]. split; [hand_tac|]. split; [hand_tac|].
  split; [exact Ea|]. split; [exact Eb|]. split; [lia|].
  apply Nat2Z.inj_lt.
  pose proof (fun k => class_counts_ok 3 13 5 true k ltac:(lia) ltac:(lia) ltac:(lia) eq_refl) as C.
  change (Z.to_nat 3) with 3%nat in C. change (Z.to_nat 13) with 13%nat in C. change (Z.to_nat 5) with 5%nat in C.
  rewrite !C. apply Z.ltb_lt. vm_compute. reflexivity.
Qed.
Print Assumptions C15_rarity_refuted.

(** [rarity_exception] is exact among the decks with another number of ranks than cards in a
    hand: on the exceptions, some class stands before a rarer one. *)
Definition by_rarity (order : list hclass) (count : hclass -> nat) : Prop :=
  forall a b, In a order -> In b order -> (class_pos a order < class_pos b order)%nat ->
  count b <> O -> (count a <= count b)%nat.
Theorem C15_exact : forall s r c m low e,
  1 <= s <= 4 -> 1 <= r <= 13 -> Evaluator s r c m low None = Ok e -> ~ (3 <= c /\ r = c) ->
  hopeless r c low = false ->
  by_rarity (ranked_hands e) (class_count (Z.to_nat s) (Z.to_nat r) (Z.to_nat c) low)
  <-> rarity_exception s r c = false.
Proof.
  intros s r c m low e Hs Hr He Hx Hh. destruct (Evaluator_inv _ _ _ _ _ _ _ He) as (Hc & Ht & _).
  pose proof (rarity_all s r c low Hs Hr Hc) as R. unfold rarity_ok in R.
  rewrite (table_constructible _ _ _ _ _ Hs Hr Hc Ht) in R. cbn [negb] in R.
  replace (tight r c) with false in R by (unfold tight; lia).
  destruct (LookupTable_built _ _ _ _ _ _ Ht) as
      (Hval & hs' & s1 & s2 & u1 & u2 & l1 & l2 & l3 & l4 & l5 & Hhs & B).
  rewrite Hhs in R. rewrite <- (b_ranking _ _ _ _ _ _ _ _ _ _ _ _ _ _ _ B) in R.
  fold (ranked_hands e) in R. apply eqb_prop in R.
  assert (G : by_rarity (ranked_hands e) (class_count (Z.to_nat s) (Z.to_nat r) (Z.to_nat c) low)
              <-> rare_first (class_counts s r c low) (ranked_hands e) = true).
  { assert (N : NoDup (ranked_hands e)).
    { destruct (built_nonneg _ _ _ _ _ _ Hs Hr Hc (I : order_perm None) Ht) as (hs & P & Er & Hn).
      unfold ranked_hands. rewrite Er. destruct (EvalRank.ranked_suffix _ Hn hs) as (z & E & _).
      assert (Nh : NoDup hs) by (eapply Permutation_NoDup; [exact P|unfold all_classes; nodup_tac]).
      rewrite E in Nh. clear -Nh. induction z as [|k z IH]; [exact Nh|]. inversion Nh; subst. now apply IH. }
    split.
    - clear -N Hs Hr Hc Hh. revert N. generalize (ranked_hands e) as l. induction l as [|k l IH]; intros N H; [reflexivity|].
      cbn [rare_first]. inversion N as [|? ? Nk Nl]; subst. apply andb_true_iff. split.
      + apply forallb_forall. intros k' Hk'. rewrite <- !class_counts_ok by assumption.
        assert (Hne : hclass_eqb k k' = false).
        { destruct (hclass_eqb k k') eqn:E; [|reflexivity]. apply hclass_eqb_eq in E. subst. contradiction. }
        specialize (H k k' ltac:(now left) ltac:(now right)). cbn [class_pos] in H.
        rewrite hclass_eqb_refl, Hne in H. specialize (H ltac:(lia)). lia.
      + apply IH; [exact Nl|]. intros a b Ha Hb Hp. apply H; [now right|now right|]. cbn [class_pos].
        assert (Hn : forall x, In x l -> hclass_eqb k x = false).
        { intros x Hx. destruct (hclass_eqb k x) eqn:E; [|reflexivity]. apply hclass_eqb_eq in E. subst. contradiction. }
        rewrite (Hn a Ha), (Hn b Hb). lia.
    - intros H a b Ha Hb Hp H0. pose proof (rare_first_spec _ _ H b a Hb Ha Hp) as Q.
      rewrite <- !class_counts_ok in Q by assumption. lia. }
  rewrite G. destruct (rare_first _ _), (rarity_exception s r c); cbn in R; intuition congruence.
Qed.
Print Assumptions C15_exact.

Example C15_example : rarity_exception 4 13 5 = false /\ rarity_exception 2 4 3 = false /\
  class_count 2 4 3 false SF = 4%nat /\ class_count 2 4 3 false ST = 12%nat.
Proof. repeat split; vm_compute; reflexivity. Qed.

(** ** C16 *)
(** whatever is accepted uses the nine strings and no other *)
Theorem C16_accepted : forall s r c m low order e,
  Evaluator s r c m low (Some order) = Ok e ->
  forall x, In x order <-> In x ["sf"; "fk"; "fh"; "fl"; "st"; "tk"; "tp"; "pa"; "hc"]%string.
Proof.
  intros s r c m low order e He x. destruct (Evaluator_inv _ _ _ _ _ _ _ He) as (Hc & Ht & _).
  destruct (LookupTable_built _ _ _ _ _ _ Ht) as
      (Hval & hs & s1 & s2 & u1 & u2 & l1 & l2 & l3 & l4 & l5 & Hhs & B).
  split.
  - cbn in Hhs. apply map_order_index in Hhs. subst order. intros H. apply in_map_iff in H.
    destruct H as (k & <- & _). destruct k; cbn; tauto.
  - rewrite order_valid_spec in Hval. intros H. apply Hval. exact H.
Qed.
Print Assumptions C16_accepted.

(** which error: a missing class string is found first *)
Theorem C16_missing : forall s r c m low order x,
  1 <= c <= 5 -> In x ["sf"; "fk"; "fh"; "fl"; "st"; "tk"; "tp"; "pa"; "hc"]%string -> ~ In x order ->
  Evaluator s r c m low (Some order) = Err InvalidOrderError.
Proof.
  intros s r c m low order x Hc Hx Hn. unfold Evaluator, LookupTable.
  replace ((c <? 1) || (5 <? c)) with false by lia.
  destruct (order_valid order) eqn:E; [|reflexivity]. exfalso. apply Hn. rewrite order_valid_spec in E. now apply E.
Qed.
Print Assumptions C16_missing.

Theorem C16_unknown : forall s r c m low order x,
  1 <= c <= 5 -> In x order -> ~ In x ["sf"; "fk"; "fh"; "fl"; "st"; "tk"; "tp"; "pa"; "hc"]%string ->
  Evaluator s r c m low (Some order) = Err InvalidOrderError \/
  Evaluator s r c m low (Some order) = Err ValueError.
Proof.
  intros s r c m low order x Hc Hx Hn. unfold Evaluator, LookupTable.
  replace ((c <? 1) || (5 <? c)) with false by lia.
  destruct (order_valid order); [|now left]. right. cbn [negb ranked_classes].
  assert (E : map_res (fun s => order_index s ORDER_STRINGS all_classes) order = Err ValueError); [|now rewrite E].
  clear -Hx Hn. induction order as [|y order IH]; [destruct Hx|]. cbn [map_res].
  assert (Y : forall y, order_index y ORDER_STRINGS all_classes = Err ValueError \/
              exists k, order_index y ORDER_STRINGS all_classes = Ok k).
  { intros z. unfold ORDER_STRINGS, all_classes. cbn [order_index].
    repeat (match goal with |- context [if ?b then _ else _] => destruct b; [right; eexists; reflexivity|] end).
    now left. }
  destruct Hx as [->|Hx].
  - assert (E : order_index x ORDER_STRINGS all_classes = Err ValueError); [|now rewrite E].
    unfold ORDER_STRINGS, all_classes. cbn [order_index].
    repeat (match goal with |- context [if String.eqb x ?b then _ else _] =>
       destruct (String.eqb_spec x b) as [->|]; [exfalso; apply Hn; cbn; tauto|] end).
    reflexivity.
  - destruct (Y y) as [->|[k ->]]; [reflexivity|]. cbn [bind]. now rewrite (IH Hx).
Qed.
Print Assumptions C16_unknown.

(** an order without repetitions is a permutation of the nine strings and decides between classes *)
Theorem C16_honoured_partial : forall s r c m low order e,
  1 <= s <= 4 -> 1 <= r <= 13 -> NoDup order -> Evaluator s r c m low (Some order) = Ok e ->
  exists classes, order = map class_string classes /\ Permutation all_classes classes /\
    forall a b va vb, ~ (3 <= c /\ r = c) ->
      is_hand s r c a -> is_hand s r c b -> lookup e a = Ok va -> lookup e b = Ok vb ->
      (class_pos (poker_class s r c low a) classes < class_pos (poker_class s r c low b) classes)%nat ->
      va < vb.
Proof.
  intros s r c m low order e Hs Hr No He. destruct (Evaluator_inv _ _ _ _ _ _ _ He) as (Hc & Ht & _).
  destruct (LookupTable_built _ _ _ _ _ _ Ht) as
      (Hval & hs & s1 & s2 & u1 & u2 & l1 & l2 & l3 & l4 & l5 & Hhs & B).
  pose proof (ranked_classes_perm _ (Some order) _ No Hval Hhs) as P.
  cbn in Hhs. apply map_order_index in Hhs.
  exists hs. split; [exact Hhs|]. split; [exact P|].
  intros a b va vb Hx Ha Hb Va Vb Hp.
  destruct (main_facts s r c low (Some order) (e_table e) Hs Hr Hc No Ht a Ha) as [hs' F].
  assert (Eh : hs' = hs).
  { pose proof (f_order _ _ _ _ _ _ _ F) as Eo. cbn in Eo. rewrite Hhs in Eo. clear -Eo. revert hs' Eo.
    induction hs as [|k hs IH]; intros [|k' hs'] E; try discriminate; [reflexivity|]. cbn [map] in E.
    injection E as E1 E2. apply class_string_inj in E1. f_equal; [congruence|now apply IH]. }
  subst hs'.
  assert (Et : tight r c = false) by (unfold tight; lia).
  assert (Oa : okh s r c (e_table e) a) by (split; [exact Ha|left; now left]).
  assert (Ob : okh s r c (e_table e) b) by (split; [exact Hb|left; now left]).
  apply (compare_hands s r c low (Some order) (e_table e) Hs Hr Hc hs F a b va vb Oa Ob Va Vb).
  unfold beats. apply orb_true_iff. left. apply Nat.ltb_lt. exact Hp.
Qed.
Print Assumptions C16_honoured_partial.

(** Full statement: false.  A repeated class is accepted. *)
Theorem C16_repetition_refuted :
  exists order e, Evaluator 4 13 5 0 true (Some order) = Ok e /\ ~ NoDup order.
Proof.
  exists ["sf"; "fk"; "fh"; "fl"; "st"; "tk"; "tp"; "pa"; "hc"; "hc"]%string.
  assert (A : is_ok (Evaluator 4 13 5 0 true
     (Some ["sf"; "fk"; "fh"; "fl"; "st"; "tk"; "tp"; "pa"; "hc"; "hc"]%string)) = true)
    by vm_cast_no_check (eq_refl true).
  destruct (Evaluator _ _ _ _ _ _) as [e|]; [|discriminate]. exists e. split; [reflexivity|].
  intros N. apply (NoDup_remove_2 ["sf"; "fk"; "fh"; "fl"; "st"; "tk"; "tp"; "pa"]%string ["hc"]%string) in N.
  apply N. cbn. tauto.
Qed.
Print Assumptions C16_repetition_refuted.

Example C16_example : exists e,
  Evaluator 4 9 5 0 true (Some ["sf"; "fk"; "fl"; "fh"; "st"; "tk"; "tp"; "pa"; "hc"]%string) = Ok e /\
  NoDup ["sf"; "fk"; "fl"; "fh"; "st"; "tk"; "tp"; "pa"; "hc"]%string /\
  Evaluator 4 9 5 0 true (Some ["sf"; "fk"]%string) = Err InvalidOrderError.
Proof.
  destruct (C07_shipped SHORT_DECK_TWO_PLAYER) as [e He]; [cbn; tauto|].
  exists e. split; [exact He|]. split; [|reflexivity].
  nodup_tac.
Qed.
