(** * PropCards: properties C01-C06 (cards and decks) *)
From Coq Require Import Permutation ZifyBool ZifyNat.
From Verif Require Import PyBase CardModel CardSpec DeckSpec CardProofs DeckProofs.

(** ** C01 *)
Theorem C01_parsing : forall s : list Z,
  Card s =
  match s with
  | c0 :: c1 :: _ =>
    match symbol_index c0 rank_symbols with
    | None => Err InvalidRankError
    | Some i => match symbol_index c1 suit_symbols with
                | None => Err InvalidSuitError
                | Some j => Ok (the_card i j)
                end
    end
  | _ => Err IndexError
  end.
Proof. exact Card_spec. Qed.
Print Assumptions C01_parsing.

Theorem C01_layout : forall i j, (i < 13)%nat -> (j < 4)%nat ->
  let v := c_int (the_card i j) in
  v mod 2 ^ 8 = nth i rank_prime 0 /\
  v / 2 ^ 8 mod 2 ^ 4 = Z.of_nat i /\
  v / 2 ^ 12 mod 2 ^ 4 = 2 ^ Z.of_nat j /\
  v / 2 ^ 16 = 2 ^ Z.of_nat i /\
  card_str (the_card i j) = [nth i rank_letter 0; nth j suit_glyph 0].
Proof.
  intros i j Hi Hj. destruct (layout_fields i j Hi Hj) as (A & B & C & D).
  repeat split; assumption.
Qed.
Print Assumptions C01_layout.

Theorem C01_equality : forall i j i' j',
  (i < 13)%nat -> (j < 4)%nat -> (i' < 13)%nat -> (j' < 4)%nat ->
  card_eqb (the_card i j) (the_card i' j') = true <-> i = i' /\ j = j'.
Proof. exact the_card_eqb. Qed.
Print Assumptions C01_equality.

Example C01_example_ok : Card (ustr "aD") = Ok (the_card 12 2). Proof. reflexivity. Qed.
Example C01_example_rank : Card (ustr "1x") = Err InvalidRankError. Proof. reflexivity. Qed.
Example C01_example_suit : Card (ustr "TX") = Err InvalidSuitError. Proof. reflexivity. Qed.
Example C01_example_value : c_int (the_card 12 2) = 268454953. Proof. reflexivity. Qed.

(** ** C02 *)
Theorem C02_deck_contents : forall rnd s r,
  match Deck rnd s r with
  | Err e => (~ (1 <= r <= 13) /\ e = InvalidRankError)
             \/ (1 <= r <= 13 /\ ~ (1 <= s <= 4) /\ e = InvalidSuitError)
  | Ok d =>
    1 <= r <= 13 /\ 1 <= s <= 4 /\
    deck_len d = s * r /\ NoDup (map c_int (d_cards d)) /\
    (forall c, In c (d_cards d) <->
               exists i j, 13 - r <= Z.of_nat i < 13 /\ Z.of_nat j < s /\ c = the_card i j)
  end.
Proof.
  intros rnd s r. destruct (Deck rnd s r) as [d|e] eqn:E.
  - destruct (Deck_wf _ _ _ _ E) as (W & _ & C & Hs & Hr).
    pose proof (shuf_perm rnd (deck_cards (Z.to_nat s) (Z.to_nat r))) as P.
    rewrite <- C in P. split; [exact Hr|]. split; [exact Hs|]. split; [|split].
    + unfold deck_len. rewrite <- (Permutation_length P), deck_cards_length,
        Nat2Z.inj_mul, !Z2Nat.id by lia. lia.
    + eapply Permutation_NoDup; [apply Permutation_map; exact P|].
      apply deck_cards_NoDup; lia.
    + intros c. transitivity (In c (deck_cards (Z.to_nat s) (Z.to_nat r))).
      { split; apply Permutation_in; [apply Permutation_sym|]; exact P. }
      rewrite in_deck_cards by lia.
      split; intros (i & j & Hi & Hj & Hc); exists i, j; (split; [lia|]); (split; [lia|exact Hc]).
  - rewrite Deck_result in E.
    destruct ((1 <=? r) && (r <=? 13)) eqn:E1; [destruct ((1 <=? s) && (s <=? 4)) eqn:E2|];
      try discriminate; injection E as <-;
      [right; split; [lia|split; [lia|reflexivity]]|left; split; [lia|reflexivity]].
Qed.
Print Assumptions C02_deck_contents.

Example C02_example : is_ok (Deck [3; 1]%nat 2 3) = true. Proof. reflexivity. Qed.

(** ** C03 *)
Theorem C03_draw : forall n d,
  let k := Z.to_nat (Z.min (Z.max n 0) (deck_len d)) in
  fst (deck_draw n d) = firstn k (d_cards d) /\
  d_cards (snd (deck_draw n d)) = skipn k (d_cards d) /\
  List.length (fst (deck_draw n d)) = k /\
  snd (deck_draw n d) = set_cards d (skipn k (d_cards d)).
Proof.
  intros n d k. rewrite deck_draw_spec. cbn [fst snd set_cards d_cards].
  unfold deck_len in k.
  assert (H : firstn (Z.to_nat n) (d_cards d) = firstn k (d_cards d)
              /\ skipn (Z.to_nat n) (d_cards d) = skipn k (d_cards d)).
  { destruct (Nat.le_gt_cases (Z.to_nat n) (List.length (d_cards d))) as [Hle|Hgt].
    - replace k with (Z.to_nat n) by (unfold k; lia). split; reflexivity.
    - replace k with (List.length (d_cards d)) by (unfold k; lia).
      rewrite !firstn_all2, !skipn_all2 by lia. split; reflexivity. }
  destruct H as [-> ->]. repeat split. rewrite firstn_length. unfold k. lia.
Qed.
Print Assumptions C03_draw.

Example C03_example :
  exists d, Deck [] 1 5 = Ok d /\
  fst (deck_draw 2 d) = [the_card 8 0; the_card 9 0] /\
  List.length (fst (deck_draw 99 d)) = 5%nat /\ fst (deck_draw (-3) d) = [].
Proof. eexists. repeat split; reflexivity. Qed.

(** ** C04 *)
Theorem C04_shuffle : forall s r d, deck_wf s r d -> d_tricked d = false ->
  (forall rnd, Permutation (d_cards (deck_shuffle rnd d)) (deck_cards s r)) /\
  (forall order, Permutation order (deck_cards s r) ->
                 exists rnd, d_cards (deck_shuffle rnd d) = order).
Proof.
  intros s r d W T. split.
  - intros rnd. apply shuffle_perm; [exact W|congruence].
  - intros order P. destruct (shuf_complete (deck_cards s r) order) as [rnd H];
      [now apply Permutation_sym|].
    exists rnd. unfold deck_shuffle. rewrite T. cbn. now rewrite (dw_full _ _ _ W).
Qed.
Print Assumptions C04_shuffle.

(** every deck reachable by any history from a constructor is well-formed *)
Theorem C04_reachable : forall rnd s r d ops, Deck rnd s r = Ok d ->
  deck_wf (Z.to_nat s) (Z.to_nat r) (fst (deck_run d ops)).
Proof.
  intros rnd s r d ops H. apply deck_run_wf. cbn. now destruct (Deck_wf _ _ _ _ H).
Qed.
Print Assumptions C04_reachable.

Example C04_example : exists d, Deck [2]%nat 4 13 = Ok d /\
  let d' := fst (deck_run d [DDraw 10; DTrick [the_card 3 1]; DUntrick; DDraw 4]) in
  d_tricked d' = false /\ deck_len d' = 38.
Proof. eexists. repeat split; reflexivity. Qed.

(** ** C05 *)
(** full statement: [top] any list of distinct cards of the deck *)
Definition C05_statement : Prop :=
  forall s r d top ops rnd, deck_wf s r d -> incl top (d_full d) -> NoDup (map c_int top) ->
  only_draw_shuffle ops ->
  exists d1 rest, deck_trick top d = Ok d1 /\
    d_cards (deck_shuffle rnd (fst (deck_run d1 ops))) = top ++ rest /\
    Permutation (top ++ rest) (d_full d).

Theorem C05_trick_refuted : ~ C05_statement.
Proof.
  intros H.
  destruct (Deck [] 1 2) as [d|] eqn:E; [|discriminate].
  destruct (Deck_wf _ _ _ _ E) as (W & _). injection E as <-.
  destruct (H _ _ _ [the_card 12 0; the_card 11 0] [] [] W) as (d1 & rest & H1 & H2 & _).
  - cbn. intros x [<-|[<-|[]]]; cbn; tauto.
  - vm_compute; repeat constructor; cbn; intuition discriminate.
  - constructor.
  - injection H1 as <-. cbn in H2. discriminate.
Qed.
Print Assumptions C05_trick_refuted.

(** what holds: every list of distinct cards that leaves at least one card over.
    Missing from the full statement: lists naming every card of the deck. *)
Theorem C05_trick_partial : forall s r d top ops rnd,
  deck_wf s r d -> incl top (d_full d) -> NoDup (map c_int top) ->
  (List.length top < List.length (d_full d))%nat ->
  only_draw_shuffle ops ->
  exists d1 rest, deck_trick top d = Ok d1 /\
    d_cards (deck_shuffle rnd (fst (deck_run d1 ops))) = top ++ rest /\
    Permutation (top ++ rest) (d_full d).
Proof.
  intros s r d top ops rnd W Hin Hnd Hlen Hops.
  destruct (trick_total _ _ _ _ W Hin) as [d1 H1].
  destruct (trick_shuffle s r d top d1 ops rnd W Hin Hnd Hlen H1 Hops) as (rest & A & B).
  exists d1, rest. auto.
Qed.
Print Assumptions C05_trick_partial.

Theorem C05_trick_bad_card : forall s r d top c, deck_wf s r d -> In c top ->
  ~ In (c_int c) (map c_int (d_full d)) ->
  deck_trick top d = Err ValueError /\ fst (deck_apply (d, []) (DTrick top)) = d.
Proof.
  intros s r d top c W H Hn. pose proof (trick_bad s r d top c W H Hn) as E.
  split; [exact E|]. cbn. now rewrite E.
Qed.
Print Assumptions C05_trick_bad_card.

Theorem C05_untrick : forall s r d, deck_wf s r d ->
  d_tricked (deck_untrick d) = false /\ deck_wf s r (deck_untrick d) /\
  d_cards (deck_untrick d) = d_cards d.
Proof. intros s r d W. split; [reflexivity|]. split; [now apply untrick_wf|reflexivity]. Qed.
Print Assumptions C05_untrick.

Example C05_example : exists d d1, Deck [] 2 3 = Ok d /\
  deck_trick [the_card 12 1; the_card 10 0] d = Ok d1 /\
  fst (deck_draw 2 (deck_shuffle [4; 2; 0]%nat (snd (deck_draw 3 (deck_shuffle [] d1)))))
  = [the_card 12 1; the_card 10 0].
Proof. eexists. eexists. repeat split; reflexivity. Qed.

(** ** C06 *)
Theorem C06_histories : forall rnd s r d ops, Deck rnd s r = Ok d -> distinct_tricks ops ->
  let '(d', drawn) := deck_run d ops in
  Permutation (drawn ++ d_cards d') (deck_cards (Z.to_nat s) (Z.to_nat r)) /\
  NoDup (map c_int (drawn ++ d_cards d')).
Proof.
  intros rnd s r d ops H D. pose proof (new_deck_inv _ _ _ _ H) as I.
  pose proof (deck_run_inv _ _ ops _ I D) as I'. fold (deck_run d ops) in I'.
  destruct (deck_run d ops) as [d' drawn]. destruct I' as [W _ P]. cbn [fst snd] in *.
  split; [exact P|]. eapply Permutation_NoDup;
    [apply Permutation_map, Permutation_sym; exact P|].
  pose proof (dw_s _ _ _ W). pose proof (dw_r _ _ _ W). apply deck_cards_NoDup; lia.
Qed.
Print Assumptions C06_histories.

Example C06_example :
  distinct_tricks [DDraw 3; DTrick [the_card 12 0; the_card 11 1]; DShuffle [1]%nat; DDraw 1].
Proof. vm_compute; repeat constructor; cbn; intuition discriminate. Qed.

(** the hypothesis is needed: tricking with a repeated card duplicates it *)
Theorem C06_repeated_trick_duplicates :
  exists d, Deck [] 2 3 = Ok d /\
  ~ NoDup (map c_int (d_cards (fst (deck_run d
      [DTrick [the_card 12 0; the_card 12 0]; DShuffle []])))).
Proof.
  eexists. split; [reflexivity|]. intros H. vm_compute in H.
  inversion H as [|? ? Hx _]; subst. apply Hx. now left.
Qed.
Print Assumptions C06_repeated_trick_duplicates.
