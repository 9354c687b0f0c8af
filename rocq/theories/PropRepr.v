(** * PropRepr: property C85 (texts tell objects apart) *)
From Coq Require Import ZifyBool ZifyNat Arith.
From Verif Require Import PyBase PyFacts CardModel CardSpec CardProofs DeckProofs EvalModel EngineModel AsciiModel PercentModel PropText PropCards PropCardOps EngineDemo ReprModel.

(** ** Specification *)
(** the number with the binary digits [t], written with the characters 0 and 1 *)
Definition binary (t : list Z) : Z := fold_left (fun v d => 2 * v + (d - 48)) t 0.
(** the pieces of a text between the separators [x] *)
Fixpoint pieces (x : Z) (t : list Z) : list (list Z) :=
  match t with
  | [] => [[]]
  | y :: r => if y =? x then [] :: pieces x r
              else match pieces x r with p :: q => (y :: p) :: q | [] => [[y]] end
  end.

(** ** Facts *)

Lemma pieces_app x p t : ~ In x p -> pieces x (p ++ x :: t) = p :: pieces x t.
Proof.
  induction p as [|y p IH]; intros N; cbn [app pieces]; [now rewrite Z.eqb_refl|].
  rewrite IH by (intros H; apply N; now right). replace (y =? x) with false by (symmetry; apply Z.eqb_neq; intros ->; apply N; now left). reflexivity.
Qed.
Lemma pieces_one x p : ~ In x p -> pieces x p = [p].
Proof.
  induction p as [|y p IH]; intros N; [reflexivity|]. cbn [pieces]. rewrite IH by (intros H; apply N; now right).
  replace (y =? x) with false by (symmetry; apply Z.eqb_neq; intros ->; apply N; now left). reflexivity.
Qed.
Lemma pieces_join x l : l <> [] -> Forall (fun p => ~ In x p) l -> pieces x (join [x] l) = l.
Proof.
  intros N F. induction F as [|p l Hp F IH]; [now destruct N|]. destruct l as [|q l]; [now apply pieces_one|].
  change (join [x] (p :: q :: l)) with (p ++ x :: join [x] (q :: l)). rewrite pieces_app by exact Hp. now rewrite IH.
Qed.
Lemma a_card_chars c : a_card c -> ~ In 44 (card_str c) /\ (forall d, a_card d -> card_str c = card_str d -> c = d) /\ Card (card_str c) = Err InvalidSuitError.
Proof.
  intros H. destruct (a_card_is c H) as (i & j & Hi & Hj & ->).
  assert (G : forall i j, (i < 13)%nat -> (j < 4)%nat -> card_str (the_card i j) = [nth i (ustr "23456789TJQKA") 0; nth j [9824; 9829; 9830; 9827] 0] /\
    Card (card_str (the_card i j)) = Err InvalidSuitError).
  { intros k l Hk Hl. do 13 (destruct k as [|k]; [do 4 (destruct l as [|l]; [split; vm_compute; reflexivity|]); lia|]). lia. }
  destruct (G i j Hi Hj) as [E1 E2]. split; [|split; [|exact E2]].
  - rewrite E1. clear E1 E2 G H. intros [X|[X|[]]]; revert X.
    + do 13 (destruct i as [|i]; [discriminate|]). lia.
    + do 4 (destruct j as [|j]; [discriminate|]). lia.
  - intros d Hd. destruct (a_card_is d Hd) as (k & l & Hk & Hl & ->). destruct (G k l Hk Hl) as [F1 _]. rewrite E1, F1. clear - Hi Hj Hk Hl. intros X. injection X as X Y.
    assert (i = k). { clear Y. revert k Hk X. do 13 (destruct i as [|i]; [intros k Hk; do 13 (destruct k as [|k]; [first [reflexivity|discriminate]|]); lia|]). lia. }
    assert (j = l). { clear X. revert l Hl Y. do 4 (destruct j as [|j]; [intros l Hl; do 4 (destruct l as [|l]; [first [reflexivity|discriminate]|]); lia|]). lia. }
    now subst.
Qed.
(** numbers contain only digits and the sign *)
Lemma str_int_chars z x : In x (str_int z) -> 48 <= x <= 57 \/ x = 45.
Proof.
  destruct (C56_plain z) as (ds & (_ & F & _) & ->). rewrite in_app_iff. intros [H|H].
  - unfold sign in H. destruct (z <? 0); [|destruct H]. destruct H as [<-|[]]. right. reflexivity.
  - unfold chars in H. apply in_map_iff in H. destruct H as (d & <- & Hd). rewrite Forall_forall in F. specialize (F d Hd). lia.
Qed.
(** the text up to the first [x] *)
Lemma cut_at (x : Z) p q t u : ~ In x p -> ~ In x q -> p ++ x :: t = q ++ x :: u -> p = q /\ t = u.
Proof.
  revert q. induction p as [|y p IH]; intros [|z q] Np Nq; cbn [app]; intros E.
  - injection E as E. auto.
  - exfalso. apply Nq. left. now injection E.
  - exfalso. apply Np. left. now injection E.
  - injection E as -> E. destruct (IH q) as [-> ->]; auto; intros H; [apply Np|apply Nq]; now right.
Qed.
Lemma str_int_without z x : x < 45 \/ 57 < x -> ~ In x (str_int z).
Proof. intros H1 H2. apply str_int_chars in H2. lia. Qed.
Lemma str_int_inj z z' : str_int z = str_int z' -> z = z'.
Proof. intros H. apply C56_injective. now left. Qed.

(** ** C85 Texts tell objects apart *)
(** The text of a card tells the card. *)
Theorem C85_card : forall c d, a_card c -> a_card d -> (card_str c = card_str d <-> c = d) /\ (card_str c = card_str d <-> card_eqb c d = true).
Proof.
  intros c d Hc Hd. assert (E : card_str c = card_str d <-> c = d) by (split; [now apply (a_card_chars c Hc)|now intros ->]).
  split; [exact E|]. rewrite E. split; [intros ->; apply Z.eqb_refl|]. unfold card_eqb. rewrite Z.eqb_eq.
  destruct (a_card_is c Hc) as (i & j & Hi & Hj & ->). destruct (a_card_is d Hd) as (k & l & Hk & Hl & ->). intros X.
  destruct (C01_layout i j Hi Hj) as (_ & A2 & A3 & _). destruct (C01_layout k l Hk Hl) as (_ & B2 & B3 & _). cbv zeta in *. rewrite X in A2, A3.
  rewrite A2 in B2. rewrite A3 in B3. apply Z.pow_inj_r in B3; [|lia|lia|lia]. assert (i = k) by lia. assert (j = l) by lia. now subst.
Qed.
Print Assumptions C85_card.
(** It cannot be read back: [Card(str(card))] raises, because of the glyph of the suit. *)
Theorem C85_not_read : forall c, a_card c -> Card (card_str c) = Err InvalidSuitError.
Proof. intros c H. now apply a_card_chars. Qed.
Print Assumptions C85_not_read.
(** The text of a deck lists the texts of its cards in the order in which they will be drawn, and
    tells the cards left in the deck. *)
Theorem C85_deck : forall d, Forall a_card (d_cards d) ->
  exists body, deck_str d = ustr "[" ++ body ++ ustr "]" /\
    (d_cards d = [] -> body = []) /\ (d_cards d <> [] -> pieces 44 body = map card_str (d_cards d)).
Proof.
  intros d F. exists (join (ustr ",") (map card_str (d_cards d))). split; [reflexivity|]. split; [now intros ->|].
  intros N. apply (pieces_join 44); [now destruct (d_cards d)|]. apply Forall_map. eapply Forall_impl; [|exact F]. intros c Hc. now apply a_card_chars.
Qed.
Print Assumptions C85_deck.
Theorem C85_deck_cards : forall d d', Forall a_card (d_cards d) -> Forall a_card (d_cards d') -> (deck_str d = deck_str d' <-> d_cards d = d_cards d').
Proof.
  intros d d' F F'. split; [|unfold deck_str; now intros ->]. intros E. unfold deck_str in E. apply app_inv_head in E. apply app_inv_tail in E.
  assert (J : forall d, Forall a_card (d_cards d) -> d_cards d <> [] -> join (ustr ",") (map card_str (d_cards d)) <> []).
  { intros x _ N. destruct (d_cards x) as [|a [|b l]]; [now destruct N|discriminate|discriminate]. }
  assert (L : map card_str (d_cards d) = map card_str (d_cards d')).
  { destruct (d_cards d) as [|a l] eqn:D; destruct (d_cards d') as [|b m] eqn:D'; [reflexivity| | |].
    - exfalso. apply (J d'); [now rewrite D'|rewrite D'; discriminate|]. rewrite D'. symmetry. exact E.
    - exfalso. apply (J d); [now rewrite D|rewrite D; discriminate|]. rewrite D. exact E.
    - apply (f_equal (pieces 44)) in E. rewrite (pieces_join 44), (pieces_join 44) in E; [exact E|discriminate| |discriminate|];
        apply Forall_map; (eapply Forall_impl; [|eassumption]); intros c Hc; now apply a_card_chars. }
  revert L. generalize dependent (d_cards d'). induction F as [|c l Hc F IH]; intros m Fm _ L; destruct m as [|b m]; try discriminate L; [reflexivity|].
  apply (f_equal (fun l => match l with x :: _ => x | [] => [] end)) in L as L1. apply (f_equal (@tl _)) in L as L2. cbn [map tl] in L1, L2. inversion Fm; subst. f_equal; [now apply (a_card_chars c Hc)|].
  apply IH; try assumption. now rewrite L2.
Qed.
Print Assumptions C85_deck_cards.
(** The text of three characters a card: brackets, two characters a card and the commas. *)
Theorem C85_deck_length : forall d, d_cards d <> [] -> List.length (deck_str d) = (3 * List.length (d_cards d) + 1)%nat.
Proof.
  intros d N. unfold deck_str. rewrite !app_length. change (List.length (ustr "[")) with 1%nat. change (List.length (ustr "]")) with 1%nat.
  enough (G : forall l, l <> [] -> (List.length (join (ustr ",") (map card_str l)) + 1 = 3 * List.length l)%nat) by (specialize (G _ N); lia).
  clear. induction l as [|a [|b l] IH]; intros N; [now destruct N|reflexivity|]. specialize (IH ltac:(discriminate)).
  change (join (ustr ",") (map card_str (a :: b :: l))) with (card_str a ++ ustr "," ++ join (ustr ",") (map card_str (b :: l))). rewrite !app_length.
  change (List.length (card_str a)) with 2%nat. change (List.length (ustr ",")) with 1%nat. cbn [List.length] in *. lia.
Qed.
Print Assumptions C85_deck_length.
(** [_bin_str] is the number of the card in binary, without leading zeros. *)
Lemma bin_pos_value p : forall acc, Forall (fun d => d = 48 \/ d = 49) acc -> Forall (fun d => d = 48 \/ d = 49) (bin_pos p acc) /\ hd_error (bin_pos p acc) = Some 49 /\
  binary (bin_pos p acc) = fold_left (fun v d => 2 * v + (d - 48)) acc (Z.pos p).
Proof.
  induction p as [p IH|p IH|]; intros acc F; cbn [bin_pos].
  - destruct (IH (49 :: acc)) as (A & B & C); [constructor; auto|]. splits; assumption.
  - destruct (IH (48 :: acc)) as (A & B & C); [constructor; auto|]. splits; assumption.
  - splits; [constructor; auto|reflexivity|]. unfold binary. cbn [fold_left]. reflexivity.
Qed.
Theorem C85_binary : forall c, a_card c -> Forall (fun d => d = 48 \/ d = 49) (bin_str c) /\ hd_error (bin_str c) = Some 49 /\ binary (bin_str c) = c_int c.
Proof.
  intros c H. destruct (a_card_is c H) as (i & j & Hi & Hj & ->). unfold bin_str.
  assert (P : 0 < c_int (the_card i j)).
  { destruct (C01_layout i j Hi Hj) as (_ & _ & _ & A & _). cbv zeta in A. pose proof (Z.pow_pos_nonneg 2 (Z.of_nat i) ltac:(lia) ltac:(lia)).
    destruct (Z_le_gt_dec (c_int (the_card i j)) 0) as [L|L]; [|lia]. pose proof (Z.div_le_mono _ _ (2 ^ 16) ltac:(lia) L) as X. change (0 / 2 ^ 16) with 0 in X. lia. }
  destruct (c_int (the_card i j)) as [|p|p]; try lia. cbn [fmt_b]. apply (bin_pos_value p []). constructor.
Qed.
Print Assumptions C85_binary.
(** The representations tell the object (its id) and its text. *)
Lemma repr_inj pre i i' t t' : pre ++ str_int i ++ ustr "): " ++ t = pre ++ str_int i' ++ ustr "): " ++ t' -> i = i' /\ t = t'.
Proof.
  intros H. apply app_inv_head in H. change (ustr "): " ++ t) with (41 :: ustr ": " ++ t) in H. change (ustr "): " ++ t') with (41 :: ustr ": " ++ t') in H.
  destruct (cut_at 41 _ _ _ _ (str_int_without i 41 ltac:(lia)) (str_int_without i' 41 ltac:(lia)) H) as [A B]. apply app_inv_head in B. split; [now apply str_int_inj|exact B].
Qed.
Theorem C85_repr_card : forall i i' c c', a_card c -> a_card c' -> (card_repr i c = card_repr i' c' <-> i = i' /\ c = c').
Proof.
  intros i i' c c' H H'. split; [|intros [-> ->]; reflexivity]. intros E. apply repr_inj in E. destruct E as [-> E]. split; [reflexivity|]. now apply (C85_card c c' H H').
Qed.
Print Assumptions C85_repr_card.
Theorem C85_repr_deck : forall i i' d d', Forall a_card (d_cards d) -> Forall a_card (d_cards d') -> (deck_repr i d = deck_repr i' d' <-> i = i' /\ d_cards d = d_cards d').
Proof.
  intros i i' d d' H H'. unfold deck_repr. split; [|intros [-> E]; unfold deck_str; now rewrite E]. intros E. apply repr_inj in E. destruct E as [-> E]. split; [reflexivity|].
  now apply (C85_deck_cards d d' H H').
Qed.
Print Assumptions C85_repr_deck.
Theorem C85_repr_evaluator : forall i i' e e', evaluator_repr i e = evaluator_repr i' e' <-> i = i' /\ evaluator_text e = evaluator_text e'.
Proof. intros i i' e e'. split; [apply repr_inj|]. unfold evaluator_repr. now intros [-> ->]. Qed.
Print Assumptions C85_repr_evaluator.
Theorem C85_repr_dealer : forall i i' c c', dealer_repr i c = dealer_repr i' c' <-> i = i' /\ num_players c = num_players c' /\ num_streets c = num_streets c'.
Proof.
  intros i i' c c'. unfold dealer_repr. split; [|intros (-> & -> & ->); reflexivity]. intros H. apply app_inv_head in H.
  match type of H with _ ++ ustr ") - num players: " ++ ?t = _ ++ _ ++ ?u => change (ustr ") - num players: " ++ t) with (41 :: ustr " - num players: " ++ t) in H; change (ustr ") - num players: " ++ u) with (41 :: ustr " - num players: " ++ u) in H end.
  destruct (cut_at 41 _ _ _ _ (str_int_without i 41 ltac:(lia)) (str_int_without i' 41 ltac:(lia)) H) as [A B]. apply app_inv_head in B.
  match type of B with _ ++ ustr ", num streets: " ++ ?t = _ ++ _ ++ ?u => change (ustr ", num streets: " ++ t) with (44 :: ustr " num streets: " ++ t) in B; change (ustr ", num streets: " ++ u) with (44 :: ustr " num streets: " ++ u) in B end.
  destruct (cut_at 44 _ _ _ _ (str_int_without _ 44 ltac:(lia)) (str_int_without _ 44 ltac:(lia)) B) as [A' B']. apply app_inv_head in B'.
  apply str_int_inj in A, A', B'. splits; lia.
Qed.
Print Assumptions C85_repr_dealer.
Theorem C85_repr_svg : forall i i' n n', svg_repr i n = svg_repr i' n' <-> i = i' /\ n = n'.
Proof.
  intros i i' n n'. split; [|intros [-> ->]; reflexivity]. unfold svg_repr. intros H. apply app_inv_head in H.
  rewrite !app_assoc in H. apply app_inv_tail in H. apply (f_equal (@rev Z)) in H. rewrite !rev_app_distr in H.
  change (rev (ustr ", id=")) with (61 :: rev (ustr ", id")) in H. cbn [app] in H. 
  apply cut_at in H; [|rewrite <- in_rev; apply str_int_without; lia|rewrite <- in_rev; apply str_int_without; lia]. destruct H as [A B].
  apply (f_equal (@rev Z)) in A. rewrite !rev_involutive in A. apply app_inv_head in B. apply (f_equal (@rev Z)) in B. rewrite !rev_involutive in B.
  split; [now apply str_int_inj|exact B].
Qed.
Print Assumptions C85_repr_svg.

(** the deck of one suit with four ranks after a draw; the card [As] and its texts *)
Example C85_example : exists c d, Card (ustr "as") = Ok c /\ a_card c /\ card_str c = [65; 9824] /\
  bin_str c = ustr "10000000000000001110000101001" /\ card_repr 140 c = ustr "Card (140): " ++ [65; 9824] /\
  Deck [] 1 4 = Ok d /\ Forall a_card (d_cards d) /\ d_cards d <> [] /\ deck_str d = ustr "[J" ++ [9824] ++ ustr ",Q" ++ [9824] ++ ustr ",K" ++ [9824] ++ ustr ",A" ++ [9824] ++ ustr "]" /\
  svg_repr 7 (ustr "card") = ustr "_SVGElement<name=card, id=7>".
Proof.
  destruct (Card (ustr "as")) as [c|] eqn:E; [|discriminate E]. destruct (Deck [] 1 4) as [d|] eqn:D; [|discriminate D]. exists c, d.
  split; [reflexivity|]. split; [now exists (ustr "as")|]. vm_compute in E. injection E as <-. vm_compute in D. injection D as <-.
  splits; try (vm_compute; reflexivity); try discriminate.
  cbn [d_cards]. repeat constructor; [exists (ustr "JS")|exists (ustr "QS")|exists (ustr "KS")|exists (ustr "AS")]; reflexivity.
Qed.
