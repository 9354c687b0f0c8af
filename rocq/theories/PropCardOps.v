(** * PropCardOps: property C81 (the operators of cards) *)
From Coq Require Import Permutation ZifyBool ZifyNat.
From Verif Require Import PyBase PyFacts CardModel CardSpec DeckSpec PokerSpec EvalSpec EvalModel CardProofs
  DeckProofs EvalRank EvalTable EvalCheck EvalLists EvalHands CardOpsModel EngineDemo.

(** ** Specification: the cards are those the constructor makes, and what they are is
    read off their public attributes [rank] and [suit] *)
Definition a_card (c : card) : Prop := exists s, Card s = Ok c.
Definition same_rank (a b : card) : Prop := c_rank a = c_rank b.
Definition same_suit (a b : card) : Prop := c_suit a = c_suit b.

(** the whole number an operand stands for *)
Definition number (o : operand) : option Z :=
  match o with OCard c => Some (c_int c) | OInt z => Some z | OOther => None end.

Lemma a_card_is c : a_card c -> exists i j, (i < 13)%nat /\ (j < 4)%nat /\ c = the_card i j.
Proof.
  intros [s H]. rewrite Card_spec in H. unfold parse_spec in H.
  destruct s as [|c0 [|c1 r]]; try discriminate.
  destruct (symbol_index c0 rank_symbols) as [i|] eqn:Ei; [|discriminate].
  destruct (symbol_index c1 suit_symbols) as [j|] eqn:Ej; [|discriminate].
  injection H as <-. exists i, j. split; [exact (symbol_index_lt _ _ _ Ei)|].
  split; [exact (symbol_index_lt _ _ _ Ej)|reflexivity].
Qed.

Lemma cards_are cs : Forall a_card cs -> exists h, in_range h /\ cs = cards_of h.
Proof.
  induction 1 as [|c cs Hc _ (h & R & ->)]; [exists []; split; [constructor|reflexivity]|].
  destruct (a_card_is c Hc) as (i & j & Hi & Hj & ->). exists ((i, j) :: h).
  split; [constructor; [split; assumption|exact R]|reflexivity].
Qed.

Lemma rank_letter_inj i i' : (i < 13)%nat -> (i' < 13)%nat ->
  nth i rank_letter 0 = nth i' rank_letter 0 -> i = i'.
Proof.
  intros Hi Hi' E. apply (proj1 (NoDup_nth rank_letter 0)); [|exact Hi|exact Hi'|exact E].
  repeat constructor; cbn; intuition discriminate.
Qed.
Lemma suit_glyph_inj j j' : (j < 4)%nat -> (j' < 4)%nat ->
  nth j suit_glyph 0 = nth j' suit_glyph 0 -> j = j'.
Proof.
  intros Hi Hi' E. apply (proj1 (NoDup_nth suit_glyph 0)); [|exact Hi|exact Hi'|exact E].
  repeat constructor; cbn; intuition discriminate.
Qed.

(** ** The bits of one card *)
Theorem C81_fields : forall c, a_card c ->
  exists i j, (i < 13)%nat /\ (j < 4)%nat /\
    c_rank c = nth i rank_letter 0 /\ c_suit c = nth j suit_glyph 0 /\
    py_and (OCard c) (OInt 255) = Ok (nth i rank_prime 0) /\
    py_and (OInt 255) (OCard c) = Ok (nth i rank_prime 0) /\
    py_and (OCard c) (OInt 61440) = Ok (4096 * 2 ^ Z.of_nat j) /\
    py_and (OInt 61440) (OCard c) = Ok (4096 * 2 ^ Z.of_nat j) /\
    py_rshift (OCard c) (OInt 16) = Ok (2 ^ Z.of_nat i) /\
    py_lshift (OCard c) (OInt 0) = Ok (c_int c) /\ py_rshift (OCard c) (OInt 0) = Ok (c_int c).
Proof.
  intros c Hc. destruct (a_card_is c Hc) as (i & j & Hi & Hj & ->). exists i, j.
  destruct (layout_prime i j Hi Hj) as [P R]. pose proof (suit_first i j Hi Hj) as S1.
  cbn [py_and py_rshift py_lshift card_and card_rand card_lshift card_rshift int_lshift int_rshift
       unwrap the_card c_int c_rank c_suit].
  change (16 <? 0) with false. change (0 <? 0) with false. cbv iota.
  rewrite (Z.land_comm 255), (Z.land_comm (layout i j) 61440), P, S1, R, Z.shiftl_0_r, Z.shiftr_0_r.
  change (prime i) with (nth i rank_prime 0).
  splits; try assumption; reflexivity.
Qed.
Print Assumptions C81_fields.

(** ** Every operator, for every pair of operands that involves a card *)
Theorem C81_operators : forall a b c, a = OCard c \/ b = OCard c ->
  py_and a b = match number a, number b with
               | Some x, Some y => Ok (Z.land x y) | _, _ => Err TypeError end /\
  py_or a b = match number a, number b with
              | Some x, Some y => Ok (Z.lor x y) | _, _ => Err TypeError end /\
  py_and a b = py_and b a /\ py_or a b = py_or b a.
Proof.
  intros a b c H.
  destruct a as [x|x|], b as [y|y|]; destruct H as [H|H]; try discriminate H;
    cbn [py_and py_or card_and card_rand card_or card_ror unwrap number];
    splits; try reflexivity; f_equal; auto using Z.land_comm, Z.lor_comm.
Qed.
Print Assumptions C81_operators.

Theorem C81_shifts : forall c b n,
  py_lshift (OCard c) (OInt n) = (if n <? 0 then Err ValueError else Ok (c_int c * 2 ^ n)) /\
  py_rshift (OCard c) (OInt n) = (if n <? 0 then Err ValueError else Ok (c_int c / 2 ^ n)) /\
  (number b = None \/ (exists d, b = OCard d) ->
   py_lshift (OCard c) b = Err TypeError /\ py_rshift (OCard c) b = Err TypeError) /\
  (forall a, (forall d, a <> OCard d) ->
   py_lshift a (OCard c) = Err TypeError /\ py_rshift a (OCard c) = Err TypeError).
Proof.
  intros c b n. cbn [py_lshift py_rshift card_lshift card_rshift int_lshift int_rshift]. splits.
  - destruct (n <? 0) eqn:E; [reflexivity|]. rewrite Z.shiftl_mul_pow2 by lia. reflexivity.
  - destruct (n <? 0) eqn:E; [reflexivity|]. rewrite Z.shiftr_div_pow2 by lia. reflexivity.
  - intros [H|[d ->]]; [destruct b; try discriminate H|]; split; reflexivity.
  - intros a H. destruct a as [d|z|]; [exfalso; now apply (H d)| |]; split; reflexivity.
Qed.
Print Assumptions C81_shifts.

(** ** Equality *)
Theorem C81_equality : forall a b, a_card a -> a_card b ->
  exists e, py_eq (OCard a) (OCard b) = Some (Ok e) /\
            py_ne (OCard a) (OCard b) = Some (Ok (negb e)) /\
            py_eq (OCard b) (OCard a) = Some (Ok e) /\
            (e = true <-> same_rank a b /\ same_suit a b) /\
            (e = true <-> card_str a = card_str b) /\
            (e = true <-> a = b).
Proof.
  intros a b Ha Hb. destruct (a_card_is a Ha) as (i & j & Hi & Hj & ->).
  destruct (a_card_is b Hb) as (i' & j' & Hi' & Hj' & ->).
  exists (card_eqb (the_card i j) (the_card i' j')).
  assert (E : card_eqb (the_card i j) (the_card i' j') = true <-> i = i' /\ j = j')
    by (now apply the_card_eqb).
  splits; try reflexivity.
  - unfold py_eq, card_eq, card_eqb. rewrite Z.eqb_sym. reflexivity.
  - rewrite E. unfold same_rank, same_suit. cbn [the_card c_rank c_suit].
    split; [intros [-> ->]; split; reflexivity|]. intros [A B].
    split; [now apply rank_letter_inj|now apply suit_glyph_inj].
  - rewrite E. unfold card_str. cbn [the_card c_rank c_suit].
    split; [intros [-> ->]; reflexivity|]. intros A. injection A as A B.
    split; [now apply rank_letter_inj|now apply suit_glyph_inj].
  - rewrite E. split; [intros [-> ->]; reflexivity|]. intros A.
    assert (A1 := f_equal c_rank A). assert (A2 := f_equal c_suit A).
    cbn [the_card c_rank c_suit] in A1, A2.
    split; [now apply rank_letter_inj|now apply suit_glyph_inj].
Qed.
Print Assumptions C81_equality.

Theorem C81_other_objects : forall c o, (forall d, o <> OCard d) ->
  py_eq (OCard c) o = Some (Err NotImplementedError) /\
  py_eq o (OCard c) = Some (Err NotImplementedError) /\
  py_ne (OCard c) o = Some (Err NotImplementedError) /\
  py_ne o (OCard c) = Some (Err NotImplementedError) /\
  card_hash c = Err TypeError.
Proof.
  intros c o H. destruct o as [d|z|]; [exfalso; now apply (H d)| |]; splits; reflexivity.
Qed.
Print Assumptions C81_other_objects.

(** ** Looking a card up in a list of cards *)
Lemma card_eqb_iff a b : a_card a -> a_card b -> (card_eqb a b = true <-> a = b).
Proof.
  intros Ha Hb. destruct (C81_equality a b Ha Hb) as (e & E & _ & _ & _ & _ & H).
  cbn [py_eq card_eq] in E. injection E as E. rewrite E. exact H.
Qed.

Lemma count_nonzero l c : (forall x, In x l -> card_eqb x c = false) ->
  py_count (OCard c) l = Ok O.
Proof.
  induction l as [|x l IH]; intros H; [reflexivity|]. cbn [py_count card_eq bind].
  rewrite (H x (or_introl eq_refl)), IH by (intros y Hy; apply H; now right). reflexivity.
Qed.

Theorem C81_membership : forall l o, Forall a_card l ->
  match o with
  | OCard c => a_card c ->
    exists b n, py_in o l = Ok b /\ (b = true <-> In c l) /\
      py_count o l = Ok n /\
      n = List.length (filter (fun x => if list_eq_dec Z.eq_dec (card_str x) (card_str c) then true else false) l) /\
      match py_index o l 0 with
      | Ok i => nth_error l i = Some c /\ (forall k, (k < i)%nat -> nth_error l k <> Some c)
      | Err e => ~ In c l /\ e = ValueError
      end
  | _ =>
    (l = [] -> py_in o l = Ok false /\ py_count o l = Ok O /\ py_index o l 0 = Err ValueError) /\
    (l <> [] -> py_in o l = Err NotImplementedError /\ py_count o l = Err NotImplementedError /\
                py_index o l 0 = Err NotImplementedError)
  end.
Proof.
  intros l o Hl. destruct o as [c|z|].
  2,3: destruct l as [|x l]; split; intros H; try (exfalso; now apply H); try discriminate H; splits; reflexivity.
  intros Hc.
  assert (Ix : forall k, match py_index (OCard c) l k with
               | Ok i => exists d, i = (k + d)%nat /\ nth_error l d = Some c /\
                         (forall m, (m < d)%nat -> nth_error l m <> Some c)
               | Err e => ~ In c l /\ e = ValueError end).
  { induction Hl as [|x l Hx Hl IH]; intros k; cbn [py_index]; [split; [intros []|reflexivity]|].
    cbn [card_eq bind]. destruct (card_eqb x c) eqn:E.
    - apply card_eqb_iff in E; [|assumption|assumption]. subst x.
      exists O. split; [lia|]. split; [reflexivity|]. intros m Hm. lia.
    - assert (N : x <> c) by (intros ->; rewrite (proj2 (card_eqb_iff c c Hc Hc) eq_refl) in E; discriminate E).
      specialize (IH (S k)). destruct (py_index (OCard c) l (S k)) as [i|e].
      + destruct IH as (d & -> & A & B). exists (S d). split; [lia|]. split; [exact A|].
        intros [|m] Hm; cbn [nth_error]; [congruence|]. apply B. lia.
      + destruct IH as [A ->]. split; [|reflexivity]. intros [->|H]; [now apply N|now apply A]. }
  assert (In_ : exists b, py_in (OCard c) l = Ok b /\ (b = true <-> In c l)).
  { clear Ix. induction Hl as [|x l Hx Hl (b & IH & IHb)].
    - exists false. split; [reflexivity|]. split; [discriminate|intros []].
    - cbn [py_in card_eq bind]. destruct (card_eqb x c) eqn:E.
      + apply card_eqb_iff in E; [|assumption|assumption]. subst x. exists true.
        split; [reflexivity|]. split; [intros _; now left|reflexivity].
      + exists b. split; [exact IH|]. rewrite IHb. split; [now right|]. intros [->|H]; [|exact H].
        rewrite (proj2 (card_eqb_iff c c Hc Hc) eq_refl) in E. discriminate E. }
  assert (Cn : py_count (OCard c) l = Ok (List.length (filter (fun x =>
      if list_eq_dec Z.eq_dec (card_str x) (card_str c) then true else false) l))).
  { clear Ix In_. induction Hl as [|x l Hx Hl IH]; [reflexivity|].
    cbn [py_count filter]. rewrite IH. cbn [card_eq bind].
    destruct (C81_equality x c Hx Hc) as (e & E & _ & _ & _ & Hs & _).
    cbn [py_eq card_eq] in E. injection E as ->.
    destruct (list_eq_dec Z.eq_dec (card_str x) (card_str c)) as [D|D].
    - rewrite (proj2 Hs D). reflexivity.
    - destruct e; [exfalso; apply D, Hs; reflexivity|reflexivity]. }
  destruct In_ as (b & Hb & Hb'). eexists b, _. splits; [exact Hb|exact Hb'|exact Cn|reflexivity|].
  specialize (Ix O). destruct (py_index (OCard c) l 0) as [i|e]; [|exact Ix].
  destruct Ix as (d & -> & A & B). cbn [Nat.add]. split; assumption.
Qed.
Print Assumptions C81_membership.

(** ** The three folds the hand evaluator is built on, written with the operators *)
Lemma reduce_numbers (op : operand -> operand -> result Z) f l :
  (forall x c, op (OInt x) (OCard c) = Ok (f x (c_int c))) ->
  forall acc, reduce_from op (OInt acc) (map OCard l) = Ok (OInt (fold_left f (map c_int l) acc)).
Proof.
  intros H. induction l as [|c l IH]; intros acc; [reflexivity|].
  cbn [map reduce_from fold_left]. rewrite H. cbn [bind]. apply IH.
Qed.

Lemma forallb_same_suit h : in_range h -> h <> [] ->
  (PokerSpec.same_suit h = true <-> forall a b, In a (cards_of h) -> In b (cards_of h) -> same_suit a b).
Proof.
  intros R N. destruct h as [|[i j] h]; [congruence|]. cbn [PokerSpec.same_suit].
  rewrite forallb_forall. unfold in_range in R. rewrite Forall_forall in R. split.
  - intros H a b Ha Hb. unfold cards_of in Ha, Hb. apply in_map_iff in Ha, Hb.
    destruct Ha as ((ia & ja) & <- & Ha), Hb as ((ib & jb) & <- & Hb).
    unfold same_suit. cbn [the_card c_suit fst snd].
    assert (forall p, In p ((i, j) :: h) -> snd p = j) as K.
    { intros p [<-|Hp]; [reflexivity|]. specialize (H p Hp). apply Nat.eqb_eq in H. exact H. }
    apply K in Ha, Hb. cbn [snd] in Ha, Hb. subst. reflexivity.
  - intros H p Hp. apply Nat.eqb_eq.
    assert (Rp := R p (or_intror Hp)). assert (R0 := R (i, j) (or_introl eq_refl)). cbn [fst snd] in R0.
    apply suit_glyph_inj; try tauto.
    apply (H (the_card (fst p) (snd p)) (the_card i j)).
    + unfold cards_of. apply in_map_iff. exists p. split; [reflexivity|now right].
    + unfold cards_of. now left.
Qed.

Theorem C81_same_suit : forall cs, Forall a_card cs -> cs <> [] ->
  exists v, reduce py_and (OInt 61440 :: map OCard cs) = Ok (OInt v) /\
  (v <> 0 <-> forall a b, In a cs -> In b cs -> same_suit a b).
Proof.
  intros cs H N. destruct (cards_are cs H) as (h & R & ->).
  assert (Nh : h <> []) by (intros ->; now apply N).
  eexists. split; [cbn [reduce]; apply reduce_numbers; reflexivity|].
  rewrite <- (forallb_same_suit h R Nh). pose proof (suited_test h R Nh) as T.
  destruct (PokerSpec.same_suit h); cbn [negb] in T; split; intros; try lia; try discriminate.
Qed.
Print Assumptions C81_same_suit.

Theorem C81_ranks : forall cs, Forall a_card cs -> cs <> [] ->
  exists v w, reduce py_or (map OCard cs) = Ok v /\ py_rshift v (OInt 16) = Ok w /\
  0 <= w < 2 ^ 13 /\
  (forall r, (r < 13)%nat ->
    (Z.testbit w (Z.of_nat r) = true <-> exists c, In c cs /\ c_rank c = nth r rank_letter 0)).
Proof.
  intros cs H N. destruct (cards_are cs H) as (h & R & ->).
  destruct h as [|[i j] h]; [exfalso; now apply N|].
  inversion R as [|? ? [Hi Hj] R']; subst. cbn [fst snd] in Hi, Hj.
  assert (E : exists v, reduce py_or (map OCard (cards_of ((i, j) :: h))) = Ok v /\
     py_rshift v (OInt 16) = Ok (or_bits (map fst ((i, j) :: h)) 0)).
  { unfold cards_of. cbn [map reduce fst snd]. fold (cards_of h).
    assert (W : or_bits (i :: map fst h) 0 = Z.shiftr (fold_left Z.lor (map c_int (cards_of h)) (layout i j)) 16).
    { rewrite shiftr_or by exact R'. rewrite (proj2 (layout_prime i j Hi Hj)). reflexivity. }
    rewrite W. destruct h as [|p h].
    - eexists. split; reflexivity.
    - eexists. split.
      + unfold cards_of. cbn [map reduce_from py_or card_or unwrap bind]. fold (cards_of h).
        apply (reduce_numbers py_or Z.lor). reflexivity.
      + reflexivity. }
  destruct E as (v & E1 & E2). exists v, (or_bits (map fst ((i, j) :: h)) 0).
  split; [exact E1|]. split; [exact E2|]. split.
  - clear -R. assert (G : forall l a, Forall (fun k => (k < 13)%nat) l -> 0 <= a < 2 ^ 13 -> 0 <= or_bits l a < 2 ^ 13).
    { induction l as [|k l IH]; intros a Hl Ha; [exact Ha|]. inversion Hl as [|? ? Hk Hl']; subst.
      cbn [or_bits fold_left]. fold (or_bits l (Z.lor a (2 ^ Z.of_nat k))). apply IH; [exact Hl'|].
      assert (P : 0 < 2 ^ Z.of_nat k) by (apply Z.pow_pos_nonneg; lia).
      split; [apply Z.lor_nonneg; lia|].
      destruct (Z.eq_dec (Z.lor a (2 ^ Z.of_nat k)) 0) as [->|NZ]; [lia|].
      assert (0 <= Z.lor a (2 ^ Z.of_nat k)) by (apply Z.lor_nonneg; lia).
      apply Z.log2_lt_pow2; [lia|]. rewrite Z.log2_lor by lia. rewrite Z.log2_pow2 by lia.
      assert (Z.log2 a < 13).
      { destruct (Z.eq_dec a 0) as [->|]; [cbn; lia|]. apply Z.log2_lt_pow2; lia. }
      lia. }
    apply G; [|lia]. apply Forall_map. eapply Forall_impl; [|exact R]. cbn. tauto.
  - intros r Hr. rewrite or_bits_test, Z.testbit_0_l by lia. cbn [orb].
    rewrite existsb_exists. split.
    + intros (k & Hk & Ek). apply Nat.eqb_eq in Ek. subst k. apply in_map_iff in Hk.
      destruct Hk as ((i' & j') & <- & Hp). exists (the_card i' j'). split; [|reflexivity].
      unfold cards_of. apply in_map_iff. exists (i', j'). split; [reflexivity|exact Hp].
    + intros (c & Hc & Ec). unfold cards_of in Hc. apply in_map_iff in Hc. destruct Hc as (p & <- & Hp).
      exists (fst p). split; [now apply in_map|]. apply Nat.eqb_eq.
      unfold in_range in R. rewrite Forall_forall in R. specialize (R p Hp).
      symmetry. apply rank_letter_inj; [tauto|exact Hr|exact Ec].
Qed.
Print Assumptions C81_ranks.

(** the product over a list of the values [card & 0xFF] *)
Fixpoint rank_product (cs : list card) : result Z :=
  match cs with
  | [] => Ok 1
  | c :: r => let* v := py_and (OCard c) (OInt 255) in let* p := rank_product r in Ok (v * p)
  end.

Lemma rank_product_is h : in_range h -> rank_product (cards_of h) = Ok (prime_prod (map fst h)).
Proof.
  induction 1 as [|[i j] h [Hi Hj] R IH]; [reflexivity|]. cbn [fst snd] in Hi, Hj.
  unfold cards_of. cbn [map rank_product fst snd]. fold (cards_of h).
  cbn [py_and card_and unwrap the_card c_int]. rewrite IH. cbn [bind].
  rewrite (proj1 (layout_prime i j Hi Hj)), prime_prod_cons. reflexivity.
Qed.

Lemma ranks_of h : map c_rank (cards_of h) = map (fun i => nth i rank_letter 0) (map fst h).
Proof. unfold cards_of. rewrite !map_map. reflexivity. Qed.


Theorem C81_product : forall cs ds, Forall a_card cs -> Forall a_card ds ->
  exists p q, rank_product cs = Ok p /\ rank_product ds = Ok q /\
  (p = q <-> Permutation (map c_rank cs) (map c_rank ds)).
Proof.
  intros cs ds Hc Hd. destruct (cards_are cs Hc) as (h & R & ->). destruct (cards_are ds Hd) as (g & Q & ->).
  eexists _, _. split; [now apply rank_product_is|]. split; [now apply rank_product_is|].
  assert (B : forall k, in_range k -> below (map fst k)).
  { intros k Hk. apply Forall_map. eapply Forall_impl; [|exact Hk]. cbn. tauto. }
  rewrite !ranks_of. split.
  - intros E. apply Permutation_map. apply prime_prod_inj; [now apply B|now apply B|exact E].
  - intros P.
    assert (F : forall l, below l -> 
        map (fun z => prime (match symbol_index z rank_symbols with Some i => i | None => O end))
            (map (fun i => nth i rank_letter 0) l) = map prime l).
    { intros l. induction 1 as [|i l Hi _ IH]; [reflexivity|]. cbn [map]. rewrite IH. f_equal.
      clear IH. do 13 (destruct i as [|i]; [reflexivity|]). lia. }
    unfold prime_prod. apply prodZ_perm. rewrite <- (F _ (B _ R)), <- (F _ (B _ Q)).
    now apply Permutation_map.
Qed.
Print Assumptions C81_product.

(** ** Tricking a deck with things that are not its cards *)
Lemma index_agree c l : forall k, py_index (OCard c) l k = index_of c l k.
Proof.
  induction l as [|x l IH]; intros k; [reflexivity|]. cbn [py_index index_of card_eq bind].
  destruct (card_eqb x c); [reflexivity|apply IH].
Qed.

Theorem C81_trick_cards : forall cs d, deck_trick_any (map OCard cs) d = deck_trick cs d.
Proof.
  intros cs d. unfold deck_trick_any, deck_trick.
  assert (E : map_res (fun o => py_index o (d_full d) 0) (map OCard cs)
              = map_res (fun c => index_of c (d_full d) 0) cs).
  { induction cs as [|c cs IH]; [reflexivity|]. cbn [map map_res]. rewrite index_agree, IH. reflexivity. }
  rewrite E. reflexivity.
Qed.
Print Assumptions C81_trick_cards.

(** the first element of the order that is not a card of the deck decides *)
Theorem C81_trick_others : forall rnd s r d good bad rest,
  Deck rnd s r = Ok d ->
  Forall (fun o => exists c, o = OCard c /\ In c (d_full d)) good ->
  (forall c, bad = OCard c -> a_card c /\ ~ In c (d_full d)) ->
  deck_trick_any (good ++ bad :: rest) d
  = Err (match bad with OCard _ => ValueError | _ => NotImplementedError end).
Proof.
  intros rnd s r d good bad rest H G Hb.
  destruct (Deck_wf _ _ _ _ H) as (W & _ & _ & Hs & Hr).
  assert (A : Forall a_card (d_full d)).
  { rewrite (dw_full _ _ _ W). apply Forall_forall. intros c Hc.
    rewrite in_deck_cards in Hc by lia. destruct Hc as (i & j & Hi & Hj & ->).
    assert (Hi' : (i < 13)%nat) by lia. assert (Hj' : (j < 4)%nat) by lia. clear -Hi' Hj'.
    exists [nth i rank_letter 0; nth j (ustr "SHDC") 0].
    do 13 (destruct i as [|i]; [do 4 (destruct j as [|j]; [reflexivity|]); lia|]). lia. }
  assert (NE : d_full d <> []).
  { intros E. pose proof (dw_full _ _ _ W) as F. rewrite E in F.
    pose proof (deck_cards_length (Z.to_nat s) (Z.to_nat r)) as L. rewrite <- F in L. cbn in L. nia. }
  unfold deck_trick_any.
  assert (E : map_res (fun o => py_index o (d_full d) 0) (good ++ bad :: rest)
              = Err (match bad with OCard _ => ValueError | _ => NotImplementedError end)).
  { induction G as [|o good (c & -> & Hc) G IH].
    - cbn [app map_res]. pose proof (C81_membership (d_full d) bad A) as M. destruct bad as [c|z|].
      + destruct (Hb c eq_refl) as [Ac Nc]. destruct (M Ac) as (_ & _ & _ & _ & _ & _ & M').
        destruct (py_index (OCard c) (d_full d) 0) as [i|e].
        * destruct M' as [M' _]. apply nth_error_In in M'. contradiction.
        * destruct M' as [_ ->]. reflexivity.
      + destruct M as [_ M]. destruct (M NE) as (_ & _ & ->). reflexivity.
      + destruct M as [_ M]. destruct (M NE) as (_ & _ & ->). reflexivity.
    - cbn [app map_res]. rewrite Forall_forall in A.
      pose proof (C81_membership (d_full d) (OCard c) (proj2 (Forall_forall _ _) A) (A c Hc)) as (_ & _ & _ & _ & _ & _ & M).
      destruct (py_index (OCard c) (d_full d) 0) as [i|e]; [|destruct M as [M _]; contradiction].
      cbn [bind]. rewrite IH. reflexivity. }
  rewrite E. reflexivity.
Qed.
Print Assumptions C81_trick_others.

(** ** Concrete cases *)
Example C81_example_cards : Forall a_card (cards_of [(12, 3); (0, 3); (12, 1)]%nat).
Proof.
  repeat constructor; [exists (ustr "Ac")|exists (ustr "2C")|exists (ustr "ah")]; reflexivity.
Qed.
Example C81_example_suits :
  reduce py_and (OInt 61440 :: map OCard (cards_of [(12, 3); (0, 3)]%nat)) = Ok (OInt 32768) /\
  reduce py_and (OInt 61440 :: map OCard (cards_of [(12, 3); (0, 3); (12, 1)]%nat)) = Ok (OInt 0).
Proof. split; reflexivity. Qed.
Example C81_example_product :
  rank_product (cards_of [(12, 3); (0, 3)]%nat) = Ok 82 /\
  rank_product (cards_of [(0, 0); (12, 2)]%nat) = Ok 82.
Proof. split; reflexivity. Qed.
Example C81_example_eq :
  py_eq (OCard (the_card 12 3)) (OInt 0) = Some (Err NotImplementedError) /\
  py_in (OInt 0) [the_card 12 3] = Err NotImplementedError /\
  py_in (OInt 0) [] = Ok false.
Proof. splits; reflexivity. Qed.
Example C81_example_trick : exists d, Deck [] 1 5 = Ok d /\
  deck_trick_any [OCard (the_card 12 0); OOther] d = Err NotImplementedError /\
  deck_trick_any [OCard (the_card 12 0); OCard (the_card 0 0); OOther] d = Err ValueError.
Proof. eexists. splits; reflexivity. Qed.
