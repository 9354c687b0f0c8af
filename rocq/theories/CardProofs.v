(** * CardProofs: proofs about card.py *)
From Coq Require Import Permutation ZifyBool ZifyNat Arith.
From Verif Require Import PyBase CardModel CardSpec.

Ltac Zify.zify_post_hook ::= Z.div_mod_to_equations.

(** ** Parsing *)

Definition opt_nat_eqb (a b : option nat) : bool :=
  match a, b with
  | Some x, Some y => Nat.eqb x y
  | None, None => true
  | _, _ => false
  end.
Definition rank_agrees (c : Z) : bool :=
  opt_nat_eqb (option_map Z.to_nat (dict_get (upper c) CHAR_RANK_TO_INT_RANK))
              (symbol_index c rank_symbols)
  && match dict_get (upper c) CHAR_RANK_TO_INT_RANK with Some z => 0 <=? z | None => true end.
Definition suit_agrees (c : Z) : bool :=
  match dict_get (upper c) CHAR_SUIT_TO_INT_SUIT, symbol_index c suit_symbols with
  | Some z, Some j => z =? 2 ^ Z.of_nat j
  | None, None => true
  | _, _ => false
  end.

Lemma agree_small :
  forallb (fun c => rank_agrees c && suit_agrees c) (zrange 0 400) = true.
Proof. vm_compute. reflexivity. Qed.

Lemma in_zrange lo hi x : In x (zrange lo hi) <-> lo <= x < hi.
Proof.
  unfold zrange. rewrite in_map_iff. split.
  - intros [i [<- Hi]]. apply in_seq in Hi. lia.
  - intros H. exists (Z.to_nat (x - lo)). rewrite in_seq. lia.
Qed.

Lemma upper_out c : c < 0 \/ 400 <= c -> upper c = c.
Proof.
  intros H. unfold upper.
  destruct ((97 <=? c) && (c <=? 122)) eqn:?; [lia|].
  destruct (c =? 383) eqn:?; lia.
Qed.

Lemma dict_get_out {V} c (d : list (Z * V)) :
  (forall k v, In (k, v) d -> 0 <= k < 400) -> c < 0 \/ 400 <= c -> dict_get c d = None.
Proof.
  induction d as [|[k v] d IH]; intros Hd Hc; [reflexivity|].
  cbn [dict_get]. specialize (Hd k v (or_introl eq_refl)) as Hk.
  destruct (c =? k) eqn:?; [lia|]. apply IH; [|exact Hc].
  intros k' v' Hin. apply (Hd k' v'). right. exact Hin.
Qed.

Lemma symbol_index_out c cls :
  (forall cl x, In cl cls -> In x cl -> 0 <= x < 400) -> c < 0 \/ 400 <= c ->
  symbol_index c cls = None.
Proof.
  induction cls as [|cl cls IH]; intros H Hc; [reflexivity|].
  cbn [symbol_index].
  destruct (existsb (Z.eqb c) cl) eqn:E.
  - apply existsb_exists in E. destruct E as [x [Hx Heq]].
    specialize (H cl x (or_introl eq_refl) Hx). lia.
  - rewrite IH; [reflexivity| |exact Hc]. intros cl' x Hcl. apply H. right; exact Hcl.
Qed.

Lemma table_keys_small {V} (d : list (Z * V)) :
  forallb (fun p => (0 <=? fst p) && (fst p <? 400)) d = true ->
  forall k v, In (k, v) d -> 0 <= k < 400.
Proof. intros H k v Hin. rewrite forallb_forall in H. specialize (H _ Hin). cbn in H. lia. Qed.

Lemma symbols_small (cls : list (list Z)) :
  forallb (forallb (fun x => (0 <=? x) && (x <? 400))) cls = true ->
  forall cl x, In cl cls -> In x cl -> 0 <= x < 400.
Proof.
  intros H cl x Hcl Hx. rewrite forallb_forall in H. specialize (H _ Hcl).
  rewrite forallb_forall in H. specialize (H _ Hx). lia.
Qed.

Lemma rank_suit_agree c : rank_agrees c = true /\ suit_agrees c = true.
Proof.
  destruct (Z_lt_dec c 0) as [Hn|Hn]; [|destruct (Z_lt_dec c 400) as [Hs|Hs]].
  2:{ pose proof agree_small as H. rewrite forallb_forall in H.
      specialize (H c). rewrite in_zrange in H.
      assert (H' : rank_agrees c && suit_agrees c = true) by (apply H; lia).
      apply andb_true_iff in H'. exact H'. }
  all: assert (Hc : c < 0 \/ 400 <= c) by lia; unfold rank_agrees, suit_agrees;
    rewrite (upper_out c Hc);
    rewrite !dict_get_out, !symbol_index_out;
    first [split; reflexivity | exact Hc
          | apply table_keys_small; vm_compute; reflexivity
          | apply symbols_small; vm_compute; reflexivity].
Qed.

Lemma symbol_index_lt c cls i : symbol_index c cls = Some i -> (i < List.length cls)%nat.
Proof.
  revert i; induction cls as [|cl cls IH]; intros i H; cbn in H; [discriminate|].
  destruct (existsb (Z.eqb c) cl); [injection H as <-; cbn; lia|].
  destruct (symbol_index c cls) as [k|]; [|discriminate].
  cbn in H. injection H as <-. specialize (IH k eq_refl). cbn. lia.
Qed.

Definition card_full_eqb (a b : card) : bool :=
  (c_int a =? c_int b) && (c_suit a =? c_suit b) && (c_rank a =? c_rank b).
Lemma card_full_eqb_eq a b : card_full_eqb a b = true -> a = b.
Proof.
  destruct a as [a1 a2 a3], b as [b1 b2 b3]. unfold card_full_eqb. cbn. intros H.
  assert (a1 = b1 /\ a2 = b2 /\ a3 = b3) as [-> [-> ->]] by lia. reflexivity.
Qed.

(** the part of [Card] after the two dictionary lookups *)
Definition build_card (rank_int suit_int : Z) : result card :=
  let* rank_prime := get PRIMES (Z.to_nat rank_int) in
  let bitrank := Z.shiftl (Z.shiftl 1 rank_int) 16 in
  let suit := Z.shiftl suit_int 12 in
  let rank := Z.shiftl rank_int 8 in
  let i := Z.lor (Z.lor (Z.lor bitrank suit) rank) rank_prime in
  match dict_get suit_int PRETTY_SUITS with
  | None => Err KeyError
  | Some glyph => let* rk := get STR_RANKS (Z.to_nat rank_int) in Ok (mkCard i glyph rk)
  end.

Lemma build_card_sweep :
  forallb (fun i => forallb (fun j =>
     match build_card (Z.of_nat i) (2 ^ Z.of_nat j) with
     | Ok c => card_full_eqb c (the_card i j) | Err _ => false end) (seq 0 4)) (seq 0 13) = true.
Proof. vm_compute. reflexivity. Qed.

Lemma build_card_ok i j : (i < 13)%nat -> (j < 4)%nat ->
  build_card (Z.of_nat i) (2 ^ Z.of_nat j) = Ok (the_card i j).
Proof.
  intros Hi Hj. pose proof build_card_sweep as H. rewrite forallb_forall in H.
  specialize (H i). rewrite in_seq in H. specialize (H ltac:(lia)).
  rewrite forallb_forall in H. specialize (H j). rewrite in_seq in H. specialize (H ltac:(lia)).
  destruct (build_card (Z.of_nat i) (2 ^ Z.of_nat j)) as [c|e]; [|discriminate].
  apply card_full_eqb_eq in H. now subst.
Qed.

Definition parse_spec (s : list Z) : result card :=
  match s with
  | c0 :: c1 :: _ =>
    match symbol_index c0 rank_symbols with
    | None => Err InvalidRankError
    | Some i => match symbol_index c1 suit_symbols with
                | None => Err InvalidSuitError
                | Some j => Ok (the_card i j)
                end
    end
  | _ => Err IndexError
  end.

Lemma Card_spec s : Card s = parse_spec s.
Proof.
  destruct s as [|c0 [|c1 r]]; [reflexivity|reflexivity|].
  unfold Card. cbn [get nth_error bind].
  destruct (rank_suit_agree c0) as [Hr _]. destruct (rank_suit_agree c1) as [_ Hs].
  unfold rank_agrees in Hr. unfold suit_agrees in Hs. unfold parse_spec.
  destruct (dict_get (upper c0) CHAR_RANK_TO_INT_RANK) as [z|] eqn:Ez;
    destruct (symbol_index c0 rank_symbols) as [i|] eqn:Ei; cbn in Hr; try discriminate;
    [|reflexivity].
  destruct (dict_get (upper c1) CHAR_SUIT_TO_INT_SUIT) as [w|] eqn:Ew;
    destruct (symbol_index c1 suit_symbols) as [j|] eqn:Ej; try discriminate; [|reflexivity].
  assert (Hz : z = Z.of_nat i) by lia. assert (Hw : w = 2 ^ Z.of_nat j) by lia.
  subst z w. apply symbol_index_lt in Ei, Ej. cbn in Ei, Ej.
  apply (build_card_ok i j); assumption.
Qed.

(** ** Layout *)
Lemma layout_sweep :
  forallb (fun i => forallb (fun j =>
      let v := layout i j in
      (v mod 2 ^ 8 =? nth i rank_prime 0)
      && (v / 2 ^ 8 mod 2 ^ 4 =? Z.of_nat i)
      && (v / 2 ^ 12 mod 2 ^ 4 =? 2 ^ Z.of_nat j)
      && (v / 2 ^ 16 =? 2 ^ Z.of_nat i)) (seq 0 4)) (seq 0 13) = true.
Proof. vm_compute. reflexivity. Qed.

Lemma layout_fields i j : (i < 13)%nat -> (j < 4)%nat ->
  layout i j mod 2 ^ 8 = nth i rank_prime 0 /\
  layout i j / 2 ^ 8 mod 2 ^ 4 = Z.of_nat i /\
  layout i j / 2 ^ 12 mod 2 ^ 4 = 2 ^ Z.of_nat j /\
  layout i j / 2 ^ 16 = 2 ^ Z.of_nat i.
Proof.
  intros Hi Hj. pose proof layout_sweep as H. rewrite forallb_forall in H.
  specialize (H i). rewrite in_seq in H. specialize (H ltac:(lia)).
  rewrite forallb_forall in H. specialize (H j). rewrite in_seq in H. specialize (H ltac:(lia)).
  cbv beta zeta in H. rewrite !andb_true_iff, !Z.eqb_eq in H. tauto.
Qed.

Lemma layout_inj i j i' j' : (i < 13)%nat -> (j < 4)%nat -> (i' < 13)%nat -> (j' < 4)%nat ->
  layout i j = layout i' j' -> i = i' /\ j = j'.
Proof.
  intros Hi Hj Hi' Hj' E.
  destruct (layout_fields i j Hi Hj) as (_ & A & B & _).
  destruct (layout_fields i' j' Hi' Hj') as (_ & A' & B' & _).
  rewrite E in A, B. rewrite A in A'. rewrite B in B'.
  split; [lia|]. apply Z.pow_inj_r in B'; lia.
Qed.

Lemma the_card_inj i j i' j' : (i < 13)%nat -> (j < 4)%nat -> (i' < 13)%nat -> (j' < 4)%nat ->
  the_card i j = the_card i' j' -> i = i' /\ j = j'.
Proof.
  intros Hi Hj Hi' Hj' E. apply (f_equal c_int) in E. cbn [the_card c_int] in E.
  now apply layout_inj.
Qed.

(** a card which some string denotes *)
Lemma parsed_card s c : Card s = Ok c ->
  exists i j, (i < 13)%nat /\ (j < 4)%nat /\ c = the_card i j.
Proof.
  rewrite Card_spec. unfold parse_spec. destruct s as [|c0 [|c1 r]]; try discriminate.
  destruct (symbol_index c0 rank_symbols) as [i|] eqn:Ei; [|discriminate].
  destruct (symbol_index c1 suit_symbols) as [j|] eqn:Ej; [|discriminate].
  intros H. injection H as <-. apply symbol_index_lt in Ei, Ej. cbn in Ei, Ej. eauto.
Qed.

(** ** Deck construction *)
Definition list_card_eqb (a b : list card) : bool :=
  (List.length a =? List.length b)%nat
  && forallb (fun p => card_full_eqb (fst p) (snd p)) (combine a b).
Lemma list_card_eqb_eq a : forall b, list_card_eqb a b = true -> a = b.
Proof.
  induction a as [|x a IH]; intros [|y b] H; cbn in H; try discriminate; [reflexivity|].
  unfold list_card_eqb in H. cbn in H.
  apply andb_true_iff in H. destruct H as [H1 H2].
  apply andb_true_iff in H2. destruct H2 as [H2 H3].
  apply card_full_eqb_eq in H2. subst y. f_equal. apply IH.
  unfold list_card_eqb. now rewrite H1, H3.
Qed.

Lemma deck_full_sweep :
  forallb (fun s => forallb (fun r =>
     match deck_full (Z.of_nat s) (Z.of_nat r) with
     | Ok l => list_card_eqb l (deck_cards s r) | Err _ => false end) (seq 1 13)) (seq 1 4) = true.
Proof. vm_compute. reflexivity. Qed.

Lemma deck_full_ok s r : 1 <= s <= 4 -> 1 <= r <= 13 ->
  deck_full s r = Ok (deck_cards (Z.to_nat s) (Z.to_nat r)).
Proof.
  intros Hs Hr. pose proof deck_full_sweep as H. rewrite forallb_forall in H.
  specialize (H (Z.to_nat s)). rewrite in_seq in H. specialize (H ltac:(lia)).
  rewrite forallb_forall in H. specialize (H (Z.to_nat r)). rewrite in_seq in H.
  specialize (H ltac:(lia)). rewrite !Z2Nat.id in H by lia.
  destruct (deck_full s r) as [l|e]; [|discriminate].
  apply list_card_eqb_eq in H. now subst.
Qed.

Lemma in_deck_cards s r c : (r <= 13)%nat ->
  In c (deck_cards s r) <->
  exists i j, (13 - r <= i < 13)%nat /\ (j < s)%nat /\ c = the_card i j.
Proof.
  intros Hr. unfold deck_cards. rewrite in_flat_map. split.
  - intros [i [Hi H]]. apply in_seq in Hi. apply in_map_iff in H. destruct H as [j [<- Hj]].
    apply in_seq in Hj. exists i, j. repeat split; lia.
  - intros (i & j & Hi & Hj & ->). exists i. rewrite in_seq. split; [lia|].
    apply in_map_iff. exists j. rewrite in_seq. split; [reflexivity|lia].
Qed.

Lemma NoDup_app {A} (a b : list A) :
  NoDup a -> NoDup b -> (forall x, In x a -> ~ In x b) -> NoDup (a ++ b).
Proof.
  induction a as [|x a IH]; intros Ha Hb Hd; [exact Hb|].
  inversion Ha as [|? ? Hx Ha']; subst. cbn. constructor.
  - rewrite in_app_iff. intros [H|H]; [tauto|]. apply (Hd x); [now left|exact H].
  - apply IH; [assumption..|]. intros y Hy. apply Hd. now right.
Qed.

Lemma NoDup_map_on {A B} (f : A -> B) (l : list A) :
  (forall x y, In x l -> In y l -> f x = f y -> x = y) -> NoDup l -> NoDup (map f l).
Proof.
  induction l as [|x l IH]; intros Hf Hn; [constructor|].
  inversion Hn as [|? ? Hx Hn']; subst. cbn. constructor.
  - intros H. apply in_map_iff in H. destruct H as [y [Hy Hin]].
    apply Hf in Hy; [subst; tauto|now right|now left].
  - apply IH; [|exact Hn']. intros a b Ha Hb. apply Hf; now right.
Qed.

Lemma deck_cards_NoDup s r : (s <= 4)%nat -> (r <= 13)%nat -> NoDup (map c_int (deck_cards s r)).
Proof.
  intros Hs Hr. unfold deck_cards.
  assert (Hle : (13 - r + r <= 13)%nat) by lia.
  generalize (13 - r)%nat Hle. clear Hle Hr. induction r as [|r IH]; intros b Hb; cbn [seq flat_map].
  - constructor.
  - rewrite map_app. apply NoDup_app.
    + rewrite map_map. apply NoDup_map_on; [|apply seq_NoDup].
      intros x y Hx Hy E. apply in_seq in Hx, Hy. apply layout_inj in E; lia.
    + apply IH. lia.
    + intros x Hx Hy. apply in_map_iff in Hx. destruct Hx as [cx [<- Hx]].
      apply in_map_iff in Hx. destruct Hx as [jx [<- Hjx]].
      apply in_map_iff in Hy. destruct Hy as [cy [Ey Hy]].
      apply in_flat_map in Hy. destruct Hy as [i [Hi Hy]].
      apply in_map_iff in Hy. destruct Hy as [jy [<- Hjy]].
      apply in_seq in Hjx, Hi, Hjy. apply layout_inj in Ey; lia.
Qed.

Lemma deck_cards_length s r : List.length (deck_cards s r) = (r * s)%nat.
Proof.
  unfold deck_cards. generalize (13 - r)%nat. induction r as [|r IH]; intros b; [reflexivity|].
  cbn [seq flat_map]. rewrite app_length, map_length, seq_length, IH. lia.
Qed.

(** ** Shuffling *)
Lemma insert_at_perm {A} k (x : A) l : Permutation (x :: l) (insert_at k x l).
Proof.
  unfold insert_at. rewrite <- (firstn_skipn k l) at 1. apply Permutation_middle.
Qed.

Lemma shuf_perm {A} rnd (l : list A) : Permutation l (shuf rnd l).
Proof.
  revert rnd; induction l as [|x l IH]; intros rnd; [constructor|].
  cbn [shuf]. eapply perm_trans; [|apply insert_at_perm]. constructor. apply IH.
Qed.

Lemma shuf_complete {A} (l l' : list A) : Permutation l l' -> exists rnd, shuf rnd l = l'.
Proof.
  revert l'; induction l as [|x l IH]; intros l' H.
  - apply Permutation_nil in H. subst. exists []. reflexivity.
  - assert (Hx : In x l') by (eapply Permutation_in; [exact H|now left]).
    apply in_split in Hx. destruct Hx as (l1 & l2 & ->).
    apply Permutation_cons_app_inv in H. destruct (IH _ H) as [rnd Hr].
    exists (List.length l1 :: rnd). cbn [shuf hd tl]. rewrite Hr. unfold insert_at.
    rewrite firstn_app, skipn_app, Nat.sub_diag, firstn_all, skipn_all. cbn.
    now rewrite app_nil_r.
Qed.

(** ** Drawing *)
Lemma draw_loop_spec k : forall cards drawn,
  draw_loop k cards drawn = (drawn ++ firstn k cards, skipn k cards).
Proof.
  induction k as [|k IH]; intros cards drawn; cbn.
  - now rewrite app_nil_r.
  - destruct cards as [|c r]; cbn; [now rewrite app_nil_r|].
    rewrite IH, <- app_assoc. reflexivity.
Qed.

Definition set_cards (d : deck) (l : list card) : deck :=
  mkDeck (d_num_ranks d) (d_num_suits d) (d_full d) (d_tricked d) (d_top d) (d_bottom d) l.

Lemma deck_draw_spec n d :
  deck_draw n d = (firstn (Z.to_nat n) (d_cards d),
                   set_cards d (skipn (Z.to_nat n) (d_cards d))).
Proof. unfold deck_draw. rewrite draw_loop_spec. reflexivity. Qed.

(** ** Well-formed decks: every deck reachable from a constructor by draw, shuffle,
    trick and untrick *)
Record deck_wf (s r : nat) (d : deck) : Prop := {
  dw_s : (1 <= s <= 4)%nat;
  dw_r : (1 <= r <= 13)%nat;
  dw_ns : d_num_suits d = Z.of_nat s;
  dw_nr : d_num_ranks d = Z.of_nat r;
  dw_full : d_full d = deck_cards s r;
  dw_top : d_tricked d = true ->
           Forall (fun i => (i < r * s)%nat) (d_top d) /\
           d_bottom d = filter (fun i => negb (existsb (Nat.eqb i) (d_top d))) (seq 0 (r * s))
}.

Lemma Deck_wf rnd s r d : Deck rnd s r = Ok d ->
  deck_wf (Z.to_nat s) (Z.to_nat r) d /\ d_tricked d = false
  /\ d_cards d = shuf rnd (deck_cards (Z.to_nat s) (Z.to_nat r))
  /\ 1 <= s <= 4 /\ 1 <= r <= 13.
Proof.
  unfold Deck. destruct ((r <? 1) || (13 <? r)) eqn:Er; [discriminate|].
  destruct ((s <? 1) || (4 <? s)) eqn:Es; [discriminate|].
  rewrite deck_full_ok by lia. cbn [bind]. intros H. injection H as <-.
  repeat split; cbn; try lia. discriminate. discriminate.
Qed.

Lemma Deck_result rnd s r :
  Deck rnd s r =
  if (1 <=? r) && (r <=? 13) then
    if (1 <=? s) && (s <=? 4) then
      Ok (mkDeck r s (deck_cards (Z.to_nat s) (Z.to_nat r)) false [] []
                 (shuf rnd (deck_cards (Z.to_nat s) (Z.to_nat r))))
    else Err InvalidSuitError
  else Err InvalidRankError.
Proof.
  unfold Deck.
  destruct ((r <? 1) || (13 <? r)) eqn:E1; destruct ((1 <=? r) && (r <=? 13)) eqn:E2;
    try reflexivity; try lia.
  destruct ((s <? 1) || (4 <? s)) eqn:E3; destruct ((1 <=? s) && (s <=? 4)) eqn:E4;
    try reflexivity; try lia.
  rewrite deck_full_ok by lia. reflexivity.
Qed.

Lemma the_card_eqb i j i' j' : (i < 13)%nat -> (j < 4)%nat -> (i' < 13)%nat -> (j' < 4)%nat ->
  card_eqb (the_card i j) (the_card i' j') = true <-> i = i' /\ j = j'.
Proof.
  intros Hi Hj Hi' Hj'. unfold card_eqb. rewrite Z.eqb_eq. split.
  - intros E. now apply layout_inj.
  - now intros [-> ->].
Qed.

(** *** index_of *)
Lemma index_of_spec c l b :
  match index_of c l b with
  | Ok i => exists k x, i = (b + k)%nat /\ nth_error l k = Some x /\ c_int x = c_int c /\
            (forall k' x', (k' < k)%nat -> nth_error l k' = Some x' -> c_int x' <> c_int c)
  | Err e => e = ValueError /\ ~ In (c_int c) (map c_int l)
  end.
Proof.
  revert b; induction l as [|x l IH]; intros b; cbn [index_of].
  - split; [reflexivity|intros []].
  - unfold card_eqb. destruct (c_int x =? c_int c) eqn:E.
    + exists O, x. repeat split; [lia|lia|]. intros k' x' Hk. lia.
    + specialize (IH (S b)). destruct (index_of c l (S b)) as [i|e].
      * destruct IH as (k & y & -> & Hy & Hyc & Hmin). exists (S k), y.
        repeat split; [lia|exact Hy|exact Hyc|].
        intros [|k'] x' Hk Hx'; cbn in Hx'.
        -- injection Hx' as <-. lia.
        -- apply (Hmin k' x'); [lia|exact Hx'].
      * destruct IH as [-> Hn]. split; [reflexivity|]. cbn. intros [H|H]; [lia|tauto].
Qed.

Lemma map_res_ok {A B} (f : A -> result B) l ys :
  map_res f l = Ok ys -> Forall2 (fun x y => f x = Ok y) l ys.
Proof.
  revert ys; induction l as [|x l IH]; intros ys H; cbn in H.
  - injection H as <-. constructor.
  - destruct (f x) as [y|e] eqn:Ex; [|discriminate]. cbn in H.
    destruct (map_res f l) as [ys'|e]; [|discriminate]. cbn in H. injection H as <-.
    constructor; [exact Ex|]. now apply IH.
Qed.

Lemma map_res_forall2 {A B} (f : A -> result B) l ys :
  Forall2 (fun x y => f x = Ok y) l ys -> map_res f l = Ok ys.
Proof.
  induction 1 as [|x y l ys Hx _ IH]; [reflexivity|]. cbn. rewrite Hx. cbn. now rewrite IH.
Qed.

Lemma map_res_err {A B} (f : A -> result B) l e :
  map_res f l = Err e -> exists x, In x l /\ f x = Err e.
Proof.
  induction l as [|x l IH]; cbn; [discriminate|].
  destruct (f x) as [y|e'] eqn:Ex; cbn.
  - destruct (map_res f l) as [ys|e2]; cbn; [discriminate|].
    intros H. injection H as <-. destruct IH as [z [Hz Hf]]; [reflexivity|]. exists z.
    split; [now right|exact Hf].
  - intros H. injection H as <-. exists x. split; [now left|exact Ex].
Qed.

(** [at_idcs] of in-range indices *)
Lemma at_idcs_map full idcs dflt :
  Forall (fun i => (i < List.length full)%nat) idcs ->
  at_idcs full idcs = map (fun i => nth i full dflt) idcs.
Proof.
  induction 1 as [|i idcs Hi _ IH]; [reflexivity|]. cbn.
  rewrite (nth_error_nth' full dflt Hi). cbn. f_equal. exact IH.
Qed.

Lemma map_nth_seq {A} (l : list A) d : map (fun i => nth i l d) (seq 0 (List.length l)) = l.
Proof.
  induction l as [|x l IH]; [reflexivity|]. cbn [List.length seq map]. f_equal.
  rewrite <- seq_shift, map_map. exact IH.
Qed.

Lemma filter_ext_in' {A} (f g : A -> bool) l :
  (forall x, In x l -> f x = g x) -> filter f l = filter g l.
Proof.
  induction l as [|x l IH]; intros H; [reflexivity|]. cbn.
  rewrite (H x (or_introl eq_refl)), IH; [reflexivity|]. intros y Hy. apply H. now right.
Qed.

Lemma existsb_nat_in i l : existsb (Nat.eqb i) l = true <-> In i l.
Proof.
  rewrite existsb_exists. split.
  - intros [x [Hx E]]. apply Nat.eqb_eq in E. now subst.
  - intros H. exists i. split; [exact H|apply Nat.eqb_refl].
Qed.

Lemma top_bottom_perm top m :
  NoDup top -> Forall (fun i => (i < m)%nat) top ->
  Permutation (top ++ filter (fun i => negb (existsb (Nat.eqb i) top)) (seq 0 m)) (seq 0 m).
Proof.
  intros Hn Hf. rewrite Forall_forall in Hf. apply NoDup_Permutation.
  - apply NoDup_app; [exact Hn|apply NoDup_filter, seq_NoDup|].
    intros x Hx Hx'. apply filter_In in Hx'. destruct Hx' as [_ Hx'].
    apply negb_true_iff in Hx'. apply existsb_nat_in in Hx. congruence.
  - apply seq_NoDup.
  - intros x. rewrite in_app_iff, filter_In, in_seq. split.
    + intros [H|[H _]]; [apply Hf in H; lia|lia].
    + intros H. destruct (existsb (Nat.eqb x) top) eqn:E.
      * left. now apply existsb_nat_in.
      * right. cbn. split; [lia|reflexivity].
Qed.

(** Tricking: the found indices denote the given cards *)
Lemma trick_idcs s r d top idcs :
  deck_wf s r d ->
  map_res (fun c => index_of c (d_full d) 0) top = Ok idcs ->
  Forall (fun i => (i < r * s)%nat) idcs /\
  map c_int (at_idcs (d_full d) idcs) = map c_int top.
Proof.
  intros W H. apply map_res_ok in H.
  assert (L : List.length (d_full d) = (r * s)%nat)
    by (rewrite (dw_full _ _ _ W); apply deck_cards_length).
  induction H as [|c i top idcs Hc _ [IH1 IH2]]; [split; [constructor|reflexivity]|].
  pose proof (index_of_spec c (d_full d) 0) as S. rewrite Hc in S.
  destruct S as (k & x & -> & Hx & Hxc & _).
  assert (k < r * s)%nat by (rewrite <- L; apply nth_error_Some; congruence).
  split; [constructor; [lia|exact IH1]|].
  cbn [at_idcs flat_map]. rewrite Nat.add_0_l, Hx. cbn. rewrite Hxc. f_equal. exact IH2.
Qed.
