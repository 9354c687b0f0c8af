(** * PropConfig: C17 *)
From Coq Require Import ZifyBool ZifyNat Arith.
From Verif Require Import PyBase PyFacts CardModel EvalModel EngineModel ConfigsModel EngineSpec EngineFacts EngineDemo PropEval PropRound.

(** ** Specification *)
(** the constructor argument [v], meant to have [n] entries, stands for the list [l] *)
Definition stands_for {A} (v : inp A) (n : Z) (l : list A) : Prop :=
  match v with
  | Scalar a => l = repeat a (Z.to_nat n)
  | Listed given => l = given /\ Z.of_nat (List.length given) = n
  end.
Definition wrong_length {A} (v : inp A) (n : Z) : Prop :=
  match v with Scalar _ => False | Listed l => Z.of_nat (List.length l) <> n end.
Definition some_wrong_length (w : raw_config) : Prop :=
  wrong_length (rw_blinds w) (rw_num_players w) \/ wrong_length (rw_antes w) (rw_num_players w) \/
  wrong_length (rw_raise_sizes w) (rw_num_streets w) \/ wrong_length (rw_num_raises w) (rw_num_streets w) \/
  wrong_length (rw_num_community_cards w) (rw_num_streets w).
(** one of the raise sizes used is neither an int nor "pot" nor "inf" *)
Definition some_bad_raise (w : raw_config) : Prop :=
  match rw_raise_sizes w with
  | Scalar r => r = RawOther /\ 0 < rw_num_streets w
  | Listed l => In RawOther l
  end.
Definition cleaned (r : raw_raise) (x : rsize) : Prop :=
  (exists z, r = RawInt z /\ x = RInt z) \/ (r = RawPot /\ x = RPot) \/ (r = RawInf /\ x = RInf).
Definition cleaned_count (r : raw_count) (x : option Z) : Prop :=
  (exists z, r = RawCount z /\ x = Some z) \/ (r = RawCountInf /\ x = None).

Lemma check_inp_spec {A} (v : inp A) n :
  (wrong_length v n /\ check_inp v n = Err InvalidConfigError) \/
  (~ wrong_length v n /\ exists l, check_inp v n = Ok l /\ stands_for v n l).
Proof.
  destruct v as [a|l]; cbn [wrong_length check_inp stands_for].
  - right. split; [tauto|]. eauto.
  - destruct (Z.eqb_spec (Z.of_nat (List.length l)) n); [right|left]; split; try tauto; eauto.
Qed.

(** ** Other exceptions *)
Definition quiet {A} (r : result A) : Prop := r <> Err InvalidConfigError /\ r <> Err InvalidRaiseSizeError.
Lemma quiet_ok {A} (a : A) : quiet (Ok a).
Proof. split; discriminate. Qed.
Lemma quiet_bind {A B} (r : result A) (k : A -> result B) : quiet r -> (forall a, quiet (k a)) -> quiet (bind r k).
Proof. intros [H1 H2] K. destruct r as [a|e]; [apply K|]. split; cbn; congruence. Qed.
Lemma quiet_map_res {A B} (f : A -> result B) l : (forall a, quiet (f a)) -> quiet (map_res f l).
Proof. intros H. induction l as [|x l IH]; [apply quiet_ok|]. cbn [map_res]. apply quiet_bind; [apply H|]. intros y. apply quiet_bind; [exact IH|]. intros; apply quiet_ok. Qed.
Lemma quiet_get {A} (l : list A) i : quiet (get l i).
Proof. unfold get. destruct (nth_error l i); split; discriminate. Qed.
Lemma quiet_combinations {A} (l : list A) k : quiet (combinations l k).
Proof. unfold combinations. destruct (k <? 0); split; discriminate. Qed.
Ltac quiet_tac := repeat first
  [ apply quiet_ok | apply quiet_get | apply quiet_combinations | (split; discriminate)
  | (apply quiet_bind; [|intros ?]) | (apply quiet_map_res; intros ?)
  | match goal with |- quiet (if ?b then _ else _) => destruct b | |- quiet (match ?b with _ => _ end) => destruct b end ].
Lemma quiet_get_rank r h : quiet (get_rank r h).
Proof. unfold get_rank. quiet_tac. Qed.
Lemma quiet_flushes_add cnt r h b l : quiet (flushes_add cnt r h b l).
Proof. unfold flushes_add. destruct (_ =? 0); [quiet_tac|]. destruct (negb _); [quiet_tac|]. apply quiet_bind; [apply quiet_get_rank|intros; quiet_tac]. Qed.
Lemma quiet_multiples_add cnt r ranks cfh h m l : quiet (multiples_add cnt r ranks cfh h m l).
Proof.
  unfold multiples_add. destruct (_ =? 0); [quiet_tac|]. apply quiet_bind; [apply quiet_get_rank|intros]. apply quiet_bind; [unfold multiple_keys; quiet_tac|].
  intros. quiet_tac.
Qed.
Lemma quiet_order_index s : forall n c, quiet (order_index s n c).
Proof. induction n as [|x n IH]; intros [|y c]; cbn [order_index]; try (split; discriminate). destruct (String.eqb s x); [quiet_tac|apply IH]. Qed.
Lemma quiet_evaluator s r c m low o : quiet (Evaluator s r c m low o).
Proof.
  unfold Evaluator. destruct (_ || _); [quiet_tac|]. apply quiet_bind; [|intros; quiet_tac]. unfold LookupTable.
  destruct (match o with Some _ => _ | None => _ end); [quiet_tac|]. cbv zeta. apply quiet_bind.
  - unfold ranked_classes. destruct o; [|quiet_tac]. apply quiet_map_res. intros. apply quiet_order_index.
  - intros hs. apply quiet_bind.
    + unfold table_flushes. repeat (apply quiet_bind; [apply quiet_flushes_add|intros ?]). quiet_tac.
    + intros su. apply quiet_bind; [|intros; quiet_tac]. unfold table_multiples.
      repeat (apply quiet_bind; [apply quiet_multiples_add|intros ?]). apply quiet_multiples_add.
Qed.
Lemma quiet_deck rnd s r : quiet (Deck rnd s r).
Proof. unfold Deck, deck_full. destruct (_ || _); [quiet_tac|]. destruct (_ || _); [quiet_tac|]. apply quiet_bind; [|intros; quiet_tac].
  apply quiet_map_res. intros [x y]. unfold Card. quiet_tac. Qed.

Lemma clean_rs_map l :
  (In RawOther l /\ map_res clean_rs l = Err InvalidRaiseSizeError) \/
  (~ In RawOther l /\ exists r, map_res clean_rs l = Ok r /\ Forall2 cleaned l r).
Proof.
  induction l as [|x l IH]; [right; split; [intros []|]; exists []; split; [reflexivity|constructor]|]. cbn [map_res].
  destruct x as [z| | |]; cbn [clean_rs bind]; try (left; split; [now left|reflexivity]).
  all: destruct IH as [[H ->]|[H (r & -> & F)]]; [left; split; [now right|reflexivity]|right].
  all: split; [intros [X|X]; [discriminate|contradiction]|]; cbn [bind]; eexists; split; [reflexivity|]; constructor; [|exact F]; unfold cleaned; eauto.
Qed.
Lemma clean_count_map l : quiet (map_res clean_count l) /\ (forall r, map_res clean_count l = Ok r -> Forall2 cleaned_count l r).
Proof.
  split; [apply quiet_map_res; intros [z| |]; cbn; quiet_tac|]. induction l as [|x l IH]; intros r H; cbn [map_res] in H; [injection H as <-; constructor|].
  destruct x as [z| |]; cbn [clean_count bind] in H; try discriminate; destruct (map_res clean_count l) as [r'|]; try discriminate; injection H as <-;
    constructor; try (now apply IH); unfold cleaned_count; eauto.
Qed.
Lemma bad_raise_iff w l : check_inp (rw_raise_sizes w) (rw_num_streets w) = Ok l -> (In RawOther l <-> some_bad_raise w).
Proof.
  unfold some_bad_raise. destruct (rw_raise_sizes w) as [r|given]; cbn [check_inp].
  - intros H. injection H as <-. split.
    + intros X. assert (0 < rw_num_streets w). { destruct (Z_lt_dec 0 (rw_num_streets w)) as [L|L]; [exact L|]. replace (Z.to_nat (rw_num_streets w)) with 0%nat in X by lia. destruct X. }
      apply repeat_spec in X. auto.
    + intros [-> L]. destruct (Z.to_nat (rw_num_streets w)) as [|k] eqn:E; [lia|]. now left.
  - destruct (_ =? _); [|discriminate]. intros H. injection H as <-. tauto.
Qed.

(** ** C17 *)
(** a list of the wrong length: InvalidConfigError, whatever the other arguments, and only then *)
Theorem C17_wrong_length : forall rnd w, Dealer rnd w = Err InvalidConfigError <-> some_wrong_length w.
Proof.
  intros rnd w. unfold Dealer, some_wrong_length.
  destruct (check_inp_spec (rw_blinds w) (rw_num_players w)) as [[H1 ->]|[H1 (bl & -> & _)]]; [cbn [bind]; tauto|]. cbn [bind].
  destruct (check_inp_spec (rw_antes w) (rw_num_players w)) as [[H2 ->]|[H2 (an & -> & _)]]; [cbn [bind]; tauto|]. cbn [bind].
  destruct (check_inp_spec (rw_raise_sizes w) (rw_num_streets w)) as [[H3 ->]|[H3 (rs & -> & _)]]; [cbn [bind]; tauto|]. cbn [bind].
  destruct (check_inp_spec (rw_num_raises w) (rw_num_streets w)) as [[H4 ->]|[H4 (nr & -> & _)]]; [cbn [bind]; tauto|]. cbn [bind].
  destruct (check_inp_spec (rw_num_community_cards w) (rw_num_streets w)) as [[H5 ->]|[H5 (cc & -> & _)]]; [cbn [bind]; tauto|]. cbn [bind].
  split; [|tauto]. intros H. exfalso. revert H. 
  destruct (get bl 1) as [bb|e] eqn:E1; [|unfold get in E1; destruct (nth_error bl 1); [discriminate|]; injection E1 as <-; cbn [bind]; discriminate]. cbn [bind].
  destruct (clean_rs_map rs) as [[_ ->]|[_ (crs & -> & _)]]; [cbn [bind]; discriminate|]. cbn [bind].
  pose proof (proj1 (clean_count_map nr)) as Q1. destruct (map_res clean_count nr) as [cnr|e]; [|cbn [bind]; destruct Q1; congruence]. cbn [bind].
  pose proof (quiet_deck rnd (rw_num_suits w) (rw_num_ranks w)) as Q2. destruct (Deck _ _ _) as [dk|e]; [|cbn [bind]; destruct Q2; congruence]. cbn [bind].
  pose proof (quiet_evaluator (rw_num_suits w) (rw_num_ranks w) (rw_num_cards_for_hand w) (rw_mandatory_num_hole_cards w) (rw_low_end_straight w) (rw_order w)) as Q3.
  destruct (Evaluator _ _ _ _ _ _) as [ev|e]; [|cbn [bind]; destruct Q3; congruence]. cbn [bind].
  destruct (_ || _); discriminate.
Qed.
Print Assumptions C17_wrong_length.

(** a bad raise size: InvalidRaiseSizeError, and only then (a list of the wrong length, or fewer
    than two players, are complained about first) *)
Theorem C17_bad_raise : forall rnd w, 2 <= rw_num_players w ->
  (Dealer rnd w = Err InvalidRaiseSizeError <-> ~ some_wrong_length w /\ some_bad_raise w).
Proof.
  intros rnd w Hn. unfold Dealer, some_wrong_length.
  destruct (check_inp_spec (rw_blinds w) (rw_num_players w)) as [[H1 ->]|[H1 (bl & E1 & _)]]; [cbn [bind]; split; [discriminate|tauto]|]. rewrite E1. cbn [bind].
  destruct (check_inp_spec (rw_antes w) (rw_num_players w)) as [[H2 ->]|[H2 (an & -> & _)]]; [cbn [bind]; split; [discriminate|tauto]|]. cbn [bind].
  destruct (check_inp_spec (rw_raise_sizes w) (rw_num_streets w)) as [[H3 ->]|[H3 (rs & E3 & _)]]; [cbn [bind]; split; [discriminate|tauto]|]. rewrite E3. cbn [bind].
  destruct (check_inp_spec (rw_num_raises w) (rw_num_streets w)) as [[H4 ->]|[H4 (nr & -> & _)]]; [cbn [bind]; split; [discriminate|tauto]|]. cbn [bind].
  destruct (check_inp_spec (rw_num_community_cards w) (rw_num_streets w)) as [[H5 ->]|[H5 (cc & -> & _)]]; [cbn [bind]; split; [discriminate|tauto]|]. cbn [bind].
  pose proof (check_inp_length _ _ _ E1) as L1.
  destruct (get bl 1) as [bb|e] eqn:E2; [|exfalso; unfold get in E2; destruct (nth_error bl 1) eqn:X; [discriminate|]; apply nth_error_None in X; lia]. cbn [bind].
  pose proof (bad_raise_iff w rs E3) as B.
  destruct (clean_rs_map rs) as [[X ->]|[X (crs & -> & _)]]; [cbn [bind]; split; [intros _; split; [tauto|now apply B]|reflexivity]|]. cbn [bind].
  split; [|intros [_ Y]; apply B in Y; contradiction]. intros H. exfalso. revert H.
  pose proof (proj1 (clean_count_map nr)) as Q1. destruct (map_res clean_count nr) as [cnr|e]; [|cbn [bind]; destruct Q1; congruence]. cbn [bind].
  pose proof (quiet_deck rnd (rw_num_suits w) (rw_num_ranks w)) as Q2. destruct (Deck _ _ _) as [dk|e]; [|cbn [bind]; destruct Q2; congruence]. cbn [bind].
  pose proof (quiet_evaluator (rw_num_suits w) (rw_num_ranks w) (rw_num_cards_for_hand w) (rw_mandatory_num_hole_cards w) (rw_low_end_straight w) (rw_order w)) as Q3.
  destruct (Evaluator _ _ _ _ _ _) as [ev|e]; [|cbn [bind]; destruct Q3; congruence]. cbn [bind].
  destruct (_ || _); discriminate.
Qed.
Print Assumptions C17_bad_raise.

(** what a dealer is built from *)
Theorem C17_expanded : forall rnd w c s, Dealer rnd w = Ok (c, s) ->
  stands_for (rw_blinds w) (rw_num_players w) (blinds c) /\
  stands_for (rw_antes w) (rw_num_players w) (antes c) /\
  (exists l, stands_for (rw_raise_sizes w) (rw_num_streets w) l /\ Forall2 cleaned l (raise_sizes c)) /\
  (exists l, stands_for (rw_num_raises w) (rw_num_streets w) l /\ Forall2 cleaned_count l (num_raises c)) /\
  stands_for (rw_num_community_cards w) (rw_num_streets w) (num_community_cards c) /\
  2 <= rw_num_players w <= 10 /\ Z.of_nat (num_players c) = rw_num_players w /\
  num_hole_cards c = rw_num_hole_cards w /\ start_stack c = rw_start_stack w /\
  big_blind c = nth 1 (blinds c) 0 /\
  stacks s = repeat (rw_start_stack w) (num_players c) /\ action s = None.
Proof.
  intros rnd w c s H. apply Dealer_inv in H. pose proof (bd_np _ _ _ _ H) as Hn.
  assert (G : forall A (v : inp A) n l, check_inp v n = Ok l -> stands_for v n l).
  { intros A v n l X. destruct (check_inp_spec v n) as [[_ E]|[_ (l' & E & Y)]]; congruence. }
  split; [apply G, H|]. split; [apply G, H|]. split; [|split; [|split; [apply G, H|]]].
  - destruct (bd_raises _ _ _ _ H) as (rs & E1 & E2). exists rs. split; [now apply G|].
    destruct (clean_rs_map rs) as [[_ X]|[_ (r & X & Y)]]; congruence.
  - destruct (bd_counts _ _ _ _ H) as (rs & E1 & E2). exists rs. split; [now apply G|]. now apply clean_count_map.
  - split; [exact Hn|]. rewrite (bd_n _ _ _ _ H). split; [lia|]. split; [apply H|]. split; [apply H|]. split.
    + pose proof (bd_bb _ _ _ _ H) as X. now rewrite (nth_error_nth _ _ 0 X).
    + rewrite (bd_state _ _ _ _ H). cbn. rewrite (bd_n _ _ _ _ H). auto.
Qed.
Print Assumptions C17_expanded.

(** nothing else goes wrong: success is exactly well-formedness *)
Theorem C17_success : forall rnd w,
  (exists c s, Dealer rnd w = Ok (c, s)) <->
  ~ some_wrong_length w /\ ~ some_bad_raise w /\ 2 <= rw_num_players w <= 10 /\
  (match rw_num_raises w with Scalar r => r <> RawCountBad \/ rw_num_streets w <= 0 | Listed l => ~ In RawCountBad l end) /\
  is_ok (Deck rnd (rw_num_suits w) (rw_num_ranks w)) = true /\
  is_ok (Evaluator (rw_num_suits w) (rw_num_ranks w) (rw_num_cards_for_hand w)
          (rw_mandatory_num_hole_cards w) (rw_low_end_straight w) (rw_order w)) = true.
Proof.
  assert (CC : forall l, is_ok (map_res clean_count l) = true <-> ~ In RawCountBad l).
  { induction l as [|x l IH]; [cbn; tauto|]. cbn [map_res]. destruct x as [z| |]; cbn [clean_count bind].
    1,2: destruct (map_res clean_count l); cbn [bind is_ok] in *; split; intros H;
      [intros [X|X]; [discriminate|]; now apply IH|reflexivity|discriminate|exfalso; apply (proj2 IH) in H as X || (assert (X : ~ In RawCountBad l) by (intros Y; apply H; now right); apply IH in X); discriminate].
    split; [discriminate|]. intros H. exfalso. apply H. now left. }
  intros rnd w. split.
  - intros (c & s & H). pose proof H as H'. apply Dealer_inv in H. split; [|split; [|split; [|split; [|split]]]].
    + intros X. apply (C17_wrong_length rnd) in X. congruence.
    + intros X. destruct (bd_raises _ _ _ _ H) as (rs & E1 & E2). apply (bad_raise_iff w rs E1) in X.
      destruct (clean_rs_map rs) as [[_ Y]|[Y _]]; [congruence|contradiction].
    + apply H.
    + destruct (bd_counts _ _ _ _ H) as (rs & E1 & E2). assert (Y : ~ In RawCountBad rs) by (apply CC; now rewrite E2).
      destruct (rw_num_raises w) as [r|l]; cbn [check_inp] in E1.
      * injection E1 as <-. destruct (Z_le_dec (rw_num_streets w) 0) as [L|L]; [now right|left]. intros ->. apply Y.
        destruct (Z.to_nat (rw_num_streets w)) as [|k] eqn:E; [lia|]. now left.
      * destruct (_ =? _); [|discriminate]. now injection E1 as <-.
    + now rewrite (bd_deck _ _ _ _ H).
    + now rewrite (bd_eval _ _ _ _ H).
  - intros (H1 & H2 & H3 & H4 & H5 & H6). unfold Dealer, some_wrong_length in *.
    destruct (check_inp_spec (rw_blinds w) (rw_num_players w)) as [[X _]|[_ (bl & E1 & _)]]; [tauto|]. rewrite E1. cbn [bind].
    destruct (check_inp_spec (rw_antes w) (rw_num_players w)) as [[X _]|[_ (an & -> & _)]]; [tauto|]. cbn [bind].
    destruct (check_inp_spec (rw_raise_sizes w) (rw_num_streets w)) as [[X _]|[_ (rs & E3 & _)]]; [tauto|]. rewrite E3. cbn [bind].
    destruct (check_inp_spec (rw_num_raises w) (rw_num_streets w)) as [[X _]|[_ (nr & E4 & _)]]; [tauto|]. rewrite E4. cbn [bind].
    destruct (check_inp_spec (rw_num_community_cards w) (rw_num_streets w)) as [[X _]|[_ (cc & -> & _)]]; [tauto|]. cbn [bind].
    pose proof (check_inp_length _ _ _ E1) as L1.
    destruct (get bl 1) as [bb|e] eqn:E2; [|exfalso; unfold get in E2; destruct (nth_error bl 1) eqn:X; [discriminate|]; apply nth_error_None in X; lia]. cbn [bind].
    destruct (clean_rs_map rs) as [[X _]|[_ (crs & -> & _)]]; [exfalso; apply H2; now apply (bad_raise_iff w rs E3)|]. cbn [bind].
    assert (Y : is_ok (map_res clean_count nr) = true).
    { apply CC. destruct (rw_num_raises w) as [r|l]; cbn [check_inp] in E4.
      - injection E4 as <-. intros X. pose proof (repeat_spec _ _ _ X) as Y. destruct H4 as [H4|H4]; [congruence|].
        replace (Z.to_nat (rw_num_streets w)) with 0%nat in X by lia. destruct X.
      - destruct (_ =? _); [|discriminate]. now injection E4 as <-. }
    destruct (map_res clean_count nr) as [cnr|e]; [|discriminate]. cbn [bind].
    destruct (Deck _ _ _) as [dk|e]; [|discriminate]. cbn [bind].
    destruct (Evaluator _ _ _ _ _ _) as [ev|e]; [|discriminate]. cbn [bind].
    replace ((rw_num_players w <? 2) || (10 <? rw_num_players w)) with false by lia. eauto.
Qed.
Print Assumptions C17_success.
Example C17_example : some_wrong_length (demo 3 2 [1; 2] [0; 0; 0] [RawInf; RawInf] [RawCountInf; RawCountInf] [0; 1] 20) /\
  some_bad_raise (demo 3 2 [1; 2; 0] [0; 0; 0] [RawInf; RawOther] [RawCountInf; RawCountInf] [0; 1] 20) /\
  ~ some_wrong_length (demo 3 2 [1; 2; 0] [0; 0; 0] [RawInf; RawOther] [RawCountInf; RawCountInf] [0; 1] 20).
Proof. unfold some_wrong_length, some_bad_raise. cbn. repeat split; [left; discriminate|now right; left|intuition congruence]. Qed.

(** every shipped configuration builds *)
Theorem C17_shipped : forall rnd w, In w shipped_configs -> exists c s, Dealer rnd w = Ok (c, s).
Proof.
  intros rnd w Hw. destruct (C07_shipped w Hw) as [e He]. apply C17_success. rewrite He.
  assert (D : forall s r, 1 <= s <= 4 -> 1 <= r <= 13 -> is_ok (Deck rnd s r) = true).
  { intros s r Hs Hr. unfold Deck. replace ((r <? 1) || (13 <? r)) with false by lia. replace ((s <? 1) || (4 <? s)) with false by lia.
    replace (is_ok (bind (deck_full s r) _)) with (is_ok (deck_full s r)) by (destruct (deck_full s r); reflexivity).
    assert (Es : s = 1 \/ s = 2 \/ s = 3 \/ s = 4) by lia.
    assert (Er : r = 1 \/ r = 2 \/ r = 3 \/ r = 4 \/ r = 5 \/ r = 6 \/ r = 7 \/ r = 8 \/ r = 9 \/ r = 10 \/ r = 11 \/ r = 12 \/ r = 13) by lia.
    clear Hs Hr. repeat (destruct Es as [->|Es]); try subst s; repeat (destruct Er as [->|Er]); try subst r; reflexivity. }
  split; [|split; [|split; [|split; [|split; [|reflexivity]]]]].
  - unfold some_wrong_length. cbn [shipped_configs In] in Hw. repeat (destruct Hw as [<-|Hw]; [cbn; lia|]). destruct Hw.
  - unfold some_bad_raise. cbn [shipped_configs In] in Hw. repeat (destruct Hw as [<-|Hw]; [cbn; intuition discriminate|]). destruct Hw.
  - cbn [shipped_configs In] in Hw. repeat (destruct Hw as [<-|Hw]; [cbn; lia|]). destruct Hw.
  - cbn [shipped_configs In] in Hw. repeat (destruct Hw as [<-|Hw]; [cbn; first [left; discriminate|intuition discriminate]|]). destruct Hw.
  - apply D; cbn [shipped_configs In] in Hw; repeat (destruct Hw as [<-|Hw]; [cbn; lia|]); destruct Hw.
Qed.
Print Assumptions C17_shipped.
