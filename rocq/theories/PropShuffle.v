(** * PropShuffle: C96, every order of the deck is equally likely *)
From Coq Require Import ZifyBool ZifyNat Arith Permutation Factorial FinFun.
From Verif Require Import PyBase PyFacts CardModel CardProofs DeckProofs EngineModel EngineSpec EngineFacts BetFacts MoneyFacts EngineDemo PropBetting PropRound PropReset NumpyModel NumpySpec NumpyFacts PropNumpy PropNumpyCards ShuffleModel.

(** ** Specification *)
(** the numbers [random.shuffle] can draw for a list of [n] elements: one for each index from [n - 1] down to 1, the one
    for index [i] between 0 and [i].  All such lists are equally likely if [randbelow] is fair. *)
Definition possible_draws (n : nat) (js : list nat) : Prop :=
  List.length js = (n - 1)%nat /\ forall t, (t < n - 1)%nat -> (nth t js 0 <= n - 1 - t)%nat.
(** there are exactly [k] lists of draws with a property *)
Definition exactly (k : nat) (P : list nat -> Prop) : Prop :=
  exists L, NoDup L /\ List.length L = k /\ forall js, In js L <-> P js.

(** ** The loop *)
Fixpoint drawn (i : nat) (js : list nat) : Prop :=
  match i with
  | O => js = []
  | S i' => match js with [] => False | j :: r => (j <= i)%nat /\ drawn i' r end
  end.
Lemma drawn_possible i : forall js, drawn i js <-> List.length js = i /\ forall t, (t < i)%nat -> (nth t js 0 <= i - t)%nat.
Proof.
  induction i as [|i IH]; intros js; cbn [drawn].
  - split; [intros ->; split; [reflexivity|lia]|]. intros [H _]. now apply length_zero_iff_nil.
  - destruct js as [|j r]; [split; [intros []|intros [H _]; discriminate H]|]. rewrite IH. cbn [List.length]. split.
    + intros (H1 & H2 & H3). split; [lia|]. intros [|t] Ht; cbn [nth]; [lia|]. specialize (H3 t). lia.
    + intros (H1 & H2). split; [exact (H2 0%nat ltac:(lia))|]. split; [lia|]. intros t Ht. specialize (H2 (S t)). cbn [nth] in H2. lia.
Qed.
Lemma possible_drawn n js : possible_draws n js <-> drawn (n - 1) js.
Proof. unfold possible_draws. now rewrite drawn_possible. Qed.

Lemma upd_nth_error {A} (l : list A) i v k : nth_error (upd l i v) k = if Nat.eqb k i && Nat.ltb i (List.length l) then Some v else nth_error l k.
Proof.
  revert i k; induction l as [|x l IH]; intros i k.
  - cbn. rewrite andb_false_r. reflexivity.
  - destruct i as [|i]; destruct k as [|k]; cbn [upd nth_error List.length]; try reflexivity. rewrite IH. reflexivity.
Qed.
Definition flip (i j k : nat) : nat := if Nat.eqb k i then j else if Nat.eqb k j then i else k.
Lemma swap_nth {A} i j (l : list A) k : (i < List.length l)%nat -> (j < List.length l)%nat -> nth_error (swap i j l) k = nth_error l (flip i j k).
Proof.
  intros Hi Hj. unfold swap, flip. destruct (nth_error l i) as [x|] eqn:Ei; [|apply nth_error_None in Ei; lia].
  destruct (nth_error l j) as [y|] eqn:Ej; [|apply nth_error_None in Ej; lia].
  rewrite !upd_nth_error, upd_length. destruct (Nat.ltb_spec i (List.length l)); [|lia]. destruct (Nat.ltb_spec j (List.length l)); [|lia]. rewrite !andb_true_r.
  destruct (Nat.eqb_spec k j); destruct (Nat.eqb_spec k i); congruence.
Qed.
Lemma swap_length {A} i j (l : list A) : List.length (swap i j l) = List.length l.
Proof. unfold swap. destruct (nth_error l i); [|reflexivity]. destruct (nth_error l j); [|reflexivity]. now rewrite !upd_length. Qed.
Lemma flip_inj i j : Injective (flip i j).
Proof. intros a b. unfold flip. repeat match goal with |- context [Nat.eqb ?x ?y] => destruct (Nat.eqb_spec x y) end; congruence. Qed.
Lemma swap_perm {A} i j (l : list A) : Permutation l (swap i j l).
Proof.
  destruct (Nat.lt_ge_cases i (List.length l)) as [Hi|Hi].
  - destruct (Nat.lt_ge_cases j (List.length l)) as [Hj|Hj].
    + apply Permutation_nth_error. split; [symmetry; apply swap_length|]. exists (flip i j). split; [apply flip_inj|]. intros k. now apply swap_nth.
    + unfold swap. rewrite (proj2 (nth_error_None l j) Hj). destruct (nth_error l i); apply Permutation_refl.
  - unfold swap. rewrite (proj2 (nth_error_None l i) Hi). apply Permutation_refl.
Qed.
Lemma shuffle_from_perm {A} i : forall js (l : list A), Permutation l (shuffle_from i js l).
Proof. induction i as [|i IH]; intros js l; [apply Permutation_refl|]. cbn [shuffle_from]. eapply perm_trans; [apply swap_perm|apply IH]. Qed.
Lemma py_shuffle_perm {A} js (l : list A) : Permutation l (py_shuffle js l).
Proof. apply shuffle_from_perm. Qed.
Lemma shuffle_from_above {A} i : forall js (l : list A) k, drawn i js -> (i < List.length l)%nat -> (i < k)%nat -> nth_error (shuffle_from i js l) k = nth_error l k.
Proof.
  induction i as [|i IH]; intros js l k D Hl Hk; [reflexivity|]. cbn [shuffle_from]. cbn [drawn] in D. destruct js as [|j r]; [destruct D|]. destruct D as [D1 D2]. cbn [hd tl].
  rewrite IH; [|exact D2|rewrite swap_length; lia|lia]. rewrite swap_nth by lia. unfold flip. destruct (Nat.eqb_spec k (S i)); [lia|]. destruct (Nat.eqb_spec k j); [lia|]. reflexivity.
Qed.
Lemma shuffle_from_at {A} i : forall j r (l : list A), drawn (S i) (j :: r) -> (S i < List.length l)%nat -> nth_error (shuffle_from (S i) (j :: r) l) (S i) = nth_error l j.
Proof.
  intros j r l [D1 D2] Hl. cbn [shuffle_from hd tl]. rewrite shuffle_from_above; [|exact D2|rewrite swap_length; lia|lia].
  rewrite swap_nth by lia. unfold flip. now rewrite Nat.eqb_refl.
Qed.
Lemma shuffle_from_inj {A} i : forall js js' (l : list A), NoDup l -> (i < List.length l)%nat -> drawn i js -> drawn i js' ->
  shuffle_from i js l = shuffle_from i js' l -> js = js'.
Proof.
  induction i as [|i IH]; intros js js' l N Hl D D' E; [cbn [drawn] in *; congruence|].
  destruct js as [|j r]; [destruct D|]. destruct js' as [|j' r']; [destruct D'|].
  assert (X : nth_error l j = nth_error l j') by (rewrite <- (shuffle_from_at i j r l D Hl), <- (shuffle_from_at i j' r' l D' Hl), E; reflexivity).
  destruct D as [D1 D2]. destruct D' as [D1' D2'].
  apply NoDup_nth_error in X; [|exact N|lia]. subst j'. f_equal. cbn [shuffle_from hd tl] in E.
  apply (IH r r' (swap (S i) j l)); [eapply Permutation_NoDup; [apply swap_perm|exact N]|rewrite swap_length; lia|exact D2|exact D2'|exact E].
Qed.
Lemma list_eq_nth {A} (l l' : list A) : (forall k, nth_error l k = nth_error l' k) -> l = l'.
Proof.
  revert l'; induction l as [|x l IH]; intros [|y l'] H; [reflexivity|discriminate (H 0%nat)|discriminate (H 0%nat)|].
  pose proof (H 0%nat) as H0. cbn in H0. injection H0 as <-. f_equal. apply IH. intros k. exact (H (S k)).
Qed.
Lemma shuffle_from_onto {A} i : forall (l l' : list A), NoDup l -> Permutation l l' -> (i < List.length l)%nat ->
  (forall k, (i < k)%nat -> nth_error l' k = nth_error l k) -> exists js, drawn i js /\ shuffle_from i js l = l'.
Proof.
  induction i as [|i IH]; intros l l' N P Hl H.
  - exists []. split; [reflexivity|]. cbn [shuffle_from]. destruct l as [|x l]; [cbn in Hl; lia|]. destruct l' as [|y l']; [apply Permutation_sym, Permutation_nil in P; discriminate P|].
    assert (E : l' = l) by (apply list_eq_nth; intros k; exact (H (S k) ltac:(lia))). subst l'. f_equal.
    inversion N as [|? ? N1 N2]; subst. destruct (Permutation_in x P (or_introl eq_refl)) as [X|X]; [now symmetry|contradiction].
  - pose proof (Permutation_length P) as L. destruct (nth_error l' (S i)) as [z|] eqn:Ez; [|apply nth_error_None in Ez; lia].
    assert (Hz : In z l) by (eapply Permutation_in; [apply Permutation_sym; exact P|eapply nth_error_In; exact Ez]).
    apply In_nth_error in Hz. destruct Hz as [j Hj]. assert (Lj : (j < List.length l)%nat) by (apply nth_error_Some; congruence).
    assert (Dj : (j <= S i)%nat).
    { destruct (Nat.le_gt_cases j (S i)) as [X|X]; [exact X|]. rewrite <- (H j X), <- Ez in Hj. symmetry in Hj. apply NoDup_nth_error in Hj; [lia|eapply Permutation_NoDup; eassumption|lia]. }
    destruct (IH (swap (S i) j l) l') as (r & R1 & R2).
    + eapply Permutation_NoDup; [apply swap_perm|exact N].
    + eapply perm_trans; [apply Permutation_sym, swap_perm|exact P].
    + rewrite swap_length. lia.
    + intros k Hk. rewrite swap_nth by lia. unfold flip. destruct (Nat.eqb_spec k (S i)) as [->|Hn]; [congruence|].
      destruct (Nat.eqb_spec k j); [lia|]. apply H. lia.
    + exists (j :: r). split; [now split|exact R2].
Qed.
Lemma shuffle_bijection {A} (l l' : list A) : NoDup l -> Permutation l l' -> exists! js, possible_draws (List.length l) js /\ py_shuffle js l = l'.
Proof.
  intros N P. destruct l as [|x l].
  - apply Permutation_nil in P. subst l'. exists []. split; [split; [apply possible_drawn; reflexivity|reflexivity]|]. intros js [H _]. apply possible_drawn in H. cbn in H. congruence.
  - destruct (shuffle_from_onto (List.length (x :: l) - 1) (x :: l) l' N P) as (js & J1 & J2); [cbn [List.length]; lia| |].
    { intros k Hk. pose proof (Permutation_length P) as L. rewrite (proj2 (nth_error_None l' k)) by lia. symmetry. apply nth_error_None. lia. }
    exists js. split; [split; [now apply possible_drawn|exact J2]|]. intros js' [H1 H2]. apply possible_drawn in H1.
    apply (shuffle_from_inj (List.length (x :: l) - 1) js js' (x :: l) N); [cbn [List.length]; lia|exact J1|exact H1|]. unfold py_shuffle in H2. now rewrite H2.
Qed.

(** ** The random source of the model *)
Lemma swap_map {A B} (f : A -> B) i j l : swap i j (map f l) = map f (swap i j l).
Proof.
  unfold swap. rewrite !nth_error_map. destruct (nth_error l i); cbn [option_map]; [|reflexivity]. destruct (nth_error l j); cbn [option_map]; [|reflexivity].
  assert (G : forall k v m, upd (map f m) k (f v) = map f (upd m k v)) by (induction k as [|k IH]; intros v [|y m]; cbn [map upd]; try reflexivity; now rewrite IH).
  now rewrite !G.
Qed.
Lemma py_shuffle_map {A B} (f : A -> B) js l : py_shuffle js (map f l) = map f (py_shuffle js l).
Proof.
  unfold py_shuffle. rewrite map_length. generalize (List.length l - 1)%nat. intros i. revert js l. induction i as [|i IH]; intros js l; [reflexivity|].
  cbn [shuffle_from]. rewrite swap_map. apply IH.
Qed.
Lemma shuf_map {A B} (f : A -> B) rnd l : shuf rnd (map f l) = map f (shuf rnd l).
Proof.
  revert rnd; induction l as [|x l IH]; intros rnd; [reflexivity|]. cbn [map shuf]. rewrite IH. unfold insert_at. now rewrite map_app, firstn_map, skipn_map.
Qed.
Lemma find_nat_split x l : In x l -> exists a b, l = a ++ x :: b /\ find_nat x l = List.length a.
Proof.
  induction l as [|y l IH]; intros H; [destruct H|]. cbn [find_nat]. destruct (Nat.eqb_spec x y) as [<-|Hn]; [exists [], l; split; reflexivity|].
  destruct H as [H|H]; [congruence|]. destruct (IH H) as (a & b & -> & E). exists (y :: a), b. split; [reflexivity|]. cbn. now rewrite E.
Qed.
Lemma shuf_positions l : forall l', Permutation l l' -> shuf (positions l l') l = l'.
Proof.
  induction l as [|x l IH]; intros l' P; [now apply Permutation_nil in P|]. cbn [positions shuf hd tl].
  destruct (find_nat_split x l' (Permutation_in x P (or_introl eq_refl))) as (a & b & -> & E). rewrite E.
  assert (X : firstn (List.length a) (a ++ x :: b) ++ skipn (S (List.length a)) (a ++ x :: b) = a ++ b).
  { rewrite firstn_app, Nat.sub_diag, firstn_all, skipn_app. cbn [firstn]. rewrite app_nil_r, (skipn_all2 a) by lia. replace (S (List.length a) - List.length a)%nat with 1%nat by lia. reflexivity. }
  rewrite X, IH by (eapply Permutation_cons_app_inv; exact P). unfold insert_at. rewrite firstn_app, skipn_app, Nat.sub_diag, firstn_all, skipn_all. cbn. now rewrite app_nil_r.
Qed.
(** with the source of a list of draws the model's shuffle is [random.shuffle] with these draws *)
Lemma source_shuf {A} js (l : list A) : shuf (source js (List.length l)) l = py_shuffle js l.
Proof.
  destruct l as [|d l0] eqn:El; [reflexivity|]. rewrite <- El. assert (E : l = map (fun k => nth k l d) (seq 0 (List.length l))).
  { clear El. induction l as [|x l IH]; [reflexivity|]. cbn [List.length seq map nth]. f_equal. rewrite <- seq_shift, map_map. exact IH. }
  rewrite E at 2 3. rewrite shuf_map, py_shuffle_map. f_equal. unfold source. apply shuf_positions, py_shuffle_perm.
Qed.

(** ** Counting *)
Fixpoint all_draws (i : nat) : list (list nat) :=
  match i with O => [[]] | S i' => flat_map (fun j => map (cons j) (all_draws i')) (seq 0 (S i)) end.
Lemma all_draws_in i : forall js, In js (all_draws i) <-> drawn i js.
Proof.
  induction i as [|i IH]; intros js; [cbn; intuition congruence|]. cbn [all_draws drawn]. rewrite in_flat_map. split.
  - intros (j & H1 & H2). apply in_seq in H1. apply in_map_iff in H2. destruct H2 as (r & <- & H2). split; [lia|now apply IH].
  - destruct js as [|j r]; [intros []|]. intros [H1 H2]. exists j. split; [apply in_seq; lia|]. apply in_map, IH, H2.
Qed.
Lemma all_draws_length i : List.length (all_draws i) = fact (S i).
Proof.
  induction i as [|i IH]; [reflexivity|]. cbn [all_draws].
  assert (G : forall m l, List.length (flat_map (fun j => map (cons j) (all_draws i)) (seq m l)) = (l * List.length (all_draws i))%nat).
  { intros m l. revert m. induction l as [|l IHl]; intros m; [reflexivity|]. cbn [seq flat_map]. rewrite app_length, map_length, IHl. lia. }
  rewrite G, IH. change (fact (S (S i))) with (S (S i) * fact (S i))%nat. reflexivity.
Qed.
Lemma all_draws_NoDup i : NoDup (all_draws i).
Proof.
  induction i as [|i IH]; [constructor; [intros []|constructor]|]. cbn [all_draws].
  assert (G : forall l m, NoDup (flat_map (fun j => map (cons j) (all_draws i)) (seq m l))); [|apply G].
  induction l as [|l IHl]; intros m; [constructor|]. cbn [seq flat_map]. apply CardProofs.NoDup_app.
  - apply Injective_map_NoDup; [intros a b E; now injection E|exact IH].
  - apply IHl.
  - intros js H1 H2. apply in_map_iff in H1. destruct H1 as (r & <- & _). apply in_flat_map in H2. destruct H2 as (j & H2 & H3).
    apply in_seq in H2. apply in_map_iff in H3. destruct H3 as (r' & E & _). injection E as E _. lia.
Qed.
Lemma fact_pred n : fact (S (n - 1)) = fact n.
Proof. destruct n as [|n]; [reflexivity|]. now replace (S n - 1)%nat with n by lia. Qed.
Lemma rest_of {A} (t : list A) : forall l, NoDup t -> incl t l -> exists rest, Permutation l (t ++ rest).
Proof.
  induction t as [|x t IH]; intros l N H; [exists l; apply Permutation_refl|]. inversion N as [|? ? N1 N2]; subst.
  destruct (in_split x l (H x (or_introl eq_refl))) as (a & b & ->). destruct (IH (a ++ b) N2) as (rest & R).
  { intros y Hy. specialize (H y (or_intror Hy)). apply in_app_iff in H. apply in_app_iff. destruct H as [H|[H|H]]; [now left| |now right]. subst y. contradiction. }
  exists rest. cbn [app]. eapply perm_trans; [apply Permutation_sym, Permutation_middle|]. now constructor.
Qed.
Lemma orders_draws {A} (l : list A) : NoDup l -> forall O, (forall o, In o O -> Permutation l o) ->
  exists L, Forall2 (fun js o => possible_draws (List.length l) js /\ py_shuffle js l = o) L O.
Proof.
  intros N. induction O as [|o O IH]; intros H; [exists []; constructor|].
  destruct (IH (fun o' Ho' => H o' (or_intror Ho'))) as (L & HL). destruct (shuffle_bijection l o N (H o (or_introl eq_refl))) as (js & J & _).
  exists (js :: L). now constructor.
Qed.
Lemma Forall2_pick {A B} (R : A -> B -> Prop) L O : Forall2 R L O -> (forall a, In a L -> exists b, In b O /\ R a b) /\ (forall b, In b O -> exists a, In a L /\ R a b).
Proof.
  induction 1 as [|a b L O H _ [I1 I2]]; [split; intros ? []|]. split.
  - intros x [<-|X]; [exists b; split; [now left|exact H]|]. destruct (I1 x X) as (y & Y1 & Y2). exists y. split; [now right|exact Y2].
  - intros y [<-|Y]; [exists a; split; [now left|exact H]|]. destruct (I2 y Y) as (x & X1 & X2). exists x. split; [now right|exact X2].
Qed.
Lemma Forall2_NoDup {A B} (R : A -> B -> Prop) L O : (forall a b b', R a b -> R a b' -> b = b') -> Forall2 R L O -> NoDup O -> NoDup L.
Proof.
  intros F. induction 1 as [|a b L O H H' IH]; intros N; [constructor|]. inversion N as [|? ? N1 N2]; subst. constructor; [|now apply IH].
  intros X. destruct (proj1 (Forall2_pick _ _ _ H') a X) as (b' & B1 & B2). rewrite <- (F a b b' H B2) in B1. contradiction.
Qed.
(** how many draws put given cards behind the first [p] ones *)
Definition ins {A} (p : nat) (t r : list A) : list A := firstn p r ++ t ++ skipn p r.
Lemma ins_perm {A} p (t r : list A) : Permutation (t ++ r) (ins p t r).
Proof. unfold ins. rewrite <- (firstn_skipn p r) at 1. rewrite !app_assoc. apply Permutation_app_tail, Permutation_app_comm. Qed.
Lemma ins_parts {A} p (t r : list A) : (p <= List.length r)%nat ->
  firstn p (ins p t r) = firstn p r /\ firstn (List.length t) (skipn p (ins p t r)) = t /\ skipn (p + List.length t) (ins p t r) = skipn p r.
Proof.
  intros H. assert (L : List.length (firstn p r) = p) by (rewrite firstn_length; lia). unfold ins. split; [|split].
  - rewrite firstn_app, L, Nat.sub_diag. cbn [firstn]. rewrite app_nil_r. apply firstn_all2. lia.
  - rewrite skipn_app, L, Nat.sub_diag, skipn_all2 by lia. cbn [skipn app]. rewrite firstn_app, Nat.sub_diag, firstn_all. cbn [firstn]. apply app_nil_r.
  - rewrite app_assoc, skipn_app, app_length, L, Nat.sub_diag, skipn_all2 by (rewrite app_length; lia). reflexivity.
Qed.
Lemma ins_inj {A} p (t r r' : list A) : (p <= List.length r)%nat -> (p <= List.length r')%nat -> ins p t r = ins p t r' -> r = r'.
Proof.
  intros H H' E. destruct (ins_parts p t r H) as (A1 & _ & A2). destruct (ins_parts p t r' H') as (B1 & _ & B2).
  rewrite <- (firstn_skipn p r), <- (firstn_skipn p r'). congruence.
Qed.
Lemma split_ins {A} p (t o : list A) : firstn (List.length t) (skipn p o) = t -> (p + List.length t <= List.length o)%nat ->
  o = ins p t (firstn p o ++ skipn (p + List.length t) o).
Proof.
  intros H L. assert (L' : List.length (firstn p o) = p) by (rewrite firstn_length; lia). unfold ins.
  rewrite firstn_app, skipn_app, L', Nat.sub_diag, (skipn_all2 (firstn p o)) by lia. cbn [firstn skipn app]. rewrite app_nil_r, firstn_firstn, Nat.min_id.
  rewrite <- (firstn_skipn p o) at 1. f_equal. rewrite <- (firstn_skipn (List.length t) (skipn p o)), H. f_equal.
  rewrite skipn_skipn_comp. f_equal.
Qed.
Lemma block_count {A} (l t : list A) p : NoDup l -> NoDup t -> incl t l -> (p + List.length t <= List.length l)%nat ->
  exactly (fact (List.length l - List.length t)) (fun js => possible_draws (List.length l) js /\ firstn (List.length t) (skipn p (py_shuffle js l)) = t).
Proof.
  intros N Nt H Hp. destruct (rest_of t l Nt H) as (rest & P). pose proof (Permutation_length P) as L. rewrite app_length in L.
  assert (Nr : NoDup rest). { apply (Permutation_NoDup P) in N. clear - N. induction t as [|x t IH]; [exact N|]. inversion N; subst. now apply IH. }
  assert (Lr : forall js, List.length (py_shuffle js rest) = List.length rest) by (intros js; symmetry; apply Permutation_length, py_shuffle_perm).
  set (O := map (fun js => ins p t (py_shuffle js rest)) (all_draws (List.length rest - 1))).
  destruct (orders_draws l N O) as (LL & HL).
  { intros o Ho. apply in_map_iff in Ho. destruct Ho as (js & <- & _). eapply perm_trans; [exact P|]. eapply perm_trans; [|apply ins_perm]. apply Permutation_app_head, py_shuffle_perm. }
  pose proof (Forall2_pick _ _ _ HL) as [K1 K2]. exists LL. split; [|split].
  - refine (Forall2_NoDup _ _ _ _ HL _); [intros a b b' [_ X] [_ Y]; congruence|]. unfold O.
    assert (G : forall D, NoDup D -> (forall js, In js D -> possible_draws (List.length rest) js) -> NoDup (map (fun js => ins p t (py_shuffle js rest)) D)).
    { induction D as [|js D IH]; intros ND HD; [constructor|]. inversion ND as [|? ? N1 N2]; subst. cbn [map]. constructor; [|apply IH; [exact N2|intros j Hj; apply HD; now right]].
      intros X. apply in_map_iff in X. destruct X as (js' & E & X). apply ins_inj in E; [|rewrite Lr; lia|rewrite Lr; lia].
      destruct (shuffle_bijection rest (py_shuffle js rest) Nr (py_shuffle_perm js rest)) as (u & _ & U).
      rewrite <- (U js (conj (HD js (or_introl eq_refl)) eq_refl)), (U js' (conj (HD js' (or_intror X)) E)) in N1. contradiction. }
    apply G; [apply all_draws_NoDup|]. intros js Hjs. apply possible_drawn, all_draws_in, Hjs.
  - assert (X : List.length LL = List.length O) by (clear - HL; induction HL; cbn; congruence). rewrite X. unfold O. rewrite map_length, all_draws_length, fact_pred. f_equal. lia.
  - intros js. split.
    + intros Hj. destruct (K1 js Hj) as (o & Ho & H1 & H2). split; [exact H1|]. rewrite H2. apply in_map_iff in Ho. destruct Ho as (r & <- & _).
      apply ins_parts. rewrite Lr. lia.
    + intros [H1 H2]. pose proof (Permutation_length (py_shuffle_perm js l)) as Lj. pose proof (split_ins p t _ H2 ltac:(lia)) as E.
      set (r := firstn p _ ++ skipn _ _) in E.
      assert (Pr : Permutation rest r). { apply (Permutation_app_inv_l t). eapply perm_trans; [apply Permutation_sym; exact P|]. eapply perm_trans; [apply (py_shuffle_perm js)|]. rewrite E. apply Permutation_sym, ins_perm. }
      destruct (shuffle_bijection rest r Nr Pr) as (u & (U1 & U2) & _).
      destruct (K2 (ins p t r)) as (js' & J1 & J2 & J3).
      { unfold O. rewrite <- U2. apply (in_map (fun js => ins p t (py_shuffle js rest))). now apply all_draws_in, possible_drawn. }
      destruct (shuffle_bijection l (ins p t r) N (eq_ind _ (Permutation l) (py_shuffle_perm js l) _ E)) as (v & _ & V).
      rewrite <- (V js (conj H1 E)), (V js' (conj J2 J3)). exact J1.
Qed.

(** ** The dealer's deck *)
Lemma step_keeps_deck c s b : cfg_wf c -> exists l, the_deck (fst (step c s b)) = set_cards (the_deck s) l.
Proof.
  intros W. destruct (action s) as [a|] eqn:Ha; [|unfold step; rewrite Ha; exists (d_cards (the_deck s)); apply set_cards_same].
  destruct (step_take c s b a W Ha) as [(-> & _)|(call & mi & ma & bet & folds & s1 & H1 & P)]; [exists (d_cards (the_deck s)); apply set_cards_same|].
  pose proof (sp_bet _ _ _ _ _ _ _ _ _ _ _ P) as B. rewrite (sp_deck _ _ _ _ _ _ _ _ _ _ _ P). destruct (settle_cases c s1 W) as [[_ E2]|[_ E2]].
  - rewrite E2, (be_deck _ _ _ _ _ _ _ _ _ _ B). exists (d_cards (the_deck s)); apply set_cards_same.
  - rewrite (se_deck _ _ _ (ne_street _ _ _ E2)), (be_deck _ _ _ _ _ _ _ _ _ _ B). eexists. reflexivity.
Qed.
Lemma reset_keeps_deck ns nr c s rnd rb rs : cfg_wf c -> wf c s -> deck_wf ns nr (the_deck s) -> deck_wf ns nr (the_deck (fst (reset c s rnd rb rs))).
Proof.
  intros W I D. destruct (reset_spec c s rnd rb rs W I) as [(E1 & E2 & E3)|[(E1 & E2)|(E1 & E2 & E3 & E)]].
  - unfold reset. subst rs. cbn [reset_active fst] in *. replace (negb false && (count_true (map (fun x => 0 <? x) (stacks s)) <=? 1)) with true by (cbn [negb andb]; lia). exact D.
  - assert (Ecc : num_community_cards c = []) by (apply length_zero_iff_nil; rewrite (cw_comm _ W); exact E1).
    unfold reset. rewrite Ecc. destruct (reset_active c s rs) as [act stk]. destruct (negb rs && _); [exact D|]. cbn [fst the_deck]. now apply shuffle_wf.
  - rewrite (re_deck _ _ _ _ _ _ E). now apply set_cards_wf, shuffle_wf.
Qed.
Lemma new_dealer_deck w rnd c s : Dealer rnd w = Ok (c, s) -> exists ns nr, deck_wf ns nr (the_deck s).
Proof. intros H. pose proof (Dealer_inv _ _ _ _ H) as B. destruct (new_deck_inv _ _ _ _ (bd_deck _ _ _ _ B)) as [D1 _ _]. cbn [fst] in D1. rewrite (bd_state _ _ _ _ B). eauto. Qed.
Lemma reachable_deck c s : reachable c s -> exists ns nr, deck_wf ns nr (the_deck s).
Proof.
  induction 1 as [w rnd s H|s o R (ns & nr & D) Ho]; [eapply new_dealer_deck; exact H|].
  exists ns, nr. destruct o as [rnd rb rs|b|cs| |l]; cbn [apply_op].
  - apply reset_keeps_deck; [exact (reachable_cfg c s R)|exact (reachable_wf c s R)|exact D].
  - destruct (step_keeps_deck c s b (reachable_cfg c s R)) as [l ->]. now apply set_cards_wf.
  - destruct (deck_trick cs (the_deck s)) as [d'|] eqn:E; [|exact D]. cbn [the_deck]. eapply trick_wf; eassumption.
  - cbn [the_deck]. now apply untrick_wf.
  - exact D.
Qed.
Lemma np_fair_deck c s : np_fair c s -> exists ns nr, deck_wf ns nr (the_deck s).
Proof.
  induction 1 as [w rnd s H _|s o F (ns & nr & D) Ho _]; [eapply new_dealer_deck; exact H|]. pose proof (np_fair_money c s F) as M.
  exists ns, nr. destruct o as [rnd rb rs|b|cs| |l]; cbn [np_apply_op].
  - change (the_deck (fst (np_reset c s rnd rb rs))) with (the_deck (wrap c (fst (np_reset c s rnd rb rs)))). rewrite (proj1 (np_reset_wrap c s rnd rb rs (mo_cfg _ _ M))).
    apply reset_keeps_deck; [exact (mo_cfg _ _ M)|exact (mo_wf _ _ M)|exact D].
  - destruct (np_step_cards c s b M) as (_ & _ & E & _). rewrite E. destruct (step_keeps_deck c (wrap c s) b (mo_cfg _ _ M)) as [l ->]. now apply set_cards_wf.
  - destruct (deck_trick cs (the_deck s)) as [d'|] eqn:E; [|exact D]. cbn [the_deck]. eapply trick_wf; eassumption.
  - cbn [the_deck]. now apply untrick_wf.
  - exact D.
Qed.
Lemma full_NoDup ns nr d : deck_wf ns nr d -> NoDup (d_full d).
Proof. intros W. rewrite (dw_full _ _ _ W). pose proof (dw_s _ _ _ W). pose proof (dw_r _ _ _ W). eapply NoDup_map_inv, deck_cards_NoDup; lia. Qed.
Lemma deal_effect c s rb rs : cfg_wf c -> wf c s -> d_tricked (the_deck s) = false -> is_ok (snd (reset c s [] rb rs)) = true ->
  (forall js, let rnd := source js (List.length (d_full (the_deck s))) in
     reset_effect c s rnd rb rs (fst (reset c s rnd rb rs)) /\ d_cards (deck_shuffle rnd (the_deck s)) = py_shuffle js (d_full (the_deck s))) /\
  comm_total c 0 = Z.to_nat (nth 0 (num_community_cards c) 0).
Proof.
  intros W I T H.
  destruct (reset_spec c s [] rb rs W I) as [(_ & _ & E)|[(_ & E)|(N0 & N1 & _ & _)]]; [rewrite E in H; discriminate H|rewrite E in H; discriminate H|]. split.
  - intros js. cbv zeta. split.
    + destruct (reset_spec c s (source js (List.length (d_full (the_deck s)))) rb rs W I) as [(_ & X & _)|[(X & _)|(_ & _ & _ & E)]]; [lia|contradiction|exact E].
    + unfold deck_shuffle. cbn [d_cards]. rewrite T. cbn [andb]. apply source_shuf.
  - destruct (num_community_cards c) as [|x l] eqn:Ec; [rewrite <- (cw_comm _ W), Ec in N0; now destruct N0|]. now apply (comm_total_0 c x l).
Qed.

(** ** C96 *)
(** for every order of the cards of a deck there is exactly one list of draws with which [shuffle] gives it *)
Theorem C96_orders : forall ns nr d order, deck_wf ns nr d -> d_tricked d = false -> Permutation (d_full d) order ->
  exists! js, possible_draws (List.length (d_full d)) js /\ d_cards (deck_shuffle (source js (List.length (d_full d))) d) = order.
Proof.
  intros ns nr d order W T P. unfold deck_shuffle. cbn [d_cards]. rewrite T. cbn [andb].
  assert (N : NoDup (d_full d)). { rewrite (dw_full _ _ _ W). pose proof (dw_s _ _ _ W). pose proof (dw_r _ _ _ W). eapply NoDup_map_inv, deck_cards_NoDup; lia. }
  destruct (shuffle_bijection (d_full d) order N P) as (js & J & U). exists js. split; [now rewrite source_shuf|]. intros js'. rewrite source_shuf. apply U.
Qed.
Print Assumptions C96_orders.

(** in a tricked deck the cards named stay on top and every order of the other cards comes from exactly one list of draws *)
Theorem C96_tricked : forall ns nr d top d1 rest, deck_wf ns nr d -> incl top (d_full d) -> NoDup (map c_int top) ->
  top <> [] -> rest <> [] -> deck_trick top d = Ok d1 -> Permutation (d_full d) (top ++ rest) ->
  exists! js, possible_draws (List.length rest) js /\ d_cards (deck_shuffle (source js (List.length rest)) d1) = top ++ rest.
Proof.
  intros ns nr d top d1 rest W Hin Hnd H1 H2 E P.
  pose proof (trick_wf _ _ _ _ _ W E) as W1. unfold deck_trick in E.
  destruct (map_res (fun c => index_of c (d_full d) 0) top) as [idcs|] eqn:E2; [|discriminate]. cbn [bind] in E. injection E as <-.
  destruct (trick_idcs _ _ _ _ _ W E2) as [F Ei].
  assert (Nt : NoDup idcs) by (eapply trick_nodup_idcs; eauto).
  assert (L : List.length (d_full d) = (nr * ns)%nat) by (rewrite (dw_full _ _ _ W); apply deck_cards_length).
  assert (Et : at_idcs (d_full d) idcs = top).
  { apply (map_int_inj ns nr d _ W); [|exact Hin|exact Ei]. intros x Hx. unfold at_idcs in Hx. apply in_flat_map in Hx. destruct Hx as (i & _ & Hx).
    destruct (nth_error (d_full d) i) eqn:En; [|destruct Hx]. destruct Hx as [<-|[]]. eapply nth_error_In; exact En. }
  pose proof (tricked_perm _ _ _ W1 eq_refl Nt) as TP. cbn [d_full d_top d_bottom] in TP. rewrite Et in TP.
  set (bot := filter _ (seq 0 _)) in *. set (others := at_idcs (d_full d) bot) in *.
  assert (PR : Permutation others rest) by (apply (Permutation_app_inv_l top); eapply perm_trans; eassumption).
  assert (N : NoDup others).
  { assert (N : NoDup (top ++ others)). { eapply Permutation_NoDup; [apply Permutation_sym; exact TP|]. rewrite (dw_full _ _ _ W). pose proof (dw_s _ _ _ W). pose proof (dw_r _ _ _ W). eapply NoDup_map_inv, deck_cards_NoDup; lia. }
    clear - N. induction top as [|x t IH]; [exact N|]. inversion N; subst. now apply IH. }
  unfold deck_shuffle. cbn [d_cards d_tricked d_top d_bottom d_full]. fold others.
  assert (C1 : (List.length idcs =? 0)%nat = false). { destruct idcs; [|reflexivity]. cbn in Et. congruence. }
  assert (C2 : (List.length bot =? 0)%nat = false). { destruct bot as [|]; [|reflexivity]. exfalso. apply H2. apply Permutation_nil. exact PR. }
  rewrite C1, C2. cbn [andb negb]. rewrite Et, <- (Permutation_length PR).
  destruct (shuffle_bijection others rest N PR) as (js & [J1 J2] & U). exists js. split; [split; [exact J1|]; rewrite source_shuf, J2; reflexivity|].
  intros js' [H3 H4]. rewrite source_shuf in H4. apply app_inv_head in H4. apply U. now split.
Qed.
Print Assumptions C96_tricked.

Lemma deal_count : forall c s ns nr rb rs board hands, cfg_wf c -> wf c s -> deck_wf ns nr (the_deck s) -> d_tricked (the_deck s) = false -> is_ok (snd (reset c s [] rb rs)) = true ->
  let cards := d_full (the_deck s) in
  let s' js := fst (reset c s (source js (List.length cards)) rb rs) in
  List.length board = Z.to_nat (nth 0 (num_community_cards c) 0) -> List.length hands = num_players c ->
  (forall h, In h hands -> List.length h = Z.to_nat (num_hole_cards c)) ->
  NoDup (board ++ List.concat hands) -> incl (board ++ List.concat hands) cards ->
  exactly (fact (List.length cards - (List.length board + num_players c * Z.to_nat (num_hole_cards c))))
    (fun js => possible_draws (List.length cards) js /\ community_cards (s' js) = board /\ hole_cards (s' js) = hands).
Proof.
  intros c s ns nr rb rs board hands Wc Wf W T H. cbv zeta. intros L1 L2 L3 N I.
  destruct (deal_effect c s rb rs Wc Wf T H) as [G E0].
  assert (Lc : forall hs : list (list card), (forall h, In h hs -> List.length h = Z.to_nat (num_hole_cards c)) -> List.length (List.concat hs) = (List.length hs * Z.to_nat (num_hole_cards c))%nat).
  { induction hs as [|h hs IH]; intros Hh; [reflexivity|]. cbn [List.concat List.length]. rewrite app_length, IH by (intros h' Hh'; apply Hh; now right). rewrite (Hh h (or_introl eq_refl)). lia. }
  assert (Lt : List.length (board ++ List.concat hands) = (List.length board + num_players c * Z.to_nat (num_hole_cards c))%nat) by (rewrite app_length, (Lc hands L3), L2; reflexivity).
  pose proof (NoDup_incl_length N I) as Li.
  pose proof (block_count (d_full (the_deck s)) (board ++ List.concat hands) 0 (full_NoDup _ _ _ W) N I ltac:(lia)) as B. rewrite Lt in B.
  destruct B as (L & B1 & B2 & B3). exists L. split; [exact B1|]. split; [exact B2|]. intros js. rewrite B3. cbn [skipn]. clear L B1 B2 B3.
  destruct (G js) as [Ge Gl]. set (s' := fst (reset c s _ rb rs)) in *. set (o := py_shuffle js (d_full (the_deck s))) in *.
  assert (Lo : List.length o = List.length (d_full (the_deck s))) by (symmetry; apply Permutation_length, py_shuffle_perm).
  assert (Eo : firstn (List.length board + num_players c * Z.to_nat (num_hole_cards c)) o = community_cards s' ++ List.concat (hole_cards s')).
  { rewrite (re_comm _ _ _ _ _ _ Ge), (re_hole _ _ _ _ _ _ Ge), Gl, E0, <- L1. symmetry. apply firstn_skipn_comp. }
  rewrite Eo. split; [|intros (X1 & X2 & X3); split; [exact X1|]; now rewrite X2, X3].
  intros (X1 & X2). split; [exact X1|]. assert (Lb : List.length (community_cards s') = List.length board) by (rewrite (re_comm _ _ _ _ _ _ Ge), Gl, E0, <- L1, firstn_length; lia).
  assert (Y : community_cards s' = board /\ List.concat (hole_cards s') = List.concat hands).
  { clear - X2 Lb. revert X2 Lb. generalize (community_cards s') as a. intros a. revert board. induction a as [|x a IH]; intros [|y b] E L; try discriminate L; [split; [reflexivity|exact E]|].
    cbn [app] in E. injection E as <- E. destruct (IH b E) as [-> Q]; [now injection L|]. now split. }
  destruct Y as [Y1 Y2]. split; [exact Y1|].
  assert (Lh : forall h, In h (hole_cards s') -> List.length h = Z.to_nat (num_hole_cards c)).
  { intros h Hh. apply (In_nth _ _ []) in Hh. destruct Hh as (i & Hi & <-). rewrite (re_hole_len _ _ _ _ _ _ Ge) in Hi. rewrite (re_hole_nth _ _ _ _ _ _ Ge i Hi), Gl, firstn_length, skipn_length, E0.
    assert ((i * Z.to_nat (num_hole_cards c) + Z.to_nat (num_hole_cards c) <= num_players c * Z.to_nat (num_hole_cards c))%nat) by nia. lia. }
  assert (Ln : List.length (hole_cards s') = List.length hands) by (rewrite L2; apply Ge).
  clear - Y2 Lh L3 Ln. revert hands Y2 L3 Ln. induction (hole_cards s') as [|h hs IH]; intros [|h' hs'] E L3 Ln; try discriminate Ln; [reflexivity|].
  cbn [List.concat] in E. pose proof (Lh h (or_introl eq_refl)) as Q1. pose proof (L3 h' (or_introl eq_refl)) as Q2.
  assert (Y : h = h' /\ List.concat hs = List.concat hs').
  { clear - E Q1 Q2. rewrite <- Q2 in Q1. clear Q2. revert h' E Q1. induction h as [|x h IH]; intros [|y h'] E L; try discriminate L; [split; [reflexivity|exact E]|].
    cbn [app] in E. injection E as <- E. destruct (IH h' E) as [-> Q]; [now injection L|]. now split. }
  destruct Y as [-> Y]. f_equal. apply IH; [intros x Hx; apply Lh; now right|exact Y|intros x Hx; apply L3; now right|now injection Ln].
Qed.
(** all deals of a hand are equally likely: whatever first community cards and hole cards one names, different cards of the
    deck, the number of draws that deal them depends only on how many cards are dealt *)
Theorem C96_deal : forall c s rb rs board hands, reachable c s -> d_tricked (the_deck s) = false -> is_ok (snd (reset c s [] rb rs)) = true ->
  let cards := d_full (the_deck s) in
  let s' js := fst (reset c s (source js (List.length cards)) rb rs) in
  List.length board = Z.to_nat (nth 0 (num_community_cards c) 0) -> List.length hands = num_players c ->
  (forall h, In h hands -> List.length h = Z.to_nat (num_hole_cards c)) ->
  NoDup (board ++ List.concat hands) -> incl (board ++ List.concat hands) cards ->
  exactly (fact (List.length cards - (List.length board + num_players c * Z.to_nat (num_hole_cards c))))
    (fun js => possible_draws (List.length cards) js /\ community_cards (s' js) = board /\ hole_cards (s' js) = hands).
Proof. intros c s rb rs board hands R. destruct (reachable_deck c s R) as (ns & nr & W). exact (deal_count c s ns nr rb rs board hands (reachable_cfg c s R) (reachable_wf c s R) W). Qed.
Print Assumptions C96_deal.
(** the same at the array dealer *)
Theorem C96_array_deal : forall c s rb rs board hands, np_fair c s -> d_tricked (the_deck s) = false -> is_ok (snd (np_reset c s [] rb rs)) = true ->
  let cards := d_full (the_deck s) in
  let s' js := fst (np_reset c s (source js (List.length cards)) rb rs) in
  List.length board = Z.to_nat (nth 0 (num_community_cards c) 0) -> List.length hands = num_players c ->
  (forall h, In h hands -> List.length h = Z.to_nat (num_hole_cards c)) ->
  NoDup (board ++ List.concat hands) -> incl (board ++ List.concat hands) cards ->
  exactly (fact (List.length cards - (List.length board + num_players c * Z.to_nat (num_hole_cards c))))
    (fun js => possible_draws (List.length cards) js /\ community_cards (s' js) = board /\ hole_cards (s' js) = hands).
Proof.
  intros c s rb rs board hands F T H. cbv zeta. destruct (np_fair_deck c s F) as (ns & nr & W). pose proof (np_fair_money c s F) as M. pose proof (mo_cfg _ _ M) as Wc.
  assert (H' : is_ok (snd (reset c (wrap c s) [] rb rs)) = true) by (rewrite <- (proj2 (np_reset_wrap c s [] rb rs Wc)); now destruct (snd (np_reset c s [] rb rs))).
  pose proof (deal_count c (wrap c s) ns nr rb rs board hands Wc (mo_wf _ _ M) W T H') as Q. cbv zeta in Q. intros A1 A2 A3 A4 A5. destruct (Q A1 A2 A3 A4 A5) as (L & Q1 & Q2 & Q3). exists L. split; [exact Q1|]. split; [exact Q2|]. intros js. rewrite Q3, <- (proj1 (np_reset_wrap c s _ rb rs Wc)). reflexivity.
Qed.
Print Assumptions C96_array_deal.

Lemma seat_count : forall c s ns nr rb rs i hand, cfg_wf c -> wf c s -> deck_wf ns nr (the_deck s) -> d_tricked (the_deck s) = false -> is_ok (snd (reset c s [] rb rs)) = true ->
  let cards := d_full (the_deck s) in
  let s' js := fst (reset c s (source js (List.length cards)) rb rs) in
  (Z.to_nat (nth 0 (num_community_cards c) 0%Z) + num_players c * Z.to_nat (num_hole_cards c) <= List.length cards)%nat ->
  (i < num_players c)%nat -> List.length hand = Z.to_nat (num_hole_cards c) -> NoDup hand -> incl hand cards ->
  exactly (fact (List.length cards - List.length hand)) (fun js => possible_draws (List.length cards) js /\ nth i (hole_cards (s' js)) [] = hand).
Proof.
  intros c s ns nr rb rs i hand Wc Wf W T H. cbv zeta. intros Hd Hi L N I.
  destruct (deal_effect c s rb rs Wc Wf T H) as [G E0].
  assert (X : (i * Z.to_nat (num_hole_cards c) + Z.to_nat (num_hole_cards c) <= num_players c * Z.to_nat (num_hole_cards c))%nat) by nia.
  destruct (block_count (d_full (the_deck s)) hand (comm_total c 0 + i * Z.to_nat (num_hole_cards c)) (full_NoDup _ _ _ W) N I ltac:(lia)) as (LL & B1 & B2 & B3).
  exists LL. split; [exact B1|]. split; [exact B2|]. intros js. destruct (G js) as [Ge Gl]. rewrite B3, (re_hole_nth _ _ _ _ _ _ Ge i Hi), Gl, L. reflexivity.
Qed.
(** no seat and no hand is favoured: the number of draws that give the player at a seat a named hand is the same for all
    seats and all hands *)
Theorem C96_seat : forall c s rb rs i hand, reachable c s -> d_tricked (the_deck s) = false -> is_ok (snd (reset c s [] rb rs)) = true ->
  let cards := d_full (the_deck s) in
  let s' js := fst (reset c s (source js (List.length cards)) rb rs) in
  (Z.to_nat (nth 0 (num_community_cards c) 0%Z) + num_players c * Z.to_nat (num_hole_cards c) <= List.length cards)%nat ->
  (i < num_players c)%nat -> List.length hand = Z.to_nat (num_hole_cards c) -> NoDup hand -> incl hand cards ->
  exactly (fact (List.length cards - List.length hand)) (fun js => possible_draws (List.length cards) js /\ nth i (hole_cards (s' js)) [] = hand).
Proof. intros c s rb rs i hand R. destruct (reachable_deck c s R) as (ns & nr & W). exact (seat_count c s ns nr rb rs i hand (reachable_cfg c s R) (reachable_wf c s R) W). Qed.
Print Assumptions C96_seat.
(** the same at the array dealer *)
Theorem C96_array_seat : forall c s rb rs i hand, np_fair c s -> d_tricked (the_deck s) = false -> is_ok (snd (np_reset c s [] rb rs)) = true ->
  let cards := d_full (the_deck s) in
  let s' js := fst (np_reset c s (source js (List.length cards)) rb rs) in
  (Z.to_nat (nth 0 (num_community_cards c) 0%Z) + num_players c * Z.to_nat (num_hole_cards c) <= List.length cards)%nat ->
  (i < num_players c)%nat -> List.length hand = Z.to_nat (num_hole_cards c) -> NoDup hand -> incl hand cards ->
  exactly (fact (List.length cards - List.length hand)) (fun js => possible_draws (List.length cards) js /\ nth i (hole_cards (s' js)) [] = hand).
Proof.
  intros c s rb rs i hand F T H. cbv zeta. destruct (np_fair_deck c s F) as (ns & nr & W). pose proof (np_fair_money c s F) as M. pose proof (mo_cfg _ _ M) as Wc.
  assert (H' : is_ok (snd (reset c (wrap c s) [] rb rs)) = true) by (rewrite <- (proj2 (np_reset_wrap c s [] rb rs Wc)); now destruct (snd (np_reset c s [] rb rs))).
  pose proof (seat_count c (wrap c s) ns nr rb rs i hand Wc (mo_wf _ _ M) W T H') as Q. cbv zeta in Q. intros A1 A2 A3 A4 A5. destruct (Q A1 A2 A3 A4 A5) as (L & Q1 & Q2 & Q3). exists L. split; [exact Q1|]. split; [exact Q2|]. intros js. rewrite Q3, <- (proj1 (np_reset_wrap c s _ rb rs Wc)). reflexivity.
Qed.
Print Assumptions C96_array_seat.

(** the hypotheses are met: a fresh table of three, and the next hand after one that was played; with three cards in the
    deck the six possible lists of draws give the six orders *)
Example C96_example : exists c s, reachable c s /\ d_tricked (the_deck s) = false /\ is_ok (snd (reset c s [] false false)) = true /\
  List.length (d_full (the_deck s)) = 52%nat /\ num_players c = 3%nat /\ stacks s <> repeat (start_stack c) 3.
Proof.
  play no_limit_3 (new_hand :: bets [-1; -1]) c s E. split; [exact (fair_reachable _ _ (played_fair _ _ _ _ E))|].
  split; [by_play E|]. split; [by_play E|]. split; [by_play E|]. split; [by_play E|].
  assert (X : stacks s = [20; 19; 21]) by by_play E. assert (Y : start_stack c = 20) by by_play E. rewrite X, Y. intros Q. discriminate Q.
Qed.
Example C96_six : all_draws 2 = [[0; 0]; [0; 1]; [1; 0]; [1; 1]; [2; 0]; [2; 1]]%nat /\
  map (fun js => py_shuffle js [10; 20; 30]) (all_draws 2) = [[20; 30; 10]; [30; 20; 10]; [30; 10; 20]; [10; 30; 20]; [20; 10; 30]; [10; 20; 30]] /\
  map (fun js => shuf (source js 3) [10; 20; 30]) (all_draws 2) = map (fun js => py_shuffle js [10; 20; 30]) (all_draws 2).
Proof. splits; reflexivity. Qed.
Example C96_tricked_example : exists d d1, Deck [] 2 2 = Ok d /\ deck_trick [nth 1 (d_full d) (mkCard 0 0 0)] d = Ok d1 /\
  Permutation (d_full d) ([nth 1 (d_full d) (mkCard 0 0 0)] ++ [nth 0 (d_full d) (mkCard 0 0 0); nth 2 (d_full d) (mkCard 0 0 0); nth 3 (d_full d) (mkCard 0 0 0)]).
Proof. eexists. eexists. split; [reflexivity|]. split; [reflexivity|]. cbn. apply perm_swap. Qed.
Example C96_array_example : exists c s, np_fair c s /\ d_tricked (the_deck s) = false /\ is_ok (snd (np_reset c s [] false false)) = true /\
  List.length (d_full (the_deck s)) = 52%nat /\ num_players c = 3%nat /\ stacks s = [20; 19; 21].
Proof. np_play no_limit_3 (new_hand :: bets [-1; -1]) c s E. split; [exact (np_played_fair _ _ _ _ E)|]. np_plays E. Qed.
