(** * PropText: C56, how numbers are written *)
From Coq Require Import ZifyBool ZifyNat Arith NArith Decimal DecimalString DecimalN DecimalFacts DecimalPos.
From Verif Require Import PyBase PyFacts AsciiModel.

(** ** Specification *)
(** [ds] are the decimal digits of [n], most important first and without leading zeros *)
Definition decimal (n : Z) (ds : list Z) : Prop :=
  ds <> [] /\ Forall (fun d => 0 <= d <= 9) ds /\ (hd 0 ds = 0 -> ds = [0]) /\ fold_left (fun v d => 10 * v + d) ds 0 = n.
(** the characters of the digits *)
Definition chars (ds : list Z) : list Z := map (fun d => 48 + d) ds.
Definition sign (z : Z) : list Z := if z <? 0 then ustr "-" else [].
(** [t] are the digits [ds] with commas: counted from the right, every fourth character is a comma,
    the other ones are the digits, and the text does not begin with a comma *)
Definition with_commas (ds t : list Z) : Prop :=
  (forall i, (i < List.length t)%nat -> (nth i (rev t) 0 = 44 <-> Nat.modulo i 4 = 3%nat)) /\
  filter (fun x => negb (x =? 44)) t = chars ds /\ hd 0 t <> 44.

(** ** Proofs *)
Fixpoint uint_digits (d : Decimal.uint) : list Z :=
  match d with
  | Decimal.Nil => []
  | Decimal.D0 r => 0 :: uint_digits r | Decimal.D1 r => 1 :: uint_digits r | Decimal.D2 r => 2 :: uint_digits r
  | Decimal.D3 r => 3 :: uint_digits r | Decimal.D4 r => 4 :: uint_digits r | Decimal.D5 r => 5 :: uint_digits r
  | Decimal.D6 r => 6 :: uint_digits r | Decimal.D7 r => 7 :: uint_digits r | Decimal.D8 r => 8 :: uint_digits r
  | Decimal.D9 r => 9 :: uint_digits r
  end.
Lemma uint_chars d : ustr (NilEmpty.string_of_uint d) = chars (uint_digits d).
Proof. unfold chars. induction d; [reflexivity|..]; cbn [NilEmpty.string_of_uint uint_digits map]; rewrite <- IHd; reflexivity. Qed.
Lemma uint_range d : Forall (fun d => 0 <= d <= 9) (uint_digits d).
Proof. induction d; cbn [uint_digits]; constructor; try assumption; lia. Qed.
Lemma uint_acc d : forall p, Zpos (Pos.of_uint_acc d p) = fold_left (fun v d => 10 * v + d) (uint_digits d) (Zpos p).
Proof. induction d; intros p; [reflexivity|..]; cbn [Pos.of_uint_acc uint_digits fold_left]; rewrite IHd; f_equal; lia. Qed.
Lemma uint_value d : Z.of_N (N.of_uint d) = fold_left (fun v d => 10 * v + d) (uint_digits d) 0.
Proof.
  unfold N.of_uint. induction d; [reflexivity| |..]; cbn [Pos.of_uint uint_digits fold_left].
  1: exact IHd.
  all: cbn [Z.of_N]; rewrite uint_acc; reflexivity.
Qed.
Lemma to_uint_norm n : Decimal.unorm (N.to_uint n) = N.to_uint n.
Proof. rewrite <- (DecimalN.Unsigned.to_of (N.to_uint n)). now rewrite DecimalN.Unsigned.of_to. Qed.
Lemma nzhead_head d : hd 1 (uint_digits (Decimal.nzhead d)) <> 0.
Proof. induction d; cbn; try discriminate. exact IHd. Qed.
Lemma digits_decimal n : exists ds, decimal (Z.of_N n) ds /\ digits n = chars ds.
Proof.
  exists (uint_digits (N.to_uint n)). split; [|apply uint_chars]. pose proof (to_uint_norm n) as U. unfold decimal.
  split; [|split; [apply uint_range|split]].
  - intros E. rewrite <- U in E. unfold Decimal.unorm in E. destruct (Decimal.nzhead (N.to_uint n)); discriminate E.
  - rewrite <- U. unfold Decimal.unorm. pose proof (nzhead_head (N.to_uint n)) as H. destruct (Decimal.nzhead (N.to_uint n)); cbn in *; intros E; try discriminate E; first [reflexivity|congruence].
  - rewrite <- uint_value. now rewrite DecimalN.Unsigned.of_to.
Qed.

Lemma group_filter l : Forall (fun x => x <> 44) l -> forall k, filter (fun x => negb (x =? 44)) (group_rev l k) = l.
Proof.
  induction 1 as [|x l H _ IH]; intros k; [reflexivity|]. cbn [group_rev].
  assert (E : forall j, filter (fun x => negb (x =? 44)) (x :: group_rev l j) = x :: l).
  { intros j. cbn [filter]. replace (x =? 44) with false by lia. cbn [negb]. now rewrite IH. }
  destruct k as [|[|[|[|k]]]]; first [apply E|exact (E 1%nat)].
Qed.
Lemma group_commas l : Forall (fun x => x <> 44) l -> forall k, (k <= 3)%nat ->
  forall i, (i < List.length (group_rev l k))%nat -> (nth i (group_rev l k) 0 = 44 <-> Nat.modulo (k + i) 4 = 3%nat).
Proof.
  induction 1 as [|x l H Fl IH]; intros k Hk i Hi; [cbn in Hi; lia|].
  assert (P : forall m, (m <= 2)%nat -> forall j, (j < List.length (x :: group_rev l (S m)))%nat -> (nth j (x :: group_rev l (S m)) 0 = 44 <-> Nat.modulo (m + j) 4 = 3%nat)).
  { intros m Hm [|j] Hj; cbn [nth].
    - rewrite Nat.add_0_r, Nat.mod_small by lia. split; intros E; [contradiction|lia].
    - rewrite (IH (S m)) by (cbn in Hj; lia). now replace (m + S j)%nat with (S m + j)%nat by lia. }
  destruct k as [|[|[|[|k]]]]; [apply (P 0%nat); [lia|exact Hi]|apply (P 1%nat); [lia|exact Hi]|apply (P 2%nat); [lia|exact Hi]| |lia].
  change (group_rev (x :: l) 3) with (44 :: x :: group_rev l 1) in *. destruct i as [|i]; [cbn; tauto|].
  change (nth (S i) (44 :: x :: group_rev l 1) 0) with (nth i (x :: group_rev l 1) 0).
  rewrite (P 0%nat) by (cbn in *; lia). replace (3 + S i)%nat with (i + 1 * 4)%nat by lia. now rewrite Nat.mod_add by lia.
Qed.
Lemma group_last l : Forall (fun x => x <> 44) l -> l <> [] -> forall k, last (group_rev l k) 0 <> 44.
Proof.
  induction 1 as [|x l H Fl IH]; intros N k; [congruence|].
  assert (P : forall j, last (x :: group_rev l j) 0 <> 44).
  { intros j. destruct l as [|y l]; [exact H|]. pose proof (IH ltac:(discriminate) j) as L. 
    assert (G : group_rev (y :: l) j <> []) by (destruct j as [|[|[|[|j]]]]; discriminate). destruct (group_rev (y :: l) j) as [|u v]; [congruence|]. exact L. }
  destruct k as [|[|[|[|k]]]]; first [apply P|exact (P 1%nat)].
Qed.
Lemma hd_rev (l : list Z) : hd 0 (rev l) = last l 0.
Proof. induction l as [|x l IH] using rev_ind; [reflexivity|]. rewrite rev_unit, last_last. reflexivity. Qed.
Lemma filter_rev {A} (f : A -> bool) l : filter f (rev l) = rev (filter f l).
Proof. induction l as [|x l IH]; [reflexivity|]. cbn [rev filter]. rewrite filter_app, IH. cbn [filter]. destruct (f x); [reflexivity|apply app_nil_r]. Qed.

(** ** C56 Numbers are written in decimal *)
Theorem C56_plain : forall z, exists ds, decimal (Z.abs z) ds /\ str_int z = sign z ++ chars ds.
Proof. intros z. destruct (digits_decimal (Z.abs_N z)) as (ds & D & E). exists ds. rewrite N2Z.inj_abs_N in D. split; [exact D|]. unfold str_int. now rewrite E. Qed.
Print Assumptions C56_plain.
Theorem C56_commas : forall z, exists ds t, decimal (Z.abs z) ds /\ with_commas ds t /\ fmt_comma z = sign z ++ t.
Proof.
  intros z. destruct (digits_decimal (Z.abs_N z)) as (ds & D & E). rewrite N2Z.inj_abs_N in D. exists ds, (rev (group_rev (rev (chars ds)) 0)).
  split; [exact D|]. split; [|unfold fmt_comma; now rewrite E]. destruct D as (N & R & _ & _).
  assert (F : Forall (fun x => x <> 44) (rev (chars ds))).
  { apply Forall_rev. unfold chars. apply Forall_map. eapply Forall_impl; [|exact R]. cbv beta. intros d H. lia. }
  assert (NE : rev (chars ds) <> []).
  { intros X. apply N. apply (f_equal (@List.length Z)) in X. unfold chars in X. rewrite rev_length, map_length in X. now apply length_zero_iff_nil. }
  split; [|split].
  - intros i Hi. rewrite rev_length in Hi. rewrite rev_involutive. apply (group_commas _ F 0%nat); [lia|exact Hi].
  - rewrite filter_rev, group_filter by exact F. apply rev_involutive.
  - rewrite hd_rev. now apply group_last.
Qed.
Print Assumptions C56_commas.
(** so different numbers are never written alike *)
Lemma chars_inj a : forall b, chars a = chars b -> a = b.
Proof. induction a as [|x a IH]; intros [|y b] H; try discriminate H; [reflexivity|]. pose proof (f_equal (hd 0) H) as H1. pose proof (f_equal (@tl Z) H) as H2. cbn [chars map hd tl] in H1, H2. f_equal; [lia|now apply IH]. Qed.
Lemma signed_inj z z' a b : (forall x, hd_error a = Some x -> x <> 45) -> (forall x, hd_error b = Some x -> x <> 45) -> a <> [] -> b <> [] ->
  sign z ++ a = sign z' ++ b -> (z <? 0) = (z' <? 0) /\ a = b.
Proof.
  intros A B NA NB. unfold sign. change (ustr "-") with [45]. destruct (z <? 0), (z' <? 0); cbn [app]; intros H.
  - injection H as H. auto.
  - destruct b as [|y b]; [congruence|]. injection H as H _. exfalso. apply (B y); [reflexivity|lia].
  - destruct a as [|x a]; [congruence|]. injection H as H _. exfalso. apply (A x); [reflexivity|lia].
  - auto.
Qed.
Theorem C56_injective : forall z z', str_int z = str_int z' \/ fmt_comma z = fmt_comma z' -> z = z'.
Proof.
  assert (G : forall z z' ds ds' a b, decimal (Z.abs z) ds -> decimal (Z.abs z') ds' -> filter (fun x => negb (x =? 44)) a = chars ds -> filter (fun x => negb (x =? 44)) b = chars ds' ->
    (forall x, hd_error a = Some x -> x <> 44) -> (forall x, hd_error b = Some x -> x <> 44) -> sign z ++ a = sign z' ++ b -> z = z').
  { assert (Q : forall z ds a, decimal z ds -> filter (fun x => negb (x =? 44)) a = chars ds -> (forall x, hd_error a = Some x -> x <> 44) -> a <> [] /\ forall x, hd_error a = Some x -> x <> 45).
    { intros z ds a (N & R & _) E H. split; [intros ->; cbn in E; destruct ds; [congruence|discriminate E]|]. intros x X ->. destruct a as [|y a]; [discriminate X|]. injection X as ->.
      change (filter (fun x => negb (x =? 44)) (45 :: a)) with (45 :: filter (fun x => negb (x =? 44)) a) in E. destruct ds as [|d ds]; [discriminate E|].
      pose proof (f_equal (hd 0) E) as E1. cbn [chars map hd] in E1. pose proof (Forall_inv R) as Rd. cbv beta in Rd. lia. }
    intros z z' ds ds' a b D D' E E' H H' X. destruct (Q _ _ _ D E H) as [N1 N2], (Q _ _ _ D' E' H') as [N3 N4].
    destruct (signed_inj z z' a b N2 N4 N1 N3 X) as [S ->]. rewrite E in E'. apply chars_inj in E'. subst ds'. destruct D as (_ & _ & _ & V), D' as (_ & _ & _ & V'). lia. }
  assert (K : forall ds, Forall (fun d => 0 <= d <= 9) ds -> filter (fun x => negb (x =? 44)) (chars ds) = chars ds).
  { induction 1 as [|d l Hd _ IH]; [reflexivity|]. cbn [chars map filter]. replace (48 + d =? 44) with false by lia. cbn [negb]. f_equal. exact IH. }
  assert (K' : forall ds, Forall (fun d => 0 <= d <= 9) ds -> forall x, hd_error (chars ds) = Some x -> x <> 44).
  { intros ds R x. destruct R as [|d l Hd _]; cbn [chars map hd_error]; intros X; [discriminate X|]. apply (f_equal (fun o => match o with Some v => v | None => 0 end)) in X. cbv beta iota in X. lia. }
  intros z z' [H|H].
  - destruct (C56_plain z) as (ds & D & E), (C56_plain z') as (ds' & D' & E'). rewrite E, E' in H. assert (R := proj1 (proj2 D)). assert (R' := proj1 (proj2 D')).
    exact (G z z' ds ds' _ _ D D' (K _ R) (K _ R') (K' _ R) (K' _ R') H).
  - destruct (C56_commas z) as (ds & t & D & (_ & F & N) & E), (C56_commas z') as (ds' & t' & D' & (_ & F' & N') & E'). rewrite E, E' in H.
    apply (G z z' ds ds' _ _ D D' F F'); [| |exact H].
    + intros x X. destruct t as [|y t]; [discriminate X|]. injection X as <-. exact N.
    + intros x X. destruct t' as [|y t']; [discriminate X|]. injection X as <-. exact N'.
Qed.
Print Assumptions C56_injective.
Example C56_example : str_int (-1205) = ustr "-1205" /\ fmt_comma (-1205) = ustr "-1,205" /\ fmt_comma 1000000 = ustr "1,000,000" /\ fmt_comma 999 = ustr "999" /\
  decimal 1205 [1; 2; 0; 5] /\ with_commas [1; 2; 0; 5] (ustr "1,205").
Proof.
  repeat (split; [vm_compute; reflexivity|]). split.
  - split; [discriminate|]. split; [repeat constructor; lia|]. split; [cbn; discriminate|reflexivity].
  - split; [|split; [reflexivity|cbn; discriminate]]. intros i Hi. cbn in Hi. do 5 (destruct i as [|i]; [cbn; split; discriminate || reflexivity|]). lia.
Qed.
