(** * PyFacts: general lemmas about the Python fragment *)
From Coq Require Import Permutation ZifyBool ZifyNat Arith.
From Verif Require Import PyBase.

Lemma sumZ_cons x l : sumZ (x :: l) = x + sumZ l.
Proof. reflexivity. Qed.
Lemma sumZ_app a b : sumZ (a ++ b) = sumZ a + sumZ b.
Proof. induction a as [|x a IH]; [reflexivity|]. cbn [app]. rewrite !sumZ_cons, IH. lia. Qed.
Lemma sumZ_perm a b : Permutation a b -> sumZ a = sumZ b.
Proof. induction 1; rewrite ?sumZ_cons in *; try lia. Qed.
Lemma sumZ_repeat0 n : sumZ (repeat 0 n) = 0.
Proof. induction n as [|n IH]; [reflexivity|]. cbn [repeat]. now rewrite sumZ_cons, IH. Qed.
Lemma sumZ_nonneg l : Forall (fun x => 0 <= x) l -> 0 <= sumZ l.
Proof. induction 1 as [|x l Hx _ IH]; [cbn; lia|]. rewrite sumZ_cons. lia. Qed.

Lemma upd_length {A} (l : list A) i v : List.length (upd l i v) = List.length l.
Proof. revert i; induction l as [|x l IH]; intros [|i]; cbn; auto. Qed.
Lemma upd_nth_same {A} (l : list A) i v d : (i < List.length l)%nat -> nth i (upd l i v) d = v.
Proof. revert i; induction l as [|x l IH]; intros [|i] H; cbn in *; try lia; auto. apply IH. lia. Qed.
Lemma upd_nth_other {A} (l : list A) i j v d : i <> j -> nth j (upd l i v) d = nth j l d.
Proof. revert i j; induction l as [|x l IH]; intros [|i] [|j] H; cbn; try congruence; auto. Qed.
Lemma upd_nth {A} (l : list A) i j v d : (i < List.length l)%nat ->
  nth j (upd l i v) d = if Nat.eqb j i then v else nth j l d.
Proof.
  intros H. destruct (Nat.eqb_spec j i) as [->|Hn]; [now apply upd_nth_same|].
  apply upd_nth_other. congruence.
Qed.
Lemma upd_out {A} (l : list A) i v : (List.length l <= i)%nat -> upd l i v = l.
Proof. revert i; induction l as [|x l IH]; intros [|i] H; cbn in *; try lia; auto. f_equal. apply IH. lia. Qed.
Lemma sumZ_upd l i v : (i < List.length l)%nat -> sumZ (upd l i v) = sumZ l - nth i l 0 + v.
Proof.
  revert i; induction l as [|x l IH]; intros [|i] H; cbn [upd nth List.length] in *; try lia;
    rewrite !sumZ_cons; [lia|]. rewrite IH by lia. lia.
Qed.
