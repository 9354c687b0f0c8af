(** * SvgFacts: lemmas about the drawing and the page *)
From Coq Require Import ZifyBool ZifyNat Arith Decimal DecimalString DecimalNat DecimalFacts.
From Verif Require Import PyBase PyFacts CardModel EngineModel AsciiModel JsonModel SvgModel.

(** ** Induction over elements *)
Lemma elem_induct (P : elem -> Prop) : (forall t a kids, Forall P kids -> P (Elem t a kids)) -> forall e, P e.
Proof.
  intros H. fix IH 1. intros [t a kids]. apply H. induction kids as [|k r R]; constructor; [apply IH|exact R].
Qed.

(** ** Elements without their contents: classes, identifiers and nesting only *)
Definition bare_attrs (a : attrs) : attrs := mkAttrs (a_class a) (a_id a) None None None None None None None [].
Fixpoint bare (e : elem) : elem := match e with Elem _ a kids => Elem "" (bare_attrs a) (map bare kids) end.
Definition B (c : string) (i : option string) (kids : list elem) : elem := Elem "" (mkAttrs c i None None None None None None None []) kids.

Definition plainly (p : elem -> bool) : Prop := forall e, p (bare e) = p e.
Lemma plainly_class c : plainly (has_class c). Proof. intros [t a k]. reflexivity. Qed.
Lemma plainly_id i : plainly (has_id i). Proof. intros [t a k]. reflexivity. Qed.

Fixpoint fpaths (p : elem -> bool) (i : nat) (l : list elem) : list path :=
  match l with
  | [] => []
  | k :: r => (if p k then [[i]] else []) ++ map (cons i) (paths p k) ++ fpaths p (S i) r
  end.
Lemma paths_kids p t a kids : paths p (Elem t a kids) = fpaths p 0 kids.
Proof.
  cbn [paths]. generalize 0%nat. induction kids as [|k r IH]; intros i; [reflexivity|]. cbn [fpaths]. rewrite <- IH. reflexivity.
Qed.
Lemma fpaths_app p l : forall i l', fpaths p i (l ++ l') = fpaths p i l ++ fpaths p (i + List.length l) l'.
Proof.
  induction l as [|k r IH]; intros i l'; cbn [fpaths app List.length]; [now rewrite Nat.add_0_r|].
  rewrite IH, <- !app_assoc. replace (S i + List.length r)%nat with (i + S (List.length r))%nat by lia. reflexivity.
Qed.
Lemma paths_bare p : plainly p -> forall e, paths p (bare e) = paths p e.
Proof.
  intros H. apply elem_induct. intros t a kids IH. cbn [bare]. rewrite !paths_kids. generalize 0%nat.
  induction IH as [|k r K _ R]; intros i; [reflexivity|]. cbn [map fpaths]. rewrite H, K, R. reflexivity.
Qed.
Lemma at_path_bare p : forall e, at_path p (bare e) = option_map bare (at_path p e).
Proof.
  induction p as [|i q IH]; intros [t a kids]; [reflexivity|]. cbn [at_path bare kids_of]. rewrite nth_error_map.
  destruct (nth_error kids i) as [k|]; [apply IH|reflexivity].
Qed.
Lemma below_bare p b e : plainly p -> below b p (bare e) = below b p e.
Proof. intros H. unfold below. rewrite at_path_bare. destruct (at_path b e) as [x|]; [|reflexivity]. cbn [option_map]. now rewrite paths_bare. Qed.
Lemma by_class_bare b c e : by_class b c (bare e) = by_class b c e.
Proof. apply below_bare, plainly_class. Qed.
Lemma by_id_bare b i e : by_id b i (bare e) = by_id b i e.
Proof. unfold by_id. rewrite below_bare by apply plainly_id. reflexivity. Qed.

(** changes that keep class and identifier *)
Definition tame (f : attrs -> attrs) : Prop := forall a, bare_attrs (f a) = bare_attrs a.
Lemma tame_text v : tame (put_text v). Proof. intros a. reflexivity. Qed.
Lemma tame_fill v : tame (put_fill v). Proof. intros a. reflexivity. Qed.
Lemma tame_stroke v : tame (put_stroke v). Proof. intros a. reflexivity. Qed.
Lemma map_on_nth {A B} (g : A -> B) (f : A -> A) l : forall i, (forall x, g (f x) = g x) -> map g (on_nth l i f) = map g l.
Proof. induction l as [|x r IH]; intros [|i] H; [reflexivity..| |]; cbn [on_nth map]; [now rewrite H|now rewrite IH]. Qed.
Lemma bare_on_path f p : tame f -> forall e, bare (on_path p f e) = bare e.
Proof.
  intros T. induction p as [|i q IH]; intros [t a kids]; cbn [on_path bare].
  - now rewrite T.
  - now rewrite map_on_nth by exact IH.
Qed.
Lemma bare_set_all f l : tame f -> forall e, bare (set_all l f e) = bare e.
Proof. intros T. unfold set_all. induction l as [|p r IH]; intros e; [reflexivity|]. cbn [fold_left]. now rewrite IH, bare_on_path. Qed.

(** ** What stands at a path *)
Definition look (p : path) (e : elem) : option attrs := option_map attrs_of (at_path p e).
Definition path_eqb (p q : path) : bool := if list_eq_dec Nat.eq_dec p q then true else false.
Lemma path_eqb_refl p : path_eqb p p = true. Proof. unfold path_eqb. destruct (list_eq_dec Nat.eq_dec p p); congruence. Qed.
Lemma path_eqb_eq p q : path_eqb p q = true <-> p = q.
Proof. unfold path_eqb. destruct (list_eq_dec Nat.eq_dec p q); split; congruence. Qed.
Lemma path_eqb_cons i j p q : path_eqb (i :: p) (j :: q) = Nat.eqb i j && path_eqb p q.
Proof.
  unfold path_eqb. destruct (list_eq_dec Nat.eq_dec (i :: p) (j :: q)) as [E|N], (list_eq_dec Nat.eq_dec p q) as [E'|N'], (Nat.eqb_spec i j); cbn; try reflexivity; congruence.
Qed.
Lemma nth_on_nth {A} (f : A -> A) l : forall i j, nth_error (on_nth l i f) j = if Nat.eqb i j then option_map f (nth_error l j) else nth_error l j.
Proof. induction l as [|x r IH]; intros [|i] [|j]; cbn; try reflexivity; [now destruct (Nat.eqb i j)|apply IH]. Qed.
Lemma look_on_path f p : forall q e, look q (on_path p f e) = if path_eqb p q then option_map f (look q e) else look q e.
Proof.
  unfold look. induction p as [|i p IH]; intros [|j q] [t a kids]; try reflexivity.
  rewrite path_eqb_cons. cbn [on_path at_path kids_of]. rewrite nth_on_nth. destruct (Nat.eqb_spec i j) as [->|N]; [|reflexivity].
  cbn [andb]. destruct (nth_error kids j) as [k|]; cbn [option_map]; [apply IH|now destruct (path_eqb p q)].
Qed.
Definition memb (q : path) (l : list path) : bool := existsb (fun p => path_eqb p q) l.
Lemma memb_in q l : memb q l = true <-> In q l.
Proof.
  unfold memb. rewrite existsb_exists. split.
  - intros (p & I & E). apply path_eqb_eq in E. now subst.
  - intros I. exists q. split; [exact I|apply path_eqb_refl].
Qed.
Lemma look_set_all f l : (forall a, f (f a) = f a) -> forall q e, look q (set_all l f e) = if memb q l then option_map f (look q e) else look q e.
Proof.
  intros F q. unfold set_all. induction l as [|p r IH]; intros e; [reflexivity|]. cbn [fold_left memb existsb]. rewrite IH, look_on_path. fold (memb q r).
  destruct (path_eqb p q), (memb q r); cbn [orb]; try reflexivity. destruct (look q e) as [a|]; [|reflexivity]. cbn [option_map]. now rewrite F.
Qed.
(** only texts, only colours *)
Definition text (p : path) (e : elem) : option (list Z) := option_map a_text (look p e).
Definition fill (p : path) (e : elem) : option (option string) := option_map a_fill (look p e).
Lemma text_put_text p v q e : text q (on_path p (put_text v) e) = if path_eqb p q then option_map (fun _ => v) (text q e) else text q e.
Proof. unfold text. rewrite look_on_path. destruct (path_eqb p q), (look q e); reflexivity. Qed.
Lemma text_put_fill p v q e : text q (on_path p (put_fill v) e) = text q e.
Proof. unfold text. rewrite look_on_path. destruct (path_eqb p q), (look q e); reflexivity. Qed.
Lemma text_put_stroke p v q e : text q (on_path p (put_stroke v) e) = text q e.
Proof. unfold text. rewrite look_on_path. destruct (path_eqb p q), (look q e); reflexivity. Qed.
Lemma fill_put_fill p v q e : fill q (on_path p (put_fill v) e) = if path_eqb p q then option_map (fun _ => Some v) (fill q e) else fill q e.
Proof. unfold fill. rewrite look_on_path. destruct (path_eqb p q), (look q e); reflexivity. Qed.
Lemma fill_put_text p v q e : fill q (on_path p (put_text v) e) = fill q e.
Proof. unfold fill. rewrite look_on_path. destruct (path_eqb p q), (look q e); reflexivity. Qed.
Lemma fill_put_stroke p v q e : fill q (on_path p (put_stroke v) e) = fill q e.
Proof. unfold fill. rewrite look_on_path. destruct (path_eqb p q), (look q e); reflexivity. Qed.
Lemma text_all_text l v q e : text q (set_all l (put_text v) e) = if memb q l then option_map (fun _ => v) (text q e) else text q e.
Proof. unfold text. rewrite look_set_all by reflexivity. destruct (memb q l), (look q e); reflexivity. Qed.
Lemma text_all_fill l v q e : text q (set_all l (put_fill v) e) = text q e.
Proof. unfold text. rewrite look_set_all by reflexivity. destruct (memb q l), (look q e); reflexivity. Qed.
Lemma fill_all_fill l v q e : fill q (set_all l (put_fill v) e) = if memb q l then option_map (fun _ => Some v) (fill q e) else fill q e.
Proof. unfold fill. rewrite look_set_all by reflexivity. destruct (memb q l), (look q e); reflexivity. Qed.
Lemma fill_all_text l v q e : fill q (set_all l (put_text v) e) = fill q e.
Proof. unfold fill. rewrite look_set_all by reflexivity. destruct (memb q l), (look q e); reflexivity. Qed.

(** ** Paths found by a search *)
Lemma in_fpaths p l : forall i q, In q (fpaths p i l) <-> exists j k q', q = (i + j)%nat :: q' /\ nth_error l j = Some k /\ ((q' = [] /\ p k = true) \/ In q' (paths p k)).
Proof.
  induction l as [|x r IH]; intros i q; cbn [fpaths].
  - split; [intros []|]. intros (j & k & q' & _ & E & _). destruct j; discriminate E.
  - rewrite !in_app_iff, IH, in_map_iff. split.
    + intros [H|[H|H]].
      * destruct (p x) eqn:P; [|destruct H]. destruct H as [<-|[]]. exists 0%nat, x, []. rewrite Nat.add_0_r. auto.
      * destruct H as (q' & <- & I). exists 0%nat, x, q'. rewrite Nat.add_0_r. auto.
      * destruct H as (j & k & q' & -> & E & C). exists (S j), k, q'. rewrite Nat.add_succ_r. auto.
    + intros (j & k & q' & -> & E & C). destruct j as [|j].
      * injection E as ->. rewrite Nat.add_0_r. destruct C as [[-> P]|I]; [left; rewrite P; now left|right; left; now exists q'].
      * right. right. exists j, k, q'. rewrite Nat.add_succ_r. auto.
Qed.
Lemma in_paths p q : forall e, In q (paths p e) <-> q <> [] /\ exists x, at_path q e = Some x /\ p x = true.
Proof.
  induction q as [|i q IH]; intros [t a kids]; rewrite paths_kids, in_fpaths.
  - split; [intros (j & k & q' & E & _); discriminate E|intros [N _]; congruence].
  - split.
    + intros (j & k & q' & E & N & C). injection E as -> ->. cbn [Nat.add]. split; [discriminate|]. cbn [at_path kids_of]. rewrite N.
      destruct C as [[-> P]|C]; [exists k; auto|]. apply IH in C. exact (proj2 C).
    + intros (_ & x & A & P). cbn [at_path kids_of] in A. destruct (nth_error kids i) as [k|] eqn:N; [|discriminate A]. exists i, k, q. split; [reflexivity|]. split; [exact N|].
      destruct q as [|m q]; [left; injection A as ->; auto|]. right. apply IH. split; [discriminate|]. now exists x.
Qed.
Lemma at_path_app p : forall q e, at_path (p ++ q) e = match at_path p e with Some x => at_path q x | None => None end.
Proof. induction p as [|i p IH]; intros q e; [reflexivity|]. cbn [app at_path]. destruct (nth_error (kids_of e) i); [apply IH|reflexivity]. Qed.
Definition unique_ids (e : elem) : Prop := forall p q x y i, at_path p e = Some x -> at_path q e = Some y -> a_id (attrs_of x) = Some i -> a_id (attrs_of y) = Some i -> p = q.
Lemma has_id_iff i e : has_id i e = true <-> a_id (attrs_of e) = Some i.
Proof. unfold has_id. destruct (a_id (attrs_of e)) as [j|]; [|split; discriminate]. rewrite String.eqb_eq. split; congruence. Qed.
Lemma by_id_unique e b p i x : unique_ids e -> p <> [] -> at_path (b ++ p) e = Some x -> a_id (attrs_of x) = Some i -> by_id b i e = Ok (b ++ p).
Proof.
  intros U N A I. unfold by_id, below. rewrite at_path_app in A. destruct (at_path b e) as [z|] eqn:Z; [|discriminate A].
  assert (IN : In p (paths (has_id i) z)) by (apply in_paths; split; [exact N|]; exists x; split; [exact A|now apply has_id_iff]).
  destruct (paths (has_id i) z) as [|q r] eqn:L; [destruct IN|]. cbn [map]. f_equal.
  assert (Q : In q (paths (has_id i) z)) by (rewrite L; now left). apply in_paths in Q. destruct Q as (_ & y & Y & IY). apply has_id_iff in IY.
  apply (U (b ++ q) (b ++ p) y x i); [rewrite at_path_app, Z; exact Y|rewrite at_path_app, Z; exact A|exact IY|exact I].
Qed.

(** ** The drawing in closed form *)
(** a card with its identifiers at a given place *)
Definition card_elem (c : elem) (label : string) (k : nat) (x : Q) : elem :=
  match c with
  | Elem t a [Elem t1 a1 k1; Elem t2 a2 k2] =>
      Elem t (put_id (labelled (labelled "card" label) (slot_str k)) (put_x x a))
        [Elem t1 (put_id (labelled (labelled "card-background" label) (slot_str k)) a1) k1;
         Elem t2 (put_id (labelled (labelled "card-text" label) (slot_str k)) a2) k2]
  | e => e
  end.
Definition card_x (wide w : Q) (num_cards : Z) (k : nat) : Q :=
  ((wide - w) / 2 + (- w * inject_Z num_cards / 2 + w * (inject_Z (Z.of_nat k) + (1 # 2))))%Q.
(** the shape of images/card.svg *)
Definition card_like (c : elem) : Prop := exists t t1 t2 a i1 x1 y1 w1 h1 v1 f1 s1 u1 i2 x2 y2 w2 h2 v2 f2 s2 u2,
  c = Elem t a [Elem t1 (mkAttrs "card-background" i1 x1 y1 w1 h1 v1 f1 s1 u1) []; Elem t2 (mkAttrs "card-text" i2 x2 y2 w2 h2 v2 f2 s2 u2) []].
Lemma new_card_form t i x y w h f s u kids card label num k : card_like card ->
  new_card (Elem t (mkAttrs "cards" i x y w h None f s u) kids) card label num k = Ok (card_elem card label k (card_x (SvgModel.num w) (width_of card) num k)).
Proof.
  intros (t' & t1 & t2 & [c0 i0 x0 y0 w0 h0 v0 f0 s0 u0] & i1 & x1 & y1 & w1 & h1 & v1 & f1 & s1 & u1 & i2 & x2 & y2 & w2 & h2 & v2 & f2 & s2 & u2 & ->). reflexivity.
Qed.
Lemma cards_form t i x y w h f s u card label num : card_like card -> forall m a kids,
  fold_res (fun cs k => let* c := new_card cs card label num k in Ok (append_kids [c] cs)) (seq a m) (Elem t (mkAttrs "cards" i x y w h None f s u) kids) =
  Ok (Elem t (mkAttrs "cards" i x y w h None f s u) (kids ++ map (fun k => card_elem card label k (card_x (SvgModel.num w) (width_of card) num k)) (seq a m))).
Proof.
  intros C. induction m as [|m IH]; intros a kids; cbn [seq fold_res map]; [now rewrite app_nil_r|].
  rewrite new_card_form by exact C. cbn [bind append_kids]. rewrite IH, <- app_assoc. reflexivity.
Qed.
Definition player_elem (pt bt ct ht cbt ctt : string) (pa ba ca ha cba cta : attrs) (card : elem) (label : string) (num : Z) : elem :=
  Elem pt (put_id label pa)
    [Elem bt (put_id (labelled "player-background" label) ba) [];
     Elem ct (put_id (labelled "cards" label) ca)
       (map (fun k => card_elem card label k (card_x (SvgModel.num (a_width ca)) (width_of card) num k)) (seq 0 (Z.to_nat num)));
     Elem ht (put_id (labelled "chips" label) ha)
       [Elem cbt (put_id (labelled "chips-background" label) cba) []; Elem ctt (put_id (labelled "chips-text" label) cta) []]].
Lemma new_player_form pt bt ct ht cbt ctt pa i1 x1 y1 w1 h1 v1 f1 s1 u1 i2 x2 y2 w2 h2 f2 s2 u2 i3 x3 y3 w3 h3 v3 f3 s3 u3 i4 x4 y4 w4 h4 v4 f4 s4 u4 i5 x5 y5 w5 h5 v5 f5 s5 u5 card label num :
  card_like card ->
  new_player (Elem pt pa [Elem bt (mkAttrs "player-background" i1 x1 y1 w1 h1 v1 f1 s1 u1) []; Elem ct (mkAttrs "cards" i2 x2 y2 w2 h2 None f2 s2 u2) [];
    Elem ht (mkAttrs "chips" i3 x3 y3 w3 h3 v3 f3 s3 u3) [Elem cbt (mkAttrs "chips-background" i4 x4 y4 w4 h4 v4 f4 s4 u4) []; Elem ctt (mkAttrs "chips-text" i5 x5 y5 w5 h5 v5 f5 s5 u5) []]]) label card num =
  Ok (player_elem pt bt ct ht cbt ctt pa (mkAttrs "player-background" i1 x1 y1 w1 h1 v1 f1 s1 u1) (mkAttrs "cards" i2 x2 y2 w2 h2 None f2 s2 u2) (mkAttrs "chips" i3 x3 y3 w3 h3 v3 f3 s3 u3)
        (mkAttrs "chips-background" i4 x4 y4 w4 h4 v4 f4 s4 u4) (mkAttrs "chips-text" i5 x5 y5 w5 h5 v5 f5 s5 u5) card label num).
Proof.
  intros C. unfold new_player. set (body := fun cards => fold_res _ _ cards).
  transitivity (let* c := body (Elem ct (mkAttrs "cards" (Some (labelled "cards" label)) x2 y2 w2 h2 None f2 s2 u2) []) in
    Ok (Elem pt (put_id label pa) [Elem bt (mkAttrs "player-background" (Some (labelled "player-background" label)) x1 y1 w1 h1 v1 f1 s1 u1) []; c;
      Elem ht (mkAttrs "chips" (Some (labelled "chips" label)) x3 y3 w3 h3 v3 f3 s3 u3) [Elem cbt (mkAttrs "chips-background" (Some (labelled "chips-background" label)) x4 y4 w4 h4 v4 f4 s4 u4) [];
        Elem ctt (mkAttrs "chips-text" (Some (labelled "chips-text" label)) x5 y5 w5 h5 v5 f5 s5 u5) []]])).
  { clearbody body. destruct pa. cbn. destruct (body _); reflexivity. }
  unfold body. rewrite cards_form by exact C. reflexivity.
Qed.

Lemma map_res_all {A B} (f : A -> result B) (g : A -> B) l : (forall x, f x = Ok (g x)) -> map_res f l = Ok (map g l).
Proof. intros H. induction l as [|x r IH]; [reflexivity|]. cbn [map_res map]. rewrite H, IH. reflexivity. Qed.

(** the seats, the bets and the board *)
Definition seat_width (nh : Z) : Q := if Qle_bool 220 (50 * inject_Z nh + 20) then (50 * inject_Z nh + 20)%Q else 220%Q.
Definition back_card : elem := Elem "svg" (sized "card" 50 70)
  [Elem "rect" (put_fill "url(#card-back)" (plain "card-background")) []; Elem "text" (put_x 7 (put_y 25 (plain "card-text"))) []].
Definition blank_card : elem := Elem "svg" (sized "card" 50 70)
  [Elem "rect" (put_fill "url(#card-blank)" (plain "card-background")) []; Elem "text" (put_x 7 (put_y 25 (plain "card-text"))) []].
Definition seat (nh : Z) (at_ : nat -> Z * Z) (i : nat) : elem :=
  let w := seat_width nh in
  center_at (fst (at_ i)) (snd (at_ i))
    (player_elem "svg" "rect" "svg" "svg" "rect" "text" (put_width w (sized "player" 220 125))
       (put_height (125 - 10) (put_width (w - 10) (put_x 5 (put_y 5 (sized "player-background" 210 125)))))
       (put_x ((w - inject_Z nh * 50) / 2) (put_width (inject_Z nh * 50) (put_x 10 (put_y 10 (plain "cards")))))
       (put_x ((w - (w - 20)) / 2) (put_width (w - 20) (put_y 85 (put_height 30 (plain "chips")))))
       (plain "chips-background") (put_y 20 (put_text (ustr "0") (plain "chips-text"))) back_card (slot_str i) nh).
Lemma back_like : card_like back_card. Proof. unfold card_like, back_card. do 22 eexists. reflexivity. Qed.
Lemma blank_like : card_like blank_card. Proof. unfold card_like, blank_card. do 22 eexists. reflexivity. Qed.
Lemma add_players_form n nh at_ : add_players n nh player_file card_file at_ = Ok (map (seat nh at_) (seq 0 (Z.to_nat n))).
Proof.
  unfold add_players. change (width_of player_file) with 220%Q. change (width_of card_file) with 50%Q. fold (seat_width nh).
  set (w := seat_width nh).
  match goal with |- bind ?a _ = _ => let v := eval cbn in a in change a with v end. cbn [bind].
  match goal with |- bind ?a _ = _ => let v := eval cbn in a in change a with v end. cbn [bind].
  match goal with |- bind ?a _ = _ => change a with (Ok back_card) end. cbn [bind].
  match goal with |- bind ?a _ = _ => let v := eval cbn in a in change a with v end. cbn [bind].
  apply map_res_all. intros i. unfold seat. fold w.
  match goal with |- bind ?a _ = _ => let E := fresh in eassert (E : a = Ok _) by (apply new_player_form; apply back_like); rewrite E; clear E end. reflexivity.
Qed.
Definition bet_place (at_ : nat -> Z * Z) (i : nat) : elem :=
  center_at (fst (at_ i)) (snd (at_ i))
    (Elem "svg" (put_id (labelled "street-commit" (slot_str i)) (sized "chips" 100 30))
      [Elem "rect" (put_id (labelled "street-commit-background" (slot_str i)) (plain "chips-background")) [];
       Elem "text" (put_id (labelled "street-commit-text" (slot_str i)) (put_x 30 (put_y 20 (put_text (ustr "0") (plain "chips-text"))))) [];
       Elem "svg" (put_id (labelled "button" (slot_str i)) (put_x (145 # 2) (put_y (5 # 2) (sized "button" 25 25))))
         [Elem "rect" (put_id (labelled "button-background" (slot_str i)) (put_fill "black" (plain "button-background"))) []]]).
Lemma add_street_commits_form n at_ : add_street_commits n street_commit_file at_ = Ok (map (bet_place at_) (seq 0 (Z.to_nat n))).
Proof. unfold add_street_commits. apply map_res_all. intros i. reflexivity. Qed.

Definition first_in (p : elem -> bool) (f : elem -> result elem) : list elem -> option (result (list elem)) :=
  fix go (l : list elem) : option (result (list elem)) :=
    match l with
    | [] => None
    | k :: r =>
        if p k then Some (let* k' := f k in Ok (k' :: r))
        else match on_first p f k with
             | Some res => Some (let* k' := res in Ok (k' :: r))
             | None => match go r with
                       | Some res => Some (let* r' := res in Ok (k :: r'))
                       | None => None
                       end
             end
    end.
Lemma on_first_kids p f t a kids : on_first p f (Elem t a kids) =
  match first_in p f kids with Some res => Some (let* kids' := res in Ok (Elem t a kids')) | None => None end.
Proof. reflexivity. Qed.
Lemma first_in_none p f l : Forall (fun k => p k = false /\ on_first p f k = None) l -> first_in p f l = None.
Proof. induction 1 as [|k r (P & O) _ IH]; [reflexivity|]. cbn [first_in]. rewrite P, O. fold (first_in p f). now rewrite IH. Qed.
Lemma first_in_cons p f k r : first_in p f (k :: r) =
  if p k then Some (let* k' := f k in Ok (k' :: r))
  else match on_first p f k with
       | Some res => Some (let* k' := res in Ok (k' :: r))
       | None => match first_in p f r with Some res => Some (let* r' := res in Ok (k :: r')) | None => None end
       end.
Proof. reflexivity. Qed.

(** the board: its first card is the deck *)
Definition on_head {A} (f : A -> A) (l : list A) : list A := match l with x :: r => f x :: r | [] => [] end.
Definition deck_card (c : elem) : elem :=
  match c with
  | Elem t a (Elem t1 a1 k1 :: r) => Elem t (put_x (num (a_x a) - 10) a) (Elem t1 (put_fill "url(#card-back)" a1) k1 :: r)
  | e => e
  end.
Definition board_width (nc : Z) : Q := (50 * inject_Z (nc + 1) + 20)%Q.
Definition board (nc : Z) : elem :=
  let w := board_width nc in
  Elem "svg" (put_class "community" (put_id "community" (put_width w (sized "player" 220 125))))
    [Elem "svg" (put_id (labelled "cards" "community") (put_x ((w - w) / 2) (put_width w (put_x 10 (put_y 10 (plain "cards"))))))
       (on_head deck_card (map (fun k => card_elem blank_card "community" k (card_x w 50 (nc + 1) k)) (seq 0 (Z.to_nat (nc + 1)))));
     Elem "svg" (put_id "pot" (put_x ((w - (w - 60)) / 2) (put_width (w - 60) (put_id (labelled "chips" "community") (put_y 85 (put_height 30 (plain "chips")))))))
       [Elem "rect" (put_id "pot-background" (plain "chips-background")) [];
        Elem "text" (put_id "pot-text" (put_y 20 (put_text (ustr "0") (plain "chips-text")))) []]].
Lemma add_community_form nc : 0 <= nc -> add_community nc player_file card_file = Ok (board nc).
Proof.
  intros H. unfold add_community. change (width_of card_file) with 50%Q. fold (board_width nc). set (w := board_width nc).
  match goal with |- bind ?a _ = _ => let v := eval cbn in a in change a with v end. cbn [bind].
  match goal with |- bind ?a _ = _ => change a with (Ok blank_card) end. cbn [bind].
  match goal with |- bind ?a _ = _ => let v := eval cbn in a in change a with v end. cbn [bind].
  match goal with |- bind ?a _ = _ => let E := fresh in eassert (E : a = Ok _) by (apply new_player_form; apply blank_like); rewrite E; clear E end. cbn [bind]. unfold board. fold w.
  replace (Z.to_nat (nc + 1)) with (S (Z.to_nat nc)) by lia. cbn [seq]. unfold player_elem.
  replace (Z.to_nat (nc + 1)) with (S (Z.to_nat nc)) by lia. cbn [seq map on_head].
  set (rest := map _ (seq 1 (Z.to_nat nc))).
  assert (R : forall f, first_in (has_class "chips") f rest = None).
  { intros f. apply first_in_none. apply Forall_map. apply Forall_forall. intros k _. split; reflexivity. }
  clearbody rest.
  match goal with |- bind ?a _ = _ => let v := eval cbn [remove_class remove_first] in a in change a with v end.
  match goal with |- bind ?a _ = _ => let E := fresh in eassert (E : a = Ok _) by reflexivity; rewrite E; clear E end. cbn [bind].
  unfold on_class at 1. rewrite on_first_kids, first_in_cons.
  match goal with |- context [if ?b then _ else _] => change b with false; cbv iota end.
  rewrite on_first_kids, first_in_cons.
  match goal with |- context [if ?b then _ else _] => change b with false; cbv iota end.
  match goal with |- context [on_first ?p ?f (card_elem ?a ?b ?c ?d)] => change (on_first p f (card_elem a b c d)) with (@None (result elem)); cbv iota end.
  rewrite R. reflexivity.
Qed.

Definition the_table : elem := Elem "rect" (put_y ((1000 - 550) / 2) (put_x ((1000 - 900) / 2) (put_x 0 (put_y 0 (sized "table" 900 550))))) [].
(** the board in the middle of the table *)
Definition board_placed (nc : Z) : elem :=
  let c := center_y_in the_table (center_x_in the_table (board nc)) in
  set_y (y_of c + (y_of the_table - 40))%Q (set_x (x_of c + x_of the_table)%Q c).
Definition drawing (n : nat) (nh nc : Z) (seat_at commit_at : nat -> Z * Z) : elem :=
  Elem "svg" (mkAttrs "" (Some "poker"%string) None None None None (Some (1000, 1000)%Q) None None [])
    (kids_of patterns_file ++ [the_table] ++ map (seat nh seat_at) (seq 0 n) ++ map (bet_place commit_at) (seq 0 n) ++ [board_placed nc]).
Lemma base_svg_form n nh nc seat_at commit_at : 0 <= nc -> base_svg (Z.of_nat n) nh nc seat_at commit_at = Ok (drawing n nh nc seat_at commit_at).
Proof.
  intros H. unfold base_svg. rewrite add_players_form, add_street_commits_form, add_community_form by exact H. cbn [bind]. rewrite Nat2Z.id.
  unfold drawing. set (ps := map (seat nh seat_at) (seq 0 n)). set (bs := map (bet_place commit_at) (seq 0 n)). clearbody ps bs.
  change (with_tag "pattern" patterns_file) with (kids_of patterns_file).
  unfold append_kids, base_file. rewrite <- !app_assoc. reflexivity.
Qed.
