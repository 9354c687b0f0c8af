(** * SvgPage: the effect of a configuration on the page, as a list of changes *)
From Coq Require Import ZifyBool ZifyNat Arith.
From Verif Require Import PyBase PyFacts CardModel EngineModel AsciiModel JsonModel SvgModel SvgFacts SvgIds.

(** ** Changes *)
Definition ident_eq_dec (t u : ident) : {t = u} + {t <> u}.
Proof. decide equality; try apply Nat.eq_dec; try (decide equality; apply Nat.eq_dec); apply (list_eq_dec string_dec). Defined.
Inductive write : Type := WText (t : ident) (v : list Z) | WFill (t : ident) (v : string) | WStroke (t : ident) (v : string).
Definition target (w : write) : ident := match w with WText t _ | WFill t _ | WStroke t _ => t end.
Section Page.
Variables n nh nc : nat.
Let sk := sk_page n nh nc.
Definition apply1 (w : write) (e : elem) : elem :=
  match w with
  | WText t v => on_path (place n t) (put_text v) e
  | WFill t v => on_path (place n t) (put_fill v) e
  | WStroke t v => on_path (place n t) (put_stroke v) e
  end.
Definition apply (l : list write) (e : elem) : elem := fold_left (fun e w => apply1 w e) l e.
Lemma apply_app l l' e : apply (l ++ l') e = apply l' (apply l e).
Proof. apply fold_left_app. Qed.
Lemma bare_apply1 w e : bare (apply1 w e) = bare e.
Proof. destruct w; apply bare_on_path; intros a; reflexivity. Qed.
Lemma bare_apply l : forall e, bare (apply l e) = bare e.
Proof. induction l as [|w l IH]; intros e; [reflexivity|]. cbn [apply fold_left]. fold (apply l (apply1 w e)). now rewrite IH, bare_apply1. Qed.

Fixpoint last_text (u : ident) (l : list write) : option (list Z) :=
  match l with
  | [] => None
  | w :: r => match last_text u r with Some v => Some v | None => match w with WText t v => if ident_eq_dec t u then Some v else None | _ => None end end
  end.
Fixpoint last_fill (u : ident) (l : list write) : option string :=
  match l with
  | [] => None
  | w :: r => match last_fill u r with Some v => Some v | None => match w with WFill t v => if ident_eq_dec t u then Some v else None | _ => None end end
  end.
Definition fit (l : list write) : Prop := Forall (fun w => fits n nh nc (target w)) l.
Lemma place_eqb t u : fits n nh nc t -> fits n nh nc u -> path_eqb (place n t) (place n u) = if ident_eq_dec t u then true else false.
Proof.
  intros T U. destruct (ident_eq_dec t u) as [->|N]; [apply path_eqb_refl|]. destruct (path_eqb (place n t) (place n u)) eqn:E; [|reflexivity].
  apply path_eqb_eq in E. exfalso. apply N. eapply place_inj; eassumption.
Qed.
Lemma text_apply u l : fits n nh nc u -> fit l -> forall e,
  text (place n u) (apply l e) = match last_text u l with Some v => option_map (fun _ => v) (text (place n u) e) | None => text (place n u) e end.
Proof.
  intros U. induction l as [|w l IH]; intros F e; [reflexivity|]. inversion F as [|? ? F1 F2]; subst. cbn [apply fold_left]. fold (apply l (apply1 w e)). rewrite IH by exact F2. cbn [last_text].
  destruct w as [t v|t v|t v]; cbn [apply1 target] in *.
  - rewrite text_put_text, place_eqb by assumption. destruct (last_text u l), (ident_eq_dec t u), (text (place n u) e); reflexivity.
  - rewrite text_put_fill. destruct (last_text u l); reflexivity.
  - rewrite text_put_stroke. destruct (last_text u l); reflexivity.
Qed.
Lemma fill_apply u l : fits n nh nc u -> fit l -> forall e,
  fill (place n u) (apply l e) = match last_fill u l with Some v => option_map (fun _ => Some v) (fill (place n u) e) | None => fill (place n u) e end.
Proof.
  intros U. induction l as [|w l IH]; intros F e; [reflexivity|]. inversion F as [|? ? F1 F2]; subst. cbn [apply fold_left]. fold (apply l (apply1 w e)). rewrite IH by exact F2. cbn [last_fill].
  destruct w as [t v|t v|t v]; cbn [apply1 target] in *.
  - rewrite fill_put_text. destruct (last_fill u l); reflexivity.
  - rewrite fill_put_fill, place_eqb by assumption. destruct (last_fill u l), (ident_eq_dec t u), (fill (place n u) e); reflexivity.
  - rewrite fill_put_stroke. destruct (last_fill u l); reflexivity.
Qed.

(** the last change in a list *)
Lemma last_text_app u l l' : last_text u (l ++ l') = match last_text u l' with Some v => Some v | None => last_text u l end.
Proof. induction l as [|w l IH]; cbn [last_text app]; [now destruct (last_text u l')|]. rewrite IH. destruct (last_text u l'); reflexivity. Qed.
Lemma last_fill_app u l l' : last_fill u (l ++ l') = match last_fill u l' with Some v => Some v | None => last_fill u l end.
Proof. induction l as [|w l IH]; cbn [last_fill app]; [now destruct (last_fill u l')|]. rewrite IH. destruct (last_fill u l'); reflexivity. Qed.
Lemma last_text_silent {A} u (f : A -> list write) l : (forall x, In x l -> last_text u (f x) = None) -> last_text u (flat_map f l) = None.
Proof.
  induction l as [|x l IH]; intros H; [reflexivity|]. cbn [flat_map]. rewrite last_text_app, IH by (intros y I; apply H; now right). apply H. now left.
Qed.
Lemma last_fill_silent {A} u (f : A -> list write) l : (forall x, In x l -> last_fill u (f x) = None) -> last_fill u (flat_map f l) = None.
Proof.
  induction l as [|x l IH]; intros H; [reflexivity|]. cbn [flat_map]. rewrite last_fill_app, IH by (intros y I; apply H; now right). apply H. now left.
Qed.
Lemma last_text_one {A} u (f : A -> list write) l x0 : NoDup l -> In x0 l -> (forall x, In x l -> x <> x0 -> last_text u (f x) = None) -> last_text u (flat_map f l) = last_text u (f x0).
Proof.
  induction l as [|x l IH]; intros ND I H; [destruct I|]. inversion ND as [|? ? N1 N2]; subst. cbn [flat_map]. rewrite last_text_app. destruct I as [->|I].
  - rewrite last_text_silent; [reflexivity|]. intros y Y. apply H; [now right|]. intros ->. contradiction.
  - rewrite IH; [|exact N2|exact I|intros y Y; apply H; now right]. destruct (last_text u (f x0)) eqn:E; [reflexivity|]. apply H; [now left|]. intros ->. contradiction.
Qed.
Lemma last_fill_one {A} u (f : A -> list write) l x0 : NoDup l -> In x0 l -> (forall x, In x l -> x <> x0 -> last_fill u (f x) = None) -> last_fill u (flat_map f l) = last_fill u (f x0).
Proof.
  induction l as [|x l IH]; intros ND I H; [destruct I|]. inversion ND as [|? ? N1 N2]; subst. cbn [flat_map]. rewrite last_fill_app. destruct I as [->|I].
  - rewrite last_fill_silent; [reflexivity|]. intros y Y. apply H; [now right|]. intros ->. contradiction.
  - rewrite IH; [|exact N2|exact I|intros y Y; apply H; now right]. destruct (last_fill u (f x0)) eqn:E; [reflexivity|]. apply H; [now left|]. intros ->. contradiction.
Qed.

(** ** Functions whose effect is a list of changes *)
Definition does (f : elem -> result elem) (l : list write) : Prop := forall e, bare e = sk -> f e = Ok (apply l e).
Lemma does_bind f g l l' : does f l -> does g l' -> does (fun e => let* e := f e in g e) (l ++ l').
Proof. intros F G e E. rewrite (F e E). cbn [bind]. rewrite apply_app. apply G. now rewrite bare_apply. Qed.
Lemma does_fold {A} (f : elem -> A -> result elem) (g : A -> list write) l : (forall x, In x l -> does (fun e => f e x) (g x)) -> does (fold_res f l) (flat_map g l).
Proof.
  induction l as [|x l IH]; intros H e E; [reflexivity|]. cbn [fold_res flat_map]. rewrite (H x (or_introl eq_refl) e E). cbn [bind]. rewrite apply_app. apply IH; [|now rewrite bare_apply].
  intros y Y. apply H. now right.
Qed.
Lemma id_found e b t p : bare e = sk -> fits n nh nc t -> place n t = b ++ p -> p <> [] -> by_id b (show t) e = Ok (place n t).
Proof.
  intros E T P N. rewrite <- by_id_bare, E, P. destruct (place_at n nh nc t T) as (x & X & I). rewrite P in X. eapply by_id_unique; [apply sk_unique|exact N|exact X|exact I].
Qed.
Lemma does_text b t v p : fits n nh nc t -> place n t = b ++ p -> p <> [] -> does (set_by_id b (show t) (put_text v)) [WText t v].
Proof. intros T P N e E. unfold set_by_id. rewrite (id_found e b t p E T P N). reflexivity. Qed.
Lemma does_fill b t v p : fits n nh nc t -> place n t = b ++ p -> p <> [] -> does (set_by_id b (show t) (put_fill v)) [WFill t v].
Proof. intros T P N e E. unfold set_by_id. rewrite (id_found e b t p E T P N). reflexivity. Qed.
Lemma all_text l v e : set_all (map (place n) l) (put_text v) e = apply (map (fun t => WText t v) l) e.
Proof. unfold set_all, apply. revert e. induction l as [|t l IH]; intros e; [reflexivity|]. cbn [map fold_left]. apply IH. Qed.
Lemma all_fill l v e : set_all (map (place n) l) (put_fill v) e = apply (map (fun t => WFill t v) l) e.
Proof. unfold set_all, apply. revert e. induction l as [|t l IH]; intros e; [reflexivity|]. cbn [map fold_left]. apply IH. Qed.

(** ** The elements of a class *)
Lemma fpaths_seq p : forall m (f : nat -> elem) a s,
  fpaths p a (map f (seq s m)) = flat_map (fun j => (if p (f (s + j)%nat) then [[(a + j)%nat]] else []) ++ map (cons (a + j)%nat) (paths p (f (s + j)%nat))) (seq 0 m).
Proof.
  induction m as [|m IH]; intros f a s; [reflexivity|]. cbn [seq map fpaths flat_map]. rewrite IH, !Nat.add_0_r, <- app_assoc. f_equal. f_equal.
  rewrite <- seq_shift. rewrite flat_map_concat_map, (flat_map_concat_map _ (map S _)), map_map. f_equal. apply map_ext. intros j.
  replace (S s + j)%nat with (s + S j)%nat by lia. replace (S a + j)%nat with (a + S j)%nat by lia. reflexivity.
Qed.
Lemma flat_nil {A B} (l : list A) : flat_map (fun _ => @nil B) l = [].
Proof. induction l; auto. Qed.
Lemma flat_one {A B} (f : A -> B) (l : list A) : flat_map (fun x => [f x]) l = map f l.
Proof. induction l; cbn; congruence. Qed.
Definition in_card (c : string) : list path := paths (has_class c) (sk_card "" 0).
Lemma paths_card c label k : paths (has_class c) (sk_card label k) = in_card c.
Proof. reflexivity. Qed.
Lemma paths_cards c i label m : paths (has_class c) (B "cards" i (map (sk_card label) (seq 0 m))) =
  flat_map (fun k => (if String.eqb "card" c then [[k]] else []) ++ map (cons k) (in_card c)) (seq 0 m).
Proof. unfold B. rewrite paths_kids, fpaths_seq. reflexivity. Qed.
Lemma paths_seat c i : paths (has_class c) (sk_seat nh i) =
  (if String.eqb "player-background" c then [[0%nat]] else []) ++ (if String.eqb "cards" c then [[1%nat]] else []) ++
  map (cons 1%nat) (flat_map (fun k => (if String.eqb "card" c then [[k]] else []) ++ map (cons k) (in_card c)) (seq 0 nh)) ++
  (if String.eqb "chips" c then [[2%nat]] else []) ++ (if String.eqb "chips-background" c then [[2%nat; 0%nat]] else []) ++ (if String.eqb "chips-text" c then [[2%nat; 1%nat]] else []).
Proof.
  unfold sk_seat at 1, B at 1. rewrite paths_kids. cbn [fpaths]. rewrite paths_cards. unfold B. rewrite !paths_kids. cbn [fpaths map app has_class attrs_of a_class]. rewrite !paths_kids. cbn [fpaths map app has_class attrs_of a_class].
  unfold has_class. cbn [attrs_of a_class].
  destruct (String.eqb "chips-background" c), (String.eqb "chips-text" c); cbn [map app]; rewrite ?app_nil_r; reflexivity.
Qed.
Lemma paths_bet c i : paths (has_class c) (sk_bet i) = paths (has_class c) (sk_bet 0).
Proof. reflexivity. Qed.
Lemma paths_page c : paths (has_class c) sk =
  fpaths (has_class c) 0 (sk_patterns ++ [B "table" None []]) ++
  flat_map (fun i => (if String.eqb "player" c then [[(8 + i)%nat]] else []) ++ map (cons (8 + i)%nat) (paths (has_class c) (sk_seat nh i))) (seq 0 n) ++
  flat_map (fun i => (if String.eqb "chips" c then [[(8 + n + i)%nat]] else []) ++ map (cons (8 + n + i)%nat) (paths (has_class c) (sk_bet 0))) (seq 0 n) ++
  (if String.eqb "community" c then [[(8 + 2 * n)%nat]] else []) ++ map (cons (8 + 2 * n)%nat) (paths (has_class c) (sk_board nc)).
Proof.
  change sk with (Elem "" (mkAttrs "" (Some "poker"%string) None None None None None None None []) ((sk_patterns ++ [B "table" None []]) ++ map (sk_seat nh) (seq 0 n) ++ map sk_bet (seq 0 n) ++ [sk_board nc])).
  rewrite paths_kids, !fpaths_app, !fpaths_seq, !map_length, !seq_length. change (List.length (sk_patterns ++ [B "table" None []])) with 8%nat. f_equal. f_equal. f_equal.
  replace (0 + 8 + n + n)%nat with (8 + 2 * n)%nat by lia. cbn [fpaths]. rewrite app_nil_r. reflexivity.
Qed.
Lemma paths_board c : paths (has_class c) (sk_board nc) =
  (if String.eqb "cards" c then [[0%nat]] else []) ++
  map (cons 0%nat) (flat_map (fun k => (if String.eqb "card" c then [[k]] else []) ++ map (cons k) (in_card c)) (seq 0 (S nc))) ++
  (if String.eqb "chips" c then [[1%nat]] else []) ++ (if String.eqb "chips-background" c then [[1%nat; 0%nat]] else []) ++ (if String.eqb "chips-text" c then [[1%nat; 1%nat]] else []).
Proof.
  unfold sk_board at 1, B at 1. rewrite paths_kids. cbn [fpaths]. rewrite paths_cards. unfold B. rewrite !paths_kids. cbn [fpaths map app has_class attrs_of a_class]. rewrite !paths_kids. cbn [fpaths map app has_class attrs_of a_class].
  unfold has_class. cbn [attrs_of a_class].
  destruct (String.eqb "chips-background" c), (String.eqb "chips-text" c); cbn [map app]; rewrite ?app_nil_r; reflexivity.
Qed.
Local Arguments sk_seat : simpl never.
Lemma class_at b c x e : bare e = sk -> at_path b sk = Some x -> by_class b c e = map (app b) (paths (has_class c) x).
Proof. intros E X. rewrite <- by_class_bare, E. unfold by_class, below. now rewrite X. Qed.
Lemma class_player e : bare e = sk -> by_class [] "player" e = map (place n) (map NSeat (seq 0 n)).
Proof.
  intros E. rewrite (class_at [] _ sk e E eq_refl), paths_page, paths_board. cbn. rewrite !flat_nil. cbn [map app].
  rewrite (flat_map_ext _ (fun i => [[(8 + i)%nat]])) by (intros i; rewrite paths_seat; cbn; rewrite flat_nil; reflexivity).
  rewrite flat_one, ?app_nil_r, !map_map. apply map_ext. reflexivity.
Qed.
Lemma class_player_background e : bare e = sk -> by_class [] "player-background" e = map (place n) (map NBack (seq 0 n)).
Proof.
  intros E. rewrite (class_at [] _ sk e E eq_refl), paths_page, paths_board. cbn. rewrite !flat_nil. cbn [map app].
  rewrite (flat_map_ext _ (fun i => [[(8 + i)%nat; 0%nat]])) by (intros i; rewrite paths_seat; cbn; rewrite flat_nil; reflexivity).
  rewrite flat_one, ?app_nil_r, !map_map. apply map_ext. reflexivity.
Qed.
Lemma class_button_background e : bare e = sk -> by_class [] "button-background" e = map (place n) (map NButtonBack (seq 0 n)).
Proof.
  intros E. rewrite (class_at [] _ sk e E eq_refl), paths_page, paths_board. cbn. rewrite !flat_nil. cbn [map app].
  rewrite (flat_map_ext _ (fun _ => [])) by (intros i; rewrite paths_seat; cbn; rewrite flat_nil; reflexivity).
  rewrite flat_nil, flat_one, ?app_nil_r. cbn [app]. rewrite !map_map. apply map_ext. reflexivity.
Qed.

Lemma at_seat i : (i < n)%nat -> at_path [(8 + i)%nat] sk = Some (sk_seat nh i).
Proof. intros H. unfold sk. rewrite at_sk, sk_kid_seat by exact H. reflexivity. Qed.
Lemma at_board : at_path [(8 + 2 * n)%nat] sk = Some (sk_board nc).
Proof. unfold sk. rewrite at_sk, sk_kid_board. reflexivity. Qed.
Lemma at_card l k : fits n nh nc (NCard l k) -> at_path (place n (NCard l k)) sk = Some (sk_card (lab l) k).
Proof.
  intros F. cbn [place]. destruct l as [i|]; cbn [cards_place app fits] in *; unfold sk; rewrite at_sk.
  - rewrite sk_kid_seat by tauto. change (at_path [1%nat; k] (sk_seat nh i)) with (at_path [k] (B "cards" (Some (labelled "cards" (slot_str i))) (map (sk_card (slot_str i)) (seq 0 nh)))).
    cbn [at_path B kids_of]. rewrite nth_map_seq. destruct (Nat.ltb_spec k nh); [reflexivity|lia].
  - rewrite sk_kid_board. change (at_path [0%nat; k] (sk_board nc)) with (at_path [k] (B "cards" (Some (labelled "cards" "community")) (map (sk_card "community") (seq 0 (S nc))))).
    set (m := S nc) in *. cbn [at_path B kids_of]. rewrite nth_map_seq. destruct (Nat.ltb_spec k m); [reflexivity|lia].
Qed.
Lemma class_seat_background e i : bare e = sk -> (i < n)%nat -> by_class [(8 + i)%nat] "card-background" e = map (place n) (map (NCardBack (Some i)) (seq 0 nh)).
Proof.
  intros E L. rewrite (class_at _ _ _ e E (at_seat i L)), paths_seat. cbn. rewrite flat_one, app_nil_r, !map_map. apply map_ext. reflexivity.
Qed.
Lemma class_seat_text e i : bare e = sk -> (i < n)%nat -> by_class [(8 + i)%nat] "card-text" e = map (place n) (map (NCardText (Some i)) (seq 0 nh)).
Proof.
  intros E L. rewrite (class_at _ _ _ e E (at_seat i L)), paths_seat. cbn. rewrite flat_one, app_nil_r, !map_map. apply map_ext. reflexivity.
Qed.
Lemma class_board_background e : bare e = sk -> by_class [(8 + 2 * n)%nat] "card-background" e = map (place n) (map (NCardBack None) (seq 0 (S nc))).
Proof.
  intros E. rewrite (class_at _ _ _ e E at_board), paths_board. cbv [String.eqb Ascii.eqb Bool.eqb in_card paths has_class sk_card attrs_of a_class B]. cbn [app map]. rewrite flat_one, app_nil_r, !map_map. apply map_ext. reflexivity.
Qed.
Lemma class_board_text e : bare e = sk -> by_class [(8 + 2 * n)%nat] "card-text" e = map (place n) (map (NCardText None) (seq 0 (S nc))).
Proof.
  intros E. rewrite (class_at _ _ _ e E at_board), paths_board. cbv [String.eqb Ascii.eqb Bool.eqb in_card paths has_class sk_card attrs_of a_class B]. cbn [app map]. rewrite flat_one, app_nil_r, !map_map. apply map_ext. reflexivity.
Qed.
Lemma class_card_background e l k : bare e = sk -> fits n nh nc (NCard l k) -> by_class (place n (NCard l k)) "card-background" e = [place n (NCardBack l k)].
Proof.
  intros E F. rewrite (class_at _ _ _ e E (at_card l k F)), paths_card. cbn. rewrite <- app_assoc. reflexivity.
Qed.
Lemma class_card_text e l k : bare e = sk -> fits n nh nc (NCard l k) -> by_class (place n (NCard l k)) "card-text" e = [place n (NCardText l k)].
Proof.
  intros E F. rewrite (class_at _ _ _ e E (at_card l k F)), paths_card. cbn. rewrite <- app_assoc. reflexivity.
Qed.

(** ** The functions of the script *)
Definition w_reset_player : list write :=
  flat_map (fun i => [WText (NChipsText i) (ustr "0")] ++ map (fun t => WFill t "url(#card-back)") (map (NCardBack (Some i)) (seq 0 nh)) ++
                     map (fun t => WText t []) (map (NCardText (Some i)) (seq 0 nh))) (seq 0 n) ++
  map (fun t => WFill t "#ffffff") (map NBack (seq 0 n)).
Lemma enumerate_map {A} (f : nat -> A) m : enumerate (map f (seq 0 m)) = map (fun i => (i, f i)) (seq 0 m).
Proof.
  unfold enumerate. rewrite map_length, seq_length. generalize 0%nat at 1 2 3. intros s. revert s. induction m as [|m IH]; intros s; [reflexivity|]. cbn [seq map combine]. now rewrite IH.
Qed.
Lemma flat_map_map {A B C} (f : B -> list C) (g : A -> B) l : flat_map f (map g l) = flat_map (fun x => f (g x)) l.
Proof. induction l as [|x l IH]; cbn; [reflexivity|now rewrite IH]. Qed.
Lemma reset_player_does : does reset_player w_reset_player.
Proof.
  intros e E. unfold reset_player. rewrite class_player by exact E. rewrite !map_map, enumerate_map.
  set (body := fun e ip => _).
  assert (D : does (fold_res body (map (fun i => (i, place n (NSeat i))) (seq 0 n)))
     (flat_map (fun i => [WText (NChipsText i) (ustr "0")] ++ map (fun t => WFill t "url(#card-back)") (map (NCardBack (Some i)) (seq 0 nh)) ++ map (fun t => WText t []) (map (NCardText (Some i)) (seq 0 nh))) (seq 0 n))).
  { match goal with |- does _ (flat_map ?g _) => pose (h := fun ip : nat * path => g (fst ip)); change (flat_map g (seq 0 n)) with (flat_map (fun i => h (i, place n (NSeat i))) (seq 0 n)); rewrite <- (flat_map_map h (fun i => (i, place n (NSeat i)))) end.
    apply does_fold. intros [i p] I. apply in_map_iff in I. destruct I as (j & J & I). injection J as -> <-. apply in_seq in I. subst h. cbn [fst].
    intros e1 E1. unfold body. cbv beta iota. change (place n (NSeat i)) with [(8 + i)%nat]. rewrite show_chips_text. rewrite (does_text _ (NChipsText i) _ [2%nat; 1%nat]) by (try exact E1; try reflexivity; try discriminate; cbn; lia). cbn [bind].
    set (e2 := apply [_] e1). assert (E2 : bare e2 = sk) by (unfold e2; now rewrite bare_apply).
    change (by_class [S (S (S (S (S (S (S (S i)))))))]) with (by_class [(8 + i)%nat]). rewrite class_seat_background by (try exact E2; lia). rewrite all_fill. set (e3 := apply _ e2). assert (E3 : bare e3 = sk) by (unfold e3; now rewrite bare_apply).
    rewrite class_seat_text by (try exact E3; lia). rewrite all_text. unfold e3, e2. now rewrite <- !apply_app, <- ?app_assoc. }
  rewrite (D e E). cbn [bind]. rewrite class_player_background by now rewrite bare_apply. rewrite all_fill, <- apply_app. reflexivity.
Qed.
Definition w_reset_community : list write :=
  [WFill (NCardBack None 0) "url(#card-back)"] ++ map (fun t => WFill t "url(#card-blank)") (map (NCardBack None) (seq 1 nc)) ++
  [WFill (NCardText None 0) "url(#card-back)"] ++ map (fun t => WText t []) (map (NCardText None) (seq 1 nc)) ++ [WText (Named ["pot"; "text"]%string) (ustr "0")].
Lemma reset_community_does : does reset_community w_reset_community.
Proof.
  intros e E. unfold reset_community. change "community"%string with (show (Named ["community"%string])).
  rewrite (id_found e [] (Named ["community"%string]) [(8 + 2 * n)%nat] E) by (first [discriminate|reflexivity|cbn; tauto]). cbn [bind].
  change (place n (Named ["community"%string])) with [(8 + 2 * n)%nat].
  rewrite class_board_background by exact E. cbn [seq map head_path bind tl].
  change (on_path (place n (NCardBack None 0)) (put_fill "url(#card-back)") e) with (apply [WFill (NCardBack None 0) "url(#card-back)"] e). rewrite all_fill, <- apply_app.
  match goal with |- context [apply ?l e] => set (e1 := apply l e) end. assert (E1 : bare e1 = sk) by (unfold e1; now rewrite bare_apply).
  rewrite class_board_text by exact E1. cbn [seq map head_path bind tl].
  change (on_path (place n (NCardText None 0)) (put_fill "url(#card-back)") e1) with (apply [WFill (NCardText None 0) "url(#card-back)"] e1). rewrite all_text, <- apply_app.
  match goal with |- context [apply ?l e1] => set (e2 := apply l e1) end. assert (E2 : bare e2 = sk) by (unfold e2; now rewrite bare_apply).
  change "pot-text"%string with (show (Named ["pot"; "text"]%string)). rewrite (does_text _ (Named ["pot"; "text"]%string) _ [1%nat; 1%nat]) by (try exact E2; try reflexivity; try discriminate; cbn; tauto).
  unfold e2, e1. rewrite <- !apply_app. unfold w_reset_community. now rewrite <- ?app_assoc.
Qed.
Definition w_reset_button : list write := map (fun t => WFill t "transparent") (map NButtonBack (seq 0 n)).
Lemma reset_button_does : does (fun e => Ok (reset_button e)) w_reset_button.
Proof. intros e E. unfold reset_button. rewrite class_button_background by exact E. now rewrite all_fill. Qed.

(** one card *)
Definition w_card (l : option nat) (k : nat) (s : list Z) : list write :=
  WText (NCardText l k) (card_value s) ::
  match colours (nth_error s 1) with
  | None => []
  | Some (f, c) => [WFill (NCardBack l k) f; WStroke (NCardText l k) c; WFill (NCardText l k) c]
  end.
Lemma update_card_does l k s : fits n nh nc (NCard l k) -> does (update_card (place n (NCard l k)) s) (w_card l k s).
Proof.
  intros F e E. unfold update_card, w_card. rewrite class_card_text by assumption. cbn [head_path bind].
  change (on_path (place n (NCardText l k)) (put_text (card_value s)) e) with (apply [WText (NCardText l k) (card_value s)] e).
  destruct (colours (nth_error s 1)) as [[f c]|]; [|reflexivity].
  rewrite class_card_background by (try assumption; now rewrite bare_apply). cbn [head_path bind].
  change (on_path (place n (NCardBack l k)) (put_fill f) (apply [WText (NCardText l k) (card_value s)] e)) with (apply [WFill (NCardBack l k) f] (apply [WText (NCardText l k) (card_value s)] e)).
  rewrite class_card_text by (try assumption; now rewrite !bare_apply). reflexivity.
Qed.
Definition w_player (j : jconfig) (ih : nat * list (list Z)) : list write :=
  [WText (NBetText (fst ih)) (js_num (j_street_commits j) (fst ih))] ++ [WText (NChipsText (fst ih)) (js_num (j_stacks j) (fst ih))] ++
  (if nth (fst ih) (j_active j) false then flat_map (fun ks => w_card (Some (fst ih)) (fst ks) (snd ks)) (enumerate (snd ih)) else []).
Lemma in_enumerate {A} (l : list A) i x : In (i, x) (enumerate l) <-> nth_error l i = Some x.
Proof.
  unfold enumerate. assert (H : forall s, In (i, x) (combine (seq s (List.length l)) l) <-> (s <= i)%nat /\ nth_error l (i - s) = Some x).
  { induction l as [|y l IH]; intros s; cbn [List.length seq combine].
    - split; [intros []|]. intros [_ E]. destruct (i - s)%nat; discriminate E.
    - cbn [In]. rewrite IH. split.
      + intros [E|[L E]]; [injection E as -> ->; rewrite Nat.sub_diag; auto|]. split; [lia|]. replace (i - s)%nat with (S (i - S s)) by lia. exact E.
      + intros [L E]. destruct (Nat.eq_dec s i) as [->|N]; [rewrite Nat.sub_diag in E; injection E as ->; now left|]. right. split; [lia|]. replace (i - s)%nat with (S (i - S s)) in E by lia. exact E. }
  rewrite H. replace (i - 0)%nat with i by lia. intuition lia.
Qed.
Lemma nodup_enumerate {A} (l : list A) : NoDup (enumerate l).
Proof.
  unfold enumerate. generalize 0%nat. induction l as [|x l IH]; intros s; cbn; constructor; [|apply IH]. intros I. apply in_combine_l, in_seq in I. lia.
Qed.
Lemma update_players_does j : (List.length (js_hands (j_hole_cards j)) <= n)%nat -> (forall h, In h (js_hands (j_hole_cards j)) -> (List.length h <= nh)%nat) ->
  does (update_players j) (flat_map (w_player j) (enumerate (js_hands (j_hole_cards j)))).
Proof.
  intros L H. unfold update_players. apply does_fold. intros [i cards] I. apply in_enumerate in I. assert (IL : (i < n)%nat) by (apply Nat.lt_le_trans with (2 := L); apply nth_error_Some; congruence).
  pose proof (H cards (nth_error_In _ _ I)) as HL.
  unfold w_player. cbn [fst snd]. rewrite show_bet_text, show_chips_text.
  apply (does_bind _ (fun e => let* e0 := set_by_id [] (show (NChipsText i)) (put_text (js_num (j_stacks j) i)) e in _)).
  { apply (does_text [] (NBetText i) _ (place n (NBetText i))); [exact IL|reflexivity|discriminate]. }
  apply (does_bind _ (fun e => if nth i (j_active j) false then _ else Ok e)).
  { apply (does_text [] (NChipsText i) _ (place n (NChipsText i))); [exact IL|reflexivity|discriminate]. }
  destruct (nth i (j_active j) false); [|intros e E; reflexivity].
  apply does_fold. intros [k s] K. apply in_enumerate in K. assert (KL : (k < nh)%nat) by (apply Nat.lt_le_trans with (2 := HL); apply nth_error_Some; congruence). cbn [fst snd].
  intros e E. change (slot_str i) with (lab (Some i)). rewrite show_card. rewrite (id_found e [] (NCard (Some i) k) (place n (NCard (Some i) k)) E) by (first [discriminate|reflexivity|cbn; auto]). cbn [bind].
  apply update_card_does; [cbn; auto|exact E].
Qed.
Definition board_strings (j : jconfig) : list (list Z) := match j_community_cards j with CCards l => l | CHands _ => [] end.
Definition w_community (j : jconfig) : list write :=
  flat_map (fun ks => w_card None (fst ks + 1) (snd ks)) (enumerate (board_strings j)) ++ [WText (Named ["pot"; "text"]%string) (str_int (j_pot j))].
Lemma update_community_does j : (List.length (board_strings j) <= nc)%nat -> does (update_community j) (w_community j).
Proof.
  intros L. unfold update_community, w_community. fold (board_strings j).
  apply (does_bind _ (fun e => set_by_id [] "pot-text" (put_text (str_int (j_pot j))) e)).
  - apply does_fold. intros [k s] K. apply in_enumerate in K. assert (KL : (k < nc)%nat) by (apply Nat.lt_le_trans with (2 := L); apply nth_error_Some; congruence). cbn [fst snd].
    intros e E. change "card-community"%string with (labelled "card" (lab None)). rewrite show_card. rewrite (id_found e [] (NCard None (k + 1)) (place n (NCard None (k + 1))) E) by (first [discriminate|reflexivity|cbn; lia]). cbn [bind].
    apply update_card_does; [cbn; lia|exact E].
  - change "pot-text"%string with (show (Named ["pot"; "text"]%string)). apply (does_text [] (Named ["pot"; "text"]%string) _ (place n (Named ["pot"; "text"]%string))); [cbn; tauto|reflexivity|discriminate].
Qed.
Lemma js_int_nat z : 0 <= z -> js_int z = slot_str (Z.to_nat z).
Proof. intros H. unfold js_int. destruct (Z.ltb_spec z 0); [lia|reflexivity]. Qed.
Lemma update_button_does j : 0 <= j_button j < Z.of_nat n -> does (update_button j) [WFill (NButtonBack (Z.to_nat (j_button j))) "url(#dealer)"].
Proof.
  intros H. unfold update_button. rewrite js_int_nat, show_button_back by lia.
  apply (does_fill [] (NButtonBack _) _ (place n (NButtonBack (Z.to_nat (j_button j))))); [cbn; lia|reflexivity|discriminate].
Qed.
Definition w_action (j : jconfig) : list write := if 0 <=? j_action j then [WFill (NBack (Z.to_nat (j_action j))) "#000000"] else [].
Lemma update_action_does j : j_action j < Z.of_nat n -> does (update_action j) (w_action j).
Proof.
  intros H. unfold update_action, w_action. destruct (Z.leb_spec 0 (j_action j)); [|intros e E; reflexivity]. rewrite js_int_nat, show_back by lia.
  apply (does_fill [] (NBack _) _ (place n (NBack (Z.to_nat (j_action j))))); [cbn; lia|reflexivity|discriminate].
Qed.
Definition w_reset : list write := w_reset_player ++ w_reset_community ++ w_reset_button.
Definition w_update (j : jconfig) : list write :=
  flat_map (w_player j) (enumerate (js_hands (j_hole_cards j))) ++ w_community j ++ [WFill (NButtonBack (Z.to_nat (j_button j))) "url(#dealer)"] ++ w_action j.
(** configurations that fit on the page *)
Record suits_page (j : jconfig) : Prop := mkSuitsPage {
  sp_players : (List.length (js_hands (j_hole_cards j)) <= n)%nat;
  sp_hands : forall h, In h (js_hands (j_hole_cards j)) -> (List.length h <= nh)%nat;
  sp_board : (List.length (board_strings j) <= nc)%nat;
  sp_button : 0 <= j_button j < Z.of_nat n;
  sp_action : j_action j < Z.of_nat n
}.
Lemma on_config_does j : suits_page j -> does (on_config (Some j)) (w_reset ++ w_update j).
Proof.
  intros [S1 S2 S3 S4 S5]. unfold on_config, w_reset, w_update. rewrite <- !app_assoc.
  apply (does_bind _ (fun e => let* e := reset_community e in _)); [apply reset_player_does|].
  apply (does_bind _ (fun e => let e := reset_button e in _)); [apply reset_community_does|].
  apply (does_bind (fun e => Ok (reset_button e)) (fun e => let* e := update_players j e in _)); [apply reset_button_does|].
  apply (does_bind _ (fun e => let* e := update_community j e in _)); [now apply update_players_does|].
  apply (does_bind _ (fun e => let* e := update_button j e in _)); [now apply update_community_does|].
  apply (does_bind _ (fun e => update_action j e)); [now apply update_button_does|now apply update_action_does].
Qed.
Lemma on_config_empty_does : does (on_config None) w_reset.
Proof.
  unfold on_config, w_reset.
  apply (does_bind _ (fun e => let* e := reset_community e in _)); [apply reset_player_does|].
  apply (does_bind _ (fun e => let e := reset_button e in _)); [apply reset_community_does|].
  apply reset_button_does.
Qed.
End Page.
