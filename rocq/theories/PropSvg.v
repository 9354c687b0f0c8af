(** * PropSvg: C58 and C59, the table in the browser *)
From Coq Require Import ZifyBool ZifyNat Arith Lqa DecimalNat DecimalN.
From Verif Require Import PyBase PyFacts CardModel CardSpec CardProofs EngineModel AsciiModel JsonModel SvgModel SvgFacts SvgIds SvgPage SvgShow PropJson EngineDemo PropText.

(** ** Specification *)
(** an element of the page: the page itself or an element inside one of its children *)
Inductive inside (x : elem) : elem -> Prop :=
| inside_here : inside x x
| inside_kid t a kids k : In k kids -> inside x k -> inside x (Elem t a kids).
(** all identifiers, in document order *)
Fixpoint ids (e : elem) : list string :=
  match e with Elem _ a kids => (match a_id a with Some i => [i] | None => [] end) ++ flat_map ids kids end.
(** identifiers with one and with two numbers *)
Definition name1 (p : string) (i : nat) : string := append p (append "-" (slot_str i)).
Definition name2 (p : string) (i k : nat) : string := append p (append "-" (append (slot_str i) (append "-" (slot_str k)))).
(** the element with an identifier *)
Definition element (e : elem) (i : string) (x : elem) : Prop := inside x e /\ a_id (attrs_of x) = Some i.
Definition reads (e : elem) (i : string) (v : list Z) : Prop := exists x, element e i x /\ a_text (attrs_of x) = v.
Definition painted (e : elem) (i : string) (v : string) : Prop := exists x, element e i x /\ a_fill (attrs_of x) = Some v.

(** what a card looks like: its value, the pattern with the suit, and the colour of the value *)
Definition looks_of_suit (suit : Z) : string * string :=
  if suit =? 9824 then ("url(#card-spade)", "black")%string else if suit =? 9829 then ("url(#card-heart)", "red")%string
  else if suit =? 9830 then ("url(#card-diamond)", "red")%string else ("url(#card-club)", "black")%string.
Definition value_text (c : card) : list Z := if c_rank c =? 84 then ustr "10" else [c_rank c].
(** a card lying open, or only its [back] *)
Definition lies (e : elem) (card_text card_background : string) (back : string) (o : option card) : Prop :=
  match o with
  | Some c => reads e card_text (value_text c) /\ painted e card_text (snd (looks_of_suit (c_suit c))) /\ painted e card_background (fst (looks_of_suit (c_suit c)))
  | None => reads e card_text [] /\ painted e card_background back
  end.
Definition genuine (c : card) : Prop := exists s, Card s = Ok c.
(** a configuration for [n] players with at most [nh] cards each and at most [nc] on the board; before the first
    hand there are no hole cards *)
Record drawable (n nh nc : nat) (r : rconfig) : Prop := mkDrawable {
  fg_active : List.length (rc_active r) = n;
  fg_commits : List.length (rc_street_commits r) = n;
  fg_stacks : List.length (rc_stacks r) = n;
  fg_dealt : (List.length (rc_hole_cards r) <= n)%nat;
  fg_button : 0 <= rc_button r < Z.of_nat n;
  fg_action : rc_action r < Z.of_nat n;
  fg_hands : Forall (fun h => (List.length h <= nh)%nat) (rc_hole_cards r);
  fg_board : (List.length (rc_community_cards r) <= nc)%nat
}.
(** the same with cards dealt *)
Record for_page (n nh nc : nat) (r : rconfig) : Prop := mkForPage {
  fg_drawable : drawable n nh nc r;
  fg_hole : List.length (rc_hole_cards r) = n;
  fg_genuine : Forall genuine (List.concat (rc_hole_cards r)) /\ Forall genuine (rc_community_cards r)
}.
(** the page shows the configuration: everybody's stack and bet, the cards of those who are in the hand (of
    the others only the backs), the board, the pot, the button, and whose turn it is *)
Record page_shows (n nh nc : nat) (r : rconfig) (e : elem) : Prop := mkPageShows {
  ps_stack : forall i, (i < n)%nat -> reads e (name1 "chips-text" i) (str_int (nth i (rc_stacks r) 0));
  ps_bet : forall i, (i < n)%nat -> reads e (name1 "street-commit-text" i) (str_int (nth i (rc_street_commits r) 0));
  ps_hand : forall i k, (i < n)%nat -> (k < nh)%nat ->
    lies e (name2 "card-text" i k) (name2 "card-background" i k) "url(#card-back)"
      (if nth i (rc_active r) false then nth_error (nth i (rc_hole_cards r) []) k else None);
  ps_board : forall k, (k < nc)%nat ->
    lies e (name1 "card-text-community" (S k)) (name1 "card-background-community" (S k)) "url(#card-blank)" (nth_error (rc_community_cards r) k);
  ps_deck : painted e (name1 "card-background-community" 0) "url(#card-back)";
  ps_pot : reads e "pot-text" (str_int (rc_pot r));
  ps_button : forall i, (i < n)%nat -> painted e (name1 "button-background" i) (if Z.of_nat i =? rc_button r then "url(#dealer)"%string else "transparent"%string);
  ps_turn : forall i, (i < n)%nat -> painted e (name1 "player-background" i) (if Z.of_nat i =? rc_action r then "#000000"%string else "#ffffff"%string)
}.
(** a page that gets messages; [None] is the empty configuration *)
Definition receive (ms : list (option rconfig)) (e : elem) : result elem :=
  fold_res (fun e m => on_config (option_map jsonify m) e) ms e.

(** ** Proofs *)
Lemma inside_path x e : inside x e <-> exists p, at_path p e = Some x.
Proof.
  split.
  - induction 1 as [|t a kids k I _ (p & P)]; [exists []; reflexivity|]. apply In_nth_error in I. destruct I as (i & I). exists (i :: p). cbn [at_path kids_of]. now rewrite I.
  - intros (p & P). revert e P. induction p as [|i p IH]; intros [t a kids] P; [injection P as <-; constructor|]. cbn [at_path kids_of] in P.
    destruct (nth_error kids i) as [k|] eqn:E; [|discriminate P]. econstructor; [eapply nth_error_In; exact E|now apply IH].
Qed.
Lemma in_ids s : forall e, In s (ids e) <-> exists p x, at_path p e = Some x /\ a_id (attrs_of x) = Some s.
Proof.
  apply elem_induct. intros t a kids IH. cbn [ids]. rewrite in_app_iff, in_flat_map. split.
  - intros [H|(k & K & H)].
    + destruct (a_id a) as [i|] eqn:A; [|destruct H]. destruct H as [->|[]]. exists [], (Elem t a kids). auto.
    + rewrite Forall_forall in IH. apply (IH k K) in H. destruct H as (p & x & P & X). apply In_nth_error in K. destruct K as (i & I). exists (i :: p), x. cbn [at_path kids_of]. rewrite I. auto.
  - intros (p & x & P & X). destruct p as [|i p].
    + injection P as <-. cbn [attrs_of] in X. rewrite X. left. now left.
    + cbn [at_path kids_of] in P. destruct (nth_error kids i) as [k|] eqn:E; [|discriminate P]. right. apply nth_error_In in E. exists k. split; [exact E|].
      rewrite Forall_forall in IH. apply (IH k E). exists p, x. auto.
Qed.
Lemma nodup_flat {A B} (f : A -> list B) l : (forall k, In k l -> NoDup (f k)) ->
  (forall i j k k' s, nth_error l i = Some k -> nth_error l j = Some k' -> In s (f k) -> In s (f k') -> i = j) -> NoDup (flat_map f l).
Proof.
  induction l as [|x l IH]; intros N D; [constructor|]. cbn [flat_map]. apply NoDup_app; [apply N; now left|apply IH|].
  - intros k K. apply N. now right.
  - intros i j k k' s I J S1 S2. assert (S i = S j) by (apply (D (S i) (S j) k k' s); assumption). lia.
  - intros s S1 S2. apply in_flat_map in S2. destruct S2 as (k & K & S2). apply In_nth_error in K. destruct K as (i & I). discriminate (D 0%nat (S i) x k s eq_refl I S1 S2).
Qed.
Lemma unique_nodup : forall e, unique_ids e -> NoDup (ids e).
Proof.
  apply (elem_induct (fun e => unique_ids e -> NoDup (ids e))). intros t a kids IH U. cbn [ids]. rewrite Forall_forall in IH.
  assert (S : forall i k p x, nth_error kids i = Some k -> at_path p k = Some x -> at_path (i :: p) (Elem t a kids) = Some x) by (intros i k p x I P; cbn [at_path kids_of]; now rewrite I).
  assert (F : NoDup (flat_map ids kids)).
  { apply nodup_flat.
    - intros k K. apply (IH k K). apply In_nth_error in K. destruct K as (i & I). intros p q x y s P Q X Y. assert (i :: p = i :: q) by (eapply U; [eapply S; eassumption..|exact X|exact Y]). congruence.
    - intros i j k k' s I J A B. apply in_ids in A, B. destruct A as (p & x & P & X), B as (q & y & Q & Y). assert (i :: p = j :: q) by (eapply U; [eapply S; eassumption..|exact X|exact Y]). congruence. }
  destruct (a_id a) as [s|] eqn:A; [|exact F]. cbn [app]. constructor; [|exact F]. intros I. apply in_flat_map in I. destruct I as (k & K & I). apply in_ids in I. destruct I as (p & x & P & X).
  apply In_nth_error in K. destruct K as (i & K). assert ([] = i :: p) by (eapply U; [reflexivity|eapply S; eassumption|exact A|exact X]). congruence.
Qed.
Lemma bare_ids e : forall e', bare e = bare e' -> ids e = ids e'.
Proof.
  assert (H : forall e, ids (bare e) = ids e).
  { apply elem_induct. intros t a kids IH. cbn [bare ids bare_attrs a_id]. f_equal. induction IH as [|k r K _ R]; [reflexivity|]. cbn [map flat_map]. now rewrite K, R. }
  intros e' E. now rewrite <- (H e), <- (H e'), E.
Qed.
Lemma page_nodup n nh nc e : bare e = sk_page n nh nc -> NoDup (ids e).
Proof.
  intros E. rewrite (bare_ids e (sk_page n nh nc)); [apply unique_nodup, sk_unique|]. rewrite E. symmetry. 
  assert (H : forall e, bare (bare e) = bare e) by (apply elem_induct; intros t a kids IH; cbn [bare]; f_equal; induction IH as [|k r K _ R]; [reflexivity|]; cbn [map]; now rewrite K, R).
  now rewrite <- E, H.
Qed.

(** reading an element by its place *)
Lemma read_at n nh nc e t v : bare e = sk_page n nh nc -> fits n nh nc t -> text (place n t) e = Some v -> reads e (show t) v.
Proof.
  intros E F T. unfold text, look in T. destruct (at_path (place n t) e) as [x|] eqn:P; [|discriminate T]. injection T as <-. exists x. split; [|reflexivity]. split; [apply inside_path; now exists (place n t)|].
  destruct (place_at n nh nc t F) as (y & Y & I). rewrite <- E, at_path_bare, P in Y. injection Y as <-. destruct x as [t' a k]. exact I.
Qed.
Lemma paint_at n nh nc e t v : bare e = sk_page n nh nc -> fits n nh nc t -> fill (place n t) e = Some (Some v) -> painted e (show t) v.
Proof.
  intros E F T. unfold fill, look in T. destruct (at_path (place n t) e) as [x|] eqn:P; [|discriminate T]. injection T as T. exists x. split; [|exact T]. split; [apply inside_path; now exists (place n t)|].
  destruct (place_at n nh nc t F) as (y & Y & I). rewrite <- E, at_path_bare, P in Y. injection Y as <-. destruct x as [t' a k]. exact I.
Qed.
Lemma there n nh nc e t : bare e = sk_page n nh nc -> fits n nh nc t -> exists a, look (place n t) e = Some a.
Proof.
  intros E F. destruct (place_at n nh nc t F) as (y & Y & I). rewrite <- E, at_path_bare in Y. unfold look. destruct (at_path (place n t) e); [eexists; reflexivity|discriminate Y].
Qed.
Lemma read_after n nh nc e t l v : bare e = sk_page n nh nc -> fit n nh nc l -> fits n nh nc t -> last_text t l = Some v -> reads (apply n l e) (show t) v.
Proof.
  intros E L F T. eapply read_at; [rewrite bare_apply; exact E|exact F|]. rewrite (text_apply n nh nc) by assumption. rewrite T. unfold text. destruct (there n nh nc e t E F) as (a & ->). reflexivity.
Qed.
Lemma paint_after n nh nc e t l v : bare e = sk_page n nh nc -> fit n nh nc l -> fits n nh nc t -> last_fill t l = Some v -> painted (apply n l e) (show t) v.
Proof.
  intros E L F T. eapply paint_at; [rewrite bare_apply; exact E|exact F|]. rewrite (fill_apply n nh nc) by assumption. rewrite T. unfold fill. destruct (there n nh nc e t E F) as (a & ->). reflexivity.
Qed.

(** the names *)
Lemma name1_show p i t : labelled p (slot_str i) = show t -> name1 p i = show t.
Proof. intros <-. reflexivity. Qed.
Lemma name2_show p i k : name2 p i k = labelled (labelled p (slot_str i)) (slot_str k).
Proof. unfold name2, labelled. now rewrite !app_str. Qed.

(** the converted configuration *)
Lemma json_hands hs : js_hands (convert_hands (map IHand hs)) = map (map card_str) hs.
Proof.
  unfold convert_hands. destruct (convert_hands_fold hs [] []) as (cs' & E). pose proof E as E'. rewrite E. cbn [app]. destruct hs as [|h hs]; [cbn in E'; injection E' as <-; reflexivity|reflexivity].
Qed.
Lemma json_board r : board_strings (jsonify r) = map card_str (rc_community_cards r).
Proof. unfold board_strings. cbn [jsonify j_community_cards]. unfold convert_hands. now rewrite convert_cards. Qed.
Lemma drawable_suits n nh nc r : drawable n nh nc r -> suits_page n nh nc (jsonify r).
Proof.
  intros F. split.
  - cbn [jsonify j_hole_cards]. rewrite json_hands, map_length. apply (fg_dealt _ _ _ _ F).
  - cbn [jsonify j_hole_cards]. rewrite json_hands. intros h H. apply in_map_iff in H. destruct H as (h' & <- & H). rewrite map_length. pose proof (fg_hands _ _ _ _ F) as G. rewrite Forall_forall in G. now apply G.
  - rewrite json_board, map_length. apply (fg_board _ _ _ _ F).
  - apply (fg_button _ _ _ _ F).
  - apply (fg_action _ _ _ _ F).
Qed.
Lemma genuine_looks c : genuine c -> colours (Some (c_suit c)) = Some (looks_of_suit (c_suit c)).
Proof.
  intros (s & S). apply parsed_card in S. destruct S as (i & k & I & K & ->). do 4 (destruct k as [|k]; [reflexivity|]). lia.
Qed.
Lemma genuine_value c : genuine c -> card_value (card_str c) = value_text c.
Proof.
  intros (s & S). apply parsed_card in S. destruct S as (i & k & I & K & ->). unfold card_value, value_text. cbn [card_str nth_error]. 
  do 13 (destruct i as [|i]; [reflexivity|]). lia.
Qed.
Lemma js_num_nth l i : (i < List.length l)%nat -> js_num l i = str_int (nth i l 0).
Proof. intros H. unfold js_num. now rewrite (nth_error_nth' l 0 H). Qed.

Lemma shows_after n nh nc r e : bare e = sk_page n nh nc -> for_page n nh nc r ->
  page_shows n nh nc r (apply n (w_reset n nh nc ++ w_update (jsonify r)) e).
Proof.
  intros E F. pose proof (drawable_suits _ _ _ _ (fg_drawable _ _ _ _ F)) as S. pose proof (W_fit n nh nc (jsonify r) S) as L.
  assert (H : forall i, (i < n)%nat -> (i < List.length (js_hands (j_hole_cards (jsonify r))))%nat) by (intros i I; cbn [jsonify j_hole_cards]; rewrite json_hands, map_length, (fg_hole _ _ _ _ F); exact I).
  assert (RD : forall t v, fits n nh nc t -> last_text t (w_reset n nh nc ++ w_update (jsonify r)) = Some v -> reads (apply n (w_reset n nh nc ++ w_update (jsonify r)) e) (show t) v) by (intros t v; apply (read_after n nh nc e t); assumption).
  assert (PT : forall t v, fits n nh nc t -> last_fill t (w_reset n nh nc ++ w_update (jsonify r)) = Some v -> painted (apply n (w_reset n nh nc ++ w_update (jsonify r)) e) (show t) v) by (intros t v; apply (paint_after n nh nc e t); assumption).
  set (e' := apply n _ e) in *. clearbody e'.
  assert (CARD : forall l k back o, fits n nh nc (NCard l k) -> (forall c, o = Some c -> genuine c) ->
      last_text (NCardText l k) (w_reset n nh nc ++ w_update (jsonify r)) = Some (match option_map card_str o with Some s => card_value s | None => [] end) ->
      last_fill (NCardBack l k) (w_reset n nh nc ++ w_update (jsonify r)) = match option_map card_str o with Some s => match colours (nth_error s 1) with Some (f, _) => Some f | None => Some back end | None => Some back end ->
      (forall s f c, option_map card_str o = Some s -> colours (nth_error s 1) = Some (f, c) -> last_fill (NCardText l k) (w_reset n nh nc ++ w_update (jsonify r)) = Some c) ->
      lies e' (labelled (labelled "card-text" (lab l)) (slot_str k)) (labelled (labelled "card-background" (lab l)) (slot_str k)) back o).
  { intros l k back o FT G T1 T2 T3. rewrite show_card_text, show_card_back. unfold lies. destruct o as [c|]; cbn [option_map] in *.
    - specialize (G c eq_refl). pose proof (genuine_looks c G) as C. change (nth_error (card_str c) 1) with (Some (c_suit c)) in T2. rewrite C in T2. rewrite (genuine_value c G) in T1.
      destruct (looks_of_suit (c_suit c)) as [f col] eqn:LK. cbn [fst snd]. split; [|split].
      + apply RD; [exact FT|exact T1].
      + apply PT; [exact FT|]. exact (T3 _ f col eq_refl C).
      + apply PT; [exact FT|exact T2].
    - split; [apply RD; [exact FT|exact T1]|apply PT; [exact FT|exact T2]]. }
  split.
  - intros i I. unfold name1. change (append _ _) with (labelled "chips-text" (slot_str i)). rewrite show_chips_text. apply RD; [exact I|]. rewrite W_chips by now apply H. cbn [jsonify j_stacks]. rewrite js_num_nth by (rewrite (fg_stacks _ _ _ _ (fg_drawable _ _ _ _ F)); exact I). reflexivity.
  - intros i I. unfold name1. change (append _ _) with (labelled "street-commit-text" (slot_str i)). rewrite show_bet_text. apply RD; [exact I|]. rewrite W_bet by now apply H. cbn [jsonify j_street_commits]. rewrite js_num_nth by (rewrite (fg_commits _ _ _ _ (fg_drawable _ _ _ _ F)); exact I). reflexivity.
  - intros i k I K. rewrite !name2_show. change (slot_str i) with (lab (Some i)).
    set (o := if nth i (rc_active r) false then _ else _).
    assert (OH : nth_error (open_hand (jsonify r) i) k = option_map card_str o).
    { unfold open_hand, o. cbn [jsonify j_hole_cards j_active]. rewrite json_hands. destruct (nth i (rc_active r) false); [|now destruct k].
      change [] with (map card_str []) at 1. rewrite map_nth, nth_error_map. reflexivity. }
    assert (G : forall c, o = Some c -> genuine c).
    { intros c. unfold o. destruct (nth i (rc_active r) false); [|discriminate]. intros N. apply nth_error_In in N. pose proof (proj1 (fg_genuine _ _ _ _ F)) as G. rewrite Forall_forall in G. apply G.
      apply in_concat. exists (nth i (rc_hole_cards r) []). split; [apply nth_In; rewrite (fg_hole _ _ _ _ F); exact I|exact N]. }
    apply CARD; [cbn; auto|exact G|rewrite W_card_text, OH by assumption; reflexivity|rewrite W_card_back, OH by assumption; reflexivity|].
    intros s f c Q C. eapply W_card_colour; [rewrite OH; exact Q|exact C].
  - intros k K. unfold name1. rewrite <- Nat.add_1_r. change (append "card-text-community" (append "-" (slot_str (k + 1)))) with (labelled (labelled "card-text" (lab None)) (slot_str (k + 1))).
    change (append "card-background-community" (append "-" (slot_str (k + 1)))) with (labelled (labelled "card-background" (lab None)) (slot_str (k + 1))).
    assert (OB : nth_error (board_strings (jsonify r)) k = option_map card_str (nth_error (rc_community_cards r) k)) by (rewrite json_board, nth_error_map; reflexivity).
    apply CARD; [cbn; lia| |rewrite W_board_text, OB by assumption; reflexivity|rewrite W_board_back, OB by assumption; reflexivity|].
    + intros c N. apply nth_error_In in N. pose proof (proj2 (fg_genuine _ _ _ _ F)) as G. rewrite Forall_forall in G. now apply G.
    + intros s f c Q C. eapply W_board_colour; [rewrite OB; exact Q|exact C].
  - unfold name1. change (append "card-background-community" (append "-" (slot_str 0))) with (labelled (labelled "card-background" (lab None)) (slot_str 0)). rewrite show_card_back. apply PT; [cbn; lia|]. apply W_deck.
  - change "pot-text"%string with (show (Named ["pot"; "text"]%string)). apply RD; [cbn; tauto|]. apply W_pot.
  - intros i I. unfold name1. change (append _ _) with (labelled "button-background" (slot_str i)). rewrite show_button_back. apply PT; [exact I|]. rewrite W_button; [reflexivity|exact I|]. apply (fg_button _ _ _ _ (fg_drawable _ _ _ _ F)).
  - intros i I. unfold name1. change (append _ _) with (labelled "player-background" (slot_str i)). rewrite show_back. apply PT; [exact I|]. rewrite W_action by exact I. reflexivity.
Qed.
Lemma receive_keeps n nh nc ms : Forall (fun m => match m with Some r => drawable n nh nc r | None => True end) ms -> forall e, bare e = sk_page n nh nc ->
  exists e', receive ms e = Ok e' /\ bare e' = sk_page n nh nc.
Proof.
  induction 1 as [|m ms M _ IH]; intros e E; [exists e; auto|]. unfold receive in *. cbn [fold_res].
  destruct m as [r|]; cbn [option_map].
  - rewrite (on_config_does n nh nc _ (drawable_suits _ _ _ _ M) e E). cbn [bind]. apply IH. now rewrite bare_apply.
  - rewrite (on_config_empty_does n nh nc e E). cbn [bind]. apply IH. now rewrite bare_apply.
Qed.
Lemma receive_app ms m e e1 : receive ms e = Ok e1 -> receive (ms ++ [m]) e = on_config (option_map jsonify m) e1.
Proof.
  unfold receive. revert e. induction ms as [|m' ms IH]; intros e H; cbn [app fold_res] in *.
  - injection H as ->. destruct (on_config (option_map jsonify m) e1); reflexivity.
  - destruct (on_config (option_map jsonify m') e) as [e2|]; [|discriminate H]. cbn [bind] in *. now apply IH.
Qed.

(** C59: whatever configurations a page has got before, after a configuration it shows exactly this one;
    no message makes the script fail. *)
Theorem C59_page : forall n nh nc seat_at commit_at ms r,
  Forall (fun m => match m with Some r => drawable n nh nc r | None => True end) ms -> for_page n nh nc r ->
  exists e0 e, base_svg (Z.of_nat n) (Z.of_nat nh) (Z.of_nat nc) seat_at commit_at = Ok e0 /\
    receive (ms ++ [Some r]) e0 = Ok e /\ NoDup (ids e) /\ page_shows n nh nc r e.
Proof.
  intros n nh nc sa ca ms r M F. exists (drawing n (Z.of_nat nh) (Z.of_nat nc) sa ca).
  pose proof (bare_drawing n (Z.of_nat nh) (Z.of_nat nc) sa ca ltac:(lia)) as B. rewrite !Nat2Z.id in B.
  destruct (receive_keeps n nh nc ms M _ B) as (e1 & R1 & B1). exists (apply n (w_reset n nh nc ++ w_update (jsonify r)) e1).
  split; [apply base_svg_form; lia|]. split; [|split].
  - rewrite (receive_app _ _ _ _ R1). cbn [option_map]. apply (on_config_does n nh nc); [apply drawable_suits, (fg_drawable _ _ _ _ F)|exact B1].
  - apply (page_nodup n nh nc). now rewrite bare_apply.
  - now apply shows_after.
Qed.
Print Assumptions C59_page.

(** ** C58: the drawing *)
(** a part: an element inside [e] with this class and identifier *)
Definition part (e : elem) (class id : string) (x : elem) : Prop := element e id x /\ a_class (attrs_of x) = class.
Definition has_part (e : elem) (class id : string) : Prop := exists x, part e class id x.
(** a card with its background and its text *)
Definition card_parts (e : elem) (label : string) (k : nat) : Prop :=
  exists card, part e "card" (name1 (append "card-" label) k) card /\
    has_part card "card-background" (name1 (append "card-background-" label) k) /\ has_part card "card-text" (name1 (append "card-text-" label) k).
Lemma part_kid e c i x k : In k (kids_of e) -> part k c i x -> part e c i x.
Proof. destruct e as [t a kids]. intros K [[I D] C]. split; [split; [econstructor; eassumption|exact D]|exact C]. Qed.
Lemma part_self c i x : a_id (attrs_of x) = Some i -> a_class (attrs_of x) = c -> part x c i x.
Proof. intros I C. split; [split; [constructor|exact I]|exact C]. Qed.
Lemma has_kid e c i k : In k (kids_of e) -> a_id (attrs_of k) = Some i -> a_class (attrs_of k) = c -> has_part e c i.
Proof. intros K I C. exists k. eapply part_kid; [exact K|now apply part_self]. Qed.
Lemma has_deeper e c i k : In k (kids_of e) -> has_part k c i -> has_part e c i.
Proof. intros K (x & X). exists x. eapply part_kid; eassumption. Qed.
Lemma ids_of_bare n nh nc e s : bare e = sk_page n nh nc -> In s (ids e) <-> exists t, fits n nh nc t /\ s = show t.
Proof.
  intros E. rewrite in_ids. split.
  - intros (p & x & P & X). destruct (place_inv n nh nc p (bare x) s) as (t & T & S & _); [rewrite <- E, at_path_bare, P; reflexivity|destruct x; exact X|]. now exists t.
  - intros (t & T & ->). destruct (place_at n nh nc t T) as (y & Y & I). rewrite <- E, at_path_bare in Y. destruct (at_path (place n t) e) as [x|] eqn:P; [|discriminate Y]. injection Y as <-. exists (place n t), x. split; [exact P|]. destruct x. exact I.
Qed.
Lemma card_like_parts c label k x e : card_like c -> a_class (attrs_of c) = "card"%string -> In (card_elem c label k x) (kids_of e) -> card_parts e label k.
Proof.
  intros (t & t1 & t2 & [c0 i0 x0 y0 w0 h0 v0 f0 s0 u0] & i1 & x1 & y1 & w1 & h1 & v1 & f1 & s1 & u1 & i2 & x2 & y2 & w2 & h2 & v2 & f2 & s2 & u2 & ->) H I. cbn in H. subst c0.
  exists (card_elem (Elem t (mkAttrs "card" i0 x0 y0 w0 h0 v0 f0 s0 u0) [Elem t1 (mkAttrs "card-background" i1 x1 y1 w1 h1 v1 f1 s1 u1) []; Elem t2 (mkAttrs "card-text" i2 x2 y2 w2 h2 v2 f2 s2 u2) []]) label k x).
  split; [|split].
  - eapply part_kid; [exact I|]. apply part_self; reflexivity.
  - eapply has_kid; [left; reflexivity|reflexivity|reflexivity].
  - eapply has_kid; [right; left; reflexivity|reflexivity|reflexivity].
Qed.
Lemma in_drawing n nh nc sa ca x : In x (kids_of (drawing n nh nc sa ca)) <->
  In x (kids_of patterns_file) \/ x = the_table \/ (exists i, (i < n)%nat /\ x = seat nh sa i) \/ (exists i, (i < n)%nat /\ x = bet_place ca i) \/ x = board_placed nc.
Proof.
  unfold drawing. cbn [kids_of]. rewrite !in_app_iff, !in_map_iff. split.
  - intros [H|[H|[H|[H|H]]]]; [now left|right; left; destruct H as [H|[]]; now symmetry| | |].
    + destruct H as (i & <- & I). apply in_seq in I. right. right. left. exists i. split; [lia|reflexivity].
    + destruct H as (i & <- & I). apply in_seq in I. right. right. right. left. exists i. split; [lia|reflexivity].
    + destruct H as [H|[]]. do 4 right. now symmetry.
  - intros [H|[->|[(i & I & ->)|[(i & I & ->)| ->]]]]; [now left|right; left; now left| | |].
    + right. right. left. exists i. split; [reflexivity|apply in_seq; lia].
    + right. right. right. left. exists i. split; [reflexivity|apply in_seq; lia].
    + do 4 right. now left.
Qed.
Lemma show_named w : show (Named w) = glue w. Proof. reflexivity. Qed.

(** C58, first part: the drawing has every element that the script in the browser looks for, each
    exactly once and inside the element it belongs to, and no further players or cards. *)
Theorem C58_elements : forall n nh nc seat_at commit_at,
  exists e, base_svg (Z.of_nat n) (Z.of_nat nh) (Z.of_nat nc) seat_at commit_at = Ok e /\
    NoDup (ids e) /\
    (forall i, (i < n)%nat -> exists box bets,
       part e "player" (slot_str i) box /\ has_part box "player-background" (name1 "player-background" i) /\ has_part box "chips-text" (name1 "chips-text" i) /\
       (exists cards, part box "cards" (name1 "cards" i) cards /\ forall k, (k < nh)%nat -> card_parts cards (slot_str i) k) /\
       part e "chips" (name1 "street-commit" i) bets /\ has_part bets "chips-text" (name1 "street-commit-text" i) /\
       has_part bets "button-background" (name1 "button-background" i)) /\
    (exists board, part e "community" "community" board /\ has_part board "chips-text" "pot-text" /\
       exists cards, part board "cards" "cards-community" cards /\ forall k, (k <= nc)%nat -> card_parts cards "community" k) /\
    Forall (fun i => In i (ids e)) ["dealer"; "card-back"; "card-blank"; "card-club"; "card-spade"; "card-diamond"; "card-heart"]%string /\
    (forall i, In (slot_str i) (ids e) <-> (i < n)%nat) /\
    (forall i, In (name1 "street-commit" i) (ids e) <-> (i < n)%nat) /\
    (forall i k, In (name2 "card" i k) (ids e) <-> (i < n)%nat /\ (k < nh)%nat) /\
    (forall k, In (name1 "card-community" k) (ids e) <-> (k <= nc)%nat).
Proof.
  intros n nh nc sa ca. exists (drawing n (Z.of_nat nh) (Z.of_nat nc) sa ca). split; [apply base_svg_form; lia|].
  pose proof (bare_drawing n (Z.of_nat nh) (Z.of_nat nc) sa ca ltac:(lia)) as B. rewrite !Nat2Z.id in B.
  split; [now apply (page_nodup n nh nc)|]. split; [|split; [|split; [|split; [|split; [|split]]]]].
  - intros i I. exists (seat (Z.of_nat nh) sa i), (bet_place ca i).
    split; [eapply part_kid; [apply in_drawing; right; right; left; exists i; split; [exact I|reflexivity]|]; apply part_self; reflexivity|].
    split; [eapply has_kid; [left; reflexivity|reflexivity|reflexivity]|].
    split; [eapply has_deeper; [right; right; left; reflexivity|]; eapply has_kid; [right; left; reflexivity|reflexivity|reflexivity]|].
    split.
    { eexists. split; [eapply part_kid; [right; left; reflexivity|]; apply part_self; reflexivity|]. intros k K.
      eapply (card_like_parts back_card); [apply back_like|reflexivity|]. cbn [kids_of]. apply in_map_iff. exists k. split; [reflexivity|]. apply in_seq. lia. }
    split; [eapply part_kid; [apply in_drawing; right; right; right; left; exists i; split; [exact I|reflexivity]|]; apply part_self; reflexivity|].
    split; [eapply has_kid; [right; left; reflexivity|reflexivity|reflexivity]|].
    eapply has_deeper; [right; right; left; reflexivity|]; eapply has_kid; [left; reflexivity|reflexivity|reflexivity].
  - exists (board_placed (Z.of_nat nc)).
    split; [eapply part_kid; [apply in_drawing; do 4 right; reflexivity|]; apply part_self; reflexivity|].
    split; [eapply has_deeper; [right; left; reflexivity|]; eapply has_kid; [right; left; reflexivity|reflexivity|reflexivity]|].
    eexists. split; [eapply part_kid; [left; reflexivity|]; apply part_self; reflexivity|]. intros k K.
    replace (Z.to_nat (Z.of_nat nc + 1)) with (S nc) by lia. cbn [seq map on_head]. destruct k as [|k].
    + eexists. split; [eapply part_kid; [left; reflexivity|]; apply part_self; reflexivity|].
      split; [eapply has_kid; [left; reflexivity|reflexivity|reflexivity]|eapply has_kid; [right; left; reflexivity|reflexivity|reflexivity]].
    + eapply (card_like_parts blank_card); [apply blank_like|reflexivity|]. cbn [kids_of]. right. apply in_map_iff. exists (S k). split; [reflexivity|]. apply in_seq. lia.
  - apply Forall_forall. intros s S. apply (ids_of_bare n nh nc _ s B).
    cbn [In] in S. repeat (destruct S as [<-|S]; [match goal with |- exists t, _ /\ ?s = _ =>
      first [exists (Named ["dealer"%string]); split; [cbn; tauto|reflexivity] | exists (Named ["card"; "back"]%string); split; [cbn; tauto|reflexivity] | exists (Named ["card"; "blank"]%string); split; [cbn; tauto|reflexivity]
        | exists (Named ["card"; "club"]%string); split; [cbn; tauto|reflexivity] | exists (Named ["card"; "spade"]%string); split; [cbn; tauto|reflexivity]
        | exists (Named ["card"; "diamond"]%string); split; [cbn; tauto|reflexivity] | exists (Named ["card"; "heart"]%string); split; [cbn; tauto|reflexivity]] end|]). destruct S.
  - intros i. rewrite (ids_of_bare n nh nc _ _ B). split.
    + intros (t & T & E). change (slot_str i) with (show (NSeat i)) in E. apply show_inj in E; [|exact I|eapply fits_good; exact T]. subst t. exact T.
    + intros I. exists (NSeat i). split; [exact I|reflexivity].
  - intros i. rewrite (ids_of_bare n nh nc _ _ B). split.
    + intros (t & T & E). change (name1 "street-commit" i) with (show (NBet i)) in E. apply show_inj in E; [|exact I|eapply fits_good; exact T]. subst t. exact T.
    + intros I. exists (NBet i). split; [exact I|reflexivity].
  - intros i k. rewrite (ids_of_bare n nh nc _ _ B). change (name2 "card" i k) with (show (NCard (Some i) k)). split.
    + intros (t & T & E). apply show_inj in E; [|exact I|eapply fits_good; exact T]. subst t. exact T.
    + intros I. exists (NCard (Some i) k). split; [exact I|reflexivity].
  - intros k. rewrite (ids_of_bare n nh nc _ _ B). change (name1 "card-community" k) with (show (NCard None k)). split.
    + intros (t & T & E). apply show_inj in E; [|exact I|eapply fits_good; exact T]. subst t. exact T.
    + intros I. exists (NCard None k). split; [exact I|reflexivity].
Qed.
Print Assumptions C58_elements.

(** C58, second part: where things are.  Every player's box has its centre at the player's seat and every
    bet at its place; the cards of a hand lie side by side in the order of their numbers and
    inside the box; the board is in the middle of the table, its cards side by side, to the right of
    the deck and inside the board. *)
Theorem C58_positions : forall n nh nc seat_at commit_at,
  exists e, base_svg (Z.of_nat n) (Z.of_nat nh) (Z.of_nat nc) seat_at commit_at = Ok e /\
    (forall i, (i < n)%nat -> exists box cards bets,
       part e "player" (slot_str i) box /\ part box "cards" (name1 "cards" i) cards /\ part e "chips" (name1 "street-commit" i) bets /\
       (x_of box + width_of box / 2 == inject_Z (fst (seat_at i)) /\ y_of box + height_of box / 2 == inject_Z (snd (seat_at i)) /\
        x_of bets + width_of bets / 2 == inject_Z (fst (commit_at i)) /\ y_of bets + height_of bets / 2 == inject_Z (snd (commit_at i)) /\
        10 <= x_of cards /\ x_of cards + width_of cards + 10 <= width_of box /\ width_of cards == inject_Z (50 * Z.of_nat nh) /\ height_of box == 125)%Q /\
       forall k, (k < nh)%nat -> exists card, part cards "card" (name2 "card" i k) card /\
         (x_of card == inject_Z (50 * Z.of_nat k) /\ width_of card == 50 /\ height_of card == 70)%Q) /\
    (exists table board cards, inside table e /\ a_class (attrs_of table) = "table"%string /\ part e "community" "community" board /\ part board "cards" "cards-community" cards /\
       (x_of table == 50 /\ width_of table == 900 /\ x_of board + width_of board / 2 == x_of table + width_of table / 2 /\ x_of cards == 0 /\ width_of cards == width_of board)%Q /\
       (forall k, (k < nc)%nat -> exists card, part cards "card" (name1 "card-community" (S k)) card /\
         (x_of card == inject_Z (50 * Z.of_nat k + 60) /\ width_of card == 50 /\ x_of card + width_of card + 10 <= width_of board)%Q) /\
       exists deck, part cards "card" "card-community-0" deck /\ (x_of deck == 0 /\ width_of deck == 50)%Q).
Proof.
  intros n nh nc sa ca. exists (drawing n (Z.of_nat nh) (Z.of_nat nc) sa ca). split; [apply base_svg_form; lia|]. split.
  - intros i I. exists (seat (Z.of_nat nh) sa i). eexists. exists (bet_place ca i).
    split; [eapply part_kid; [apply in_drawing; right; right; left; exists i; split; [exact I|reflexivity]|]; apply part_self; reflexivity|].
    split; [eapply part_kid; [right; left; reflexivity|]; apply part_self; reflexivity|].
    split; [eapply part_kid; [apply in_drawing; right; right; right; left; exists i; split; [exact I|reflexivity]|]; apply part_self; reflexivity|].
    assert (SW : (seat_width (Z.of_nat nh) >= 50 * inject_Z (Z.of_nat nh) + 20)%Q).
    { unfold seat_width. destruct (Qle_bool 220 _) eqn:L; [apply Qle_refl|]. destruct (Qlt_le_dec (50 * inject_Z (Z.of_nat nh) + 20) 220) as [Q|Q]; [apply Qlt_le_weak; exact Q|]. apply Qle_bool_iff in Q. congruence. }
    split; [|].
    + unfold x_of, y_of, width_of, height_of, bet_place, seat, player_elem, center_at, set_x, set_y, on_attrs. cbn [attrs_of a_x a_y a_width a_height put_id put_x put_y put_width put_height sized plain num x_of y_of width_of height_of].
      rewrite inject_Z_mult. change (inject_Z 50) with 50%Q. unfold height_of, width_of. cbn [attrs_of a_x a_y a_width a_height put_id put_x put_y put_width put_height sized plain num].
      change (inject_Z 125) with 125%Q. change (inject_Z 100) with 100%Q. change (inject_Z 30) with 30%Q.
      set (w := seat_width (Z.of_nat nh)) in *. set (h := inject_Z (Z.of_nat nh)) in *. clearbody w h. unfold Qdiv; change (/ 2)%Q with (1 # 2)%Q; repeat split; lra.
    + intros k K. eexists. split; [eapply part_kid; [cbn [kids_of]; apply in_map_iff; exists k; split; [reflexivity|apply in_seq; lia]|]; apply part_self; [|reflexivity]|].
      { unfold name2. cbn [card_elem back_card attrs_of a_id put_id]. unfold labelled. now rewrite !app_str. }
      unfold card_elem, back_card, x_of, width_of, height_of. cbn [attrs_of a_x a_y a_width a_height put_id put_x put_y put_width put_height sized plain num]. unfold card_x. cbn [attrs_of a_x a_y a_width a_height put_id put_x put_y put_width put_height sized plain num].
      rewrite !inject_Z_mult. set (h := inject_Z (Z.of_nat nh)). set (x := inject_Z (Z.of_nat k)). clearbody h x. change (inject_Z 50) with 50%Q. unfold Qdiv; change (/ 2)%Q with (1 # 2)%Q; repeat split; lra.
  - exists the_table, (board_placed (Z.of_nat nc)). eexists.
    split; [eapply inside_kid; [apply in_drawing; right; left; reflexivity|constructor]|]. split; [reflexivity|].
    split; [eapply part_kid; [apply in_drawing; do 4 right; reflexivity|]; apply part_self; reflexivity|].
    split; [eapply part_kid; [left; reflexivity|]; apply part_self; reflexivity|].
    assert (W : (board_width (Z.of_nat nc) == 50 * inject_Z (Z.of_nat nc) + 70)%Q) by (unfold board_width; rewrite inject_Z_plus; change (inject_Z 1) with 1%Q; lra).
    change (width_of (board_placed (Z.of_nat nc))) with (board_width (Z.of_nat nc)).
    replace (Z.to_nat (Z.of_nat nc + 1)) with (S nc) by lia. cbn [seq map on_head].
    split; [|split].
    + change (x_of (board_placed (Z.of_nat nc))) with ((900 - board_width (Z.of_nat nc)) / 2 + (1000 - 900) / 2)%Q.
      change (x_of the_table) with ((1000 - 900) / 2)%Q. change (width_of the_table) with 900%Q. unfold x_of, width_of. cbn [attrs_of a_x a_width put_id put_x put_y put_width plain num].
      set (w := board_width (Z.of_nat nc)) in *. clearbody w. unfold Qdiv. change (/ 2)%Q with (1 # 2)%Q. repeat split; lra.
    + intros k K. eexists. split; [eapply part_kid; [cbn [kids_of]; right; apply in_map_iff; exists (S k); split; [reflexivity|apply in_seq; lia]|]; apply part_self; reflexivity|].
      unfold card_elem, blank_card, x_of, width_of. cbn [attrs_of a_x a_width put_id put_x put_width sized plain num]. change (num (a_width (sized "card" 50 70))) with 50%Q. unfold card_x.
      set (w := board_width (Z.of_nat nc)) in *. clearbody w. replace (Z.of_nat (S k)) with (Z.of_nat k + 1) by lia. rewrite !inject_Z_plus, inject_Z_mult.
      assert (L : (inject_Z (Z.of_nat k) + 1 <= inject_Z (Z.of_nat nc))%Q) by (change 1%Q with (inject_Z 1); rewrite <- inject_Z_plus, <- Zle_Qle; lia).
      set (c := inject_Z (Z.of_nat nc)) in *. set (x := inject_Z (Z.of_nat k)) in *. clearbody c x. change (inject_Z 50) with 50%Q. change (inject_Z 60) with 60%Q. change (inject_Z 1) with 1%Q. unfold Qdiv. change (/ 2)%Q with (1 # 2)%Q. repeat split; lra.
    + eexists. split; [eapply part_kid; [left; reflexivity|]; apply part_self; reflexivity|].
      unfold card_elem, blank_card, deck_card, x_of, width_of. cbn [attrs_of a_x a_width put_id put_x put_width sized plain num]. change (num (a_width (sized "card" 50 70))) with 50%Q. unfold card_x.
      set (w := board_width (Z.of_nat nc)) in *. clearbody w. rewrite !inject_Z_plus. change (inject_Z (Z.of_nat 0)) with 0%Q.
      set (c := inject_Z (Z.of_nat nc)) in *. clearbody c. change (inject_Z 1) with 1%Q. unfold Qdiv. change (/ 2)%Q with (1 # 2)%Q. repeat split; lra.
Qed.
Print Assumptions C58_positions.

(** the numbers in identifiers are decimal numerals (C56) *)
Lemma nat_acc d : forall a, Z.of_nat (Nat.of_uint_acc d a) = fold_left (fun v d => 10 * v + d) (uint_digits d) (Z.of_nat a).
Proof.
  induction d; intros a; [reflexivity|..]; cbn [Nat.of_uint_acc uint_digits fold_left]; rewrite IHd; f_equal; rewrite ?Nat.tail_mul_spec; lia.
Qed.
Theorem C58_numbers : forall i, ustr (slot_str i) = str_int (Z.of_nat i).
Proof.
  intros i. unfold slot_str, str_int, digits. replace (Z.of_nat i <? 0) with false by lia. cbn [app]. do 2 f_equal.
  assert (E : N.of_uint (Nat.to_uint i) = Z.abs_N (Z.of_nat i)).
  { apply N2Z.inj. rewrite uint_value. change 0 with (Z.of_nat 0) at 1. rewrite <- nat_acc. change (Nat.of_uint_acc (Nat.to_uint i) 0) with (Nat.of_uint (Nat.to_uint i)). rewrite DecimalNat.Unsigned.of_to. lia. }
  rewrite <- E, DecimalN.Unsigned.to_of. rewrite <- (DecimalNat.Unsigned.of_to i) at 1. now rewrite DecimalNat.Unsigned.to_of.
Qed.
Print Assumptions C58_numbers.

(** two players with two cards each and a board of up to five: the first has the button and the turn, the second bet,
    three cards are on the board *)
Definition page_2 : rconfig :=
  mkRConfig 0 [true; true] [false; false] [demo_card 32; demo_card 1; demo_card 50] 0 false [[demo_card 51; demo_card 34]; [demo_card 3; demo_card 9]]
            60 [0; 0] (Some (1%nat, 30, false)) [0; 30] [1000; 970].
(** the second player folded before there was a board *)
Definition page_2_folded : rconfig :=
  mkRConfig (-1) [true; false] [false; false] [] 0 true [[demo_card 51; demo_card 34]; [demo_card 3; demo_card 9]]
            30 [10; -10] (Some (1%nat, 0, true)) [20; 10] [980; 990].
Lemma page_2_for : for_page 2 2 5 page_2 /\ for_page 2 2 5 page_2_folded.
Proof.
  assert (G : Forall genuine (map demo_card [51; 34; 3; 9; 32; 1; 50]%nat)) by (cbn [map]; repeat apply Forall_cons; [exists (ustr "Ac")|exists (ustr "Td")|exists (ustr "2c")|exists (ustr "4h")|exists (ustr "Ts")|exists (ustr "2h")|exists (ustr "Ad")|apply Forall_nil]; vm_compute; reflexivity).
  cbn [map] in G. rewrite !Forall_cons_iff in G. destruct G as (G1 & G2 & G3 & G4 & G5 & G6 & G7 & _).
  split; (constructor; [constructor; try reflexivity; try (cbn; lia); repeat constructor; cbn; lia|reflexivity|]); cbn [page_2 page_2_folded rc_hole_cards rc_community_cards List.concat app]; split; repeat (apply Forall_cons; [assumption|]); apply Forall_nil.
Qed.
Example C59_example : let at_ i := (Z.of_nat i, 0) in
  exists e0 e, base_svg 2 2 5 at_ at_ = Ok e0 /\ receive [None; Some page_2; None; Some page_2_folded; Some page_2] e0 = Ok e /\
    NoDup (ids e) /\ page_shows 2 2 5 page_2 e /\
    (reads e "chips-text-1" (ustr "970") /\ reads e "street-commit-text-1" (ustr "30") /\ reads e "pot-text" (ustr "60") /\
     reads e "card-text-0-1" (ustr "10") /\ painted e "card-background-0-1" "url(#card-diamond)" /\ reads e "card-text-community-2" (ustr "2") /\
     reads e "card-text-community-4" [] /\ painted e "button-background-0" "url(#dealer)" /\ painted e "player-background-0" "#000000").
Proof.
  intros at_. destruct page_2_for as [F G].
  destruct (C59_page 2 2 5 at_ at_ [None; Some page_2; None; Some page_2_folded] page_2) as (e0 & e & E0 & E & N & S); [repeat (apply Forall_cons; [first [exact I|apply (fg_drawable _ _ _ _ F)|apply (fg_drawable _ _ _ _ G)]|]); apply Forall_nil|exact F|].
  exists e0, e. split; [exact E0|]. split; [exact E|]. split; [exact N|]. split; [exact S|].
  pose proof (ps_hand _ _ _ _ _ S 0%nat 1%nat ltac:(lia) ltac:(lia)) as (H1 & _ & H2).
  pose proof (ps_board _ _ _ _ _ S 1%nat ltac:(lia)) as (H3 & _). pose proof (ps_board _ _ _ _ _ S 3%nat ltac:(lia)) as (H4 & _).
  split; [exact (ps_stack _ _ _ _ _ S 1%nat ltac:(lia))|]. split; [exact (ps_bet _ _ _ _ _ S 1%nat ltac:(lia))|]. split; [exact (ps_pot _ _ _ _ _ S)|].
  split; [exact H1|]. split; [exact H2|]. split; [exact H3|]. split; [exact H4|].
  split; [exact (ps_button _ _ _ _ _ S 0%nat ltac:(lia))|exact (ps_turn _ _ _ _ _ S 0%nat ltac:(lia))].
Qed.
Example C58_example : exists e, base_svg 2 2 5 (fun i => (Z.of_nat i, 0)) (fun i => (Z.of_nat i, 0)) = Ok e /\
  NoDup (ids e) /\ In "card-1-1"%string (ids e) /\ ~ In "card-1-2"%string (ids e) /\ In "card-community-5"%string (ids e) /\ ~ In "card-community-6"%string (ids e).
Proof.
  destruct (C58_elements 2 2 5 (fun i => (Z.of_nat i, 0)) (fun i => (Z.of_nat i, 0))) as (e & E & N & _ & _ & _ & _ & _ & C & B).
  exists e. split; [exact E|]. split; [exact N|]. split; [|split; [|split]].
  - apply (C 1%nat 1%nat). lia.
  - intros H. apply (C 1%nat 2%nat) in H. lia.
  - apply (B 5%nat). lia.
  - intros H. apply (B 6%nat) in H. lia.
Qed.
