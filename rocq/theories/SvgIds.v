(** * SvgIds: the identifiers of the page and their places *)
From Coq Require Import ZifyBool ZifyNat Arith Decimal DecimalString DecimalNat DecimalFacts.
From Verif Require Import PyBase PyFacts CardModel EngineModel AsciiModel JsonModel SvgModel SvgFacts.

(** ** The skeleton of the page *)
Definition sk_card (label : string) (k : nat) : elem :=
  B "card" (Some (labelled (labelled "card" label) (slot_str k)))
    [B "card-background" (Some (labelled (labelled "card-background" label) (slot_str k))) [];
     B "card-text" (Some (labelled (labelled "card-text" label) (slot_str k))) []].
Definition sk_seat (nh : nat) (i : nat) : elem :=
  B "player" (Some (slot_str i))
    [B "player-background" (Some (labelled "player-background" (slot_str i))) [];
     B "cards" (Some (labelled "cards" (slot_str i))) (map (sk_card (slot_str i)) (seq 0 nh));
     B "chips" (Some (labelled "chips" (slot_str i)))
       [B "chips-background" (Some (labelled "chips-background" (slot_str i))) []; B "chips-text" (Some (labelled "chips-text" (slot_str i))) []]].
Definition sk_bet (i : nat) : elem :=
  B "chips" (Some (labelled "street-commit" (slot_str i)))
    [B "chips-background" (Some (labelled "street-commit-background" (slot_str i))) [];
     B "chips-text" (Some (labelled "street-commit-text" (slot_str i))) [];
     B "button" (Some (labelled "button" (slot_str i))) [B "button-background" (Some (labelled "button-background" (slot_str i))) []]].
Definition sk_board (nc : nat) : elem :=
  B "community" (Some "community"%string)
    [B "cards" (Some (labelled "cards" "community")) (map (sk_card "community") (seq 0 (S nc)));
     B "chips" (Some "pot"%string) [B "chips-background" (Some "pot-background"%string) []; B "chips-text" (Some "pot-text"%string) []]].
Definition sk_pattern (c i : string) : elem := B c (Some i) [].
Definition sk_patterns : list elem :=
  [sk_pattern "dealer" "dealer"; sk_pattern "card-back" "card-back"; sk_pattern "card-blank" "card-blank"; sk_pattern "card-front" "card-club";
   sk_pattern "card-front" "card-spade"; sk_pattern "card-front" "card-diamond"; sk_pattern "card-front" "card-heart"].
Definition sk_page (n nh nc : nat) : elem :=
  B "" (Some "poker"%string) (sk_patterns ++ [B "table" None []] ++ map (sk_seat nh) (seq 0 n) ++ map sk_bet (seq 0 n) ++ [sk_board nc]).
Lemma bare_card c label k x : card_like c -> a_class (attrs_of c) = "card"%string -> bare (card_elem c label k x) = sk_card label k.
Proof.
  intros (t & t1 & t2 & [c0 i0 x0 y0 w0 h0 v0 f0 s0 u0] & i1 & x1 & y1 & w1 & h1 & v1 & f1 & s1 & u1 & i2 & x2 & y2 & w2 & h2 & v2 & f2 & s2 & u2 & ->) H. cbn in H. subst. reflexivity.
Qed.
Lemma bare_seat nh at_ i : bare (seat nh at_ i) = sk_seat (Z.to_nat nh) i.
Proof.
  unfold seat, player_elem, center_at, set_x, set_y, on_attrs. cbn [bare map]. rewrite map_map.
  rewrite (map_ext (fun k => bare (card_elem back_card (slot_str i) k _)) (sk_card (slot_str i))) by (intros k; apply bare_card; [apply back_like|reflexivity]). reflexivity.
Qed.
Lemma bare_bet at_ i : bare (bet_place at_ i) = sk_bet i.
Proof. reflexivity. Qed.
Lemma bare_board nc : 0 <= nc -> bare (board_placed nc) = sk_board (Z.to_nat nc).
Proof.
  intros H. unfold board_placed, board, center_x_in, center_y_in, set_x, set_y, on_attrs. cbn [bare map].
  replace (Z.to_nat (nc + 1)) with (S (Z.to_nat nc)) by lia. cbn [seq map on_head]. rewrite map_map.
  rewrite (map_ext (fun k => bare (card_elem blank_card "community" k _)) (sk_card "community")) by (intros k; apply bare_card; [apply blank_like|reflexivity]). reflexivity.
Qed.
Lemma bare_drawing n nh nc sa ca : 0 <= nc -> bare (drawing n nh nc sa ca) = sk_page n (Z.to_nat nh) (Z.to_nat nc).
Proof.
  intros H. unfold drawing, sk_page. cbn [bare]. rewrite !map_app, !map_map. cbn [map]. rewrite bare_board by exact H.
  rewrite (map_ext (fun i => bare (seat nh sa i)) (sk_seat (Z.to_nat nh))) by (intros i; apply bare_seat). rewrite (map_ext (fun i => bare (bet_place ca i)) sk_bet) by (intros i; apply bare_bet). reflexivity.
Qed.

(** ** Identifiers *)
Inductive ident : Type :=
| Named (w : list string) | NSeat (i : nat) | NBack (i : nat) | NCards (l : option nat) | NCard (l : option nat) (k : nat) | NCardBack (l : option nat) (k : nat)
| NCardText (l : option nat) (k : nat) | NChips (i : nat) | NChipsBack (i : nat) | NChipsText (i : nat) | NBet (i : nat) | NBetBack (i : nat) | NBetText (i : nat)
| NButton (i : nat) | NButtonBack (i : nat).
Definition lab (l : option nat) : string := match l with Some i => slot_str i | None => "community" end.
Definition tokens (t : ident) : list string :=
  match t with
  | Named w => w
  | NSeat i => [slot_str i]
  | NBack i => ["player"; "background"; slot_str i]
  | NCards l => ["cards"; lab l]
  | NCard l k => ["card"; lab l; slot_str k]
  | NCardBack l k => ["card"; "background"; lab l; slot_str k]
  | NCardText l k => ["card"; "text"; lab l; slot_str k]
  | NChips i => ["chips"; slot_str i]
  | NChipsBack i => ["chips"; "background"; slot_str i]
  | NChipsText i => ["chips"; "text"; slot_str i]
  | NBet i => ["street"; "commit"; slot_str i]
  | NBetBack i => ["street"; "commit"; "background"; slot_str i]
  | NBetText i => ["street"; "commit"; "text"; slot_str i]
  | NButton i => ["button"; slot_str i]
  | NButtonBack i => ["button"; "background"; slot_str i]
  end%string.
Fixpoint glue (l : list string) : string :=
  match l with [] => EmptyString | [x] => x | x :: r => append x (String "-" (glue r)) end.
Definition show (t : ident) : string := glue (tokens t).

Fixpoint no_dash (s : string) : bool := match s with EmptyString => true | String c r => negb (Ascii.eqb c "-") && no_dash r end.
Lemma append_dash a : forall b a' b', no_dash a = true -> no_dash a' = true -> append a (String "-" b) = append a' (String "-" b') -> a = a' /\ b = b'.
Proof.
  induction a as [|c a IH]; intros b [|c' a'] b' N N' E; cbn in *.
  - injection E as E. auto.
  - injection E as <- E. discriminate N'.
  - injection E as E1 E. subst. discriminate N.
  - injection E as <- E. apply andb_true_iff in N, N'. destruct (IH b a' b' (proj2 N) (proj2 N') E) as [<- <-]. auto.
Qed.
Lemma append_dash_none a b : forall c, no_dash c = true -> append a (String "-" b) = c -> False.
Proof.
  induction a as [|x a IH]; intros c N E; subst c; cbn in N; [discriminate N|]. apply andb_true_iff in N. exact (IH _ (proj2 N) eq_refl).
Qed.
Lemma glue_inj l : forall l', l <> [] -> l' <> [] -> forallb no_dash l = true -> forallb no_dash l' = true -> glue l = glue l' -> l = l'.
Proof.
  induction l as [|x r IH]; intros [|x' r'] H H' N N' E; try congruence. cbn [forallb] in N, N'. apply andb_true_iff in N, N'. destruct N as [N1 N2], N' as [N1' N2'].
  destruct r as [|y r], r' as [|y' r'].
  - cbn in E. now subst.
  - exfalso. change (glue (x' :: y' :: r')) with (append x' (String "-" (glue (y' :: r')))) in E. symmetry in E. exact (append_dash_none _ _ _ N1 E).
  - exfalso. change (glue (x :: y :: r)) with (append x (String "-" (glue (y :: r)))) in E. exact (append_dash_none _ _ _ N1' E).
  - change (glue (x' :: y' :: r')) with (append x' (String "-" (glue (y' :: r')))) in E. change (glue (x :: y :: r)) with (append x (String "-" (glue (y :: r)))) in E.
    apply append_dash in E; [|exact N1|exact N1']. destruct E as [<- E]. f_equal. apply IH; try discriminate; assumption.
Qed.
Definition digit (c : ascii) : bool := (48 <=? Z.of_N (N_of_ascii c)) && (Z.of_N (N_of_ascii c) <=? 57).
Lemma uint_no_dash d : no_dash (NilEmpty.string_of_uint d) = true.
Proof. induction d; cbn; auto. Qed.
Lemma slot_no_dash i : no_dash (slot_str i) = true.
Proof. apply uint_no_dash. Qed.
Lemma slot_inj i j : slot_str i = slot_str j -> i = j.
Proof.
  unfold slot_str. intros H. apply (f_equal NilEmpty.uint_of_string) in H. rewrite !NilEmpty.usu in H. injection H as H.
  apply (f_equal Nat.of_uint) in H. now rewrite !DecimalNat.Unsigned.of_to in H.
Qed.
Lemma slot_head i : match slot_str i with String c _ => digit c | EmptyString => false end = true.
Proof.
  unfold slot_str. assert (H : Nat.to_uint i <> Decimal.Nil).
  { rewrite <- (DecimalNat.Unsigned.of_to i) at 1. rewrite DecimalNat.Unsigned.to_of. unfold Decimal.unorm. destruct (Decimal.nzhead _); discriminate. }
  destruct (Nat.to_uint i); [congruence|reflexivity..].
Qed.
Lemma slot_not s i : match s with String c _ => negb (digit c) | EmptyString => true end = true -> slot_str i <> s.
Proof. intros H E. pose proof (slot_head i) as D. rewrite E in D. destruct s as [|c r]; [discriminate D|]. rewrite D in H. discriminate H. Qed.

(** the identifiers without numbers *)
Definition words : list (list string) :=
  [["poker"]; ["dealer"]; ["card"; "back"]; ["card"; "blank"]; ["card"; "club"]; ["card"; "spade"]; ["card"; "diamond"]; ["card"; "heart"];
   ["community"]; ["pot"]; ["pot"; "background"]; ["pot"; "text"]]%string.
Definition good (t : ident) : Prop := match t with Named w => In w words | _ => True end.
Lemma lab_no_dash l : no_dash (lab l) = true.
Proof. destruct l; [apply slot_no_dash|reflexivity]. Qed.
Lemma lab_inj l l' : lab l = lab l' -> l = l'.
Proof.
  destruct l as [i|], l' as [j|]; cbn [lab]; intros H; [f_equal; now apply slot_inj| | |reflexivity].
  - exfalso. revert H. now apply slot_not.
  - exfalso. symmetry in H. revert H. now apply slot_not.
Qed.
Lemma words_clean w : In w words -> forallb no_dash w = true /\ w <> [].
Proof. unfold words. intros G. repeat (destruct G as [<-|G]; [split; [reflexivity|discriminate]|]). destruct G. Qed.
Lemma tokens_clean t : good t -> forallb no_dash (tokens t) = true /\ tokens t <> [].
Proof.
  destruct t; intros G; try exact (words_clean _ G); (split; [|discriminate]); cbn [tokens forallb]; rewrite ?slot_no_dash, ?lab_no_dash; reflexivity.
Qed.
Definition kind (t : ident) : Z :=
  match t with Named _ => 0 | NSeat _ => 1 | NBack _ => 2 | NCards _ => 3 | NCard _ _ => 4 | NCardBack _ _ => 5 | NCardText _ _ => 6 | NChips _ => 7 | NChipsBack _ => 8
  | NChipsText _ => 9 | NBet _ => 10 | NBetBack _ => 11 | NBetText _ => 12 | NButton _ => 13 | NButtonBack _ => 14 end.
Definition numbered (s : string) : bool := match s with String c _ => digit c | EmptyString => false end.
Lemma slot_numbered i : numbered (slot_str i) = true. Proof. apply slot_head. Qed.
Lemma words_kind w t : In w words -> w = tokens t -> match t with Named w' => w = w' | _ => False end.
Proof.
  intros G E. destruct t; [exact E|..]; unfold words in G;
    repeat (destruct G as [<-|G]; [cbn [tokens] in E; try discriminate E; injection E as E;
      match type of E with _ = slot_str ?i => pose proof (slot_numbered i) as D; rewrite <- E in D; discriminate D end|]); destruct G.
Qed.
Lemma tokens_inj t t' : good t -> good t' -> tokens t = tokens t' -> t = t'.
Proof.
  intros G G' E. destruct t as [w|i|i|l|l k|l k|l k|i|i|i|i|i|i|i|i].
  1: { pose proof (words_kind w t' G E) as K. destruct t'; try contradiction. now subst. }
  all: destruct t' as [w'|i'|i'|l'|l' k'|l' k'|l' k'|i'|i'|i'|i'|i'|i'|i'|i'];
    try (symmetry in E; exact (False_ind _ (words_kind _ _ G' E)));
    cbn [tokens] in E; try discriminate E; injection E; intros; subst;
    repeat match goal with
    | H : slot_str _ = slot_str _ |- _ => apply slot_inj in H; subst
    | H : lab _ = lab _ |- _ => apply lab_inj in H; subst
    end; reflexivity.
Qed.
Lemma show_inj t t' : good t -> good t' -> show t = show t' -> t = t'.
Proof.
  intros G G' E. apply tokens_inj; try assumption. destruct (tokens_clean t G), (tokens_clean t' G'). now apply glue_inj.
Qed.

(** ** The places of the identifiers *)
Definition word_place (n : nat) (w : list string) : path :=
  match w with
  | [_] => if String.eqb (hd ""%string w) "poker" then [] else if String.eqb (hd ""%string w) "dealer" then [0%nat]
           else if String.eqb (hd ""%string w) "community" then [(8 + 2 * n)%nat] else [(8 + 2 * n)%nat; 1%nat]
  | [_; v] => if String.eqb v "back" then [1%nat] else if String.eqb v "blank" then [2%nat] else if String.eqb v "club" then [3%nat] else if String.eqb v "spade" then [4%nat]
              else if String.eqb v "diamond" then [5%nat] else if String.eqb v "heart" then [6%nat]
              else if String.eqb v "background" then [(8 + 2 * n)%nat; 1%nat; 0%nat] else [(8 + 2 * n)%nat; 1%nat; 1%nat]
  | _ => []
  end.
Definition cards_place (n : nat) (l : option nat) : path :=
  match l with Some i => [(8 + i)%nat; 1%nat] | None => [(8 + 2 * n)%nat; 0%nat] end.
Definition place (n : nat) (t : ident) : path :=
  match t with
  | Named w => word_place n w
  | NSeat i => [(8 + i)%nat]
  | NBack i => [(8 + i)%nat; 0%nat]
  | NCards l => cards_place n l
  | NCard l k => cards_place n l ++ [k]
  | NCardBack l k => cards_place n l ++ [k; 0%nat]
  | NCardText l k => cards_place n l ++ [k; 1%nat]
  | NChips i => [(8 + i)%nat; 2%nat]
  | NChipsBack i => [(8 + i)%nat; 2%nat; 0%nat]
  | NChipsText i => [(8 + i)%nat; 2%nat; 1%nat]
  | NBet i => [(8 + n + i)%nat]
  | NBetBack i => [(8 + n + i)%nat; 0%nat]
  | NBetText i => [(8 + n + i)%nat; 1%nat]
  | NButton i => [(8 + n + i)%nat; 2%nat]
  | NButtonBack i => [(8 + n + i)%nat; 2%nat; 0%nat]
  end.
(** the identifiers of a page *)
Definition fits (n nh nc : nat) (t : ident) : Prop :=
  match t with
  | Named w => In w words
  | NSeat i | NBack i | NChips i | NChipsBack i | NChipsText i | NBet i | NBetBack i | NBetText i | NButton i | NButtonBack i | NCards (Some i) => (i < n)%nat
  | NCards None => True
  | NCard (Some i) k | NCardBack (Some i) k | NCardText (Some i) k => (i < n)%nat /\ (k < nh)%nat
  | NCard None k | NCardBack None k | NCardText None k => (k <= nc)%nat
  end.
Lemma fits_good n nh nc t : fits n nh nc t -> good t.
Proof. destruct t; cbn; auto. Qed.

Lemma nth_map_seq {A} (f : nat -> A) m j : nth_error (map f (seq 0 m)) j = if (j <? m)%nat then Some (f j) else None.
Proof.
  rewrite nth_error_map. destruct (Nat.ltb_spec j m) as [L|L].
  - rewrite (nth_error_nth' _ 0%nat) by (rewrite seq_length; exact L). now rewrite seq_nth.
  - replace (nth_error (seq 0 m) j) with (@None nat); [reflexivity|]. symmetry. apply nth_error_None. rewrite seq_length. exact L.
Qed.
(** the parts of the page *)
Definition sk_kids (n nh nc : nat) : list elem := kids_of (sk_page n nh nc).
Lemma sk_kid_seat n nh nc i : (i < n)%nat -> nth_error (sk_kids n nh nc) (8 + i) = Some (sk_seat nh i).
Proof.
  intros H. change (sk_kids n nh nc) with ((sk_patterns ++ [B "table" None []]) ++ map (sk_seat nh) (seq 0 n) ++ map sk_bet (seq 0 n) ++ [sk_board nc]).
  rewrite nth_error_app2 by (cbn; lia). cbn [List.length app sk_patterns]. replace (8 + i - 8)%nat with i by lia. rewrite nth_error_app1 by (rewrite map_length, seq_length; exact H).
  rewrite nth_map_seq. now destruct (Nat.ltb_spec i n); [|lia].
Qed.
Lemma sk_kid_bet n nh nc i : (i < n)%nat -> nth_error (sk_kids n nh nc) (8 + n + i) = Some (sk_bet i).
Proof.
  intros H. change (sk_kids n nh nc) with ((sk_patterns ++ [B "table" None []]) ++ map (sk_seat nh) (seq 0 n) ++ map sk_bet (seq 0 n) ++ [sk_board nc]).
  rewrite nth_error_app2 by (cbn; lia). cbn [List.length app sk_patterns]. rewrite nth_error_app2 by (rewrite map_length, seq_length; lia). rewrite map_length, seq_length.
  replace (8 + n + i - 8 - n)%nat with i by lia. rewrite nth_error_app1 by (rewrite map_length, seq_length; exact H).
  rewrite nth_map_seq. now destruct (Nat.ltb_spec i n); [|lia].
Qed.
Lemma sk_kid_board n nh nc : nth_error (sk_kids n nh nc) (8 + 2 * n) = Some (sk_board nc).
Proof.
  change (sk_kids n nh nc) with ((sk_patterns ++ [B "table" None []]) ++ map (sk_seat nh) (seq 0 n) ++ map sk_bet (seq 0 n) ++ [sk_board nc]).
  rewrite nth_error_app2 by (cbn; lia). cbn [List.length app sk_patterns]. rewrite nth_error_app2 by (rewrite map_length, seq_length; lia). rewrite map_length, seq_length.
  rewrite nth_error_app2 by (rewrite map_length, seq_length; lia). rewrite map_length, seq_length. replace (8 + 2 * n - 8 - n - n)%nat with 0%nat by lia. reflexivity.
Qed.
Lemma sk_kid_cases n nh nc j x : nth_error (sk_kids n nh nc) j = Some x ->
  (j < 8)%nat /\ nth_error (sk_patterns ++ [B "table" None []]) j = Some x \/ (exists i, (i < n)%nat /\ j = (8 + i)%nat /\ x = sk_seat nh i) \/
  (exists i, (i < n)%nat /\ j = (8 + n + i)%nat /\ x = sk_bet i) \/ j = (8 + 2 * n)%nat /\ x = sk_board nc.
Proof.
  intros E. assert (L : (j < 8 + 2 * n + 1)%nat).
  { assert (j < List.length (sk_kids n nh nc))%nat by (apply nth_error_Some; congruence).
    change (sk_kids n nh nc) with ((sk_patterns ++ [B "table" None []]) ++ map (sk_seat nh) (seq 0 n) ++ map sk_bet (seq 0 n) ++ [sk_board nc]) in H.
    rewrite !app_length, !map_length, !seq_length in H. cbn in H. lia. }
  destruct (Nat.lt_ge_cases j 8) as [C|C].
  { left. split; [exact C|]. change (sk_kids n nh nc) with ((sk_patterns ++ [B "table" None []]) ++ map (sk_seat nh) (seq 0 n) ++ map sk_bet (seq 0 n) ++ [sk_board nc]) in E.
    now rewrite nth_error_app1 in E by (cbn; lia). }
  right. destruct (Nat.lt_ge_cases j (8 + n)) as [C2|C2].
  { left. exists (j - 8)%nat. split; [lia|split; [lia|]]. replace j with (8 + (j - 8))%nat in E by lia. rewrite sk_kid_seat in E by lia. congruence. }
  right. destruct (Nat.lt_ge_cases j (8 + 2 * n)) as [C3|C3].
  { left. exists (j - 8 - n)%nat. split; [lia|split; [lia|]]. replace j with (8 + n + (j - 8 - n))%nat in E by lia. rewrite sk_kid_bet in E by lia. congruence. }
  right. split; [lia|]. replace j with (8 + 2 * n)%nat in E by lia. rewrite sk_kid_board in E. congruence.
Qed.
Lemma at_sk n nh nc j q : at_path (j :: q) (sk_page n nh nc) = match nth_error (sk_kids n nh nc) j with Some k => at_path q k | None => None end.
Proof. reflexivity. Qed.

(** every identifier of the page is of this kind and has its place *)
Lemma nil_kids q c i x : at_path q (B c i []) = Some x -> q = [] /\ x = B c i [].
Proof. destruct q as [|[|?] ?]; cbn; intros E; try discriminate E. injection E as <-. auto. Qed.
Lemma card_ids label k q x : at_path q (sk_card label k) = Some x ->
  (q = [] /\ a_id (attrs_of x) = Some (labelled (labelled "card" label) (slot_str k))) \/ (q = [0%nat] /\ a_id (attrs_of x) = Some (labelled (labelled "card-background" label) (slot_str k))) \/
  (q = [1%nat] /\ a_id (attrs_of x) = Some (labelled (labelled "card-text" label) (slot_str k))).
Proof.
  destruct q as [|[|[|j]] q]; intros E.
  - left. injection E as <-. auto.
  - right. left. apply nil_kids in E. destruct E as [-> ->]. auto.
  - right. right. apply nil_kids in E. destruct E as [-> ->]. auto.
  - destruct j; discriminate E.
Qed.
Lemma app_str a b c : append (append a b) c = append a (append b c).
Proof. induction a as [|x a IH]; cbn; [reflexivity|now rewrite IH]. Qed.
Ltac showing := unfold show, labelled; cbn [tokens glue]; rewrite ?app_str; reflexivity.
Lemma show_card l k : labelled (labelled "card" (lab l)) (slot_str k) = show (NCard l k). Proof. showing. Qed.
Lemma show_card_back l k : labelled (labelled "card-background" (lab l)) (slot_str k) = show (NCardBack l k). Proof. showing. Qed.
Lemma show_card_text l k : labelled (labelled "card-text" (lab l)) (slot_str k) = show (NCardText l k). Proof. showing. Qed.
Lemma show_back i : labelled "player-background" (slot_str i) = show (NBack i). Proof. showing. Qed.
Lemma show_chips_text i : labelled "chips-text" (slot_str i) = show (NChipsText i). Proof. showing. Qed.
Lemma show_bet_text i : labelled "street-commit-text" (slot_str i) = show (NBetText i). Proof. showing. Qed.
Lemma show_button_back i : labelled "button-background" (slot_str i) = show (NButtonBack i). Proof. showing. Qed.
Lemma cards_ids l m q x : at_path q (B "cards" (Some (labelled "cards" (lab l))) (map (sk_card (lab l)) (seq 0 m))) = Some x ->
  exists t, a_id (attrs_of x) = Some (show t) /\ ((t = NCards l /\ q = []) \/ exists k, (k < m)%nat /\ ((t = NCard l k /\ q = [k]) \/ (t = NCardBack l k /\ q = [k; 0%nat]) \/ (t = NCardText l k /\ q = [k; 1%nat]))).
Proof.
  destruct q as [|k q]; intros E.
  - injection E as <-. exists (NCards l). split; [|left; auto]. cbn [B attrs_of a_id]. f_equal. 
  - cbn [at_path B kids_of] in E. rewrite nth_map_seq in E. destruct (Nat.ltb_spec k m) as [L|L]; [|discriminate E]. apply card_ids in E.
    destruct E as [[-> I]|[[-> I]|[-> I]]]; rewrite I.
    + exists (NCard l k). split; [now rewrite show_card|]. right. exists k. auto.
    + exists (NCardBack l k). split; [now rewrite show_card_back|]. right. exists k. auto.
    + exists (NCardText l k). split; [now rewrite show_card_text|]. right. exists k. auto.
Qed.
Lemma place_inv n nh nc p x s : at_path p (sk_page n nh nc) = Some x -> a_id (attrs_of x) = Some s ->
  exists t, fits n nh nc t /\ s = show t /\ p = place n t.
Proof.
  destruct p as [|j q]; intros E I.
  { injection E as <-. injection I as <-. exists (Named ["poker"%string]). split; [left; reflexivity|]. split; reflexivity. }
  rewrite at_sk in E. destruct (nth_error (sk_kids n nh nc) j) as [k|] eqn:N; [|discriminate E].
  apply sk_kid_cases in N. destruct N as [[L N]|[(i & L & -> & ->)|[(i & L & -> & ->)|[-> ->]]]].
  - do 8 (destruct j as [|j]; [injection N as <-; apply nil_kids in E; destruct E as [-> ->]; cbn [B attrs_of a_id sk_pattern] in I; try discriminate I; injection I as <-;
      match goal with |- exists t, _ /\ ?s = _ /\ _ =>
        solve [exists (Named ["dealer"%string]); split; [cbn; tauto|]; split; reflexivity | exists (Named ["card"; "back"]%string); split; [cbn; tauto|]; split; reflexivity
          | exists (Named ["card"; "blank"]%string); split; [cbn; tauto|]; split; reflexivity | exists (Named ["card"; "club"]%string); split; [cbn; tauto|]; split; reflexivity
          | exists (Named ["card"; "spade"]%string); split; [cbn; tauto|]; split; reflexivity | exists (Named ["card"; "diamond"]%string); split; [cbn; tauto|]; split; reflexivity
          | exists (Named ["card"; "heart"]%string); split; [cbn; tauto|]; split; reflexivity] end|]). lia.
  - destruct q as [|[|[|[|m]]] q].
    + injection E as <-. injection I as <-. exists (NSeat i). split; [exact L|]. split; reflexivity.
    + apply nil_kids in E. destruct E as [-> ->]. injection I as <-. exists (NBack i). split; [exact L|]. split; reflexivity.
    + cbn [at_path sk_seat B kids_of nth_error] in E. change (slot_str i) with (lab (Some i)) in E. apply cards_ids in E. destruct E as (t & T & C). rewrite T in I. injection I as <-. exists t. split; [|split; [reflexivity|]].
      * destruct C as [[-> _]|(k & K & [[-> _]|[[-> _]|[-> _]]])]; cbn [fits]; auto.
      * destruct C as [[-> ->]|(k & K & [[-> ->]|[[-> ->]|[-> ->]]])]; reflexivity.
    + destruct q as [|[|[|m]] q]; cbn [at_path sk_seat B kids_of nth_error] in E.
      * injection E as <-. injection I as <-. exists (NChips i). split; [exact L|]. split; reflexivity.
      * apply nil_kids in E. destruct E as [-> ->]. injection I as <-. exists (NChipsBack i). split; [exact L|]. split; reflexivity.
      * apply nil_kids in E. destruct E as [-> ->]. injection I as <-. exists (NChipsText i). split; [exact L|]. split; reflexivity.
      * destruct m; discriminate E.
    + destruct m; discriminate E.
  - destruct q as [|[|[|[|m]]] q]; cbn [at_path sk_bet B kids_of nth_error] in E.
    + injection E as <-. injection I as <-. exists (NBet i). split; [exact L|]. split; reflexivity.
    + apply nil_kids in E. destruct E as [-> ->]. injection I as <-. exists (NBetBack i). split; [exact L|]. split; reflexivity.
    + apply nil_kids in E. destruct E as [-> ->]. injection I as <-. exists (NBetText i). split; [exact L|]. split; reflexivity.
    + destruct q as [|[|m] q]; cbn [at_path B kids_of nth_error] in E.
      * injection E as <-. injection I as <-. exists (NButton i). split; [exact L|]. split; reflexivity.
      * apply nil_kids in E. destruct E as [-> ->]. injection I as <-. exists (NButtonBack i). split; [exact L|]. split; reflexivity.
      * destruct m; discriminate E.
    + destruct m; discriminate E.
  - destruct q as [|[|[|m]] q]; cbn [at_path sk_board B kids_of nth_error] in E.
    + injection E as <-. injection I as <-. exists (Named ["community"%string]). split; [cbn; tauto|]. split; reflexivity.
    + change "community"%string with (lab None) in E at 1. change (sk_card "community") with (sk_card (lab None)) in E. apply cards_ids in E. destruct E as (t & T & C). rewrite T in I. injection I as <-. exists t. split; [|split; [reflexivity|]].
      * destruct C as [[-> _]|(k & K & [[-> _]|[[-> _]|[-> _]]])]; cbn [fits]; [exact Logic.I|lia|lia|lia].
      * destruct C as [[-> ->]|(k & K & [[-> ->]|[[-> ->]|[-> ->]]])]; reflexivity.
    + destruct q as [|[|[|m]] q]; cbn [at_path B kids_of nth_error] in E.
      * injection E as <-. injection I as <-. exists (Named ["pot"%string]). split; [cbn; tauto|]. split; reflexivity.
      * apply nil_kids in E. destruct E as [-> ->]. injection I as <-. exists (Named ["pot"; "background"]%string). split; [cbn; tauto|]. split; reflexivity.
      * apply nil_kids in E. destruct E as [-> ->]. injection I as <-. exists (Named ["pot"; "text"]%string). split; [cbn; tauto|]. split; reflexivity.
      * destruct m; discriminate E.
    + destruct m; discriminate E.
Qed.
Lemma sk_unique n nh nc : unique_ids (sk_page n nh nc).
Proof.
  intros p q x y i P Q X Y. destruct (place_inv _ _ _ _ _ _ P X) as (t & T & -> & ->). destruct (place_inv _ _ _ _ _ _ Q Y) as (u & U & E & ->).
  f_equal. apply show_inj; [eapply fits_good; eassumption..|exact E].
Qed.
(** and all of them are there *)
Lemma place_at n nh nc t : fits n nh nc t -> exists x, at_path (place n t) (sk_page n nh nc) = Some x /\ a_id (attrs_of x) = Some (show t).
Proof.
  assert (CC : forall l m k q, (k < m)%nat -> at_path (k :: q) (B "cards" (Some (labelled "cards" (lab l))) (map (sk_card (lab l)) (seq 0 m))) = at_path q (sk_card (lab l) k)).
  { intros l m k q K. cbn [at_path B kids_of]. rewrite nth_map_seq. destruct (Nat.ltb_spec k m); [reflexivity|lia]. }
  assert (P1 : forall i q, (i < n)%nat -> at_path ((8 + i)%nat :: q) (sk_page n nh nc) = at_path q (sk_seat nh i)) by (intros i q H; rewrite at_sk, sk_kid_seat by exact H; reflexivity).
  assert (P2 : forall i q, (i < n)%nat -> at_path ((8 + n + i)%nat :: q) (sk_page n nh nc) = at_path q (sk_bet i)) by (intros i q H; rewrite at_sk, sk_kid_bet by exact H; reflexivity).
  assert (P3 : forall q, at_path ((8 + 2 * n)%nat :: q) (sk_page n nh nc) = at_path q (sk_board nc)) by (intros q; rewrite at_sk, sk_kid_board; reflexivity).
  assert (Q1 : forall i k q, (i < n)%nat -> (k < nh)%nat -> at_path (cards_place n (Some i) ++ k :: q) (sk_page n nh nc) = at_path q (sk_card (lab (Some i)) k)).
  { intros i k q I K. cbn [cards_place app]. rewrite P1 by exact I. exact (CC (Some i) nh k q K). }
  assert (Q2 : forall k q, (k <= nc)%nat -> at_path (cards_place n None ++ k :: q) (sk_page n nh nc) = at_path q (sk_card (lab None) k)).
  { intros k q K. cbn [cards_place app]. rewrite P3. exact (CC None (S nc) k q ltac:(lia)). }
  destruct t as [w|i|i|l|l k|l k|l k|i|i|i|i|i|i|i|i]; intros F; cbn [fits place] in *.
  - unfold words in F. repeat (destruct F as [<-|F]; [cbn [word_place hd String.eqb Ascii.eqb Bool.eqb]; rewrite ?P3; eexists; split; reflexivity|]). destruct F.
  - rewrite P1 by exact F. eexists; split; reflexivity.
  - rewrite P1 by exact F. eexists; split; reflexivity.
  - destruct l as [i|]; cbn [cards_place]; [rewrite P1 by exact F|rewrite P3]; eexists; split; reflexivity.
  - destruct l as [i|]; [rewrite Q1 by tauto|rewrite Q2 by exact F]; (eexists; split; [reflexivity|]); rewrite <- show_card; reflexivity.
  - destruct l as [i|]; [rewrite Q1 by tauto|rewrite Q2 by exact F]; (eexists; split; [reflexivity|]); rewrite <- show_card_back; reflexivity.
  - destruct l as [i|]; [rewrite Q1 by tauto|rewrite Q2 by exact F]; (eexists; split; [reflexivity|]); rewrite <- show_card_text; reflexivity.
  - rewrite P1 by exact F. eexists; split; reflexivity.
  - rewrite P1 by exact F. eexists; split; reflexivity.
  - rewrite P1 by exact F. eexists; split; reflexivity.
  - rewrite P2 by exact F. eexists; split; reflexivity.
  - rewrite P2 by exact F. eexists; split; reflexivity.
  - rewrite P2 by exact F. eexists; split; reflexivity.
  - rewrite P2 by exact F. eexists; split; reflexivity.
  - rewrite P2 by exact F. eexists; split; reflexivity.
Qed.
Lemma place_inj n nh nc t u : fits n nh nc t -> fits n nh nc u -> place n t = place n u -> t = u.
Proof.
  intros T U E. destruct (place_at n nh nc t T) as (x & X & I). destruct (place_at n nh nc u U) as (y & Y & J). rewrite E in X. rewrite X in Y. injection Y as <-.
  rewrite I in J. injection J as J. apply show_inj; [eapply fits_good; eassumption..|exact J].
Qed.
