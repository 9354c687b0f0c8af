(** * SvgShow: what stands on the page after a configuration *)
From Coq Require Import ZifyBool ZifyNat Arith.
From Verif Require Import PyBase PyFacts CardModel EngineModel AsciiModel JsonModel SvgModel SvgFacts SvgIds SvgPage.

Lemma nodup_seq m : NoDup (seq 0 m). Proof. apply seq_NoDup. Qed.
(** at most one element of a sequence matters *)
Lemma last_text_enum {A} u k (g : nat * A -> list write) l : (forall k' s, k' <> k -> last_text u (g (k', s)) = None) ->
  last_text u (flat_map g (enumerate l)) = match nth_error l k with Some s => last_text u (g (k, s)) | None => None end.
Proof.
  intros H. destruct (nth_error l k) as [s|] eqn:E.
  - apply last_text_one; [apply nodup_enumerate|now apply in_enumerate|]. intros [k' s'] I N. apply H. intros ->. apply in_enumerate in I. rewrite E in I. congruence.
  - apply last_text_silent. intros [k' s'] I. apply H. intros ->. apply in_enumerate in I. congruence.
Qed.
Lemma last_fill_enum {A} u k (g : nat * A -> list write) l : (forall k' s, k' <> k -> last_fill u (g (k', s)) = None) ->
  last_fill u (flat_map g (enumerate l)) = match nth_error l k with Some s => last_fill u (g (k, s)) | None => None end.
Proof.
  intros H. destruct (nth_error l k) as [s|] eqn:E.
  - apply last_fill_one; [apply nodup_enumerate|now apply in_enumerate|]. intros [k' s'] I N. apply H. intros ->. apply in_enumerate in I. rewrite E in I. congruence.
  - apply last_fill_silent. intros [k' s'] I. apply H. intros ->. apply in_enumerate in I. congruence.
Qed.
Lemma last_text_seq u k (g : nat -> list write) m : (k < m)%nat -> (forall k', k' <> k -> last_text u (g k') = None) -> last_text u (flat_map g (seq 0 m)) = last_text u (g k).
Proof. intros L H. apply last_text_one; [apply nodup_seq|apply in_seq; lia|]. intros x _ N. now apply H. Qed.
Lemma last_fill_seq u k (g : nat -> list write) m : (k < m)%nat -> (forall k', k' <> k -> last_fill u (g k') = None) -> last_fill u (flat_map g (seq 0 m)) = last_fill u (g k).
Proof. intros L H. apply last_fill_one; [apply nodup_seq|apply in_seq; lia|]. intros x _ N. now apply H. Qed.
(** all with the same value *)
Lemma last_text_texts u v l : last_text u (map (fun t => WText t v) l) = if in_dec ident_eq_dec u l then Some v else None.
Proof.
  induction l as [|t l IH]; [reflexivity|]. cbn [map last_text]. rewrite IH. destruct (in_dec ident_eq_dec u l) as [I|I], (in_dec ident_eq_dec u (t :: l)) as [J|J]; try reflexivity.
  - exfalso. apply J. now right.
  - destruct (ident_eq_dec t u) as [E|E]; [reflexivity|]. destruct J as [J|J]; contradiction.
  - destruct (ident_eq_dec t u) as [E|E]; [|reflexivity]. exfalso. apply J. now left.
Qed.
Lemma last_text_fills u v l : last_text u (map (fun t => WFill t v) l) = None.
Proof. induction l as [|t l IH]; [reflexivity|]. cbn [map last_text]. now rewrite IH. Qed.
Lemma last_fill_fills u v l : last_fill u (map (fun t => WFill t v) l) = if in_dec ident_eq_dec u l then Some v else None.
Proof.
  induction l as [|t l IH]; [reflexivity|]. cbn [map last_fill]. rewrite IH. destruct (in_dec ident_eq_dec u l) as [I|I], (in_dec ident_eq_dec u (t :: l)) as [J|J]; try reflexivity.
  - exfalso. apply J. now right.
  - destruct (ident_eq_dec t u) as [E|E]; [reflexivity|]. destruct J as [J|J]; contradiction.
  - destruct (ident_eq_dec t u) as [E|E]; [|reflexivity]. exfalso. apply J. now left.
Qed.
Lemma last_fill_texts u v l : last_fill u (map (fun t => WText t v) l) = None.
Proof. induction l as [|t l IH]; [reflexivity|]. cbn [map last_fill]. now rewrite IH. Qed.
Lemma in_yes {B} u l (a b : B) : In u l -> (if in_dec ident_eq_dec u l then a else b) = a.
Proof. intros I. destruct (in_dec ident_eq_dec u l); [reflexivity|contradiction]. Qed.
Lemma in_no {B} u l (a b : B) : ~ In u l -> (if in_dec ident_eq_dec u l then a else b) = b.
Proof. intros I. destruct (in_dec ident_eq_dec u l); [contradiction|reflexivity]. Qed.
Ltac elsewhere := let H := fresh in intros H; apply in_map_iff in H; let x := fresh in destruct H as (x & H & _); discriminate H.

(** one card *)
Lemma card_text l k s u : last_text u (w_card l k s) = if ident_eq_dec (NCardText l k) u then Some (card_value s) else None.
Proof.
  unfold w_card. cbn [last_text]. destruct (colours (nth_error s 1)) as [[f c]|]; cbn [last_text]; reflexivity.
Qed.
Lemma card_fill l k s u : last_fill u (w_card l k s) =
  match colours (nth_error s 1) with
  | Some (f, c) => if ident_eq_dec (NCardText l k) u then Some c else if ident_eq_dec (NCardBack l k) u then Some f else None
  | None => None
  end.
Proof.
  unfold w_card. cbn [last_fill]. destruct (colours (nth_error s 1)) as [[f c]|]; [|reflexivity]. cbn [last_fill].
  destruct (ident_eq_dec (NCardText l k) u), (ident_eq_dec (NCardBack l k) u); reflexivity.
Qed.
Ltac other := match goal with |- context [ident_eq_dec ?a ?b] => destruct (ident_eq_dec a b) as [?E|_]; [exfalso; first [discriminate E | injection E; intros; subst; contradiction | injection E; intros; lia]|] end.
Ltac same := match goal with |- context [ident_eq_dec ?a ?b] => destruct (ident_eq_dec a b) as [_|?N]; [|exfalso; apply N; reflexivity] end.

Section Show.
Variables n nh nc : nat.
Variable j : jconfig.
Let hands := js_hands (j_hole_cards j).
Let W := w_reset n nh nc ++ w_update j.

(** texts *)
Lemma players_chips i : last_text (NChipsText i) (flat_map (w_player j) (enumerate hands)) = match nth_error hands i with Some _ => Some (js_num (j_stacks j) i) | None => None end.
Proof.
  rewrite (last_text_enum _ i).
  - destruct (nth_error hands i); [|reflexivity]. unfold w_player. cbn [fst snd]. rewrite !last_text_app. cbn [last_text]. same.
    destruct (nth i (j_active j) false); [|reflexivity]. rewrite last_text_silent; [reflexivity|]. intros x _. rewrite card_text. now other.
  - intros i' s N. unfold w_player. cbn [fst snd]. rewrite !last_text_app. cbn [last_text]. do 2 other.
    destruct (nth i' (j_active j) false); [|reflexivity]. rewrite last_text_silent; [reflexivity|]. intros x _. rewrite card_text. now other.
Qed.
Lemma players_bet i : last_text (NBetText i) (flat_map (w_player j) (enumerate hands)) = match nth_error hands i with Some _ => Some (js_num (j_street_commits j) i) | None => None end.
Proof.
  rewrite (last_text_enum _ i).
  - destruct (nth_error hands i); [|reflexivity]. unfold w_player. cbn [fst snd]. rewrite !last_text_app. cbn [last_text]. same. other.
    destruct (nth i (j_active j) false); [|reflexivity]. rewrite last_text_silent; [reflexivity|]. intros x _. rewrite card_text. now other.
  - intros i' s N. unfold w_player. cbn [fst snd]. rewrite !last_text_app. cbn [last_text]. do 2 other.
    destruct (nth i' (j_active j) false); [|reflexivity]. rewrite last_text_silent; [reflexivity|]. intros x _. rewrite card_text. now other.
Qed.
(** the cards a player shows *)
Definition open_hand (i : nat) : list (list Z) := if nth i (j_active j) false then nth i hands [] else [].
Lemma hand_text i k s : last_text (NCardText (Some i) k) (w_player j (i, s)) = option_map card_value (if nth i (j_active j) false then nth_error s k else None).
Proof.
  unfold w_player. cbn [fst snd]. rewrite !last_text_app. cbn [last_text]. do 2 other. destruct (nth i (j_active j) false); [|reflexivity].
  rewrite (last_text_enum _ k).
  - destruct (nth_error s k); [|reflexivity]. rewrite card_text. cbn [fst snd]. now same.
  - intros k' x N. rewrite card_text. cbn [fst snd]. now other.
Qed.
Lemma hand_fill i k s u : u = NCardText (Some i) k \/ u = NCardBack (Some i) k -> last_fill u (w_player j (i, s)) =
  match (if nth i (j_active j) false then nth_error s k else None) with Some x => last_fill u (w_card (Some i) k x) | None => None end.
Proof.
  intros U. unfold w_player. cbn [fst snd]. rewrite !last_fill_app. cbn [last_fill]. destruct (nth i (j_active j) false); [|reflexivity].
  rewrite (last_fill_enum _ k).
  - destruct (nth_error s k) as [x|]; [|reflexivity]. cbn [fst snd]. now destruct (last_fill u (w_card (Some i) k x)).
  - intros k' x N. rewrite card_fill. cbn [fst snd]. destruct (colours _) as [[f c]|]; [|reflexivity]. destruct U as [-> | ->]; do 2 other; reflexivity.
Qed.
Lemma hand_other_text i i' k s : i' <> i -> last_text (NCardText (Some i) k) (w_player j (i', s)) = None.
Proof.
  intros N. unfold w_player. cbn [fst snd]. rewrite !last_text_app. cbn [last_text]. do 2 other. destruct (nth i' (j_active j) false); [|reflexivity].
  rewrite last_text_silent; [reflexivity|]. intros x _. rewrite card_text. now other.
Qed.
Lemma hand_other_fill i i' k s u : u = NCardText (Some i) k \/ u = NCardBack (Some i) k -> i' <> i -> last_fill u (w_player j (i', s)) = None.
Proof.
  intros U N. unfold w_player. cbn [fst snd]. rewrite !last_fill_app. cbn [last_fill]. destruct (nth i' (j_active j) false); [|reflexivity].
  rewrite last_fill_silent; [reflexivity|]. intros x _. rewrite card_fill. destruct (colours _) as [[f c]|]; [|reflexivity]. destruct U as [-> | ->]; do 2 other; reflexivity.
Qed.
Lemma players_card_text i k : last_text (NCardText (Some i) k) (flat_map (w_player j) (enumerate hands)) = option_map card_value (nth_error (open_hand i) k).
Proof.
  rewrite (last_text_enum _ i) by (intros i' s N; now apply hand_other_text). unfold open_hand. destruct (nth_error hands i) as [h|] eqn:E.
  - rewrite hand_text. rewrite (nth_error_nth _ _ _ E). destruct (nth i (j_active j) false); [reflexivity|]. now destruct k.
  - rewrite (nth_overflow hands) by (now apply nth_error_None). destruct (nth i (j_active j) false); now destruct k.
Qed.
Lemma players_card_fill i k u : u = NCardText (Some i) k \/ u = NCardBack (Some i) k -> last_fill u (flat_map (w_player j) (enumerate hands)) =
  match nth_error (open_hand i) k with Some x => last_fill u (w_card (Some i) k x) | None => None end.
Proof.
  intros U. rewrite (last_fill_enum _ i) by (intros i' s N; now apply (hand_other_fill i i' k)). unfold open_hand. destruct (nth_error hands i) as [h|] eqn:E.
  - rewrite (hand_fill i k h u U). rewrite (nth_error_nth _ _ _ E). destruct (nth i (j_active j) false); [reflexivity|]. now destruct k.
  - rewrite (nth_overflow hands) by (now apply nth_error_None). destruct (nth i (j_active j) false); now destruct k.
Qed.
(** what the players' part leaves alone *)
Lemma players_text_quiet u : (match u with NBetText _ | NChipsText _ | NCardText (Some _) _ => False | _ => True end) -> last_text u (flat_map (w_player j) (enumerate hands)) = None.
Proof.
  intros U. apply last_text_silent. intros [i s] _. unfold w_player. cbn [fst snd]. rewrite !last_text_app. cbn [last_text].
  destruct (ident_eq_dec (NChipsText i) u) as [<-|_]; [destruct U|]. destruct (ident_eq_dec (NBetText i) u) as [<-|_]; [destruct U|].
  destruct (nth i (j_active j) false); [|reflexivity]. rewrite last_text_silent; [reflexivity|]. intros x _. rewrite card_text. destruct (ident_eq_dec (NCardText (Some i) (fst x)) u) as [<-|_]; [destruct U|reflexivity].
Qed.
Lemma players_fill_quiet u : (match u with NCardBack (Some _) _ | NCardText (Some _) _ => False | _ => True end) -> last_fill u (flat_map (w_player j) (enumerate hands)) = None.
Proof.
  intros U. apply last_fill_silent. intros [i s] _. unfold w_player. cbn [fst snd]. rewrite !last_fill_app. cbn [last_fill].
  destruct (nth i (j_active j) false); [|reflexivity]. rewrite last_fill_silent; [reflexivity|]. intros x _. rewrite card_fill. destruct (colours _) as [[f c]|]; [|reflexivity].
  destruct (ident_eq_dec (NCardText (Some i) (fst x)) u) as [<-|_]; [destruct U|]. destruct (ident_eq_dec (NCardBack (Some i) (fst x)) u) as [<-|_]; [destruct U|reflexivity].
Qed.
(** the board *)
Lemma community_text k : last_text (NCardText None (k + 1)) (w_community j) = option_map card_value (nth_error (board_strings j) k).
Proof.
  unfold w_community. rewrite last_text_app. cbn [last_text]. other. rewrite (last_text_enum _ k).
  - destruct (nth_error (board_strings j) k); [|reflexivity]. rewrite card_text. cbn [fst snd]. now same.
  - intros k' s N. rewrite card_text. cbn [fst snd]. now other.
Qed.
Lemma community_fill k u : u = NCardText None (k + 1) \/ u = NCardBack None (k + 1) -> last_fill u (w_community j) =
  match nth_error (board_strings j) k with Some x => last_fill u (w_card None (k + 1) x) | None => None end.
Proof.
  intros U. unfold w_community. rewrite last_fill_app. cbn [last_fill]. rewrite (last_fill_enum _ k); [reflexivity|].
  intros k' s N. rewrite card_fill. cbn [fst snd]. destruct (colours _) as [[f c]|]; [|reflexivity]. destruct U as [-> | ->]; do 2 other; reflexivity.
Qed.
Lemma community_text_quiet u : (match u with NCardText None _ | Named _ => False | _ => True end) -> last_text u (w_community j) = None.
Proof.
  intros U. unfold w_community. rewrite last_text_app. cbn [last_text]. destruct (ident_eq_dec (Named _) u) as [<-|_]; [destruct U|].
  apply last_text_silent. intros x _. rewrite card_text. destruct (ident_eq_dec (NCardText None (fst x + 1)) u) as [<-|_]; [destruct U|reflexivity].
Qed.
Lemma community_fill_quiet u : (match u with NCardText None (S _) | NCardBack None (S _) => False | _ => True end) -> last_fill u (w_community j) = None.
Proof.
  intros U. unfold w_community. rewrite last_fill_app. cbn [last_fill]. apply last_fill_silent. intros x _. rewrite card_fill. destruct (colours _) as [[f c]|]; [|reflexivity].
  destruct (ident_eq_dec (NCardText None (fst x + 1)) u) as [<-|_]; [rewrite Nat.add_1_r in U; destruct U|]. destruct (ident_eq_dec (NCardBack None (fst x + 1)) u) as [<-|_]; [rewrite Nat.add_1_r in U; destruct U|reflexivity].
Qed.
(** the tail has no texts *)
Lemma tail_text u : last_text u ([WFill (NButtonBack (Z.to_nat (j_button j))) "url(#dealer)"] ++ w_action j) = None.
Proof. unfold w_action. destruct (0 <=? j_action j); reflexivity. Qed.
Lemma tail_fill u : (match u with NButtonBack _ | NBack _ => False | _ => True end) -> last_fill u ([WFill (NButtonBack (Z.to_nat (j_button j))) "url(#dealer)"] ++ w_action j) = None.
Proof.
  intros U. rewrite last_fill_app. unfold w_action. destruct (0 <=? j_action j); cbn [last_fill].
  - destruct (ident_eq_dec (NBack _) u) as [<-|_]; [destruct U|]. destruct (ident_eq_dec (NButtonBack _) u) as [<-|_]; [destruct U|reflexivity].
  - destruct (ident_eq_dec (NButtonBack _) u) as [<-|_]; [destruct U|reflexivity].
Qed.
(** the reset *)
Lemma reset_card_text i k : (i < n)%nat -> (k < nh)%nat -> last_text (NCardText (Some i) k) (w_reset n nh nc) = Some [].
Proof.
  intros I K. unfold w_reset, w_reset_button, w_reset_community, w_reset_player. rewrite !last_text_app, !last_text_fills, !last_text_texts. cbn [last_text].
  other. rewrite in_no by elsewhere. rewrite (last_text_seq _ i); [|exact I|].
  2:{ intros i' N. rewrite !last_text_app, last_text_texts, last_text_fills. cbn [last_text]. rewrite in_no; [now other|].
      intros H. apply in_map_iff in H. destruct H as (x & H & _). injection H. intros. subst. contradiction. }
  rewrite !last_text_app, last_text_texts, in_yes; [reflexivity|]. apply in_map, in_seq. lia.
Qed.
Lemma reset_card_fill i k : (i < n)%nat -> (k < nh)%nat -> last_fill (NCardBack (Some i) k) (w_reset n nh nc) = Some "url(#card-back)"%string.
Proof.
  intros I K. unfold w_reset, w_reset_button, w_reset_community, w_reset_player. rewrite !last_fill_app, !last_fill_texts, !last_fill_fills. cbn [last_fill].
  rewrite in_no by elsewhere. other. rewrite in_no by elsewhere. other. rewrite in_no by elsewhere.
  rewrite (last_fill_seq _ i); [|exact I|].
  2:{ intros i' N. rewrite !last_fill_app, last_fill_texts, last_fill_fills. cbn [last_fill]. rewrite in_no; [reflexivity|].
      intros H. apply in_map_iff in H. destruct H as (x & H & _). injection H. intros. subst. contradiction. }
  rewrite !last_fill_app, last_fill_texts, last_fill_fills, in_yes; [reflexivity|]. apply in_map, in_seq. lia.
Qed.
Lemma reset_board_text k : (k < nc)%nat -> last_text (NCardText None (k + 1)) (w_reset n nh nc) = Some [].
Proof.
  intros K. unfold w_reset, w_reset_button, w_reset_community. rewrite !last_text_app, !last_text_fills, !last_text_texts. cbn [last_text]. other.
  rewrite in_yes; [reflexivity|]. apply in_map, in_seq. lia.
Qed.
Lemma reset_board_fill k : (k < nc)%nat -> last_fill (NCardBack None (k + 1)) (w_reset n nh nc) = Some "url(#card-blank)"%string.
Proof.
  intros K. unfold w_reset, w_reset_button, w_reset_community. rewrite !last_fill_app, !last_fill_fills, !last_fill_texts. cbn [last_fill].
  rewrite in_no by elsewhere. other. rewrite in_yes; [reflexivity|]. apply in_map, in_seq. lia.
Qed.
Lemma reset_deck_fill : last_fill (NCardBack None 0) (w_reset n nh nc) = Some "url(#card-back)"%string.
Proof.
  unfold w_reset, w_reset_button, w_reset_community. rewrite !last_fill_app, !last_fill_fills, !last_fill_texts. cbn [last_fill].
  rewrite in_no by elsewhere. other. rewrite in_no; [now same|]. intros H. apply in_map_iff in H. destruct H as (x & H & I). injection H as ->. apply in_seq in I. lia.
Qed.
Lemma reset_button_fill i : (i < n)%nat -> last_fill (NButtonBack i) (w_reset n nh nc) = Some "transparent"%string.
Proof.
  intros I. unfold w_reset, w_reset_button. rewrite !last_fill_app, !last_fill_fills. rewrite in_yes; [reflexivity|]. apply in_map, in_seq. lia.
Qed.
Lemma reset_back_fill i : (i < n)%nat -> last_fill (NBack i) (w_reset n nh nc) = Some "#ffffff"%string.
Proof.
  intros I. unfold w_reset, w_reset_button, w_reset_community, w_reset_player. rewrite !last_fill_app, !last_fill_fills, !last_fill_texts. cbn [last_fill].
  rewrite in_no by elsewhere. other. rewrite in_no by elsewhere. other. rewrite in_yes; [reflexivity|]. apply in_map, in_seq. lia.
Qed.

(** ** All together *)
Lemma W_chips i : (i < List.length hands)%nat -> last_text (NChipsText i) W = Some (js_num (j_stacks j) i).
Proof.
  intros H. unfold W, w_update. rewrite !(last_text_app _ (w_reset n nh nc)), last_text_app, (last_text_app _ (w_community j)), tail_text, community_text_quiet by exact I. fold hands. rewrite players_chips.
  destruct (nth_error hands i) eqn:E; [reflexivity|]. apply nth_error_None in E. lia.
Qed.
Lemma W_bet i : (i < List.length hands)%nat -> last_text (NBetText i) W = Some (js_num (j_street_commits j) i).
Proof.
  intros H. unfold W, w_update. rewrite !(last_text_app _ (w_reset n nh nc)), last_text_app, (last_text_app _ (w_community j)), tail_text, community_text_quiet by exact I. fold hands. rewrite players_bet.
  destruct (nth_error hands i) eqn:E; [reflexivity|]. apply nth_error_None in E. lia.
Qed.
Lemma W_pot : last_text (Named ["pot"; "text"]%string) W = Some (str_int (j_pot j)).
Proof.
  unfold W, w_update. rewrite !(last_text_app _ (w_reset n nh nc)), last_text_app, (last_text_app _ (w_community j)), tail_text. unfold w_community. rewrite last_text_app. cbn [last_text]. now same.
Qed.
Lemma W_card_text i k : (i < n)%nat -> (k < nh)%nat -> last_text (NCardText (Some i) k) W = Some (match nth_error (open_hand i) k with Some s => card_value s | None => [] end).
Proof.
  intros H K. unfold W, w_update. rewrite !(last_text_app _ (w_reset n nh nc)), last_text_app, (last_text_app _ (w_community j)), tail_text, community_text_quiet by exact I. fold hands. rewrite players_card_text, reset_card_text by assumption.
  destruct (nth_error (open_hand i) k); reflexivity.
Qed.
Lemma W_card_back i k : (i < n)%nat -> (k < nh)%nat -> last_fill (NCardBack (Some i) k) W =
  match nth_error (open_hand i) k with Some s => match colours (nth_error s 1) with Some (f, _) => Some f | None => Some "url(#card-back)"%string end | None => Some "url(#card-back)"%string end.
Proof.
  intros H K. unfold W, w_update. rewrite !(last_fill_app _ (w_reset n nh nc)), last_fill_app, (last_fill_app _ (w_community j)), tail_fill, community_fill_quiet by exact I. fold hands. rewrite (players_card_fill i k), reset_card_fill by (first [assumption|now right]).
  destruct (nth_error (open_hand i) k) as [s|]; [|reflexivity]. rewrite card_fill. destruct (colours _) as [[f c]|]; [|reflexivity]. other. now same.
Qed.
Lemma W_card_colour i k s f c : nth_error (open_hand i) k = Some s -> colours (nth_error s 1) = Some (f, c) -> last_fill (NCardText (Some i) k) W = Some c.
Proof.
  intros E C. unfold W, w_update. rewrite !(last_fill_app _ (w_reset n nh nc)), last_fill_app, (last_fill_app _ (w_community j)), tail_fill, community_fill_quiet by exact I. fold hands. rewrite (players_card_fill i k) by now left.
  rewrite E, card_fill, C. now same.
Qed.
Lemma W_board_text k : (k < nc)%nat -> last_text (NCardText None (k + 1)) W = Some (match nth_error (board_strings j) k with Some s => card_value s | None => [] end).
Proof.
  intros K. unfold W, w_update. rewrite !(last_text_app _ (w_reset n nh nc)), last_text_app, (last_text_app _ (w_community j)), tail_text, community_text, players_text_quiet, reset_board_text by (first [exact I|assumption]).
  destruct (nth_error (board_strings j) k); reflexivity.
Qed.
Lemma W_board_back k : (k < nc)%nat -> last_fill (NCardBack None (k + 1)) W =
  match nth_error (board_strings j) k with Some s => match colours (nth_error s 1) with Some (f, _) => Some f | None => Some "url(#card-blank)"%string end | None => Some "url(#card-blank)"%string end.
Proof.
  intros K. unfold W, w_update. rewrite !(last_fill_app _ (w_reset n nh nc)), last_fill_app, (last_fill_app _ (w_community j)), tail_fill, (community_fill k), players_fill_quiet, reset_board_fill by (first [exact I|assumption|now right]).
  destruct (nth_error (board_strings j) k) as [s|]; [|reflexivity]. rewrite card_fill. destruct (colours _) as [[f c]|]; [|reflexivity]. other. now same.
Qed.
Lemma W_board_colour k s f c : nth_error (board_strings j) k = Some s -> colours (nth_error s 1) = Some (f, c) -> last_fill (NCardText None (k + 1)) W = Some c.
Proof.
  intros E C. unfold W, w_update. rewrite !(last_fill_app _ (w_reset n nh nc)), last_fill_app, (last_fill_app _ (w_community j)), tail_fill, (community_fill k) by (first [exact I|now left]).
  rewrite E, card_fill, C. now same.
Qed.
Lemma W_deck : last_fill (NCardBack None 0) W = Some "url(#card-back)"%string.
Proof.
  unfold W, w_update. rewrite !(last_fill_app _ (w_reset n nh nc)), last_fill_app, (last_fill_app _ (w_community j)), tail_fill, community_fill_quiet, players_fill_quiet, reset_deck_fill by exact I. reflexivity.
Qed.
Lemma W_button i : (i < n)%nat -> 0 <= j_button j -> last_fill (NButtonBack i) W = Some (if Z.of_nat i =? j_button j then "url(#dealer)"%string else "transparent"%string).
Proof.
  intros H B. unfold W, w_update. rewrite !(last_fill_app _ (w_reset n nh nc)), last_fill_app, (last_fill_app _ (w_community j)), community_fill_quiet, players_fill_quiet, reset_button_fill by (first [exact I|assumption]).
  rewrite last_fill_app. unfold w_action. assert (A : forall x, last_fill (NButtonBack i) (if 0 <=? j_action j then [WFill (NBack x) "#000000"%string] else []) = None).
  { intros x. destruct (0 <=? j_action j); [|reflexivity]. cbn [last_fill]. now other. }
  rewrite A. cbn [last_fill]. destruct (ident_eq_dec (NButtonBack (Z.to_nat (j_button j))) (NButtonBack i)) as [E|N]; destruct (Z.eqb_spec (Z.of_nat i) (j_button j)) as [E'|N']; try reflexivity; exfalso.
  - injection E as E. lia.
  - apply N. f_equal. lia.
Qed.
Lemma W_action i : (i < n)%nat -> last_fill (NBack i) W = Some (if Z.of_nat i =? j_action j then "#000000"%string else "#ffffff"%string).
Proof.
  intros H. unfold W, w_update. rewrite !(last_fill_app _ (w_reset n nh nc)), last_fill_app, (last_fill_app _ (w_community j)), community_fill_quiet, players_fill_quiet, reset_back_fill by (first [exact I|assumption]).
  rewrite last_fill_app. unfold w_action. destruct (Z.leb_spec 0 (j_action j)) as [L|L]; cbn [last_fill].
  - destruct (ident_eq_dec (NBack (Z.to_nat (j_action j))) (NBack i)) as [E|N]; destruct (Z.eqb_spec (Z.of_nat i) (j_action j)) as [E'|N']; try (exfalso; first [injection E as E; lia|apply N; f_equal; lia]); [reflexivity|now other].
  - other. destruct (Z.eqb_spec (Z.of_nat i) (j_action j)); [lia|reflexivity].
Qed.
Lemma W_fit : suits_page n nh nc j -> fit n nh nc W.
Proof.
  intros [S1 S2 S3 S4 S5]. unfold fit, W, w_reset, w_update, w_reset_player, w_reset_community, w_reset_button, w_community. fold hands in S1, S2.
  assert (M : forall f (g : ident -> write) s m, (forall t, target (g t) = t) -> (forall k, (s <= k < s + m)%nat -> fits n nh nc (f k)) -> Forall (fun w => fits n nh nc (target w)) (map g (map f (seq s m)))).
  { intros f g s m T F. rewrite map_map. apply Forall_forall. intros w I. apply in_map_iff in I. destruct I as (k & <- & I). rewrite T. apply in_seq in I. now apply F. }
  assert (C : forall l k s, fits n nh nc (NCard l k) -> Forall (fun w => fits n nh nc (target w)) (w_card l k s)).
  { intros l k s F. unfold w_card. constructor; [exact F|]. destruct (colours _) as [[f c]|]; repeat constructor; exact F. }
  repeat (apply Forall_app; split).
  - apply Forall_flat_map. apply Forall_forall. intros i I. apply in_seq in I. repeat (apply Forall_app; split).
    + constructor; [cbn; lia|constructor].
    + apply M; [reflexivity|]. intros k K. cbn. lia.
    + apply M; [reflexivity|]. intros k K. cbn. lia.
  - apply M; [reflexivity|]. intros k K. cbn. lia.
  - constructor; [cbn; lia|constructor].
  - apply M; [reflexivity|]. intros k K. cbn. lia.
  - constructor; [cbn; lia|constructor].
  - apply M; [reflexivity|]. intros k K. cbn. lia.
  - constructor; [cbn; tauto|constructor].
  - apply M; [reflexivity|]. intros k K. cbn. lia.
  - apply Forall_flat_map. apply Forall_forall. intros [i h] I. apply in_enumerate in I. assert (IL : (i < n)%nat) by (apply Nat.lt_le_trans with (2 := S1); apply nth_error_Some; fold hands in I; congruence).
    unfold w_player. cbn [fst snd]. repeat (apply Forall_app; split); [constructor; [exact IL|constructor]..|]. destruct (nth i (j_active j) false); [|constructor].
    apply Forall_flat_map. apply Forall_forall. intros [k s] K. apply in_enumerate in K. cbn [fst snd]. apply C. cbn [fits]. split; [exact IL|].
    apply Nat.lt_le_trans with (List.length h); [apply nth_error_Some; congruence|]. apply S2. exact (nth_error_In _ _ I).
  - apply Forall_flat_map. apply Forall_forall. intros [k s] K. apply in_enumerate in K. cbn [fst snd]. apply C. cbn [fits].
    assert (k < List.length (board_strings j))%nat by (apply nth_error_Some; congruence). lia.
  - constructor; [cbn; tauto|constructor].
  - constructor; [cbn; lia|constructor].
  - unfold w_action. destruct (Z.leb_spec 0 (j_action j)); [|constructor]. constructor; [cbn; lia|constructor].
Qed.
End Show.
