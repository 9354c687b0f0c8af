(** * PropAscii: C44 and C50, the table drawn as text *)
From Coq Require Import ZifyBool ZifyNat Arith Sorted.
From Verif Require Import PyBase PyFacts CardModel EvalModel EngineModel EngineSpec EngineFacts EngineDemo PropRound PropBetting PropShow PropSide HandEnd PropHidden AsciiModel.

(** ** Specification *)

(** the fields of the table: for each of the ten places the player's line, the chips next to it,
    the marker and the button, and the four fields of the table as a whole *)
Inductive slot : Type :=
| SPlayer (k : nat) | SChips (k : nat) | SMark (k : nat) | SButton (k : nat)
| SBoard | SPot | SAction | SWin.
Definition slot_name (s : slot) : string :=
  match s with
  | SPlayer k => key "p" k
  | SChips k => append (key "p" k) "c"
  | SMark k => key "a" k
  | SButton k => key "b" k
  | SBoard => "ccs" | SPot => "pot" | SAction => "action" | SWin => "win"
  end.
Definition places : list nat := seq 0 10.
Definition all_slots : list slot :=
  map SPlayer places ++ map SChips places ++ map SMark places ++ map SButton places ++ [SBoard; SPot; SAction; SWin].

(** the template as a list of pieces *)
Definition table : list piece := Eval vm_compute in match scan ascii_table (InText "") with Ok l => l | Err _ => [] end.
Definition field_names (l : list piece) : list string :=
  flat_map (fun p => match p with Lit _ => [] | Field n _ _ => [n] end) l.

(** how a piece is written in the template file *)
Definition in_template (p : piece) : list Z :=
  match p with
  | Lit t => t
  | Field n a w => ustr "{" ++ ustr n ++ ustr ":" ++ match a with ALeft => [] | ARight => ustr ">" | ACenter => ustr "^" end ++ str_int (Z.of_nat w) ++ ustr "}"
  end.
(** [t] is the text [v] with spaces up to the width [w]: behind it, before it or on both sides *)
Definition padded (a : align) (w : nat) (v t : list Z) : Prop :=
  exists left right, t = repeat 32 left ++ v ++ repeat 32 right /\ (left + right = w - List.length v)%nat /\
    match a with ALeft => left = 0%nat | ARight => right = 0%nat | ACenter => (left <= right <= S left)%nat end.
(** what is printed for a piece: a text as it is, a field by the text given for it *)
Definition printed (d : dict) (p : piece) (t : list Z) : Prop :=
  match p with Lit u => t = u | Field n a w => exists v, d n = Some v /\ padded a w v t end.

(** a render configuration for [n] players: one entry per player in every list, and the button and
    (while the hand is on) the player to act are players *)
Record for_players (n : nat) (r : rconfig) : Prop := mkForPlayers {
  fp_active : List.length (rc_active r) = n;
  fp_all_in : List.length (rc_all_in r) = n;
  fp_hole : List.length (rc_hole_cards r) = n;
  fp_payouts : List.length (rc_payouts r) = n;
  fp_commits : List.length (rc_street_commits r) = n;
  fp_stacks : List.length (rc_stacks r) = n;
  fp_button : 0 <= rc_button r < Z.of_nat n;
  fp_action : rc_done r = false -> 0 <= rc_action r < Z.of_nat n
}.

(** texts with a separator between them *)
Definition separated (sep : list Z) (l : list (list Z)) : list Z :=
  match l with [] => [] | x :: r => x ++ flat_map (fun y => sep ++ y) r end.
(** what a player's line says: number (counted from 1, aligned to the right in two columns), cards, stack *)
Definition player_line (v : viewer) (r : rconfig) (i : nat) : list Z :=
  (if Nat.ltb i 9 then ustr " " else []) ++ str_int (Z.of_nat (S i)) ++ ustr ". "
  ++ separated (ustr ",")
       (if nth i (rc_active r) false then
          if rc_done r || (Z.of_nat i =? rc_action r) then map (fun c => [c_rank c; c_suit c]) (nth i (rc_hole_cards r) [])
          else repeat (ustr "??") (Z.to_nat (v_num_hole_cards v))
        else repeat (ustr "--") (Z.to_nat (v_num_hole_cards v)))
  ++ ustr " " ++ fmt_comma (nth i (rc_stacks r) 0).
(** the chips next to the player: their bet on this street, or what they won *)
Definition player_chips (r : rconfig) (i : nat) : list Z :=
  fmt_comma (nth i (if rc_done r then rc_payouts r else rc_street_commits r) 0).
(** the marker: A for a player who is all in, X for the player to act *)
Definition player_mark (r : rconfig) (i : nat) : list Z :=
  if rc_done r then []
  else if nth i (rc_all_in r) false then ustr "A"
  else if Z.of_nat i =? rc_action r then ustr "X" else [].
Definition player_button (r : rconfig) (i : nat) : list Z :=
  if Z.of_nat i =? rc_button r then ustr "D " else [].

(** the board: a cell for every card of the game, two dashes where it has not been dealt *)
Definition board_text (cells : nat) (cards : list card) : list Z :=
  ustr "[" ++ separated (ustr ",") (map (fun i => match nth_error cards i with Some c => [c_rank c; c_suit c] | None => ustr "--" end)
                                        (seq 0 (Nat.max cells (List.length cards)))) ++ ustr "]".
(** what the last player did, and whose turn it is; players are counted from 1 *)
Definition move_text (r : rconfig) : list Z :=
  if rc_done r then []
  else match rc_prev_action r with
       | None => []
       | Some (i, _, true) => ustr "Player " ++ str_int (Z.of_nat (S i)) ++ ustr " folded "
       | Some (i, 0, false) => ustr "Player " ++ str_int (Z.of_nat (S i)) ++ ustr " checked "
       | Some (i, bet, false) => ustr "Player " ++ str_int (Z.of_nat (S i)) ++ ustr " bet " ++ str_int bet ++ ustr " "
       end ++ ustr "Action on Player " ++ str_int (rc_action r + 1).
(** the players with a positive payout, and the line that names them *)
Definition winners (pays : list Z) : list nat := filter (fun i => 0 <? nth i pays 0) (seq 0 (List.length pays)).
Definition win_text (r : rconfig) : list Z :=
  let ws := winners (rc_payouts r) in
  if rc_done r then
    ustr "Player" ++ (if Nat.leb (List.length ws) 1 then [] else ustr "s") ++ ustr " "
    ++ separated (ustr ", ") (map (fun i => str_int (Z.of_nat (S i))) ws) ++ ustr " won "
    ++ separated (ustr ", ") (map (fun i => str_int (nth i (rc_payouts r) 0)) ws)
    ++ (if Nat.leb (List.length ws) 1 then [] else ustr " respectively")
  else [].

(** ** Names of fields *)
Fixpoint distinctb (l : list string) : bool :=
  match l with [] => true | x :: r => negb (existsb (String.eqb x) r) && distinctb r end.
Lemma distinctb_ok l : distinctb l = true -> NoDup l.
Proof.
  induction l as [|x l IH]; cbn [distinctb]; intros H; constructor; apply andb_true_iff in H; destruct H as [H1 H2].
  - intros I. apply negb_true_iff in H1. assert (E : existsb (String.eqb x) l = true) by (apply existsb_exists; exists x; split; [exact I|apply String.eqb_refl]). congruence.
  - exact (IH H2).
Qed.
Lemma slot_names_distinct : NoDup (map slot_name all_slots).
Proof. apply distinctb_ok. vm_compute. reflexivity. Qed.
Definition slot_ok (s : slot) : Prop :=
  match s with SPlayer k | SChips k | SMark k | SButton k => (k < 10)%nat | _ => True end.
Lemma all_slots_ok s : In s all_slots <-> slot_ok s.
Proof.
  unfold all_slots. rewrite !in_app_iff, !in_map_iff.
  assert (Q : forall k, In k places <-> (k < 10)%nat) by (intros k; unfold places; rewrite in_seq; lia).
  split.
  - intros [(k & <- & K)|[(k & <- & K)|[(k & <- & K)|[(k & <- & K)|H]]]]; cbn [slot_ok]; try (apply Q; exact K).
    cbn in H. destruct H as [<-|[<-|[<-|[<-|[]]]]]; exact I.
  - destruct s; cbn [slot_ok]; intros H; try (apply Q in H); eauto 8.
    all: do 4 right; cbn; tauto.
Qed.
Lemma nodup_map_inj {A B} (f : A -> B) l : NoDup (map f l) -> forall x y, In x l -> In y l -> f x = f y -> x = y.
Proof.
  induction l as [|a l IH]; cbn; intros N x y Hx Hy E; [tauto|]. inversion N as [|? ? NA N' ]; subst.
  destruct Hx as [<-|Hx], Hy as [<-|Hy].
  - reflexivity.
  - exfalso. apply NA. rewrite E. now apply in_map.
  - exfalso. apply NA. rewrite <- E. now apply in_map.
  - now apply IH.
Qed.
Lemma slot_name_inj s t : slot_ok s -> slot_ok t -> slot_name s = slot_name t -> s = t.
Proof. intros S T. apply (nodup_map_inj slot_name all_slots slot_names_distinct); now apply all_slots_ok. Qed.
Lemma set_same d s v : dict_set d (slot_name s) v (slot_name s) = Some v.
Proof. unfold dict_set. now rewrite String.eqb_refl. Qed.
Lemma set_other d s t v : slot_ok s -> slot_ok t -> s <> t -> dict_set d (slot_name s) v (slot_name t) = d (slot_name t).
Proof.
  intros S T N. unfold dict_set. destruct (String.eqb_spec (slot_name t) (slot_name s)) as [E|]; [|reflexivity].
  exfalso. apply N. symmetry. now apply slot_name_inj.
Qed.

(** ** The two loops *)
Definition item_pos (p : ((list Z * Z) * nat) * bool) : nat := snd (fst p).
Definition touches (ks : list nat) (s : slot) : Prop :=
  match s with SPlayer k | SChips k | SMark k => In k ks | _ => False end.
Lemma show_player_sets done d pl co k al :
  show_player done d (((pl, co), k), al) =
  (if al && negb done then fun d => dict_set d (slot_name (SMark k)) (ustr "A") else fun d => d)
    (dict_set (dict_set d (slot_name (SPlayer k)) pl) (slot_name (SChips k)) (fmt_comma co)).
Proof. unfold show_player. destruct (al && negb done); reflexivity. Qed.
Lemma show_player_other done d it s : (item_pos it < 10)%nat -> slot_ok s -> ~ touches [item_pos it] s ->
  show_player done d it (slot_name s) = d (slot_name s).
Proof.
  destruct it as [[[pl co] k] al]. cbn [item_pos snd fst]. intros K S T. rewrite show_player_sets.
  assert (A1 : SPlayer k <> s) by (intros <-; apply T; left; reflexivity).
  assert (A2 : SChips k <> s) by (intros <-; apply T; left; reflexivity).
  assert (A3 : SMark k <> s) by (intros <-; apply T; left; reflexivity).
  destruct (al && negb done); rewrite ?set_other; trivial.
Qed.
Lemma show_players_other done l : forall d s, Forall (fun it => (item_pos it < 10)%nat) l -> slot_ok s -> ~ touches (map item_pos l) s ->
  fold_left (show_player done) l d (slot_name s) = d (slot_name s).
Proof.
  induction l as [|it l IH]; intros d s F S T; [reflexivity|]. inversion F as [|? ? F1 F2]; subst. cbn [fold_left map] in *.
  rewrite IH; [|exact F2|exact S|].
  - apply show_player_other; [exact F1|exact S|]. destruct s; cbn [touches In map] in *; tauto.
  - destruct s; cbn [touches In map] in *; tauto.
Qed.
Lemma show_players_at done l d pl co k al i : Forall (fun it => (item_pos it < 10)%nat) l -> NoDup (map item_pos l) ->
  nth_error l i = Some (((pl, co), k), al) ->
  fold_left (show_player done) l d (slot_name (SPlayer k)) = Some pl
  /\ fold_left (show_player done) l d (slot_name (SChips k)) = Some (fmt_comma co)
  /\ fold_left (show_player done) l d (slot_name (SMark k)) = if al && negb done then Some (ustr "A") else d (slot_name (SMark k)).
Proof.
  intros F N E. destruct (nth_error_split l i E) as (l1 & l2 & -> & _). clear E i.
  rewrite map_app in N. cbn [map] in N. change (item_pos (pl, co, k, al)) with k in N.
  apply Forall_app in F. destruct F as [F1 F2]. inversion F2 as [|? ? K F3]; subst. change (item_pos (pl, co, k, al)) with k in K.
  assert (N1 : ~ In k (map item_pos l1)) by (intros H; apply NoDup_remove_2 in N; apply N; apply in_or_app; now left).
  assert (N2 : ~ In k (map item_pos l2)) by (intros H; apply NoDup_remove_2 in N; apply N; apply in_or_app; now right).
  rewrite !fold_left_app. cbn [fold_left].
  repeat rewrite (show_players_other done l2) by (assumption || exact K). rewrite show_player_sets.
  assert (S1 : slot_ok (SPlayer k)) by exact K. assert (S2 : slot_ok (SChips k)) by exact K. assert (S3 : slot_ok (SMark k)) by exact K.
  set (d1 := fold_left (show_player done) l1 d).
  assert (D1 : d1 (slot_name (SMark k)) = d (slot_name (SMark k))) by (apply show_players_other; assumption).
  clearbody d1.
  destruct (al && negb done); repeat split; rewrite ?(set_other _ (SMark k) (SPlayer k)), ?(set_other _ (SChips k) (SPlayer k)), ?(set_other _ (SMark k) (SChips k)), ?(set_other _ (SChips k) (SMark k)), ?(set_other _ (SPlayer k) (SMark k)), ?set_same by (assumption || discriminate); trivial.
Qed.
Lemma show_payouts_other l : forall d s, Forall (fun p : Z * nat => (snd p < 10)%nat) l -> slot_ok s ->
  match s with SChips k => ~ In k (map snd l) | _ => True end -> fold_left show_payout l d (slot_name s) = d (slot_name s).
Proof.
  induction l as [|[z k] l IH]; intros d s F S T; [reflexivity|]. inversion F as [|? ? F1 F2]; subst. cbn [fold_left map snd] in *.
  rewrite IH; [|exact F2|exact S|].
  - unfold show_payout. cbn [snd fst]. apply (set_other d (SChips k) s); [exact F1|exact S|]. intros <-. apply T. left. reflexivity.
  - destruct s; trivial. intros H. apply T. right. exact H.
Qed.
Lemma show_payouts_at l d z k i : Forall (fun p : Z * nat => (snd p < 10)%nat) l -> NoDup (map snd l) ->
  nth_error l i = Some (z, k) -> fold_left show_payout l d (slot_name (SChips k)) = Some (fmt_comma z).
Proof.
  intros F N E. destruct (nth_error_split l i E) as (l1 & l2 & -> & _). clear E i.
  rewrite map_app in N. cbn [map snd] in N. apply Forall_app in F. destruct F as [F1 F2]. inversion F2 as [|? ? K F3]; subst. cbn [snd] in K.
  assert (N2 : ~ In k (map snd l2)) by (intros H; apply NoDup_remove_2 in N; apply N; apply in_or_app; now right).
  rewrite fold_left_app. cbn [fold_left]. rewrite (show_payouts_other l2 _ (SChips k)) by assumption.
  unfold show_payout. cbn [snd fst]. apply (set_same _ (SChips k)).
Qed.

(** ** The players' lines *)
Lemma nth_error_combine {A B} (a : list A) (b : list B) i x y :
  nth_error a i = Some x -> nth_error b i = Some y -> nth_error (combine a b) i = Some (x, y).
Proof.
  revert b i. induction a as [|u a IH]; intros [|w b] [|i]; cbn; intros X Y; try discriminate.
  - now injection X as ->; injection Y as ->.
  - now apply IH.
Qed.
Lemma nth_error_at {A} (l : list A) i d : (i < List.length l)%nat -> nth_error l i = Some (nth i l d).
Proof. revert i. induction l as [|x l IH]; intros [|i]; cbn; intros H; try lia; [reflexivity|]. apply IH. lia. Qed.
Lemma enumerate_at {A} (l : list A) i x : nth_error l i = Some x -> nth_error (enumerate l) i = Some (i, x).
Proof.
  intros H. assert (L : (i < List.length l)%nat) by (apply nth_error_Some; rewrite H; discriminate).
  unfold enumerate. apply nth_error_combine; [|exact H]. rewrite (nth_error_at _ _ 0%nat) by (rewrite seq_length; exact L). now rewrite seq_nth.
Qed.
Lemma join_separated sep l : join sep l = separated sep l.
Proof.
  destruct l as [|x l]; [reflexivity|]. revert x. induction l as [|y l IH]; intros x; [cbn; now rewrite app_nil_r|].
  change (join sep (x :: y :: l)) with (x ++ sep ++ join sep (y :: l)). rewrite IH. cbn [separated flat_map]. now rewrite !app_assoc.
Qed.
Lemma number_column i : (i < 10)%nat -> fmt_2 (Z.of_nat i + 1) ++ ustr ". " ++ [] = (if Nat.ltb i 9 then ustr " " else []) ++ str_int (Z.of_nat (S i)) ++ ustr ". " ++ [].
Proof. intros H. do 10 (destruct i as [|i]; [reflexivity|]). lia. Qed.
Lemma line_at n v r i : for_players n r -> (n <= 10)%nat -> (i < n)%nat ->
  nth_error (parse_players v r (rc_done r) (rc_action r)) i = Some (player_line v r i).
Proof.
  intros F N L. unfold parse_players.
  erewrite map_nth_error.
  2:{ apply enumerate_at. apply nth_error_combine; [apply nth_error_combine|].
      - apply (nth_error_at _ _ []). rewrite (fp_hole _ _ F). exact L.
      - apply (nth_error_at _ _ 0). rewrite (fp_stacks _ _ F). exact L.
      - apply (nth_error_at _ _ false). rewrite (fp_active _ _ F). exact L. }
  unfold parse_player, player_line. rewrite join_separated.
  assert (C : forall t, fmt_2 (Z.of_nat i + 1) ++ ustr ". " ++ t = (if Nat.ltb i 9 then ustr " " else []) ++ str_int (Z.of_nat (S i)) ++ ustr ". " ++ t).
  { intros t. pose proof (number_column i ltac:(lia)) as H. rewrite !app_nil_r in H. rewrite app_assoc, H, <- !app_assoc. reflexivity. }
  rewrite C. destruct (nth i (rc_active r) false); reflexivity.
Qed.
Lemma lines_length n v r : for_players n r -> List.length (parse_players v r (rc_done r) (rc_action r)) = n.
Proof.
  intros F. unfold parse_players, enumerate. rewrite map_length, !combine_length, seq_length, ?combine_length, (fp_hole _ _ F), (fp_stacks _ _ F), (fp_active _ _ F). lia.
Qed.

(** ** The seats *)
Definition increasing (l : list nat) : Prop := forall i j, (i < j < List.length l)%nat -> (nth i l 0 < nth j l 0)%nat.
Lemma pos_dict_cases n pos : pos_dict n = Some pos -> 2 <= n <= 10.
Proof.
  destruct n as [|p|p]; cbn; try discriminate.
  do 4 (destruct p as [p|p|]; cbn; try discriminate; try lia).
Qed.
Lemma pos_dict_defined n : 2 <= n <= 10 -> exists pos, pos_dict n = Some pos.
Proof.
  intros H. assert (E : n = 2 \/ n = 3 \/ n = 4 \/ n = 5 \/ n = 6 \/ n = 7 \/ n = 8 \/ n = 9 \/ n = 10) by lia.
  destruct E as [->|[->|[->|[->|[->|[->|[->|[->| ->]]]]]]]]; eexists; reflexivity.
Qed.
Fixpoint sortedb (l : list nat) : bool :=
  match l with x :: (y :: _) as r => Nat.ltb x y && sortedb r | _ => true end.
Lemma sortedb_ok l : sortedb l = true -> increasing l.
Proof.
  assert (P : forall l x, sortedb (x :: l) = true -> sortedb l = true /\ forall j, (j < List.length l)%nat -> (x < nth j l 0)%nat).
  { clear l. induction l as [|y l IH]; intros x H; [split; [reflexivity|cbn; lia]|].
    cbn [sortedb] in H. apply andb_true_iff in H. destruct H as [H1 H2]. apply Nat.ltb_lt in H1. split; [exact H2|].
    intros [|j] J; [exact H1|]. cbn [nth List.length] in *. destruct (IH y H2) as [_ Q]. specialize (Q j ltac:(lia)). lia. }
  induction l as [|x l IH]; intros H i j J; [cbn in J; lia|]. destruct (P l x H) as [S Q].
  destruct i as [|i], j as [|j]; cbn [nth List.length] in *; try lia.
  - apply Q. lia.
  - apply (IH S). lia.
Qed.
Lemma pos_dict_ok n pos : pos_dict (Z.of_nat n) = Some pos ->
  List.length pos = n /\ increasing pos /\ Forall (fun k => (k < 10)%nat) pos.
Proof.
  intros P. pose proof (pos_dict_cases _ _ P) as R.
  assert (Q : forall m, 2 <= m <= 10 -> forall pos, pos_dict m = Some pos ->
            Nat.eqb (List.length pos) (Z.to_nat m) && sortedb pos && forallb (fun k => Nat.ltb k 10) pos = true).
  { intros m M q. assert (E : m = 2 \/ m = 3 \/ m = 4 \/ m = 5 \/ m = 6 \/ m = 7 \/ m = 8 \/ m = 9 \/ m = 10) by lia.
    destruct E as [->|[->|[->|[->|[->|[->|[->|[->| ->]]]]]]]]; intros [= <-]; reflexivity. }
  specialize (Q _ R _ P). rewrite !andb_true_iff in Q. destruct Q as [[Q1 Q2] Q3]. apply Nat.eqb_eq in Q1.
  split; [lia|]. split; [now apply sortedb_ok|]. rewrite forallb_forall in Q3. apply Forall_forall. intros k K. apply Nat.ltb_lt. now apply Q3.
Qed.
Lemma increasing_nodup l : increasing l -> NoDup l.
Proof.
  intros I. apply (NoDup_nth l 0%nat). intros i j Hi Hj E. destruct (Nat.lt_trichotomy i j) as [L|[L|L]]; [|exact L|].
  - specialize (I i j ltac:(lia)). lia.
  - specialize (I j i ltac:(lia)). lia.
Qed.

(** ** C50: what the table says *)
Lemma map_pos_items (players : list (list Z)) commits pos alls n :
  List.length players = n -> List.length commits = n -> List.length pos = n -> List.length alls = n ->
  map item_pos (combine (combine (combine players commits) pos) alls) = pos.
Proof.
  revert n commits pos alls. induction players as [|p pl IH]; intros n [|c cl] [|q ql] [|a al]; cbn; intros L1 L2 L3 L4; subst; try discriminate; trivial.
  f_equal. apply (IH (List.length pl)); lia.
Qed.
Lemma map_snd_combine {A B} (a : list A) (b : list B) : List.length a = List.length b -> map snd (combine a b) = b.
Proof. revert b. induction a as [|x a IH]; intros [|y b]; cbn; intros L; trivial; try discriminate. f_equal. apply IH. lia. Qed.
Lemma forall_map {A B} (P : B -> Prop) (f : A -> B) l : Forall P (map f l) -> Forall (fun x => P (f x)) l.
Proof. induction l; cbn; intros H; constructor; inversion H; subst; auto. Qed.

Lemma existsb_string x l : existsb (String.eqb x) l = true <-> In x l.
Proof.
  rewrite existsb_exists. split.
  - intros (y & I & E). apply String.eqb_eq in E. now subst.
  - intros I. exists x. split; [exact I|apply String.eqb_refl].
Qed.
Definition shows (d : dict) (s : slot) (t : list Z) : Prop := d (slot_name s) = Some t.
Definition table_shows (v : viewer) (n : nat) (r : rconfig) (d : dict) : Prop :=
  (forall i, (i < n)%nat -> let k := nth i (v_player_pos v) 0%nat in
     shows d (SPlayer k) (player_line v r i) /\ shows d (SChips k) (player_chips r i)
     /\ shows d (SMark k) (player_mark r i) /\ shows d (SButton k) (player_button r i))
  /\ (forall k, (k < 10)%nat -> ~ In k (v_player_pos v) ->
     shows d (SPlayer k) [] /\ shows d (SChips k) [] /\ shows d (SMark k) [] /\ shows d (SButton k) [])
  /\ shows d SBoard (board_text (Z.to_nat (v_num_community_cards v)) (rc_community_cards r))
  /\ shows d SPot (if rc_done r then ustr "0" else fmt_comma (rc_pot r))
  /\ shows d SAction (move_text r)
  /\ shows d SWin (win_text r).

Lemma py_get_nat {A} (l : list A) z d : 0 <= z < Z.of_nat (List.length l) -> py_get l z = Ok (nth (Z.to_nat z) l d).
Proof.
  intros H. unfold py_get. replace (0 <=? z) with true by lia. unfold get. rewrite (nth_error_at _ _ d) by lia. reflexivity.
Qed.

Lemma filter_enumerate (pays : list Z) : filter (fun p => 0 <? snd p) (enumerate pays) = map (fun i => (i, nth i pays 0)) (winners pays).
Proof.
  unfold winners, enumerate.
  assert (G : forall l k (f : nat -> Z), (forall i, (i < List.length l)%nat -> f (k + i)%nat = nth i l 0) ->
    filter (fun p => 0 <? snd p) (combine (seq k (List.length l)) l) = map (fun i => (i, f i)) (filter (fun i => 0 <? f i) (seq k (List.length l)))).
  { induction l as [|x l IH]; intros k f H; [reflexivity|]. cbn [List.length seq combine filter]. pose proof (H 0%nat ltac:(cbn; lia)) as H0. rewrite Nat.add_0_r in H0. cbn [nth] in H0. rewrite H0. cbn [snd].
    assert (E : filter (fun p => 0 <? snd p) (combine (seq (S k) (List.length l)) l) = map (fun i => (i, f i)) (filter (fun i => 0 <? f i) (seq (S k) (List.length l)))).
    { apply IH. intros i Hi. replace (S k + i)%nat with (k + S i)%nat by lia. rewrite H by (cbn; lia). reflexivity. }
    rewrite E. destruct (0 <? x); cbn [map]; [rewrite H0|]; reflexivity. }
  apply (G pays 0%nat (fun i => nth i pays 0)). intros i _. reflexivity.
Qed.
Lemma board_cells (cards : list card) k : map (fun i => match nth_error cards i with Some c => [c_rank c; c_suit c] | None => ustr "--" end) (seq 0 (Nat.max k (List.length cards))) =
  map card_str cards ++ repeat (ustr "--") (k - List.length cards).
Proof.
  replace (Nat.max k (List.length cards)) with (List.length cards + (k - List.length cards))%nat by lia. rewrite seq_app, map_app. cbn [Nat.add]. f_equal.
  - induction cards as [|x l IH]; [reflexivity|]. cbn [List.length seq map nth_error]. f_equal. rewrite <- seq_shift, map_map. exact IH.
  - generalize (k - List.length cards)%nat as m. intros m. assert (G : forall st, (List.length cards <= st)%nat -> map (fun i => match nth_error cards i with Some c => [c_rank c; c_suit c] | None => ustr "--" end) (seq st m) = repeat (ustr "--") m).
    { induction m as [|m IH]; intros st H; [reflexivity|]. cbn [seq map repeat]. rewrite (proj2 (nth_error_None cards st) H). f_equal. apply IH. lia. }
    apply G. lia.
Qed.
Lemma community_string_text v r : community_string v r = board_text (Z.to_nat (v_num_community_cards v)) (rc_community_cards r).
Proof.
  unfold community_string, board_text. cbv zeta. rewrite board_cells, join_separated, map_length.
  replace (Z.to_nat (v_num_community_cards v - Z.of_nat (List.length (rc_community_cards r)))) with (Z.to_nat (v_num_community_cards v) - List.length (rc_community_cards r))%nat by lia. reflexivity.
Qed.
Lemma action_string_text r : parse_action_string r (rc_done r) = move_text r.
Proof.
  unfold parse_action_string, move_text. destruct (rc_done r); [reflexivity|]. f_equal. destruct (rc_prev_action r) as [[[i bet] [|]]|]; [| |reflexivity].
  all: replace (Z.of_nat i + 1) with (Z.of_nat (S i)) by lia; destruct bet; reflexivity.
Qed.
Lemma win_string_text r : parse_win_string r (rc_done r) = win_text r.
Proof.
  unfold parse_win_string, win_text. destruct (rc_done r); [|reflexivity]. cbv zeta. rewrite filter_enumerate, !map_map, map_length. cbn [fst snd].
  set (ws := winners (rc_payouts r)). rewrite !join_separated.
  rewrite (map_ext (fun i => str_int (Z.of_nat i + 1)) (fun i => str_int (Z.of_nat (S i)))) by (intros i; f_equal; lia).
  destruct (Nat.leb_spec (List.length ws) 1).
  - replace (1 <? Z.of_nat (List.length ws)) with false by lia. rewrite app_nil_r. reflexivity.
  - replace (1 <? Z.of_nat (List.length ws)) with true by lia. reflexivity.
Qed.

Lemma str_config_shows n v nh nc r : ASCIIViewer (Z.of_nat n) nh nc = Ok v -> for_players n r ->
  exists d, str_config v r = Ok d /\ table_shows v n r d.
Proof.
  intros V F. unfold ASCIIViewer in V. destruct (pos_dict (Z.of_nat n)) as [pos|] eqn:P; [|discriminate V]. injection V as <-.
  set (v := mkViewer nh nc pos) in *. destruct (pos_dict_ok n pos P) as (PL & PI & P10).
  pose proof (increasing_nodup pos PI) as ND.
  unfold str_config. change (v_player_pos v) with pos.
  set (players := parse_players v r (rc_done r) (rc_action r)).
  assert (LP : List.length players = n) by (apply lines_length; exact F).
  set (items := combine (combine (combine players (rc_street_commits r)) pos) (rc_all_in r)).
  assert (IP : map item_pos items = pos) by (apply (map_pos_items _ _ _ _ n); [exact LP|apply (fp_commits _ _ F)|exact PL|apply (fp_all_in _ _ F)]).
  assert (I10 : Forall (fun it => (item_pos it < 10)%nat) items) by (apply (forall_map (fun k => (k < 10)%nat) item_pos); rewrite IP; exact P10).
  assert (IN : NoDup (map item_pos items)) by (rewrite IP; exact ND).
  assert (PP : map snd (combine (rc_payouts r) pos) = pos) by (apply map_snd_combine; rewrite (fp_payouts _ _ F); symmetry; exact PL).
  assert (PP10 : Forall (fun p : Z * nat => (snd p < 10)%nat) (combine (rc_payouts r) pos)) by (apply (forall_map (fun k => (k < 10)%nat) snd); rewrite PP; exact P10).
  assert (PPN : NoDup (map snd (combine (rc_payouts r) pos))) by (rewrite PP; exact ND).
  set (base := fun k => if existsb (String.eqb k) KEYS then Some [] else None).
  assert (BASE : forall s, slot_ok s -> match s with SPlayer _ | SChips _ | SMark _ | SButton _ => shows base s [] | _ => True end).
  { intros s S. unfold shows, base. assert (Q : forall k, (k < 10)%nat -> In k (seq 0 10)) by (intros k K; apply in_seq; lia).
    destruct s as [k|k|k|k| | | |]; trivial; cbn [slot_ok] in S; apply Q in S.
    all: match goal with |- (if ?e then _ else _) = _ => enough (E : e = true) by (rewrite E; reflexivity) end; apply existsb_string; unfold KEYS; rewrite !in_app_iff.
    - left. exact (in_map (key "p") _ _ S).
    - right. left. exact (in_map (fun i => append (key "p" i) "c") _ _ S).
    - right. right. left. exact (in_map (key "a") _ _ S).
    - right. right. right. left. exact (in_map (key "b") _ _ S). }
  set (d0 := dict_set base "ccs" (community_string v r)).
  assert (D0 : forall s, slot_ok s -> s <> SBoard -> d0 (slot_name s) = base (slot_name s)).
  { intros s S N. apply (set_other base SBoard s); [exact I|exact S|congruence]. }
  assert (D0B : shows d0 SBoard (community_string v r)) by apply (set_same base SBoard). clearbody d0.
  set (mark := if rc_done r then None else Some (nth (Z.to_nat (rc_action r)) pos 0%nat)).
  set (d1r := if negb (rc_done r) then _ else _).
  assert (MK : exists d1, d1r = Ok d1 /\ shows d1 SPot (if rc_done r then ustr "0" else fmt_comma (rc_pot r))
             /\ (forall s, slot_ok s -> s <> SPot -> (match mark with Some k => s <> SMark k | None => True end) -> d1 (slot_name s) = d0 (slot_name s))
             /\ (match mark with Some k => shows d1 (SMark k) (ustr "X") | None => True end)).
  { unfold d1r, mark. destruct (rc_done r) eqn:DN; cbn [negb].
    - eexists. split; [reflexivity|]. split; [apply (set_same d0 SPot)|]. split; [|exact I].
      intros s S N _. apply (set_other d0 SPot s); [exact I|exact S|congruence].
    - pose proof (fp_action _ _ F DN) as A. rewrite (py_get_nat pos _ 0%nat) by lia. cbn [bind]. eexists. split; [reflexivity|].
      set (k := nth (Z.to_nat (rc_action r)) pos 0%nat).
      assert (K : (k < 10)%nat) by (rewrite Forall_forall in P10; apply P10; apply nth_In; lia).
      split; [|split].
      + unfold shows. rewrite (set_other _ (SMark k) SPot); [apply (set_same d0 SPot)|exact K|exact I|discriminate].
      + intros s S N1 N2. rewrite (set_other _ (SMark k) s); [|exact K|exact S|congruence]. apply (set_other d0 SPot s); [exact I|exact S|congruence].
      + apply (set_same _ (SMark k)). }
  destruct MK as (d1 & -> & MP & MO & MM). cbn [bind].
  pose proof (fp_button _ _ F) as B. rewrite (py_get_nat pos _ 0%nat) by lia. cbn [bind].
  set (kb := nth (Z.to_nat (rc_button r)) pos 0%nat).
  assert (KB : (kb < 10)%nat) by (rewrite Forall_forall in P10; apply P10; apply nth_In; lia).
  set (d2 := dict_set d1 (key "b" kb) (ustr "D ")).
  assert (D2 : forall s, slot_ok s -> s <> SButton kb -> d2 (slot_name s) = d1 (slot_name s)).
  { intros s S N. apply (set_other d1 (SButton kb) s); [exact KB|exact S|congruence]. }
  assert (D2B : shows d2 (SButton kb) (ustr "D ")) by apply (set_same d1 (SButton kb)). clearbody d2.
  set (d3 := fold_left (show_player (rc_done r)) items d2).
  set (d4 := if rc_done r then fold_left show_payout (combine (rc_payouts r) pos) d3 else d3).
  eexists. split; [reflexivity|].
  set (d5 := dict_set _ _ _).
  assert (D5 : forall s, slot_ok s -> s <> SAction -> s <> SWin -> d5 (slot_name s) = d4 (slot_name s)).
  { intros s S N1 N2. unfold d5. rewrite (set_other _ SWin s); [|exact I|exact S|congruence]. apply (set_other _ SAction s); [exact I|exact S|congruence]. }
  assert (D5W : shows d5 SWin (parse_win_string r (rc_done r))) by apply (set_same _ SWin).
  assert (D5A : shows d5 SAction (parse_action_string r (rc_done r))).
  { unfold shows, d5. rewrite (set_other _ SWin SAction); [apply (set_same _ SAction)|exact I|exact I|discriminate]. }
  clearbody d5.
  assert (D4 : forall s, slot_ok s -> match s with SChips k => ~ In k pos | _ => True end -> d4 (slot_name s) = d3 (slot_name s)).
  { intros s S T. unfold d4. destruct (rc_done r); [|reflexivity]. apply show_payouts_other; [exact PP10|exact S|]. rewrite PP. exact T. }
  assert (D3 : forall s, slot_ok s -> ~ touches pos s -> d3 (slot_name s) = d2 (slot_name s)).
  { intros s S T. unfold d3. apply show_players_other; [exact I10|exact S|]. rewrite IP. exact T. }
  assert (NTH : forall i, (i < n)%nat -> nth_error items i = Some (((player_line v r i, nth i (rc_street_commits r) 0), nth i pos 0%nat), nth i (rc_all_in r) false)).
  { intros i Hi. unfold items. apply nth_error_combine; [apply nth_error_combine; [apply nth_error_combine|]|].
    - apply (line_at n); [exact F|pose proof (pos_dict_cases _ _ P); lia|exact Hi].
    - apply nth_error_at. rewrite (fp_commits _ _ F). exact Hi.
    - apply nth_error_at. lia.
    - apply nth_error_at. rewrite (fp_all_in _ _ F). exact Hi. }
  assert (UNIQ : forall i j, (i < n)%nat -> (j < n)%nat -> nth i pos 0%nat = nth j pos 0%nat -> i = j).
  { intros i j Hi Hj. apply (NoDup_nth pos 0%nat); [exact ND|lia|lia]. }
  split; [|split; [|split; [|split; [|split]]]].
  - intros i Hi k. change (v_player_pos v) with pos in k.
    assert (K : (k < 10)%nat) by (rewrite Forall_forall in P10; apply P10; apply nth_In; lia).
    destruct (show_players_at (rc_done r) items d2 _ _ _ _ i I10 IN (NTH i Hi)) as (E1 & E2 & E3). fold d3 in E1, E2, E3. fold k in E1, E2, E3.
    split; [|split; [|split]]; unfold shows.
    + rewrite D5, D4; [exact E1|exact K|exact I|exact K|discriminate|discriminate].
    + rewrite D5; [|exact K|discriminate|discriminate]. unfold d4, player_chips. destruct (rc_done r); [|exact E2].
      apply (show_payouts_at _ _ _ _ i PP10 PPN). apply nth_error_combine; apply nth_error_at; [rewrite (fp_payouts _ _ F); exact Hi|lia].
    + rewrite D5, D4; [|exact K|exact I|exact K|discriminate|discriminate]. rewrite E3. unfold player_mark.
      assert (X : d2 (slot_name (SMark k)) = Some (if rc_done r then [] else if Z.of_nat i =? rc_action r then ustr "X" else [])).
      { rewrite D2; [|exact K|discriminate]. destruct (rc_done r) eqn:DN.
        - rewrite MO, D0; [exact (BASE (SMark k) K)|exact K|discriminate|exact K|discriminate|exact I].
        - pose proof (fp_action _ _ F DN) as A. unfold mark in *. destruct (Z.of_nat i =? rc_action r) eqn:Q.
          + replace (Z.to_nat (rc_action r)) with i in MM by lia. exact MM.
          + rewrite MO, D0; [exact (BASE (SMark k) K)|exact K|discriminate|exact K|discriminate|].
            intros E. injection E as E. unfold k in E. apply UNIQ in E; lia. }
      rewrite X. destruct (rc_done r), (nth i (rc_all_in r) false); reflexivity.
    + rewrite D5, D4, D3; [|exact K|intros []|exact K|exact I|exact K|discriminate|discriminate].
      unfold player_button. destruct (Z.of_nat i =? rc_button r) eqn:Q.
      * replace kb with k in D2B; [exact D2B|]. unfold k, kb. f_equal. lia.
      * rewrite D2, MO, D0; [exact (BASE (SButton k) K)|exact K|discriminate|exact K|discriminate|destruct mark; [discriminate|exact I]|exact K|].
        intros E. injection E as E. unfold k, kb in E. apply UNIQ in E; lia.
  - intros k K NI. change (v_player_pos v) with pos in NI.
    assert (NA : match mark with Some k' => SMark k <> SMark k' | None => True end).
    { unfold mark. destruct (rc_done r) eqn:DN; [exact I|]. pose proof (fp_action _ _ F DN) as A. intros E. injection E as E. apply NI. rewrite E. apply nth_In. lia. }
    assert (NB : SButton k <> SButton kb).
    { intros E. injection E as E. apply NI. rewrite E. apply nth_In. lia. }
    split; [|split; [|split]]; unfold shows; (rewrite D5; [|exact K|discriminate|discriminate]); (rewrite D4; [|exact K|first [exact I|exact NI]]);
      (rewrite D3; [|exact K|cbn [touches]; tauto]); (rewrite D2; [|exact K|first [discriminate|exact NB]]);
      (rewrite MO; [|exact K|discriminate|first [exact NA|destruct mark; [discriminate|exact I]]]); (rewrite D0; [|exact K|discriminate]).
    + exact (BASE (SPlayer k) K).
    + exact (BASE (SChips k) K).
    + exact (BASE (SMark k) K).
    + exact (BASE (SButton k) K).
  - rewrite <- community_string_text. unfold shows. rewrite D5, D4, D3, D2, MO; [exact D0B|exact I|discriminate|destruct mark; [discriminate|exact I]|exact I|discriminate|exact I|intros []|exact I|exact I|exact I|discriminate|discriminate].
  - unfold shows. rewrite D5, D4, D3, D2; [exact MP|exact I|discriminate|exact I|intros []|exact I|exact I|exact I|discriminate|discriminate].
  - rewrite <- action_string_text. exact D5A.
  - rewrite <- win_string_text. exact D5W.
Qed.

(** ** Filling in the template *)
Lemma fill_ok l : forall d, (forall n, In n (field_names l) -> d n <> None) -> exists t, fill l d = Ok t.
Proof.
  induction l as [|[t|n a w] l IH]; intros d H; cbn [fill].
  - eexists. reflexivity.
  - destruct (IH d) as (u & ->). { intros n N. apply H. exact N. } eexists. reflexivity.
  - cbn [field_names flat_map app] in H. destruct (d n) as [v|] eqn:E; [|exfalso; apply (H n); [left; reflexivity|exact E]].
    destruct (IH d) as (u & ->). { intros m M. apply H. right. exact M. } eexists. reflexivity.
Qed.
Lemma table_scanned : scan ascii_table (InText "") = Ok table.
Proof. vm_compute. reflexivity. Qed.
Lemma format_table d : str_format ascii_table d = fill table d.
Proof. unfold str_format. rewrite table_scanned. reflexivity. Qed.
Lemma table_fields : forallb (fun n => existsb (String.eqb n) (map slot_name all_slots)) (field_names table)
  && forallb (fun n => existsb (String.eqb n) (field_names table)) (map slot_name all_slots) && distinctb (field_names table) = true.
Proof. vm_compute. reflexivity. Qed.
Lemma table_fields_slots n : In n (field_names table) <-> exists s, slot_ok s /\ n = slot_name s.
Proof.
  pose proof table_fields as T. rewrite !andb_true_iff, !forallb_forall in T. destruct T as [[T1 T2] _]. split.
  - intros I. apply T1 in I. apply existsb_string in I. apply in_map_iff in I. destruct I as (s & E & S). exists s. split; [now apply all_slots_ok|congruence].
  - intros (s & S & ->). apply existsb_string. apply T2. apply in_map. now apply all_slots_ok.
Qed.

(** C50, first part: for 2 to 10 players (and for no other number) there is a viewer; it has one
    place for every player, and no place for two. *)
Theorem C50_seats : forall n nh nc,
  (forall v, ASCIIViewer (Z.of_nat n) nh nc = Ok v ->
     (2 <= n <= 10)%nat /\ List.length (v_player_pos v) = n /\ NoDup (v_player_pos v) /\ Forall (fun k => In k places) (v_player_pos v)) /\
  ((2 <= n <= 10)%nat -> exists v, ASCIIViewer (Z.of_nat n) nh nc = Ok v) /\
  (~ (2 <= n <= 10)%nat -> ASCIIViewer (Z.of_nat n) nh nc = Err KeyError).
Proof.
  intros n nh nc. unfold ASCIIViewer. split; [|split].
  - intros v. destruct (pos_dict (Z.of_nat n)) as [pos|] eqn:P; [|discriminate]. intros [= <-]. cbn [v_player_pos].
    destruct (pos_dict_ok n pos P) as (A & B & C). pose proof (pos_dict_cases _ _ P). split; [lia|]. split; [exact A|]. split; [now apply increasing_nodup|].
    eapply Forall_impl; [|exact C]. intros k K. apply in_seq. cbv beta in K. lia.
  - intros H. destruct (pos_dict_defined (Z.of_nat n)) as (pos & ->); [lia|]. eexists. reflexivity.
  - intros H. destruct (pos_dict (Z.of_nat n)) as [pos|] eqn:P; [|reflexivity]. apply pos_dict_cases in P. lia.
Qed.
Print Assumptions C50_seats.

Lemma pad_padded a w v : padded a w v (pad a w v).
Proof.
  unfold padded, pad. set (t := (w - List.length v)%nat). destruct a.
  - exists 0%nat, t. auto.
  - exists t, 0%nat. split; [cbn [repeat]; now rewrite app_nil_r|]. lia.
  - exists (Nat.div t 2), (t - Nat.div t 2)%nat. split; [reflexivity|]. pose proof (Nat.div_mod t 2 ltac:(lia)). pose proof (Nat.mod_upper_bound t 2 ltac:(lia)). lia.
Qed.
Lemma padded_unique a w v t : padded a w v t -> t = pad a w v.
Proof.
  intros (l & r & -> & S & A). unfold pad. set (n := (w - List.length v)%nat) in *. pose proof (Nat.div_mod n 2 ltac:(lia)) as D. pose proof (Nat.mod_upper_bound n 2 ltac:(lia)) as M.
  destruct a.
  - subst l. replace r with n by lia. reflexivity.
  - subst r. replace l with n by lia. cbn [repeat]. now rewrite app_nil_r.
  - replace l with (Nat.div n 2) by lia. replace r with (n - Nat.div n 2)%nat by lia. reflexivity.
Qed.
Lemma fill_printed l d : forall t, fill l d = Ok t <-> exists ts, Forall2 (printed d) l ts /\ t = List.concat ts.
Proof.
  induction l as [|[u|n a w] l IH]; intros t; cbn [fill].
  - split; [intros [= <-]; exists []; split; [constructor|reflexivity]|]. intros (ts & F & ->). inversion F. reflexivity.
  - split.
    + destruct (fill l d) as [v|] eqn:E; cbn [bind]; [|discriminate]. intros [= <-]. destruct (proj1 (IH v) eq_refl) as (ts & F & ->). exists (u :: ts). split; [constructor; [reflexivity|exact F]|reflexivity].
    + intros (ts & F & ->). inversion F as [|x y l' ts' P F' X Y]; subst. cbn [printed] in P. subst y. rewrite (proj2 (IH (List.concat ts')) (ex_intro _ ts' (conj F' eq_refl))). reflexivity.
  - split.
    + destruct (d n) as [v|] eqn:Dn; [|discriminate]. destruct (fill l d) as [u|] eqn:E; cbn [bind]; [|discriminate]. intros [= <-]. destruct (proj1 (IH u) eq_refl) as (ts & F & ->).
      exists (pad a w v :: ts). split; [constructor; [exists v; split; [exact Dn|apply pad_padded]|exact F]|reflexivity].
    + intros (ts & F & ->). inversion F as [|x y l' ts' P F' X Y]; subst. destruct P as (v & Dn & P). rewrite Dn. apply padded_unique in P. subst y.
      rewrite (proj2 (IH (List.concat ts')) (ex_intro _ ts' (conj F' eq_refl))). reflexivity.
Qed.
Lemma table_filled : forall n nh nc v r, ASCIIViewer (Z.of_nat n) nh nc = Ok v -> for_players n r ->
  NoDup (field_names table) /\ (forall m, In m (field_names table) <-> exists s, In s all_slots /\ m = slot_name s) /\
  exists d text, parse_string v r = Ok text /\ fill table d = Ok text /\ table_shows v n r d.
Proof.
  intros n nh nc v r V F. split; [|split].
  - pose proof table_fields as T. rewrite !andb_true_iff in T. apply distinctb_ok. apply T.
  - intros m. rewrite table_fields_slots. split; intros (s & S & E); exists s; (split; [now apply all_slots_ok|exact E]).
  - destruct (str_config_shows n v nh nc r V F) as (d & E & S). exists d.
    assert (D : forall s, slot_ok s -> d (slot_name s) <> None).
    { destruct S as (S1 & S2 & S3 & S4 & S5 & S6).
      assert (G : forall k, (k < 10)%nat -> d (slot_name (SPlayer k)) <> None /\ d (slot_name (SChips k)) <> None /\ d (slot_name (SMark k)) <> None /\ d (slot_name (SButton k)) <> None).
      { intros k K. destruct (in_dec Nat.eq_dec k (v_player_pos v)) as [I|I].
        - destruct (In_nth _ _ 0%nat I) as (i & Hi & <-). pose proof (proj1 (C50_seats n nh nc) v V) as (_ & L & _). rewrite L in Hi.
          destruct (S1 i Hi) as (A & B & C & D). unfold shows in *. rewrite A, B, C, D. repeat split; discriminate.
        - destruct (S2 k K I) as (A & B & C & D). unfold shows in *. rewrite A, B, C, D. repeat split; discriminate. }
      unfold shows in S3, S4, S5, S6. intros [k|k|k|k| | | |] K; [apply (G k K)|apply (G k K)|apply (G k K)|apply (G k K)|rewrite S3|rewrite S4|rewrite S5|rewrite S6]; discriminate. }
    destruct (fill_ok table d) as (text & T). { intros m M. apply table_fields_slots in M. destruct M as (s & Hs & ->). now apply D. }
    exists text. split; [|split; [exact T|exact S]]. unfold parse_string. rewrite E. cbn [bind]. rewrite format_table. exact T.
Qed.
(** C50, second part: the template has every field exactly once, and the text printed is the template
    with the fields filled in: at the place of a player their line, their chips, their marker and
    the button, nothing at the places without a player, and in the middle and below the table the
    board, the pot and the messages. *)
Theorem C50_table : forall n nh nc v r, ASCIIViewer (Z.of_nat n) nh nc = Ok v -> for_players n r ->
  flat_map in_template table = ustr ascii_table /\
  NoDup (field_names table) /\ (forall m, In m (field_names table) <-> exists s, In s all_slots /\ m = slot_name s) /\
  exists d texts, parse_string v r = Ok (List.concat texts) /\ Forall2 (printed d) table texts /\ table_shows v n r d.
Proof.
  intros n nh nc v r V F. split; [vm_compute; reflexivity|]. destruct (table_filled n nh nc v r V F) as (A & B & d & text & P & E & S). split; [exact A|]. split; [exact B|].
  apply fill_printed in E. destruct E as (ts & E & ->). exists d, ts. auto.
Qed.
Print Assumptions C50_table.

(** ** Where the fields are *)
(** row and column of a field in the template: the column of its outer edge (its left end, or for a
    field aligned to the right its right end) *)
Fixpoint locate (l : list piece) (name : string) (row col : Z) : option (Z * Z) :=
  match l with
  | [] => None
  | Lit t :: r => let '(row, col) := fold_left (fun rc x => if x =? 10 then (fst rc + 1, 0) else (fst rc, snd rc + 1)) t (row, col) in
                  locate r name row col
  | Field m a w :: r =>
      if String.eqb m name then Some (row, match a with ARight => col + Z.of_nat w | _ => col end)
      else locate r name row (col + Z.of_nat w)
  end.
Definition place (k : nat) : Z * Z := match locate table (slot_name (SPlayer k)) 0 0 with Some p => p | None => (-1, -1) end.
(** going from [p] to [q] and on to [r] one turns to the right, or goes straight on *)
Definition clockwise (p q r : Z * Z) : Prop :=
  0 <= (snd q - snd p) * (fst r - fst q) - (fst q - fst p) * (snd r - snd q).
Definition clockwiseb (p q r : Z * Z) : bool :=
  0 <=? (snd q - snd p) * (fst r - fst q) - (fst q - fst p) * (snd r - snd q).

Definition corners : list (Z * Z) := Eval vm_compute in map place places.
Lemma place_corner k : (k < 10)%nat -> place k = nth k corners (-1, -1).
Proof.
  assert (M : map place places = corners) by (vm_compute; reflexivity). intros K. rewrite <- M.
  rewrite (nth_indep _ _ (place 0)) by (rewrite map_length; exact K). rewrite map_nth. unfold places. now rewrite seq_nth.
Qed.
Lemma corners_clockwise : forallb (fun i => forallb (fun j => forallb (fun k =>
    negb (Nat.ltb i j && Nat.ltb j k) || clockwiseb (nth i corners (-1, -1)) (nth j corners (-1, -1)) (nth k corners (-1, -1))) places) places) places
  && forallb (fun i => forallb (fun j => Nat.eqb i j || negb ((fst (nth i corners (-1, -1)) =? fst (nth j corners (-1, -1))) && (snd (nth i corners (-1, -1)) =? snd (nth j corners (-1, -1))))) places) places = true.
Proof. vm_compute. reflexivity. Qed.

(** C50, third part: the places of the players are different, and any three players, in the order of
    their numbers, sit clockwise. *)
Theorem C50_clockwise : forall n nh nc v, ASCIIViewer (Z.of_nat n) nh nc = Ok v ->
  let at_ i := place (nth i (v_player_pos v) 0%nat) in
  (forall i j, (i < j < n)%nat -> at_ i <> at_ j) /\
  (forall i j k, (i < j)%nat -> (j < k)%nat -> (k < n)%nat -> clockwise (at_ i) (at_ j) (at_ k)).
Proof.
  intros n nh nc v V at_. unfold ASCIIViewer in V. destruct (pos_dict (Z.of_nat n)) as [pos|] eqn:P; [|discriminate V]. injection V as <-.
  cbn [v_player_pos] in at_. destruct (pos_dict_ok n pos P) as (L & I & T). rewrite Forall_forall in T.
  pose proof corners_clockwise as Q. rewrite !andb_true_iff, !forallb_forall in Q. destruct Q as [Q1 Q2].
  assert (PT : forall i, (i < n)%nat -> (nth i pos 0 < 10)%nat) by (intros i Hi; apply T; apply nth_In; lia).
  assert (PL : forall i, (i < n)%nat -> In (nth i pos 0%nat) places) by (intros i Hi; apply in_seq; specialize (PT i Hi); lia).
  assert (AT : forall i, (i < n)%nat -> at_ i = nth (nth i pos 0%nat) corners (-1, -1)) by (intros i Hi; apply place_corner; auto).
  clearbody at_. split.
  - intros i j J E. specialize (Q2 _ (PL i ltac:(lia))). rewrite forallb_forall in Q2. specialize (Q2 _ (PL j ltac:(lia))).
    rewrite (AT i), (AT j) in E by lia. rewrite E in Q2. specialize (I i j ltac:(lia)). rewrite !Z.eqb_refl in Q2. cbn [andb negb] in Q2. rewrite orb_false_r in Q2. apply Nat.eqb_eq in Q2. lia.
  - intros i j k A B C. specialize (Q1 _ (PL i ltac:(lia))). rewrite forallb_forall in Q1. specialize (Q1 _ (PL j ltac:(lia))). rewrite forallb_forall in Q1. specialize (Q1 _ (PL k ltac:(lia))).
    pose proof (I i j ltac:(lia)) as X. pose proof (I j k ltac:(lia)) as Y. rewrite (AT i), (AT j), (AT k) by lia.
    replace (Nat.ltb (nth i pos 0%nat) (nth j pos 0%nat)) with true in Q1 by (symmetry; now apply Nat.ltb_lt).
    replace (Nat.ltb (nth j pos 0%nat) (nth k pos 0%nat)) with true in Q1 by (symmetry; now apply Nat.ltb_lt).
    cbn [andb negb orb] in Q1. unfold clockwise. apply Z.leb_le. exact Q1.
Qed.
Print Assumptions C50_clockwise.

(** ** Where the texts appear *)
Definition piece_width (p : piece) : nat := match p with Lit t => List.length t | Field _ _ w => w end.
Definition width (l : list piece) : nat := list_sum (map piece_width l).
Definition fits (l : list piece) (d : dict) : Prop :=
  forall m a w t, In (Field m a w) l -> d m = Some t -> (List.length t <= w)%nat.
Lemma pad_length a w t : (List.length t <= w)%nat -> List.length (pad a w t) = w.
Proof.
  intros H. unfold pad. destruct a; rewrite ?app_length, ?repeat_length; lia.
Qed.
Lemma fill_width l : forall d t, fits l d -> fill l d = Ok t -> List.length t = width l.
Proof.
  induction l as [|[x|m a w] l IH]; intros d t F E; cbn [fill] in E.
  - injection E as <-. reflexivity.
  - destruct (fill l d) as [u|] eqn:U; [|discriminate E]. injection E as <-. rewrite app_length. unfold width. cbn [map list_sum fold_right piece_width].
    f_equal. apply (IH d u); [|exact U]. intros m a w t M. apply (F m a w t). right. exact M.
  - destruct (d m) as [y|] eqn:Y; [|discriminate E]. destruct (fill l d) as [u|] eqn:U; [|discriminate E]. injection E as <-.
    rewrite app_length, pad_length by (apply (F m a w y); [left; reflexivity|exact Y]). unfold width. cbn [map list_sum fold_right piece_width].
    f_equal. apply (IH d u); [|exact U]. intros m' a' w' t M. apply (F m' a' w' t). right. exact M.
Qed.
Lemma fill_app l1 : forall l2 d t, fill (l1 ++ l2) d = Ok t -> exists t1 t2, fill l1 d = Ok t1 /\ fill l2 d = Ok t2 /\ t = t1 ++ t2.
Proof.
  induction l1 as [|[x|m a w] l1 IH]; intros l2 d t E; cbn [app fill] in *.
  - exists [], t. split; [reflexivity|]. split; [exact E|reflexivity].
  - destruct (fill (l1 ++ l2) d) as [u|] eqn:U; [|discriminate E]. injection E as <-. destruct (IH l2 d u U) as (t1 & t2 & -> & -> & ->).
    exists (x ++ t1), t2. split; [reflexivity|]. split; [reflexivity|]. now rewrite app_assoc.
  - destruct (d m) as [y|]; [|discriminate E]. destruct (fill (l1 ++ l2) d) as [u|] eqn:U; [|discriminate E]. injection E as <-.
    destruct (IH l2 d u U) as (t1 & t2 & -> & -> & ->). exists (pad a w y ++ t1), t2. split; [reflexivity|]. split; [reflexivity|]. now rewrite app_assoc.
Qed.
Lemma fill_where l1 m a w l2 d t y : fits (l1 ++ Field m a w :: l2) d -> fill (l1 ++ Field m a w :: l2) d = Ok t -> d m = Some y ->
  firstn w (skipn (width l1) t) = pad a w y.
Proof.
  intros F E Y. destruct (fill_app _ _ _ _ E) as (t1 & t2 & E1 & E2 & ->). cbn [fill] in E2. rewrite Y in E2.
  destruct (fill l2 d) as [u|]; [|discriminate E2]. injection E2 as <-.
  assert (L1 : List.length t1 = width l1).
  { apply (fill_width l1 d t1); [|exact E1]. intros m' a' w' x M. apply (F m' a' w' x). apply in_or_app. now left. }
  assert (L2 : List.length (pad a w y) = w).
  { apply pad_length. apply (F m a w y); [|exact Y]. apply in_or_app. right. left. reflexivity. }
  rewrite skipn_app, <- L1, skipn_all, Nat.sub_diag. cbn [app skipn]. rewrite firstn_app, L2, Nat.sub_diag. cbn [firstn]. rewrite app_nil_r.
  rewrite <- L2 at 1. apply firstn_all.
Qed.

(** C50, fourth part: if every text fits into its field, the drawing of the table is not distorted,
    and the text of every field stands exactly where the template has the field. *)
Theorem C50_where : forall n nh nc v r, ASCIIViewer (Z.of_nat n) nh nc = Ok v -> for_players n r ->
  exists d text, parse_string v r = Ok text /\ table_shows v n r d /\
    (fits table d -> List.length text = width table /\
       forall l1 m a w l2 t, table = l1 ++ Field m a w :: l2 -> d m = Some t -> padded a w t (firstn w (skipn (width l1) text))).
Proof.
  intros n nh nc v r V F. destruct (table_filled n nh nc v r V F) as (_ & _ & d & text & P & E & S). exists d, text. split; [exact P|]. split; [exact S|].
  intros X. split; [now apply (fill_width table d)|]. intros l1 m a w l2 t T Y. rewrite (fill_where l1 m a w l2 d text t); [apply pad_padded|rewrite <- T; exact X|rewrite <- T; exact E|exact Y].
Qed.
Print Assumptions C50_where.

(** ** Rendering does not fail *)
Definition covers (d : dict) : Prop := forall m, In m KEYS -> d m <> None.
Lemma covers_set d k t : covers d -> covers (dict_set d k t).
Proof. intros H m M. unfold dict_set. destruct (String.eqb m k); [discriminate|]. now apply H. Qed.
Lemma covers_players done l : forall d, covers d -> covers (fold_left (show_player done) l d).
Proof.
  induction l as [|it l IH]; intros d H; [exact H|]. cbn [fold_left]. apply IH. destruct it as [[[pl co] k] al]. rewrite show_player_sets.
  destruct (al && negb done); repeat apply covers_set; exact H.
Qed.
Lemma covers_payouts l : forall d, covers d -> covers (fold_left show_payout l d).
Proof. induction l as [|it l IH]; intros d H; [exact H|]. cbn [fold_left]. apply IH. apply covers_set. exact H. Qed.

(** an index Python accepts for a list of [n] entries *)
Definition valid_index (n : nat) (z : Z) : Prop := - Z.of_nat n <= z < Z.of_nat n.
Lemma py_get_valid {A} (l : list A) z : valid_index (List.length l) z -> exists x, py_get l z = Ok x.
Proof.
  unfold valid_index, py_get, get. intros H.
  assert (G : forall i, (i < List.length l)%nat -> exists x, match nth_error l i with Some x => Ok x | None => Err IndexError end = Ok x).
  { intros i Hi. destruct (nth_error l i) as [x|] eqn:E; [exists x; reflexivity|]. apply nth_error_None in E. lia. }
  destruct (Z.leb_spec 0 z).
  - apply G. lia.
  - replace (0 <=? Z.of_nat (List.length l) + z) with true by lia. apply G. lia.
Qed.
(** C50, fifth part: whatever the lists in the configuration contain and however long they are. *)
Theorem C50_never_fails : forall n nh nc v r, ASCIIViewer (Z.of_nat n) nh nc = Ok v ->
  valid_index n (rc_button r) -> (rc_done r = false -> valid_index n (rc_action r)) ->
  exists text, parse_string v r = Ok text.
Proof.
  intros n nh nc v r V B A. destruct (proj1 (C50_seats n nh nc) v V) as (_ & L & _). rewrite <- L in *.
  unfold parse_string, str_config. destruct (py_get_valid _ _ B) as (kb & ->).
  assert (BASE : covers (fun k => if existsb (String.eqb k) KEYS then Some [] else None)).
  { intros m M. apply existsb_string in M. rewrite M. discriminate. }
  set (base := fun k => if existsb (String.eqb k) KEYS then Some [] else None) in *. clearbody base.
  set (d1 := if negb (rc_done r) then _ else _).
  assert (D1 : exists d, d1 = Ok d /\ covers d).
  { unfold d1. destruct (rc_done r); cbn [negb].
    - eexists. split; [reflexivity|]. repeat apply covers_set. exact BASE.
    - destruct (py_get_valid _ _ (A eq_refl)) as (ka & ->). eexists. split; [reflexivity|]. repeat apply covers_set. exact BASE. }
  destruct D1 as (d & -> & D). cbn [bind]. rewrite format_table.
  match goal with |- exists t, fill table ?x = _ => set (e := x) end.
  assert (E : covers e /\ e "win"%string <> None).
  { unfold e. split; [|discriminate]. do 2 apply covers_set. destruct (rc_done r); [apply covers_payouts|]; apply covers_players; apply covers_set; exact D. }
  clearbody e. apply fill_ok. intros m M. apply table_fields_slots in M. destruct M as (s & S & ->). destruct E as [E W].
  assert (Q : forall k, (k < 10)%nat -> In k (seq 0 10)) by (intros k K; apply in_seq; lia).
  destruct s as [k|k|k|k| | | |]; [| | | | | | |exact W]; apply E; unfold KEYS; rewrite !in_app_iff; cbn [slot_ok] in S.
  - left. exact (in_map (key "p") _ _ (Q k S)).
  - right. left. exact (in_map (fun i => append (key "p" i) "c") _ _ (Q k S)).
  - right. right. left. exact (in_map (key "a") _ _ (Q k S)).
  - right. right. right. left. exact (in_map (key "b") _ _ (Q k S)).
  - do 4 right. cbn. tauto.
  - do 4 right. cbn. tauto.
  - do 4 right. cbn. tauto.
Qed.
Print Assumptions C50_never_fails.

(** For the dealer: [str(dealer)] and [render] raise exactly if the payouts cannot be computed. *)
Lemma viewer_exists c nh nc : cfg_wf c -> exists v, ASCIIViewer (Z.of_nat (num_players c)) nh nc = Ok v.
Proof. intros W. apply (C50_seats (num_players c) nh nc). pose proof (cw_two _ W). pose proof (cw_ten _ W). lia. Qed.
Theorem C50_dealer_partial : forall c s, reachable c s ->
  (forall e, render_ascii c s = Err e <-> payouts c s = Err e).
Proof.
  intros c s R e. pose proof (reachable_cfg c s R) as CW. pose proof (reachable_wf c s R) as W.
  destruct (viewer_exists c (num_hole_cards c) (sumZ (num_community_cards c)) CW) as (v & V).
  unfold render_ascii. rewrite V. cbn [bind]. unfold render_config. destruct (payouts c s) as [pay|e'] eqn:P; cbn [bind]; [|split; intros X; injection X as ->; reflexivity].
  match goal with |- parse_string v ?x = _ <-> _ => destruct (C50_never_fails (num_players c) _ _ v x V) as (t & ->) end.
  - cbn [rc_button]. unfold valid_index. pose proof (wf_button _ _ W). lia.
  - intros _. cbn [rc_action]. unfold valid_index. pose proof (cw_two _ CW). destruct (action s) as [a|] eqn:A; [|lia]. pose proof (proj1 (wf_turn _ _ W a A)). lia.
  - split; intros X; discriminate X.
Qed.
Print Assumptions C50_dealer_partial.
(** before the last street is over they always can *)
Theorem C50_dealer_before_showdown : forall c s, reachable c s -> (street s < num_streets c)%nat -> exists text, render_ascii c s = Ok text.
Proof.
  intros c s R S. destruct (render_ascii c s) as [t|e] eqn:E; [exists t; reflexivity|]. exfalso.
  apply (C50_dealer_partial c s R e) in E. unfold payouts in E. destruct (count_true (active s) =? 1); [discriminate E|].
  replace (Nat.leb (num_streets c) (street s)) with false in E by (symmetry; apply Nat.leb_gt; exact S). discriminate E.
Qed.
Print Assumptions C50_dealer_before_showdown.
(** "rendering never fails" is false: a table whose odd chips cannot be paid out (C35) cannot be drawn *)
Theorem C50_dealer_refuted : exists c s, fair c s /\ in_progress s /\ render_ascii c s = Err IndexError.
Proof.
  assert (K : exists c s, fair c s /\ action s = Some 0%nat /\ payouts c s = Err IndexError).
  { play odd_game (stuck_ops ++ bets [-1]) c s E. split; [exact (played_fair _ _ _ _ E)|]. plays E. }
  destruct K as (c & s & F & A & P). exists c, s. split; [exact F|]. split; [unfold in_progress; rewrite A; discriminate|].
  apply (C50_dealer_partial c s (fair_reachable c s F)). exact P.
Qed.
Print Assumptions C50_dealer_refuted.

(** ** C44: what the table hides *)
Definition with_hole_cards (r : rconfig) (h : list (list card)) : rconfig :=
  mkRConfig (rc_action r) (rc_active r) (rc_all_in r) (rc_community_cards r) (rc_button r) (rc_done r) h (rc_pot r)
            (rc_payouts r) (rc_prev_action r) (rc_street_commits r) (rc_stacks r).
(** the hand of player [i] may be seen: while the hand is on, that of the player to act; at the end,
    those of the players who have not folded *)
Definition open_hand (r : rconfig) (i : nat) : Prop :=
  if rc_done r then nth i (rc_active r) false = true else Z.of_nat i = rc_action r.
Lemma hidden_lines v r h : List.length h = List.length (rc_hole_cards r) ->
  (forall i, open_hand r i -> nth i h [] = nth i (rc_hole_cards r) []) ->
  parse_players v (with_hole_cards r h) (rc_done r) (rc_action r) = parse_players v r (rc_done r) (rc_action r).
Proof.
  unfold parse_players, enumerate, open_hand. cbn [with_hole_cards rc_hole_cards rc_stacks rc_active]. intros L H.
  rewrite !combine_length, L.
  set (A := rc_active r) in *. set (S := rc_stacks r). set (g := rc_hole_cards r) in *.
  set (dn := rc_done r) in *. set (ac := rc_action r) in *. clearbody A S g dn ac.
  assert (Q : forall h g A S k, List.length h = List.length g ->
    (forall i, (if dn then nth i A false = true else Z.of_nat (k + i) = ac) -> nth i h [] = nth i g []) ->
    map (parse_player v dn ac) (combine (seq k (Nat.min (Nat.min (List.length g) (List.length S)) (List.length A))) (combine (combine h S) A))
    = map (parse_player v dn ac) (combine (seq k (Nat.min (Nat.min (List.length g) (List.length S)) (List.length A))) (combine (combine g S) A))).
  { clear. induction h as [|x h IH]; intros [|y g] A S k L H; try discriminate L; [reflexivity|].
    destruct S as [|z S]; [reflexivity|]. destruct A as [|a A]; [reflexivity|].
    cbn [List.length Nat.min seq combine map]. f_equal.
    - unfold parse_player. destruct a; cbn [negb]; [|reflexivity]. destruct (dn || (Z.of_nat k =? ac)) eqn:D; [|reflexivity].
      assert (E : x = y). { apply (H 0%nat). destruct dn; [reflexivity|]. cbn [orb] in D. rewrite Nat.add_0_r. lia. } now rewrite E.
    - apply IH; [cbn in L; lia|]. intros i Hi. apply (H (Datatypes.S i)). destruct dn; [exact Hi|]. replace (k + Datatypes.S i)%nat with (Datatypes.S k + i)%nat by lia. exact Hi. }
  apply Q; [exact L|]. intros i. rewrite Nat.add_0_l. apply H.
Qed.
(** Two configurations with the same open hands give the same text: the other hands may be replaced
    by anything. *)
Theorem C44_viewer : forall v r h, List.length h = List.length (rc_hole_cards r) ->
  (forall i, open_hand r i -> nth i h [] = nth i (rc_hole_cards r) []) ->
  parse_string v (with_hole_cards r h) = parse_string v r.
Proof.
  intros v r h L H. unfold parse_string. assert (E : str_config v (with_hole_cards r h) = str_config v r); [|now rewrite E].
  unfold str_config. change (rc_done (with_hole_cards r h)) with (rc_done r). change (rc_action (with_hole_cards r h)) with (rc_action r).
  rewrite (hidden_lines v r h L H). reflexivity.
Qed.
Print Assumptions C44_viewer.

(** For the dealer: while somebody in the hand has chips, what is drawn does not depend on the hole
    cards of the players who are not to act, nor on the order of the deck. *)
Lemma payouts_before_showdown c s t : same_play s t -> (street s < num_streets c)%nat -> payouts c t = payouts c s.
Proof.
  intros Q S. unfold payouts. rewrite (sm_active _ _ Q), (sm_commits _ _ Q), (sm_pot _ _ Q), (sm_street _ _ Q).
  replace (Nat.leb (num_streets c) (street s)) with false by (symmetry; apply Nat.leb_gt; exact S). reflexivity.
Qed.
Theorem C44_dealer_partial : forall c s t i, reachable c s -> in_progress s -> (street s < num_streets c)%nat ->
  is_active s i -> stack_of s i <> 0 ->
  same_play s t -> sees_same s t -> List.length (hole_cards t) = num_players c ->
  render_ascii c t = render_ascii c s.
Proof.
  intros c s t i R P S A K Q (a & Ha & V1 & V2) L. pose proof (reachable_wf c s R) as W.
  unfold render_ascii. destruct (ASCIIViewer _ _ _) as [v|]; [|reflexivity]. cbn [bind]. unfold render_config. rewrite (payouts_before_showdown c s t Q S).
  destruct (payouts c s) as [pay|]; [|reflexivity]. cbn [bind].
  assert (D : done_list c t = done_list c s) by (unfold done_list; rewrite (sm_street _ _ Q), (sm_active _ _ Q), (sm_stacks _ _ Q); reflexivity).
  rewrite D, (sm_action _ _ Q), (sm_active _ _ Q), (sm_stacks _ _ Q), (sm_button _ _ Q), (sm_pot _ _ Q), (sm_history _ _ Q), (sm_street_commits _ _ Q), V2.
  assert (N : all_true (done_list c s) = false).
  { destruct (all_true (done_list c s)) eqn:X; [|reflexivity]. exfalso. apply (done_all c s (reachable_cfg c s R) (wf_active _ _ W) (wf_stacks _ _ W)) in X.
    pose proof (wf_count _ _ W P) as C. destruct X as [X|[X|X]]; [lia|lia|]. unfold is_active in A.
    destruct (Nat.lt_ge_cases i (num_players c)) as [I|I]; [exact (K (X i I A))|]. rewrite nth_overflow in A by (rewrite (wf_active _ _ W); exact I). discriminate A. }
  rewrite N. match goal with |- _ = parse_string v ?r => apply (C44_viewer v r (hole_cards t)) end; cbn [rc_hole_cards].
  - rewrite L. symmetry. apply (wf_hole _ _ W). exact P.
  - unfold open_hand. cbn [rc_done rc_action]. rewrite Ha. intros j E. apply Nat2Z.inj in E. subst j.
    pose proof (wf_turn _ _ W a Ha) as [T _]. rewrite (nth_error_at _ a []) in V1 by (rewrite L; exact T).
    rewrite (nth_error_at _ a []) in V1 by (rewrite (wf_hole _ _ W P); exact T). now injection V1.
Qed.
Print Assumptions C44_dealer_partial.

(** The cards of the folded players are never drawn and change nothing that is drawn. *)
Lemma map_res_ext {A B} (f g : A -> result B) l : (forall x, In x l -> f x = g x) -> map_res f l = map_res g l.
Proof.
  induction l as [|x l IH]; intros H; [reflexivity|]. cbn [map_res]. rewrite (H x) by (left; reflexivity).
  rewrite IH; [reflexivity|]. intros y Y. apply H. right. exact Y.
Qed.
Theorem C44_dealer_folded : forall c s t, reachable c s ->
  same_play s t -> community_cards t = community_cards s -> List.length (hole_cards t) = List.length (hole_cards s) ->
  (forall i, is_active s i -> nth_error (hole_cards t) i = nth_error (hole_cards s) i) ->
  render_ascii c t = render_ascii c s.
Proof.
  intros c s t R Q B L H. pose proof (reachable_wf c s R) as W. unfold render_ascii. destruct (ASCIIViewer _ _ _) as [v|]; [|reflexivity]. cbn [bind]. unfold render_config.
  assert (P : payouts c t = payouts c s).
  { unfold payouts. rewrite (sm_active _ _ Q), (sm_commits _ _ Q), (sm_pot _ _ Q), (sm_street _ _ Q).
    assert (E : eval_round c t = eval_round c s); [|now rewrite E]. unfold eval_round. rewrite (sm_active _ _ Q), (sm_commits _ _ Q), (sm_pot _ _ Q), (sm_button _ _ Q), B.
    assert (E : eval_hands c (active s) (hole_cards t) (community_cards s) = eval_hands c (active s) (hole_cards s) (community_cards s)); [|now rewrite E].
    unfold eval_hands. apply map_res_ext. intros i _. destruct (nth i (active s) false) eqn:A; [|reflexivity]. unfold get. now rewrite (H i A). }
  rewrite P. destruct (payouts c s) as [pay|]; [|reflexivity]. cbn [bind].
  assert (D : done_list c t = done_list c s) by (unfold done_list; rewrite (sm_street _ _ Q), (sm_active _ _ Q), (sm_stacks _ _ Q); reflexivity).
  rewrite D, (sm_action _ _ Q), (sm_active _ _ Q), (sm_stacks _ _ Q), (sm_button _ _ Q), (sm_pot _ _ Q), (sm_history _ _ Q), (sm_street_commits _ _ Q), B.
  match goal with |- _ = parse_string v ?r => apply (C44_viewer v r (hole_cards t)) end; cbn [rc_hole_cards]; [exact L|].
  unfold open_hand. cbn [rc_done rc_action rc_active]. intros i O.
  assert (A : is_active s i).
  { destruct (all_true (done_list c s)); [exact O|]. destruct (action s) as [a|] eqn:Ha; [|lia]. apply Nat2Z.inj in O. subst i. apply (wf_turn _ _ W a Ha). }
  specialize (H i A). destruct (Nat.lt_ge_cases i (List.length (hole_cards s))) as [I|I].
  - rewrite (nth_error_at _ i []) in H by lia. rewrite (nth_error_at _ i []) in H by lia. now injection H.
  - now rewrite !nth_overflow by lia.
Qed.
Print Assumptions C44_dealer_folded.

(** "while the hand is in progress" is not enough: when the blinds put everybody all in, it is
    somebody's turn, and the table is drawn as if the hand were over, with all cards open. *)
Definition all_in_game := demo 2 1 [1; 1] [0; 0] [RawInf] [RawCountInf] [0] 1.
Definition deal_two (a b : nat) := [OTrick [demo_card a; demo_card b]; OReset [] true true].
Definition both_in : option nat * list bool * nat * list (nat * Z * bool) * Z * (Z * list Z * list Z * nat) * (list Z * list bool * Z) :=
  (Some 0%nat, [true; true], 0%nat, [], 1, (2, [1; 1], [0; 0], 0%nat), ([1; 1], [false; false], 0)).
Definition same_text (a b : result (list Z)) : option bool :=
  match a, b with Ok a, Ok b => Some (forallb (fun p => fst p =? snd p) (combine a b)) | _, _ => None end.
Lemma same_text_refl a : same_text a a <> Some false.
Proof.
  destruct a as [a|]; [|discriminate]. cbn. enough (E : forallb (fun p => fst p =? snd p) (combine a a) = true) by (rewrite E; discriminate).
  induction a as [|x a IH]; [reflexivity|]. cbn. now rewrite Z.eqb_refl.
Qed.
Lemma play_of_same s t : play_of s = play_of t -> same_play s t.
Proof. intros H. unfold play_of in H. injection H as Q1 Q2 Q3 Q4 Q5 Q6 Q7 Q8 Q9 Q10 Q11 Q12. split; symmetry; assumption. Qed.
Theorem C44_dealer_refuted : exists c s t, fair c s /\ fair c t /\ in_progress s /\ (street s < num_streets c)%nat /\ same_play s t /\ sees_same s t /\
  List.length (hole_cards t) = List.length (hole_cards s) /\ render_ascii c t <> render_ascii c s.
Proof.
  assert (K : exists c s0, fair c s0 /\
    let s := run c s0 (deal_two 51 0) in let t := run c s0 (deal_two 51 1) in
    (all_allowed c s0 (deal_two 51 0) = true /\ all_allowed c s0 (deal_two 51 1) = true) /\
    (action s = Some 0%nat /\ street s = 0%nat /\ num_streets c = 1%nat /\ play_of s = both_in /\ play_of t = both_in /\ community_cards s = [] /\ community_cards t = []) /\
    (hole_cards s = [[demo_card 51]; [demo_card 0]] /\ hole_cards t = [[demo_card 51]; [demo_card 1]]) /\
    same_text (render_ascii c t) (render_ascii c s) = Some false).
  { play all_in_game (@nil op) c s0 E. split; [exact (played_fair _ _ _ _ E)|]. cbv zeta. plays E. }
  destruct K as (c & s0 & F & (A1 & A2) & (B1 & B0 & B0' & B2 & B2' & B3 & B4) & (C1 & C2) & D). cbv zeta in *.
  exists c, (run c s0 (deal_two 51 0)), (run c s0 (deal_two 51 1)).
  split; [apply fair_run; [exact F|exact A1|reflexivity]|]. split; [apply fair_run; [exact F|exact A2|reflexivity]|].
  split; [unfold in_progress; rewrite B1; discriminate|]. split; [rewrite B0, B0'; lia|]. split; [apply play_of_same; congruence|].
  split; [exists O; rewrite C1, C2, B3, B4; auto|]. split; [now rewrite C1, C2|]. intros X. rewrite X in D. exact (same_text_refl _ D).
Qed.
Print Assumptions C44_dealer_refuted.

(** three players, seat 0 to act: the table with other cards for seats 1 and 2 is drawn the same, the
    table with another card for seat 0 is not *)
Example C44_example : exists c s t u, fair c s /\ fair c t /\ in_progress s /\ (street s < num_streets c)%nat /\
  is_active s 0 /\ stack_of s 0 <> 0 /\ same_play s t /\ sees_same s t /\ List.length (hole_cards t) = num_players c /\
  hole_cards s <> hole_cards t /\ same_play s u /\ render_ascii c u <> render_ascii c s.
Proof.
  assert (K : exists c s0, fair c s0 /\
    let s := run c s0 (deal_first 51 3 9) in let t := run c s0 (deal_first 51 48 0) in let u := run c s0 (deal_first 50 48 0) in
    (all_allowed c s0 (deal_first 51 3 9) = true /\ all_allowed c s0 (deal_first 51 48 0) = true) /\
    (num_players c = 3%nat /\ num_streets c = 2%nat /\ play_of s = first_move /\ play_of t = first_move /\ play_of u = first_move /\ community_cards s = [] /\ community_cards t = []) /\
    (hole_cards s = [[demo_card 51]; [demo_card 3]; [demo_card 9]] /\ hole_cards t = [[demo_card 51]; [demo_card 48]; [demo_card 0]]) /\
    same_text (render_ascii c u) (render_ascii c s) = Some false).
  { play hidden_game (@nil op) c s0 E. split; [exact (played_fair _ _ _ _ E)|]. cbv zeta. plays E. }
  destruct K as (c & s0 & F & (A1 & A2) & (N & N' & B2 & B2' & B2'' & B3 & B4) & (C1 & C2) & D). cbv zeta in *.
  exists c, (run c s0 (deal_first 51 3 9)), (run c s0 (deal_first 51 48 0)), (run c s0 (deal_first 50 48 0)).
  split; [apply fair_run; [exact F|exact A1|reflexivity]|]. split; [apply fair_run; [exact F|exact A2|reflexivity]|].
  assert (S1 : same_play (run c s0 (deal_first 51 3 9)) (run c s0 (deal_first 51 48 0))) by (apply play_of_same; congruence).
  assert (S2 : same_play (run c s0 (deal_first 51 3 9)) (run c s0 (deal_first 50 48 0))) by (apply play_of_same; congruence).
  rewrite <- B3 in B4. rewrite N. unfold in_progress, is_active, stack_of.
  set (s := run c s0 (deal_first 51 3 9)) in *. set (t := run c s0 (deal_first 51 48 0)) in *. set (u := run c s0 (deal_first 50 48 0)) in *. clearbody s t u.
  unfold play_of, first_move in B2. injection B2 as Q1 Q2 Q3 Q4 Q5 Q6 Q7 Q8 Q9 Q10 Q11 Q12.
  rewrite Q1, Q2, Q8, Q9, N'. split; [discriminate|]. split; [lia|]. split; [reflexivity|]. split; [discriminate|]. split; [exact S1|].
  split; [exists O; rewrite C1, C2; auto|]. split; [rewrite C2; reflexivity|]. split; [rewrite C1, C2; vm_compute; discriminate|].
  split; [exact S2|]. intros X. rewrite X in D. exact (same_text_refl _ D).
Qed.

(** ** C53: the result of the hand on the table *)
Lemma render_config_players c s r : reachable c s -> List.length (hole_cards s) = num_players c ->
  (action s = None -> all_true (done_list c s) = true) -> render_config c s = Ok r -> for_players (num_players c) r.
Proof.
  intros R H N E. pose proof (reachable_wf c s R) as W. unfold render_config in E. destruct (payouts c s) as [pay|] eqn:P; [|discriminate E]. injection E as <-.
  split; cbn [rc_active rc_all_in rc_hole_cards rc_payouts rc_street_commits rc_stacks rc_button rc_action rc_done].
  - apply (wf_active _ _ W).
  - rewrite map_length, combine_length, (wf_active _ _ W), (wf_stacks _ _ W). apply Nat.min_id.
  - exact H.
  - exact (payouts_length c s pay (wf_active _ _ W) (wf_commits _ _ W) P).
  - apply (wf_street _ _ W).
  - apply (wf_stacks _ _ W).
  - pose proof (wf_button _ _ W). lia.
  - intros D. destruct (action s) as [a|] eqn:A; [pose proof (proj1 (wf_turn _ _ W a A)); lia|]. rewrite N in D by reflexivity. discriminate D.
Qed.
(** After a showdown the table shows next to every player what they have won or lost in the hand,
    and below the table the winners. *)
Theorem C53_partial : forall c s b out, fair c s -> in_progress s ->
  let s' := fst (step c s b) in
  snd (step c s b) = Ok out -> action s' = None -> 2 <= count_true (active s') -> (num_streets c <= street s')%nat ->
  exists v r d text, ASCIIViewer (Z.of_nat (num_players c)) (num_hole_cards c) (sumZ (num_community_cards c)) = Ok v /\
    render_ascii c s' = Ok text /\ fill table d = Ok text /\ table_shows v (num_players c) r d /\
    (rc_done r = true /\ rc_payouts r = out_payouts out /\ rc_stacks r = stacks s' /\ rc_active r = active s' /\ rc_hole_cards r = hole_cards s') /\
    forall i, (i < num_players c)%nat -> shows d (SChips (nth i (v_player_pos v) 0%nat)) (fmt_comma (nth i (out_payouts out) 0)).
Proof.
  intros c s b out F Hp. cbv zeta. intros Ho Hn Hc Hs.
  pose proof (fair_reachable c s F) as R0. assert (R : reachable c (fst (step c s b))) by exact (reach_op c s (OStep b) R0 I).
  pose proof (reachable_wf c _ R) as W.
  destruct (C38_partial c s b [] (PyInt 0) F Hp Hn Hc Hs) as [_ X]. rewrite Ho in X.
  assert (HL : List.length (hole_cards (fst (step c s b))) = num_players c).
  { destruct (step_ended c s b F Hp Hn) as (z & pay & o & E). rewrite (en_state _ _ _ _ _ _ E). cbn [finish_hand hole_cards]. apply (se_hole _ _ _ _ (en_settled _ _ _ _ _ _ E)). }
  set (s' := fst (step c s b)) in *. clearbody s'. clear Ho.
  unfold step in X. rewrite Hn in X. cbn [snd] in X. unfold step_idle in X. destruct (any_true (active s')); [|discriminate X].
  destruct (payouts c s') as [pay|] eqn:P; [|discriminate X]. cbn [bind] in X.
  destruct (observation c s' (all_true (done_list c s'))) as [o|]; [|discriminate X]. cbn [bind] in X. injection X as <-. cbn [out_payouts].
  assert (D : all_true (done_list c s') = true) by (apply (done_all c s' (reachable_cfg c s' R) (wf_active _ _ W) (wf_stacks _ _ W)); left; exact Hs).
  destruct (viewer_exists c (num_hole_cards c) (sumZ (num_community_cards c)) (reachable_cfg c s' R)) as (v & V). exists v.
  destruct (render_config c s') as [r|] eqn:Q; [|unfold render_config in Q; rewrite P in Q; discriminate Q]. exists r.
  pose proof (render_config_players c s' r R HL (fun _ => D) Q) as FP.
  destruct (table_filled _ _ _ v r V FP) as (_ & _ & d & text & T1 & T2 & T3). exists d, text.
  split; [exact V|]. split; [unfold render_ascii; rewrite V, Q; exact T1|]. split; [exact T2|]. split; [exact T3|].
  unfold render_config in Q. rewrite P in Q. cbn [bind] in Q. injection Q as <-. cbn [rc_done rc_payouts rc_stacks rc_active rc_hole_cards] in *.
  split; [splits; trivial|]. intros i Hi. destruct T3 as [T3 _]. destruct (T3 i Hi) as (_ & T4 & _). unfold player_chips in T4. cbn [rc_done rc_payouts] in T4. rewrite D in T4. exact T4.
Qed.
Print Assumptions C53_partial.

(** the line below the table after a hand *)
Theorem C53_message : forall r, rc_done r = true -> parse_win_string r (rc_done r) = win_text r.
Proof. intros r _. apply win_string_text. Qed.
Print Assumptions C53_message.

(** After a hand which ended because everybody else folded the payouts are computed again from the
    empty pot: the winner, who has won 1, is shown with a loss of 2, and nobody is named. *)
Theorem C53_refuted : exists c s b out r, fair c s /\ in_progress s /\ snd (step c s b) = Ok out /\ action (fst (step c s b)) = None /\
  out_payouts out = [0; -1; 1] /\ render_config c (fst (step c s b)) = Ok r /\ rc_done r = true /\
  player_chips r 2 = ustr "-2" /\ parse_win_string r true = ustr "Player  won ".
Proof.
  assert (K : exists c s, fair c s /\ action s = Some 1%nat /\ action (fst (step c s (PyInt (-1)))) = None /\
    match snd (step c s (PyInt (-1))) with Ok out => Some (out_payouts out) | Err _ => None end = Some [0; -1; 1] /\
    match render_config c (fst (step c s (PyInt (-1)))) with Ok r => Some (rc_done r, player_chips r 2, parse_win_string r true) | Err _ => None end
      = Some (true, ustr "-2", ustr "Player  won ")).
  { play no_limit_3 (new_hand :: bets [-1]) c s E. split; [exact (played_fair _ _ _ _ E)|]. plays E. }
  destruct K as (c & s & F & K1 & K2 & K3 & K4).
  destruct (snd (step c s (PyInt (-1)))) as [out|e] eqn:Eo; [|discriminate K3].
  destruct (render_config c (fst (step c s (PyInt (-1))))) as [r|e] eqn:Er; [|discriminate K4]. injection K3 as K3. injection K4 as L1 L2 L3.
  exists c, s, (PyInt (-1)), out, r. split; [exact F|]. split; [unfold in_progress; rewrite K1; discriminate|]. splits; assumption.
Qed.
Print Assumptions C53_refuted.

(** three players, the second to act, the third all in *)
Definition table_3 : rconfig :=
  mkRConfig 1 [true; true; true] [false; false; true] [demo_card 12] 0 false [[demo_card 51]; [demo_card 3]; [demo_card 9]]
            1234567 [0; 0; 0] (Some (0%nat, 1500, false)) [1500; 0; 20] [1000000; 25; 0].
Example C50_example : for_players 3 table_3 /\
  exists v d text, ASCIIViewer 3 1 3 = Ok v /\ parse_string v table_3 = Ok text /\ fill table d = Ok text /\ table_shows v 3 table_3 d /\
    (shows d (SPlayer 0) (ustr " 1. ?? 1,000,000") /\ shows d (SPlayer 3) (ustr " 2. " ++ card_str (demo_card 3) ++ ustr " 25") /\
     shows d (SPlayer 6) (ustr " 3. ?? 0") /\ shows d (SPlayer 5) [] /\ shows d (SMark 3) (ustr "X") /\ shows d (SMark 6) (ustr "A") /\
     shows d (SChips 0) (ustr "1,500") /\ shows d (SPot) (ustr "1,234,567") /\
     shows d SAction (ustr "Player 1 bet 1500 Action on Player 2")).
Proof.
  assert (F : for_players 3 table_3) by (split; try reflexivity; vm_compute; split; discriminate || reflexivity).
  split; [exact F|]. destruct (proj1 (proj2 (C50_seats 3 1 3)) ltac:(lia)) as (v & V). change (Z.of_nat 3) with 3 in V.
  destruct (table_filled 3 1 3 v table_3 V F) as (_ & _ & d & text & T1 & T2 & T3). exists v, d, text.
  split; [exact V|]. split; [exact T1|]. split; [exact T2|]. split; [exact T3|]. injection V as <-. destruct T3 as (A & B & C & D & E & G).
  pose proof (A 0%nat ltac:(lia)) as A0. pose proof (A 1%nat ltac:(lia)) as A1. pose proof (A 2%nat ltac:(lia)) as A2.
  pose proof (B 5%nat ltac:(lia) ltac:(vm_compute; intuition discriminate)) as B5.
  splits; first [exact (proj1 A0)|exact (proj1 A1)|exact (proj1 A2)|exact (proj1 B5)|apply A1|apply A2|apply A0|exact D|exact E].
Qed.
Example C53_example : exists c s out r, fair c s /\ in_progress s /\ snd (step c s (PyInt (-1))) = Ok out /\ action (fst (step c s (PyInt (-1)))) = None /\
  2 <= count_true (active (fst (step c s (PyInt (-1))))) /\ (num_streets c <= street (fst (step c s (PyInt (-1)))))%nat /\
  out_payouts out = [7; -2; -5] /\ render_config c (fst (step c s (PyInt (-1)))) = Ok r /\
  player_chips r 0 = ustr "7" /\ parse_win_string r true = ustr "Player 1 won 7".
Proof.
  assert (K : exists c s, fair c s /\ action s = Some 1%nat /\ action (fst (step c s (PyInt (-1)))) = None /\
    count_true (active (fst (step c s (PyInt (-1))))) = 2 /\ num_streets c = 2%nat /\ street (fst (step c s (PyInt (-1)))) = 2%nat /\
    match snd (step c s (PyInt (-1))) with Ok out => Some (out_payouts out) | Err _ => None end = Some [7; -2; -5] /\
    match render_config c (fst (step c s (PyInt (-1)))) with Ok r => Some (player_chips r 0, parse_win_string r true) | Err _ => None end = Some (ustr "7", ustr "Player 1 won 7")).
  { play no_limit_3 ([OTrick [demo_card 51; demo_card 3; demo_card 4; demo_card 0]; new_hand] ++ bets [2;1;0;0;3;3]) c s E. split; [exact (played_fair _ _ _ _ E)|]. plays E. }
  destruct K as (c & s & F & K1 & K2 & K3 & K4 & K5 & K6 & K7).
  destruct (snd (step c s (PyInt (-1)))) as [out|e] eqn:Eo; [|discriminate K6].
  destruct (render_config c (fst (step c s (PyInt (-1))))) as [r|e] eqn:Er; [|discriminate K7]. injection K6 as K6. injection K7 as L1 L2.
  exists c, s, out, r. rewrite K3, K4, K5. splits; trivial; try lia. unfold in_progress. rewrite K1. discriminate.
Qed.
