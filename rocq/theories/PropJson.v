(** * PropJson: C51, the configuration sent to the browser *)
From Coq Require Import ZifyBool ZifyNat Arith.
From Verif Require Import PyBase PyFacts CardModel EvalModel EngineModel EngineSpec EngineFacts EngineDemo AsciiModel JsonModel PropAscii.

(** ** Specification *)
(** nested lists of strings, as the browser gets them *)
Inductive tree : Type := TStr (t : list Z) | TList (l : list tree).
Definition tree_of (c : converted) : tree :=
  match c with
  | CHands l => TList (map (fun h => TList (map TStr h)) l)
  | CCards l => TList (map TStr l)
  end.
(** every card replaced by its string, in the same nesting and order *)
Definition item_tree (i : item) : tree :=
  match i with ICard c => TStr (card_str c) | IHand l => TList (map (fun c => TStr (card_str c)) l) end.
Definition strings (l : list item) : tree := TList (map item_tree l).
(** a list of cards or a list of hands *)
Definition is_card (i : item) : bool := match i with ICard _ => true | IHand _ => false end.
Definition uniform (l : list item) : Prop := Forall (fun i => is_card i = true) l \/ Forall (fun i => is_card i = false) l.

Lemma fold_append (l : list card) : forall acc, fold_left (fun acc c => acc ++ [card_str c]) l acc = acc ++ map card_str l.
Proof. induction l as [|c l IH]; intros acc; cbn [fold_left map]; [now rewrite app_nil_r|]. rewrite IH, <- app_assoc. reflexivity. Qed.
Lemma convert_cards l : forall acc, fold_left convert_step (map ICard l) ([], acc) = ([], acc ++ map card_str l).
Proof. induction l as [|c l IH]; intros acc; cbn [fold_left map convert_step set_last]; [now rewrite app_nil_r|]. rewrite IH, <- app_assoc. reflexivity. Qed.
Lemma convert_hands_fold l : forall hs cs, exists cs', fold_left convert_step (map IHand l) (hs, cs) = (hs ++ map (map card_str) l, cs').
Proof.
  induction l as [|h l IH]; intros hs cs; cbn [fold_left map]; [exists cs; now rewrite app_nil_r|]. unfold convert_step at 2. rewrite fold_append. cbn [app].
  destruct (IH (hs ++ [map card_str h]) (map card_str h)) as (cs' & ->). exists cs'. now rewrite <- app_assoc.
Qed.
Lemma all_cards l : Forall (fun i => is_card i = true) l -> exists cs, l = map ICard cs.
Proof. induction 1 as [|[c|h] l E F (cs & ->)]; [exists []; reflexivity|exists (c :: cs); reflexivity|discriminate E]. Qed.
Lemma all_hands l : Forall (fun i => is_card i = false) l -> exists hs, l = map IHand hs.
Proof. induction 1 as [|[c|h] l E F (hs & ->)]; [exists []; reflexivity|discriminate E|exists (h :: hs); reflexivity]. Qed.

Theorem C51_convert : forall l, uniform l -> tree_of (convert_hands l) = strings l.
Proof.
  intros l [U|U]; unfold strings.
  - destruct (all_cards l U) as (cs & ->). unfold convert_hands. rewrite convert_cards. cbn [app tree_of]. rewrite !map_map. reflexivity.
  - destruct (all_hands l U) as (hs & ->). unfold convert_hands. destruct (convert_hands_fold hs [] []) as (cs' & E). pose proof E as E'. rewrite E. cbn [app].
    destruct hs as [|h hs]; [cbn in E'; injection E' as <-; reflexivity|]. cbn [map tree_of]. f_equal. f_equal; [now rewrite map_map|]. rewrite !map_map. apply map_ext. intros x. cbn. now rewrite map_map.
Qed.
Print Assumptions C51_convert.

(** The whole configuration: the two entries with cards are converted, all others are as they were. *)
Theorem C51_jsonify : forall r,
  tree_of (j_hole_cards (jsonify r)) = TList (map (fun hand => TList (map (fun c => TStr (card_str c)) hand)) (rc_hole_cards r)) /\
  tree_of (j_community_cards (jsonify r)) = TList (map (fun c => TStr (card_str c)) (rc_community_cards r)) /\
  (j_action (jsonify r) = rc_action r /\ j_active (jsonify r) = rc_active r /\ j_all_in (jsonify r) = rc_all_in r /\
   j_button (jsonify r) = rc_button r /\ j_done (jsonify r) = rc_done r /\ j_pot (jsonify r) = rc_pot r /\ j_payouts (jsonify r) = rc_payouts r /\
   j_prev_action (jsonify r) = rc_prev_action r /\ j_street_commits (jsonify r) = rc_street_commits r /\ j_stacks (jsonify r) = rc_stacks r).
Proof.
  intros r. split; [|split; [|splits; reflexivity]].
  - cbn [jsonify j_hole_cards]. rewrite C51_convert; [unfold strings; rewrite map_map; reflexivity|]. right. apply Forall_forall. intros i I. apply in_map_iff in I. destruct I as (h & <- & _). reflexivity.
  - cbn [jsonify j_community_cards]. rewrite C51_convert; [unfold strings; rewrite map_map; reflexivity|]. left. apply Forall_forall. intros i I. apply in_map_iff in I. destruct I as (h & <- & _). reflexivity.
Qed.
Print Assumptions C51_jsonify.

(** Nothing is lost: two configurations with the same JSON show the same strings everywhere. *)
Theorem C51_lossless : forall r r', jsonify r = jsonify r' ->
  map (map card_str) (rc_hole_cards r) = map (map card_str) (rc_hole_cards r') /\ map card_str (rc_community_cards r) = map card_str (rc_community_cards r').
Proof.
  assert (A : forall l l', tree_of (convert_hands (map IHand l)) = tree_of (convert_hands (map IHand l')) -> map (map card_str) l = map (map card_str) l').
  { intros l l'. rewrite !C51_convert by (right; apply Forall_forall; intros i I; apply in_map_iff in I; destruct I as (h & <- & _); reflexivity). unfold strings. intros E. injection E as E. rewrite !map_map in E.
    revert l' E. induction l as [|h l IH]; intros [|h' l'] E; try discriminate E; [reflexivity|]. cbn [map] in *. injection E as E1 E2. f_equal; [|now apply IH].
    clear - E1. revert h' E1. induction h as [|c h IH]; intros [|c' h'] E; try discriminate E; [reflexivity|]. cbn [map] in *. injection E as E1 E2 E3. f_equal; [|now apply IH]. unfold card_str. congruence. }
  assert (B : forall l l', tree_of (convert_hands (map ICard l)) = tree_of (convert_hands (map ICard l')) -> map card_str l = map card_str l').
  { intros l l'. rewrite !C51_convert by (left; apply Forall_forall; intros i I; apply in_map_iff in I; destruct I as (h & <- & _); reflexivity). unfold strings. intros E. injection E as E. rewrite !map_map in E.
    revert l' E. induction l as [|h l IH]; intros [|h' l'] E; try discriminate E; [reflexivity|]. cbn [map item_tree] in *. injection E as E1 E2 E3. f_equal; [unfold card_str; congruence|now apply IH]. }
  intros r r' E. split; [apply A|apply B]; [change (tree_of (j_hole_cards (jsonify r)) = tree_of (j_hole_cards (jsonify r')))|change (tree_of (j_community_cards (jsonify r)) = tree_of (j_community_cards (jsonify r')))]; now rewrite E.
Qed.
Print Assumptions C51_lossless.

(** a list that mixes cards and hands (which the type annotations exclude) loses its first card *)
Example C51_mixed : convert_hands [ICard (demo_card 51); IHand [demo_card 0]; ICard (demo_card 1)] =
  CHands [[card_str (demo_card 0); card_str (demo_card 1)]].
Proof. vm_compute. reflexivity. Qed.
Example C51_example : uniform [IHand [demo_card 51; demo_card 50]; IHand []; IHand [demo_card 0]] /\
  convert_hands [IHand [demo_card 51; demo_card 50]; IHand []; IHand [demo_card 0]] =
  CHands [[card_str (demo_card 51); card_str (demo_card 50)]; []; [card_str (demo_card 0)]] /\
  j_stacks (jsonify table_3) = [1000000; 25; 0].
Proof. split; [right; repeat constructor|]. split; vm_compute; reflexivity. Qed.
