(** * JsonModel: clubs/render/graphic.py:188-220, the configuration sent to the browser *)
From Verif Require Import PyBase CardModel EvalModel EngineModel AsciiModel.

(** an element of a list given to [_convert_hands]: a Card, or a list of Cards *)
Inductive item : Type := ICard (c : card) | IHand (l : list card).
(** what it returns: [_hands] or [_cards] *)
Inductive converted : Type := CHands (l : list (list (list Z))) | CCards (l : list (list Z)).

(** the last element of [_hands] replaced *)
Fixpoint set_last {A} (l : list A) (x : A) : list A :=
  match l with
  | [] => []
  | [_] => [x]
  | y :: r => y :: set_last r x
  end.

(** graphic.py:198-213, _convert_hands.  Once [_hands] is not empty, [_cards] is the same list object
    as its last element, so appending to it changes [_hands] too. *)
Definition convert_step (st : list (list (list Z)) * list (list Z)) (h : item) : list (list (list Z)) * list (list Z) :=
  let '(hands, cards) := st in
  match h with
  | ICard c => let cards := cards ++ [card_str c] in (set_last hands cards, cards)
  | IHand l => let cards := fold_left (fun acc c => acc ++ [card_str c]) l [] in (hands ++ [cards], cards)
  end.
Definition convert_hands (l : list item) : converted :=
  let '(hands, cards) := fold_left convert_step l ([], []) in
  match hands with [] => CCards cards | _ => CHands hands end.

(** the dict sent to the browser: the entries of the render configuration, with two of them replaced *)
Record jconfig : Type := mkJConfig {
  j_action : Z;
  j_active : list bool;
  j_all_in : list bool;
  j_community_cards : converted;
  j_button : Z;
  j_done : bool;
  j_hole_cards : converted;
  j_pot : Z;
  j_payouts : list Z;
  j_prev_action : option (nat * Z * bool);
  j_street_commits : list Z;
  j_stacks : list Z
}.
(** graphic.py:216-220, _jsonify; the lists which are kept are shared with the argument, not copied *)
Definition jsonify (r : rconfig) : jconfig :=
  mkJConfig (rc_action r) (rc_active r) (rc_all_in r) (convert_hands (map ICard (rc_community_cards r))) (rc_button r) (rc_done r)
            (convert_hands (map IHand (rc_hole_cards r))) (rc_pot r) (rc_payouts r) (rc_prev_action r) (rc_street_commits r) (rc_stacks r).
