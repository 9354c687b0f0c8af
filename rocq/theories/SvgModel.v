(** * SvgModel: the table in the browser

    clubs/render/graphic.py:286-683 (the drawing), the images in clubs/render/resources/static/images
    and clubs/render/resources/static/parse_config.js (what the browser does with a configuration).
    The seats' positions (class _RoundedRectangle, see EdgeModel.v) are parameters here. *)
From Coq Require Import Decimal DecimalString.
From Verif Require Import PyBase CardModel EngineModel AsciiModel JsonModel.

(** ** XML elements *)

(** The attributes which the code reads or writes, and the text of an element.  Other attributes and
    white space are left out.  Numbers are written with [str] and read back with [float]; all of them
    are multiples of 1/2, for which this is exact.  A width or height given in percent is [None] here:
    the code never reads one. *)
Record attrs : Type := mkAttrs {
  a_class : string;
  a_id : option string;
  a_x : option Q; a_y : option Q; a_width : option Q; a_height : option Q;
  a_view_box : option (Q * Q);
  a_fill : option string; a_stroke : option string;
  a_text : list Z
}.
Inductive elem : Type := Elem (tag : string) (a : attrs) (kids : list elem).
Definition tag_of (e : elem) : string := match e with Elem t _ _ => t end.
Definition attrs_of (e : elem) : attrs := match e with Elem _ a _ => a end.
Definition kids_of (e : elem) : list elem := match e with Elem _ _ k => k end.
(** [xml] with one attribute changed *)
Definition on_attrs (f : attrs -> attrs) (e : elem) : elem := match e with Elem t a k => Elem t (f a) k end.

(** graphic.py:336-338, set_svg_attr *)
Definition put_class (v : string) (a : attrs) : attrs :=
  mkAttrs v (a_id a) (a_x a) (a_y a) (a_width a) (a_height a) (a_view_box a) (a_fill a) (a_stroke a) (a_text a).
Definition put_id (v : string) (a : attrs) : attrs :=
  mkAttrs (a_class a) (Some v) (a_x a) (a_y a) (a_width a) (a_height a) (a_view_box a) (a_fill a) (a_stroke a) (a_text a).
Definition put_x (v : Q) (a : attrs) : attrs :=
  mkAttrs (a_class a) (a_id a) (Some v) (a_y a) (a_width a) (a_height a) (a_view_box a) (a_fill a) (a_stroke a) (a_text a).
Definition put_y (v : Q) (a : attrs) : attrs :=
  mkAttrs (a_class a) (a_id a) (a_x a) (Some v) (a_width a) (a_height a) (a_view_box a) (a_fill a) (a_stroke a) (a_text a).
Definition put_width (v : Q) (a : attrs) : attrs :=
  mkAttrs (a_class a) (a_id a) (a_x a) (a_y a) (Some v) (a_height a) (a_view_box a) (a_fill a) (a_stroke a) (a_text a).
Definition put_height (v : Q) (a : attrs) : attrs :=
  mkAttrs (a_class a) (a_id a) (a_x a) (a_y a) (a_width a) (Some v) (a_view_box a) (a_fill a) (a_stroke a) (a_text a).
Definition put_fill (v : string) (a : attrs) : attrs :=
  mkAttrs (a_class a) (a_id a) (a_x a) (a_y a) (a_width a) (a_height a) (a_view_box a) (Some v) (a_stroke a) (a_text a).
Definition put_stroke (v : string) (a : attrs) : attrs :=
  mkAttrs (a_class a) (a_id a) (a_x a) (a_y a) (a_width a) (a_height a) (a_view_box a) (a_fill a) (Some v) (a_text a).
Definition put_text (v : list Z) (a : attrs) : attrs :=
  mkAttrs (a_class a) (a_id a) (a_x a) (a_y a) (a_width a) (a_height a) (a_view_box a) (a_fill a) (a_stroke a) v.

(** graphic.py:340-382, the properties x, y, width, height: a missing attribute counts as 0 *)
Definition num (o : option Q) : Q := match o with Some q => q | None => 0%Q end.
Definition x_of (e : elem) : Q := num (a_x (attrs_of e)).
Definition y_of (e : elem) : Q := num (a_y (attrs_of e)).
Definition width_of (e : elem) : Q := num (a_width (attrs_of e)).
Definition height_of (e : elem) : Q := num (a_height (attrs_of e)).
Definition set_id (v : string) : elem -> elem := on_attrs (put_id v).
Definition set_x (v : Q) : elem -> elem := on_attrs (put_x v).
Definition set_y (v : Q) : elem -> elem := on_attrs (put_y v).
Definition set_width (v : Q) : elem -> elem := on_attrs (put_width v).
Definition set_height (v : Q) : elem -> elem := on_attrs (put_height v).

(** graphic.py:460-471, center_x with [other]; 473-484, center_y with [other] *)
Definition center_x_in (other e : elem) : elem :=
  let w := match a_view_box (attrs_of other) with Some (w, _) => w | None => width_of other end in
  set_x ((w - width_of e) / 2) e.
Definition center_y_in (other e : elem) : elem :=
  let h := match a_view_box (attrs_of other) with Some (_, h) => h | None => height_of other end in
  set_y ((h - height_of e) / 2) e.
(** graphic.py:460-494, center with [x] and [y] *)
Definition center_at (x y : Z) (e : elem) : elem :=
  set_y (inject_Z y - height_of e / 2) (set_x (inject_Z x - width_of e / 2) e).
(** graphic.py:496-507, extend and append *)
Definition append_kids (l : list elem) (e : elem) : elem := match e with Elem t a k => Elem t a (k ++ l) end.

(** graphic.py:317-322, get_sub_svg with an attribute, followed by changes of the element found: the
    first element below [e], in document order, for which [p] holds, is changed by [f] *)
Fixpoint on_first (p : elem -> bool) (f : elem -> result elem) (e : elem) : option (result elem) :=
  match e with
  | Elem t a kids =>
      match (fix go (l : list elem) : option (result (list elem)) :=
               match l with
               | [] => None
               | k :: r =>
                   if p k then Some (let* k' := f k in Ok (k' :: r))
                   else match on_first p f k with
                        | Some res => Some (let* k' := res in Ok (k' :: r))
                        | None => match go r with
                                  | Some res => Some (let* r' := res in Ok (k :: r'))
                                  | None => None
                                  end
                        end
               end) kids with
      | Some res => Some (let* kids' := res in Ok (Elem t a kids'))
      | None => None
      end
  end.
Definition has_class (c : string) (e : elem) : bool := String.eqb (a_class (attrs_of e)) c.
Definition has_id (i : string) (e : elem) : bool := match a_id (attrs_of e) with Some j => String.eqb j i | None => false end.
Definition on_class (c : string) (f : elem -> result elem) (e : elem) : result elem :=
  match on_first (has_class c) f e with Some r => r | None => Err KeyError end.
Definition on_id (i : string) (f : elem -> result elem) (e : elem) : result elem :=
  match on_first (has_id i) f e with Some r => r | None => Err KeyError end.
Definition just (f : elem -> elem) (e : elem) : result elem := Ok (f e).
(** graphic.py:324-331, get_sub_svgs: all elements below [e] with the tag *)
Fixpoint with_tag (t : string) (e : elem) : list elem :=
  match e with Elem _ _ kids => flat_map (fun k => (if String.eqb (tag_of k) t then [k] else []) ++ with_tag t k) kids end.
(** graphic.py:509-511, remove, of the element found by get_sub_svg: a ValueError unless it is a
    direct child *)
Fixpoint remove_first (p : elem -> bool) (l : list elem) : result (list elem) :=
  match l with
  | [] => Err ValueError
  | k :: r => if p k then Ok r else let* r' := remove_first p r in Ok (k :: r')
  end.
Definition remove_class (c : string) (e : elem) : result elem :=
  match e with Elem t a kids => let* k := remove_first (has_class c) kids in Ok (Elem t a k) end.

(** ** The images *)
Definition plain (cls : string) : attrs := mkAttrs cls None None None None None None None None [].
Definition sized (cls : string) (w h : Z) : attrs := put_height (inject_Z h) (put_width (inject_Z w) (plain cls)).
(** images/base.svg *)
Definition base_file : elem :=
  Elem "svg" (mkAttrs "" (Some "poker"%string) None None None None (Some (1000, 1000)%Q) None None []) [].
(** images/table.svg *)
Definition table_file : elem := Elem "rect" (put_x 0 (put_y 0 (sized "table" 900 550))) [].
(** images/player.svg *)
Definition player_file : elem :=
  Elem "svg" (sized "player" 220 125)
    [ Elem "rect" (put_x 5 (put_y 5 (sized "player-background" 210 125))) [];
      Elem "svg" (put_x 10 (put_y 10 (plain "cards"))) [];
      Elem "svg" (put_y 85 (put_height 30 (plain "chips")))
        [ Elem "rect" (plain "chips-background") [];
          Elem "text" (put_y 20 (put_text (ustr "0") (plain "chips-text"))) [] ] ].
(** images/card.svg *)
Definition card_file : elem :=
  Elem "svg" (sized "card" 50 70)
    [ Elem "rect" (put_fill "url(#card-back)" (plain "card-background")) [];
      Elem "text" (put_x 7 (put_y 25 (plain "card-text"))) [] ].
(** images/street_commit.svg *)
Definition street_commit_file : elem :=
  Elem "svg" (sized "chips" 100 30)
    [ Elem "rect" (plain "chips-background") [];
      Elem "text" (put_x 30 (put_y 20 (put_text (ustr "0") (plain "chips-text")))) [];
      Elem "svg" (put_x (145 # 2) (put_y (5 # 2) (sized "button" 25 25)))
        [ Elem "rect" (put_fill "black" (plain "button-background")) [] ] ].
(** images/patterns.svg; the shapes inside the patterns have neither classes nor identifiers and are left out *)
Definition pattern (cls i : string) (w h : Z) : elem := Elem "pattern" (put_id i (sized cls w h)) [].
Definition patterns_file : elem :=
  Elem "g" (plain "")
    [ pattern "dealer" "dealer" 25 25; pattern "card-back" "card-back" 50 70; pattern "card-blank" "card-blank" 50 70;
      pattern "card-front" "card-club" 50 70; pattern "card-front" "card-spade" 50 70;
      pattern "card-front" "card-diamond" 50 70; pattern "card-front" "card-heart" 50 70 ].

(** ** The drawing *)

(** strings with a label *)
Definition labelled (prefix label : string) : string := append prefix (append "-" label).

(** graphic.py:579-590: the body of the loop over the cards *)
Definition new_card (cards card : elem) (label : string) (num_cards : Z) (k : nat) : result elem :=
  let w := width_of card in
  let c := center_x_in cards card in
  let offset := (- w * inject_Z num_cards / 2 + w * (inject_Z (Z.of_nat k) + (1 # 2)))%Q in
  let c := set_x (x_of c + offset)%Q c in
  let c := set_id (labelled (labelled "card" label) (slot_str k)) c in
  let* c := on_class "card-background" (just (set_id (labelled (labelled "card-background" label) (slot_str k)))) c in
  on_class "card-text" (just (set_id (labelled (labelled "card-text" label) (slot_str k)))) c.
(** graphic.py:562-591, new_player *)
Definition new_player (player : elem) (label : string) (card : elem) (num_cards : Z) : result elem :=
  let p := set_id label player in
  let* p := on_class "cards" (just (set_id (labelled "cards" label))) p in
  let* p := on_class "player-background" (just (set_id (labelled "player-background" label))) p in
  let* p := on_class "chips" (fun chips =>
      let chips := set_id (labelled "chips" label) chips in
      let* chips := on_class "chips-background" (just (set_id (labelled "chips-background" label))) chips in
      on_class "chips-text" (just (set_id (labelled "chips-text" label))) chips) p in
  on_class "cards" (fun cards =>
      fold_res (fun cs k => let* c := new_card cs card label num_cards k in Ok (append_kids [c] cs))
               (seq 0 (Z.to_nat num_cards)) cards) p.
(** graphic.py:593-629, add_players; [at_] gives the rounded points of the edge *)
Definition add_players (num_players num_hole_cards : Z) (player card : elem) (at_ : nat -> Z * Z) : result (list elem) :=
  let w := if Qle_bool (width_of player) (width_of card * inject_Z num_hole_cards + 20)
           then (width_of card * inject_Z num_hole_cards + 20)%Q else width_of player in
  let player := set_width w player in
  let* player := on_class "player-background" (fun b => Ok (set_height (height_of b - 10) (set_width (w - 10) b))) player in
  let* player := on_class "cards" (fun cs => Ok (center_x_in player (set_width (inject_Z num_hole_cards * width_of card) cs))) player in
  let* card := on_class "card-background" (just (on_attrs (put_fill "url(#card-back)"))) card in
  let* player := on_class "chips" (fun ch => Ok (center_x_in player (set_width (w - 20) ch))) player in
  map_res (fun i => let* p := new_player player (slot_str i) card num_hole_cards in
                    Ok (center_at (fst (at_ i)) (snd (at_ i)) p)) (seq 0 (Z.to_nat num_players)).
(** graphic.py:631-661, add_community *)
Definition add_community (num_community_cards : Z) (player card : elem) : result elem :=
  let w := (width_of card * inject_Z (num_community_cards + 1) + 20)%Q in
  let com := set_width w player in
  let* com0 := on_class "cards" (just (set_width w)) com in
  let* card := on_class "card-background" (just (on_attrs (put_fill "url(#card-blank)"))) card in
  let* com := on_class "cards" (just (center_x_in com0)) com0 in
  let* com := new_player com "community" card (num_community_cards + 1) in
  let* com := remove_class "player-background" com in
  let* com := on_class "chips" (fun ch =>
      let ch := set_id "pot" (center_x_in com (set_width (w - 60) ch)) in
      let* ch := on_class "chips-background" (just (set_id "pot-background")) ch in
      on_class "chips-text" (just (set_id "pot-text")) ch) com in
  let com := on_attrs (put_class "community") com in
  on_id "card-community-0" (fun c0 =>
      let* c0 := on_class "card-background" (just (on_attrs (put_fill "url(#card-back)"))) c0 in
      Ok (set_x (x_of c0 - 10) c0)) com.
(** graphic.py:663-683, add_street_commits *)
Definition add_street_commits (num_players : Z) (street_commit : elem) (at_ : nat -> Z * Z) : result (list elem) :=
  map_res (fun i =>
      let c := set_id (labelled "street-commit" (slot_str i)) street_commit in
      let* c := on_class "chips-background" (just (set_id (labelled "street-commit-background" (slot_str i)))) c in
      let* c := on_class "chips-text" (just (set_id (labelled "street-commit-text" (slot_str i)))) c in
      let* c := on_class "button" (fun b =>
          let b := set_id (labelled "button" (slot_str i)) b in
          on_class "button-background" (just (set_id (labelled "button-background" (slot_str i)))) b) c in
      Ok (center_at (fst (at_ i)) (snd (at_ i)) c)) (seq 0 (Z.to_nat num_players)).
(** graphic.py:526-560, _base_svg *)
Definition base_svg (num_players num_hole_cards num_community_cards : Z) (seat_at commit_at : nat -> Z * Z) : result elem :=
  let base := append_kids (with_tag "pattern" patterns_file) base_file in
  let table := center_y_in base (center_x_in base table_file) in
  let base := append_kids [table] base in
  let* players := add_players num_players num_hole_cards player_file card_file seat_at in
  let* street_commits := add_street_commits num_players street_commit_file commit_at in
  let* community := add_community num_community_cards player_file card_file in
  let community := center_y_in table (center_x_in table community) in
  let community := set_y (y_of community + (y_of table - 40))%Q (set_x (x_of community + x_of table)%Q community) in
  Ok (append_kids [community] (append_kids street_commits (append_kids players base))).

(** ** The page: parse_config.js

    An element of the page is named by its path, the positions to take from the root.  The HTML around
    the drawing has none of the classes and identifiers used and is left out.  A [null] that is used as an
    element is an exception, here a [TypeError]. *)
Definition path := list nat.
Fixpoint at_path (p : path) (e : elem) : option elem :=
  match p with
  | [] => Some e
  | i :: q => match nth_error (kids_of e) i with Some k => at_path q k | None => None end
  end.
Fixpoint on_nth {A} (l : list A) (i : nat) (f : A -> A) : list A :=
  match l, i with
  | [], _ => []
  | x :: r, O => f x :: r
  | x :: r, S j => x :: on_nth r j f
  end.
(** the attributes of the element at a path changed *)
Fixpoint on_path (p : path) (f : attrs -> attrs) (e : elem) : elem :=
  match e with Elem t a kids =>
    match p with
    | [] => Elem t (f a) kids
    | i :: q => Elem t a (on_nth kids i (on_path q f))
    end
  end.
(** the paths of the elements below [e] for which [p] holds, in document order *)
Fixpoint paths (p : elem -> bool) (e : elem) : list path :=
  match e with Elem _ _ kids =>
    (fix go (i : nat) (l : list elem) : list path :=
       match l with
       | [] => []
       | k :: r => (if p k then [[i]] else []) ++ map (cons i) (paths p k) ++ go (S i) r
       end) O kids
  end.
Definition below (b : path) (p : elem -> bool) (e : elem) : list path :=
  match at_path b e with Some x => map (app b) (paths p x) | None => [] end.
(** [x.getElementsByClassName(c)], [x.getElementById(i)]; the document is the root, [[]] *)
Definition by_class (b : path) (c : string) (e : elem) : list path := below b (has_class c) e.
Definition by_id (b : path) (i : string) (e : elem) : result path :=
  match below b (has_id i) e with p :: _ => Ok p | [] => Err TypeError end.
Definition set_by_id (b : path) (i : string) (f : attrs -> attrs) (e : elem) : result elem :=
  let* p := by_id b i e in Ok (on_path p f e).
Definition set_all (l : list path) (f : attrs -> attrs) (e : elem) : elem := fold_left (fun e p => on_path p f e) l e.
Definition head_path (l : list path) : result path := match l with p :: _ => Ok p | [] => Err TypeError end.

(** parse_config.js:4-22, reset_player *)
Definition reset_player (e : elem) : result elem :=
  let* e := fold_res (fun e ip =>
      let '(i, p) := ip in
      let* e := set_by_id p (labelled "chips-text" (slot_str i)) (put_text (ustr "0")) e in
      let e := set_all (by_class p "card-background" e) (put_fill "url(#card-back)") e in
      Ok (set_all (by_class p "card-text" e) (put_text []) e)) (enumerate (by_class [] "player" e)) e in
  Ok (set_all (by_class [] "player-background" e) (put_fill "#ffffff") e).
(** parse_config.js:24-29, reset_button *)
Definition reset_button (e : elem) : elem := set_all (by_class [] "button-background" e) (put_fill "transparent") e.
(** parse_config.js:31-44, reset_community *)
Definition reset_community (e : elem) : result elem :=
  let* c := by_id [] "community" e in
  let bgs := by_class c "card-background" e in
  let* b0 := head_path bgs in
  let e := on_path b0 (put_fill "url(#card-back)") e in
  let e := set_all (tl bgs) (put_fill "url(#card-blank)") e in
  let texts := by_class c "card-text" e in
  let* t0 := head_path texts in
  let e := on_path t0 (put_fill "url(#card-back)") e in
  let e := set_all (tl texts) (put_text []) e in
  set_by_id c "pot-text" (put_text (ustr "0")) e.
(** parse_config.js:61-89, update_card *)
Definition colours (suit : option Z) : option (string * string) :=
  match suit with
  | Some 9827 => Some ("url(#card-club)", "black")
  | Some 9824 => Some ("url(#card-spade)", "black")
  | Some 9829 => Some ("url(#card-heart)", "red")
  | Some 9830 => Some ("url(#card-diamond)", "red")
  | _ => None
  end%string.
Definition card_value (card_string : list Z) : list Z :=
  match nth_error card_string 0 with
  | Some 84 => ustr "10"
  | Some v => [v]
  | None => ustr "undefined"
  end.
Definition update_card (card : path) (card_string : list Z) (e : elem) : result elem :=
  let* t := head_path (by_class card "card-text" e) in
  let e := on_path t (put_text (card_value card_string)) e in
  match colours (nth_error card_string 1) with
  | None => Ok e
  | Some (fill, colour) =>
      let* b := head_path (by_class card "card-background" e) in
      let e := on_path b (put_fill fill) e in
      let* t := head_path (by_class card "card-text" e) in
      Ok (on_path t (put_fill colour) (on_path t (put_stroke colour) e))
  end.
(** the text of [l[i]]: numbers are exact (they are not above 2^53 in size) *)
Definition js_num (l : list Z) (i : nat) : list Z :=
  match nth_error l i with Some z => str_int z | None => ustr "undefined" end.
(** config["hole_cards"] as a list of lists of strings; indexing a string gives its characters *)
Definition js_hands (c : converted) : list (list (list Z)) :=
  match c with CHands l => l | CCards l => map (map (fun ch => [ch])) l end.
(** parse_config.js:46-59, update_players *)
Definition update_players (j : jconfig) (e : elem) : result elem :=
  fold_res (fun e ih =>
      let '(i, cards) := ih in
      let* e := set_by_id [] (labelled "street-commit-text" (slot_str i)) (put_text (js_num (j_street_commits j) i)) e in
      let* e := set_by_id [] (labelled "chips-text" (slot_str i)) (put_text (js_num (j_stacks j) i)) e in
      if nth i (j_active j) false then
        fold_res (fun e ks =>
            let '(k, card_string) := ks in
            let* card := by_id [] (labelled (labelled "card" (slot_str i)) (slot_str k)) e in
            update_card card card_string e) (enumerate cards) e
      else Ok e) (enumerate (js_hands (j_hole_cards j))) e.
(** parse_config.js:91-100, update_community; the cards of the board are never a list of lists *)
Definition update_community (j : jconfig) (e : elem) : result elem :=
  let* e := fold_res (fun e ks =>
      let '(k, card_string) := ks in
      let* card := by_id [] (labelled "card-community" (slot_str (k + 1))) e in
      update_card card card_string e)
    (enumerate (match j_community_cards j with CCards l => l | CHands _ => [] end)) e in
  set_by_id [] "pot-text" (put_text (str_int (j_pot j))) e.
(** a number in a template string *)
Definition js_int (z : Z) : string := if z <? 0 then append "-" (slot_str (Z.to_nat (- z))) else slot_str (Z.to_nat z).
(** parse_config.js:102-105, update_button *)
Definition update_button (j : jconfig) (e : elem) : result elem :=
  set_by_id [] (labelled "button-background" (js_int (j_button j))) (put_fill "url(#dealer)") e.
(** parse_config.js:107-112, update_action *)
Definition update_action (j : jconfig) (e : elem) : result elem :=
  if 0 <=? j_action j
  then set_by_id [] (labelled "player-background" (js_int (j_action j))) (put_fill "#000000") e
  else Ok e.
(** parse_config.js:114-126: what the page does with a message; [None] is the empty configuration, which
    the server has until the first call of [render] *)
Definition on_config (m : option jconfig) (e : elem) : result elem :=
  let* e := reset_player e in
  let* e := reset_community e in
  let e := reset_button e in
  match m with
  | None => Ok e
  | Some j =>
      let* e := update_players j e in
      let* e := update_community j e in
      let* e := update_button j e in
      update_action j e
  end.
