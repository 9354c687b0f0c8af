(** * AsciiModel: clubs/render/ascii_viewer.py and clubs/render/ascii_table.txt

    Texts are lists of Unicode code points, as everywhere in the model. *)
From Coq Require Import Decimal DecimalString DecimalN.
From Verif Require Import PyBase CardModel EvalModel EngineModel.

(** ** The render configuration *)

(** clubs/render/viewer.py:12-24, RenderConfig *)
Record rconfig : Type := mkRConfig {
  rc_action : Z;
  rc_active : list bool;
  rc_all_in : list bool;
  rc_community_cards : list card;
  rc_button : Z;
  rc_done : bool;
  rc_hole_cards : list (list card);
  rc_pot : Z;
  rc_payouts : list Z;
  rc_prev_action : option (nat * Z * bool);
  rc_street_commits : list Z;
  rc_stacks : list Z
}.

(** engine.py:431-461, Dealer._render_config *)
Definition render_config (c : config) (s : state) : result rconfig :=
  let* pays := payouts c s in
  Ok (mkRConfig
        (match action s with Some a => Z.of_nat a | None => -1 end)
        (active s)
        (map (fun p => fst p && (snd p =? 0)) (combine (active s) (stacks s)))
        (community_cards s)
        (Z.of_nat (button s))
        (all_true (done_list c s))
        (hole_cards s)
        (pot s)
        pays
        (match rev (history s) with h :: _ => Some h | [] => None end)
        (street_commits s)
        (stacks s)).

(** ** Python's number and string formatting *)

(** [str(n)] for a non-negative int *)
Definition digits (n : N) : list Z := ustr (NilEmpty.string_of_uint (N.to_uint n)).
Definition str_int (z : Z) : list Z :=
  (if z <? 0 then ustr "-" else []) ++ digits (Z.abs_N z).

(** the digits, last one first, with a comma after every third; [k] counts the digits since the
    last comma *)
Fixpoint group_rev (l : list Z) (k : nat) : list Z :=
  match l with
  | [] => []
  | x :: r => match k with
              | 3%nat => ustr "," ++ x :: group_rev r 1
              | _ => x :: group_rev r (S k)
              end
  end.
(** ["{:,}".format(z)] *)
Definition fmt_comma (z : Z) : list Z :=
  (if z <? 0 then ustr "-" else []) ++ rev (group_rev (rev (digits (Z.abs_N z))) 0).

Inductive align : Type := ALeft | ARight | ACenter.

(** padding with spaces to at least [w] characters; Python puts the smaller half on the left *)
Definition pad (a : align) (w : nat) (t : list Z) : list Z :=
  let total := (w - List.length t)%nat in
  match a with
  | ALeft => t ++ repeat 32 total
  | ARight => repeat 32 total ++ t
  | ACenter => repeat 32 (Nat.div total 2) ++ t ++ repeat 32 (total - Nat.div total 2)
  end.

(** ["{:2}".format(z)]: numbers are aligned to the right *)
Definition fmt_2 (z : Z) : list Z := pad ARight 2 (str_int z).

(** [l[z]] for any index *)
Definition py_get {A} (l : list A) (z : Z) : result A :=
  if 0 <=? z then get l (Z.to_nat z)
  else if 0 <=? Z.of_nat (List.length l) + z then get l (Z.to_nat (Z.of_nat (List.length l) + z))
  else Err IndexError.

(** ** [str.format] with named fields, as far as the table uses it

    Not modelled: escaped braces, positional fields, conversions, other format specifications;
    such a template is an error here. *)
Inductive piece : Type :=
| Lit (t : list Z)
| Field (name : string) (a : align) (w : nat).

Inductive scan_mode : Type :=
| InText (acc : string)
| InName (acc : string)
| InSpec (name acc : string).

Definition snoc (s : string) (c : ascii) : string := append s (String c EmptyString).

Fixpoint parse_width (s : string) (acc : nat) : result nat :=
  match s with
  | EmptyString => Ok acc
  | String c r => let d := Nat.sub (nat_of_ascii c) 48 in
                  if Nat.leb 48 (nat_of_ascii c) && Nat.leb (nat_of_ascii c) 57
                  then parse_width r (10 * acc + d)%nat else Err ValueError
  end.
Definition parse_spec (s : string) : result (align * nat) :=
  match s with
  | String "<" r => let* w := parse_width r 0 in Ok (ALeft, w)
  | String ">" r => let* w := parse_width r 0 in Ok (ARight, w)
  | String "^" r => let* w := parse_width r 0 in Ok (ACenter, w)
  | _ => let* w := parse_width s 0 in Ok (ALeft, w)
  end.

Fixpoint scan (s : string) (m : scan_mode) : result (list piece) :=
  match s with
  | EmptyString => match m with
                   | InText acc => Ok [Lit (ustr acc)]
                   | _ => Err ValueError
                   end
  | String c r =>
      match m with
      | InText acc =>
          if Ascii.eqb c "{" then let* l := scan r (InName EmptyString) in Ok (Lit (ustr acc) :: l)
          else if Ascii.eqb c "}" then Err ValueError
          else scan r (InText (snoc acc c))
      | InName acc =>
          if Ascii.eqb c "{" then Err ValueError
          else if Ascii.eqb c ":" then scan r (InSpec acc EmptyString)
          else if Ascii.eqb c "}" then
            let* l := scan r (InText EmptyString) in Ok (Field acc ALeft 0 :: l)
          else scan r (InName (snoc acc c))
      | InSpec name acc =>
          if Ascii.eqb c "{" then Err ValueError
          else if Ascii.eqb c "}" then
            let* aw := parse_spec acc in
            let* l := scan r (InText EmptyString) in Ok (Field name (fst aw) (snd aw) :: l)
          else scan r (InSpec name (snoc acc c))
      end
  end.

(** a dict with string keys *)
Definition dict := string -> option (list Z).
Definition dict_set (d : dict) (k : string) (v : list Z) : dict :=
  fun k' => if String.eqb k' k then Some v else d k'.

Fixpoint fill (l : list piece) (d : dict) : result (list Z) :=
  match l with
  | [] => Ok []
  | Lit t :: r => let* u := fill r d in Ok (t ++ u)
  | Field name a w :: r =>
      match d name with
      | None => Err KeyError
      | Some v => let* u := fill r d in Ok (pad a w v ++ u)
      end
  end.

(** [template.format] with the entries of the dict as keyword arguments *)
Definition str_format (template : string) (d : dict) : result (list Z) :=
  let* l := scan template (InText EmptyString) in fill l d.

(** ** ascii_table.txt, the whole file *)
Definition ascii_table : string := "       _____________________________________________________
      /  {p0:23}   {p1:>23}  \
     /   {p0c:7}   {b0:2} {a0:1}                     {a1:1} {b1:2}   {p1c:>7}   \
    /                                                         \
   /  {p9:23}         {p2:>23}  \
  /   {p9c:7}   {b9:2} {a9:1}                           {a2:1} {b2:2}   {p2c:>7}   \
 /                                                               \
|  {p8:23}               {p3:>23}  |
|   {p8c:7}   {b8:2} {a8:1}                               {a3:1} {b3:2}   {p3c:>7}   |
|              {ccs:^16}          {pot:>9}                |
|                                                                 |
 \  {p7:23}             {p4:>23}  /
  \   {p7c:7}   {b7:2} {a7:1}                           {a4:1} {b4:2}   {p4c:>7}   /
   \                                                           /
    \  {p6:23}       {p5:>23}  /
     \   {p6c:7}   {b6:2} {a6:1}                     {a5:1} {b5:2}   {p5c:>7}   /
      \_____________________________________________________/
{action:^67}
{win:^67}"%string.

(** ** ASCIIViewer *)

(** the attributes set by the constructor; [self.table] is always [ascii_table] *)
Record viewer : Type := mkViewer {
  v_num_hole_cards : Z;
  v_num_community_cards : Z;
  v_player_pos : list nat
}.

(** ascii_viewer.py:62-72, POS_DICT *)
Definition pos_dict (n : Z) : option (list nat) :=
  match n with
  | 2 => Some [0; 5]%nat
  | 3 => Some [0; 3; 6]%nat
  | 4 => Some [0; 2; 4; 6]%nat
  | 5 => Some [0; 2; 4; 6; 8]%nat
  | 6 => Some [0; 1; 3; 5; 6; 8]%nat
  | 7 => Some [0; 1; 3; 5; 6; 7; 9]%nat
  | 8 => Some [0; 1; 2; 4; 5; 6; 7; 9]%nat
  | 9 => Some [0; 1; 2; 4; 5; 6; 7; 8; 9]%nat
  | 10 => Some (seq 0 10)
  | _ => None
  end.

(** ["{}".format(idx)] for a seat number, as a string (seat numbers are below ten) *)
Definition slot_str (i : nat) : string := NilEmpty.string_of_uint (Nat.to_uint i).
Definition key (prefix : string) (i : nat) : string := append prefix (slot_str i).

(** ascii_viewer.py:74-80, KEYS *)
Definition KEYS : list string :=
  map (key "p") (seq 0 10)
  ++ map (fun i => append (key "p" i) "c") (seq 0 10)
  ++ map (key "a") (seq 0 10)
  ++ map (key "b") (seq 0 10)
  ++ ["sb"; "bb"; "ccs"; "pot"; "action"]%string.

(** ascii_viewer.py:82-98, ASCIIViewer.__init__ *)
Definition ASCIIViewer (num_players num_hole_cards num_community_cards : Z) : result viewer :=
  match pos_dict num_players with
  | Some pos => Ok (mkViewer num_hole_cards num_community_cards pos)
  | None => Err KeyError
  end.

(** ascii_viewer.py:8-26, _parse_action_string *)
Definition parse_action_string (r : rconfig) (done : bool) : list Z :=
  if done then []
  else
    (match rc_prev_action r with
     | None => []
     | Some (player, bet, fold) =>
         ustr "Player " ++ str_int (Z.of_nat player + 1) ++ ustr " "
         ++ (if fold then ustr "folded "
             else if bet =? 0 then ustr "checked "
             else ustr "bet " ++ str_int bet ++ ustr " ")
     end)
    ++ ustr "Action on Player " ++ str_int (rc_action r + 1).

(** [enumerate(l)] *)
Definition enumerate {A} (l : list A) : list (nat * A) := combine (seq 0 (List.length l)) l.

(** ascii_viewer.py:29-45, _parse_win_string *)
Definition parse_win_string (r : rconfig) (done : bool) : list Z :=
  if done then
    let winners := filter (fun p => 0 <? snd p) (enumerate (rc_payouts r)) in
    let players := map (fun p => str_int (Z.of_nat (fst p) + 1)) winners in
    let pays := map (fun p => str_int (snd p)) winners in
    if 1 <? Z.of_nat (List.length winners)
    then ustr "Players " ++ join (ustr ", ") players ++ ustr " won " ++ join (ustr ", ") pays
         ++ ustr " respectively"
    else ustr "Player " ++ join (ustr ", ") players ++ ustr " won " ++ join (ustr ", ") pays
  else [].

(** ascii_viewer.py:151-176, ASCIIViewer._parse_players *)
Definition parse_player (v : viewer) (done : bool) (act : Z)
    (p : nat * ((list card * Z) * bool)) : list Z :=
  let '(idx, ((hand, stack), active)) := p in
  let cards :=
    if negb active then repeat (ustr "--") (Z.to_nat (v_num_hole_cards v))
    else if done || (Z.of_nat idx =? act) then map card_str hand
    else repeat (ustr "??") (Z.to_nat (v_num_hole_cards v)) in
  fmt_2 (Z.of_nat idx + 1) ++ ustr ". " ++ join (ustr ",") cards ++ ustr " " ++ fmt_comma stack.
Definition parse_players (v : viewer) (r : rconfig) (done : bool) (act : Z) : list (list Z) :=
  map (parse_player v done act)
      (enumerate (combine (combine (rc_hole_cards r) (rc_stacks r)) (rc_active r))).

(** ascii_viewer.py:113-117 *)
Definition community_string (v : viewer) (r : rconfig) : list Z :=
  let ccs := map card_str (rc_community_cards r) in
  let rest := repeat (ustr "--") (Z.to_nat (v_num_community_cards v - Z.of_nat (List.length ccs))) in
  ustr "[" ++ join (ustr ",") (ccs ++ rest) ++ ustr "]".

(** ascii_viewer.py:131-135: the body of the loop over the players; [pos] is the number after "p" *)
Definition show_player (done : bool) (d : dict) (p : ((list Z * Z) * nat) * bool) : dict :=
  let '(((player, street_commit), pos), all_in) := p in
  let d := dict_set d (key "p" pos) player in
  let d := dict_set d (append (key "p" pos) "c") (fmt_comma street_commit) in
  if all_in && negb done then dict_set d (key "a" pos) (ustr "A") else d.

(** ascii_viewer.py:140-141: the body of the loop over the payouts *)
Definition show_payout (d : dict) (p : Z * nat) : dict :=
  dict_set d (append (key "p" (snd p)) "c") (fmt_comma (fst p)).

(** ascii_viewer.py:100-145: the dict of the texts *)
Definition str_config (v : viewer) (r : rconfig) : result dict :=
  let act := rc_action r in
  let done := rc_done r in
  let players := parse_players v r done act in
  let d : dict := fun k => if existsb (String.eqb k) KEYS then Some [] else None in
  let d := dict_set d "ccs" (community_string v r) in
  let* d :=
    if negb done then
      let d := dict_set d "pot" (fmt_comma (rc_pot r)) in
      let* p := py_get (v_player_pos v) act in
      Ok (dict_set d (key "a" p) (ustr "X"))
    else Ok (dict_set d "pot" (ustr "0")) in
  let* b := py_get (v_player_pos v) (rc_button r) in
  let d := dict_set d (key "b" b) (ustr "D ") in
  let d := fold_left (show_player done)
             (combine (combine (combine players (rc_street_commits r)) (v_player_pos v)) (rc_all_in r)) d in
  let d := if done then fold_left show_payout (combine (rc_payouts r) (v_player_pos v)) d else d in
  let d := dict_set d "action" (parse_action_string r done) in
  Ok (dict_set d "win" (parse_win_string r done)).

(** ascii_viewer.py:100-149, ASCIIViewer._parse_string: the text which [render] prints *)
Definition parse_string (v : viewer) (r : rconfig) : result (list Z) :=
  let* d := str_config v r in str_format ascii_table d.

(** engine.py:463-494, Dealer.render with mode "ascii": the text printed.  For other modes and for the viewer
    kept between calls see RenderModel.v; printing and sleeping are not modelled. *)
Definition render_ascii (c : config) (s : state) : result (list Z) :=
  let* v := ASCIIViewer (Z.of_nat (num_players c)) (num_hole_cards c) (sumZ (num_community_cards c)) in
  let* r := render_config c s in
  parse_string v r.
