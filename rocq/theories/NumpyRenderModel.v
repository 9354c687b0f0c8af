(** * NumpyRenderModel: how the dealer of engine_numpy.py is shown *)
From Verif Require Import PyBase CardModel EngineModel AsciiModel JsonModel SvgModel RenderModel NumpyModel.

(** engine_numpy.py:420-449, Dealer._render_config *)
Definition np_render_config (c : config) (s : state) : result rconfig :=
  let* pays := np_payouts c s in
  Ok (mkRConfig
        (match action s with Some a => Z.of_nat a | None => -1 end)
        (active s)
        (map (fun p => fst p && (snd p =? 0)) (combine (active s) (stacks s)))
        (community_cards s)
        (Z.of_nat (button s))
        (all_true (np_done_list c s))
        (hole_cards s)
        (pot s)
        pays
        (match rev (history s) with h :: _ => Some h | [] => None end)
        (street_commits s)
        (stacks s)).
(** engine_numpy.py:451-480, Dealer.render: [kept] is the attribute [viewer], the environment and the positions are those of
    RenderModel.v; the keyword arguments and the sleeping are left out *)
Definition np_render (env : environment) (seat_at commit_at : nat -> Z * Z) (c : config) (s : state)
           (kept : option any_viewer) (mode : string) : option any_viewer * result effect :=
  let show v := let* r := np_render_config c s in viewer_render v r in
  match kept with
  | Some v => (kept, show v)
  | None =>
    let n := Z.of_nat (num_players c) in
    let built :=
      if (mode =? "ascii")%string then
        let* v := ASCIIViewer n (num_hole_cards c) (sumZ (num_community_cards c)) in Ok (VText v)
      else if (mode =? "human")%string then GraphicViewer env seat_at commit_at n (num_hole_cards c) (sumZ (num_community_cards c))
      else Err InvalidRenderModeError in
    match built with
    | Err e => (None, Err e)
    | Ok v => (Some v, show v)
    end
  end.
(** engine_numpy.py:233-235, Dealer.__str__, with the ASCIIViewer made by [__init__] (228-231) *)
Definition np_str (c : config) (s : state) : result (list Z) :=
  let* v := ASCIIViewer (Z.of_nat (num_players c)) (num_hole_cards c) (sumZ (num_community_cards c)) in
  let* r := np_render_config c s in
  parse_string v r.
