(** * RenderModel: Dealer.render, the viewers it keeps, and the web server behind GraphicViewer

    clubs/poker/engine.py:463-494 and clubs/render/graphic.py:27-185 *)
From Verif Require Import PyBase CardModel EngineModel AsciiModel JsonModel SvgModel.

(** ** Dealer.render *)

(** What the environment decides while a GraphicViewer is built: whether gevent, flask and flask_socketio
    are installed (graphic.py:18-24), whether the server process opens its socket within ten seconds
    (graphic.py:66-77), and whether it answers HTTP requests within ten seconds (graphic.py:79-92). *)
Record environment : Type := mkEnv { env_packages : bool; env_socket : bool; env_server : bool }.
(** a viewer object: of class ASCIIViewer, or of class GraphicViewer with the drawing it serves *)
Inductive any_viewer : Type := VText (v : viewer) | VPage (svg : elem).
(** the effect of a viewer's method [render]: a text printed, or a message sent to the server process *)
Inductive effect : Type := Printed (text : list Z) | Sent (m : jconfig).

(** graphic.py:28-64, GraphicViewer.__init__.  The positions of seats and bets (see EdgeModel.v) are arguments;
    host and port are left out. *)
Definition GraphicViewer (env : environment) (seat_at commit_at : nat -> Z * Z) (n nh nc : Z) : result any_viewer :=
  if negb (env_packages env) then Err MissingImportsError
  else
    let* svg := base_svg n nh nc seat_at commit_at in
    if negb (env_socket env) then Err RenderInitializationError
    else if negb (env_server env) then Err RenderInitializationError
    else Ok (VPage svg).
(** ascii_viewer.py:178-214 and graphic.py:150-185, the method [render] of a viewer, without the sleeping *)
Definition viewer_render (v : any_viewer) (r : rconfig) : result effect :=
  match v with
  | VText v => let* text := parse_string v r in Ok (Printed text)
  | VPage _ => Ok (Sent (jsonify r))
  end.
(** engine.py:463-494, Dealer.render: [kept] is the attribute [viewer] *)
Definition render (env : environment) (seat_at commit_at : nat -> Z * Z) (c : config) (s : state)
           (kept : option any_viewer) (mode : string) : option any_viewer * result effect :=
  let show v := let* r := render_config c s in viewer_render v r in
  match kept with
  | Some v => (kept, show v)
  | None =>
    let n := Z.of_nat (num_players c) in
    let built :=
      if (mode =? "ascii")%string then
        let* v := ASCIIViewer n (num_hole_cards c) (sumZ (num_community_cards c)) in Ok (VText v)
      else if (mode =? "human")%string then GraphicViewer env seat_at commit_at n (num_hole_cards c) (sumZ (num_community_cards c))
      else Err InvalidRenderModeError in
    match built with
    | Err e => (None, Err e)
    | Ok v => (Some v, show v)
    end
  end.
(** engine.py:236-238, Dealer.__str__ *)
Definition dealer_str (c : config) (s : state) : result (list Z) := render_ascii c s.

(** a program that plays and renders *)
Inductive act : Type := Play (o : op) | Render (env : environment) (mode : string).
Definition do_act (seat_at commit_at : nat -> Z * Z) (c : config) (st : state * option any_viewer) (a : act) : state * option any_viewer :=
  match a with
  | Play o => (apply_op c (fst st) o, snd st)
  | Render env mode => (fst st, fst (render env seat_at commit_at c (fst st) (snd st) mode))
  end.
Definition do_acts (seat_at commit_at : nat -> Z * Z) (c : config) (st : state * option any_viewer) (l : list act) : state * option any_viewer :=
  fold_left (do_act seat_at commit_at c) l st.

(** ** The server process and the browsers *)

(** A browser with the table open: its page and the messages on their way to it. *)
Record client : Type := mkClient { cl_page : elem; cl_inbox : list (option jconfig) }.
(** [sv_pipe]: messages written by GraphicViewer.render and not yet read by [listener]; [sv_config]: the variable [config] of
    [_run_flask] ([None] is the empty dict); [sv_emit]: [listener] has read a configuration and not yet sent
    it on *)
Record server : Type := mkServer {
  sv_pipe : list jconfig;
  sv_config : option jconfig;
  sv_emit : option jconfig;
  sv_clients : list client
}.
Definition server_start : server := mkServer [] None None [].
(** [socketio.emit("config", m)] outside of a request: the message goes to every client *)
Definition broadcast (m : option jconfig) (l : list client) : list client :=
  map (fun k => mkClient (cl_page k) (cl_inbox k ++ [m])) l.
(** What can happen.  Messages to one browser arrive in the order in which they are sent and are not lost
    (socket.io's guarantee for a connection that stays up).  [emit] itself is atomic: it puts the message
    into a queue for each client. *)
Inductive event : Type :=
| ERender (j : jconfig)   (* graphic.py:183, GraphicViewer.render writes to the pipe *)
| ERead                   (* graphic.py:135-141, [listener] reads a message and assigns it to [config] *)
| EEmit                   (* graphic.py:142, [listener] sends it to the browsers *)
| EConnect                (* graphic.py:121-128, a browser loads the page and connects; the handler sends [config] to all *)
| EDeliver (i : nat)      (* parse_config.js:114-126, browser [i] handles its oldest message *)
| ELeave (i : nat).       (* browser [i] goes away *)
Fixpoint remove_nth {A} (i : nat) (l : list A) : list A :=
  match l, i with
  | [], _ => []
  | _ :: r, O => r
  | x :: r, S i => x :: remove_nth i r
  end.
(** [None]: the event cannot happen in this state.  A script that raises leaves the page as it was. *)
Definition happen (svg : elem) (e : event) (w : server) : option server :=
  match e with
  | ERender j => Some (mkServer (sv_pipe w ++ [j]) (sv_config w) (sv_emit w) (sv_clients w))
  | ERead =>
    match sv_emit w, sv_pipe w with
    | None, j :: r => Some (mkServer r (Some j) (Some j) (sv_clients w))
    | _, _ => None
    end
  | EEmit =>
    match sv_emit w with
    | Some j => Some (mkServer (sv_pipe w) (sv_config w) None (broadcast (Some j) (sv_clients w)))
    | None => None
    end
  | EConnect => Some (mkServer (sv_pipe w) (sv_config w) (sv_emit w) (broadcast (sv_config w) (sv_clients w ++ [mkClient svg []])))
  | EDeliver i =>
    match nth_error (sv_clients w) i with
    | Some (mkClient page (m :: r)) =>
      let page' := match on_config m page with Ok p => p | Err _ => page end in
      Some (mkServer (sv_pipe w) (sv_config w) (sv_emit w) (upd (sv_clients w) i (mkClient page' r)))
    | _ => None
    end
  | ELeave i => if Nat.ltb i (List.length (sv_clients w)) then Some (mkServer (sv_pipe w) (sv_config w) (sv_emit w) (remove_nth i (sv_clients w))) else None
  end.
Fixpoint happen_all (svg : elem) (l : list event) (w : server) : option server :=
  match l with
  | [] => Some w
  | e :: r => match happen svg e w with Some w' => happen_all svg r w' | None => None end
  end.
