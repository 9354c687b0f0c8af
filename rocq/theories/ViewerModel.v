(** * ViewerModel: the life of a GraphicViewer and of its server process

    clubs/render/graphic.py:28-148.  The web side of the server process (what browsers get and show) is the
    [server] of RenderModel.v. *)
From Verif Require Import PyBase CardModel EngineModel AsciiModel JsonModel SvgModel RenderModel.

(** Exceptions raised here: those of [exn]; [AttributeError] when an attribute is read that [__init__] did not
    get to assign; [BrokenPipeError] when a message is sent to a process that closed its end;
    [Interrupted] for any exception thrown into the program from outside (a signal handler, KeyboardInterrupt). *)
Inductive failure : Type := Raised (e : exn) | AttributeError | BrokenPipeError | Interrupted.
Inductive outcome : Type := Done | Fail (f : failure).

(** The messages written to the socket: [{"content": <dict>}] (graphic.py:183) and [{"content": "close"}]
    (graphic.py:97).  A dict never equals the string "close" (graphic.py:137). *)
Inductive msg : Type := Config (j : jconfig) | Close.

(** A server process, graphic.py:104-148.  [p_listens]: [listener] has opened its listening socket (line 132)
    and not closed it; [p_serves]: the web server answers (line 148); [p_conn]: the messages the program wrote and
    [listener] has not read yet, [None] when there is no connection or [listener] closed it (line 138). *)
Record process : Type := mkProcess {
  p_alive : bool; p_listens : bool; p_serves : bool; p_conn : option (list msg); p_svg : elem; p_web : server
}.
(** graphic.py:59-60: the process has just been started *)
Definition started (svg : elem) : process := mkProcess true false false None svg server_start.

(** What a server process does on its own. *)
Inductive sevent : Type :=
| SListen                 (* graphic.py:132-133 *)
| SServe                  (* graphic.py:148 *)
| SRead                   (* graphic.py:135-141, 144: [listener] reads one message *)
| SWeb (e : event)        (* graphic.py:121-128, 142: sending to the browsers, and what they do *)
| SDie.                   (* it ends: an error (a missing package, a port in use), or killed from outside *)
(** An event that cannot happen changes nothing.  Messages on their way to a browser arrive even if the process has
    ended.  RenderModel's events for the pipe are not used: the pipe is [p_conn]. *)
Definition server_step (e : sevent) (p : process) : process :=
  let web w := mkProcess (p_alive p) (p_listens p) (p_serves p) (p_conn p) (p_svg p) w in
  match e with
  | SListen => if p_alive p then mkProcess true true (p_serves p) (p_conn p) (p_svg p) (p_web p) else p
  | SServe => if p_alive p then mkProcess true (p_listens p) true (p_conn p) (p_svg p) (p_web p) else p
  | SDie => mkProcess false false false None (p_svg p) (p_web p)
  | SRead =>
    match p_alive p, sv_emit (p_web p), p_conn p with
    | true, None, Some (Config j :: q) => mkProcess true (p_listens p) (p_serves p) (Some q) (p_svg p) (mkServer [] (Some j) (Some j) (sv_clients (p_web p)))
    | true, None, Some (Close :: q) => mkProcess true false (p_serves p) None (p_svg p) (p_web p)
    | _, _, _ => p
    end
  | SWeb (EEmit as e) => if p_alive p then match happen (p_svg p) e (p_web p) with Some w => web w | None => p end else p
  | SWeb (EConnect as e) => if p_alive p && p_serves p then match happen (p_svg p) e (p_web p) with Some w => web w | None => p end else p
  | SWeb (EDeliver _ as e) | SWeb (ELeave _ as e) => match happen (p_svg p) e (p_web p) with Some w => web w | None => p end
  | SWeb _ => p
  end.

(** All server processes ever started by the program, in the order of their start; [(i, e)]: process [i] does [e]. *)
Definition world : Type := list process.
Definition nobody : process := mkProcess false false false None (Elem EmptyString (mkAttrs EmptyString None None None None None None None None []) []) server_start.
Definition get (w : world) (i : nat) : process := nth i w nobody.
Definition world_step (w : world) (ie : nat * sevent) : world := upd w (fst ie) (server_step (snd ie) (get w (fst ie))).
Definition world_steps (l : list (nat * sevent)) (w : world) : world := fold_left world_step l w.

(** The attributes [process] and [socket] of a GraphicViewer; [a_process = None] and [a_socket = false]: not
    assigned yet. *)
Record object : Type := mkObject { a_process : option nat; a_socket : bool }.

(** [connection.Client], graphic.py:70: succeeds when the other end listens *)
Definition connected (p : process) : process := mkProcess (p_alive p) (p_listens p) (p_serves p) (Some []) (p_svg p) (p_web p).
(** graphic.py:28-93, GraphicViewer.__init__.  [before_socket] happens while lines 66-77 try to connect, [before_web]
    while lines 79-93 wait for an answer; whether an attempt succeeds depends on what the server has done by then.
    The drawing (SvgModel.v) and the test for the packages are arguments.  Left out: the choice of
    the port, failures of [Process.start], and responses with a status other than 200 that are not errors. *)
Definition open_viewer (packages : bool) (drawing : result elem) (before_socket before_web : list (nat * sevent)) (w : world) : world * object * outcome :=
  if negb packages then (w, mkObject None false, Fail (Raised MissingImportsError))
  else
    match drawing with
    | Err e => (w, mkObject None false, Fail (Raised e))
    | Ok svg =>
      let i := List.length w in
      let w1 := world_steps before_socket (w ++ [started svg]) in
      if p_alive (get w1 i) && p_listens (get w1 i) then
        let w2 := world_steps before_web (upd w1 i (connected (get w1 i))) in
        if p_alive (get w2 i) && p_serves (get w2 i) then (w2, mkObject (Some i) true, Done)
        else (w2, mkObject (Some i) true, Fail (Raised RenderInitializationError))
      else (w1, mkObject (Some i) false, Fail (Raised RenderInitializationError))
    end.

(** [Connection.send].  When the other end is gone the system may or may not have noticed. *)
Definition send (noticed : bool) (i : nat) (m : msg) (w : world) : world * outcome :=
  let p := get w i in
  match p_alive p, p_conn p with
  | true, Some q => (upd w i (mkProcess true (p_listens p) (p_serves p) (Some (q ++ [m])) (p_svg p) (p_web p)), Done)
  | _, _ => (w, if noticed then Fail BrokenPipeError else Done)
  end.
(** graphic.py:150-185, GraphicViewer.render, without the sleeping *)
Definition page_render (noticed : bool) (j : jconfig) (o : object) (w : world) : world * outcome :=
  match a_process o, a_socket o with
  | Some i, true => send noticed i (Config j) w
  | _, _ => (w, Fail AttributeError)
  end.
(** graphic.py:98-99, [terminate] and [join] *)
Definition terminate (i : nat) (w : world) : world := upd w i (server_step SDie (get w i)).
(** graphic.py:95-99, GraphicViewer.close; also [__del__], lines 101-102.  [before] happens between lines 96
    and 97, [during] between 97 and 98; [cut]: the program is interrupted after line 97. *)
Definition close (noticed cut : bool) (before during : list (nat * sevent)) (o : object) (w : world) : world * outcome :=
  match a_process o with
  | None => (w, Fail AttributeError)
  | Some i =>
    if negb (p_alive (get w i)) then (w, Done)
    else if negb (a_socket o) then (w, Fail AttributeError)
    else
      match send noticed i Close (world_steps before w) with
      | (w1, Fail f) => (w1, Fail f)
      | (w1, Done) => if cut then (world_steps during w1, Fail Interrupted) else (terminate i (world_steps during w1), Done)
      end
  end.

(** What a program does with a viewer object, and what the servers do in between. *)
Inductive use : Type :=
| URender (noticed : bool) (j : jconfig)
| UClose (noticed : bool) (before during : list (nat * sevent))
| UCut (noticed : bool) (before during : list (nat * sevent))
| UServer (ie : nat * sevent).
Definition do_use (o : object) (w : world) (u : use) : world * outcome :=
  match u with
  | URender noticed j => page_render noticed j o w
  | UClose noticed before during => close noticed false before during o w
  | UCut noticed before during => close noticed true before during o w
  | UServer ie => (world_step w ie, Done)
  end.
Definition do_uses (o : object) (us : list use) (w : world) : world := fold_left (fun w u => fst (do_use o w u)) us w.

(** engine.py:473-494 in mode "human", where [kept] is the attribute [viewer]: the environment of one call is
    [attempt].  When [__init__] raises, the new object is dropped and Python runs its [__del__], whose exceptions
    are printed and ignored; the attribute [viewer] stays unassigned. *)
Record attempt : Type := mkAttempt {
  at_packages : bool; at_drawing : result elem; at_socket : list (nat * sevent); at_web : list (nat * sevent);
  at_before : list (nat * sevent); at_during : list (nat * sevent); at_noticed : bool
}.
Definition render_human (a : attempt) (j : jconfig) (kept : option object) (w : world) : world * option object * outcome :=
  match kept with
  | Some o => let (w1, r) := page_render (at_noticed a) j o w in (w1, kept, r)
  | None =>
    match open_viewer (at_packages a) (at_drawing a) (at_socket a) (at_web a) w with
    | (w1, o, Done) => let (w2, r) := page_render (at_noticed a) j o w1 in (w2, Some o, r)
    | (w1, o, Fail f) => (fst (close (at_noticed a) false (at_before a) (at_during a) o w1), None, Fail f)
    end
  end.
Definition renders_human (j : jconfig) (l : list attempt) (st : world * option object) : world * option object :=
  fold_left (fun st a => fst (render_human a j (snd st) (fst st))) l st.
