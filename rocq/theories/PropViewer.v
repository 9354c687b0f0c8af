(** * PropViewer: C92, the server process behind a GraphicViewer *)
From Verif Require Import PyBase PyFacts CardModel EngineModel EngineFacts AsciiModel JsonModel SvgModel SvgFacts RenderModel ViewerModel EngineDemo.
From Coq Require Import Lia ZifyBool ZifyNat.
Local Set Keyed Unification.

(** ** Vocabulary *)

(** process [i] runs *)
Definition running (w : world) (i : nat) : Prop := p_alive (get w i) = true.
(** no process ends by itself in [l] / process [i] does not end by itself in the program [us] *)
Definition survives (i : nat) (l : list (nat * sevent)) : Prop := ~ In (i, SDie) l.
Definition use_survives (i : nat) (u : use) : Prop :=
  match u with URender _ _ => True | UClose _ b d | UCut _ b d => survives i b /\ survives i d | UServer ie => ie <> (i, SDie) end.
(** the program is never interrupted inside of [close] *)
Definition uncut (us : list use) : Prop := forall noticed b d, ~ In (UCut noticed b d) us.

(** ** Facts *)
Lemma get_upd w i v k : get (upd w i v) k = get w k \/ (k = i /\ (i < List.length w)%nat /\ get (upd w i v) k = v).
Proof.
  unfold get. destruct (Nat.eq_dec i k) as [->|N]; [|left; now apply upd_nth_other].
  destruct (Nat.lt_ge_cases k (List.length w)) as [L|L]; [right; splits; [auto|auto|now apply upd_nth_same]|].
  left. rewrite !nth_overflow; [reflexivity|lia|rewrite upd_length; lia].
Qed.
Lemma world_step_at w k e i : get (world_step w (k, e)) i = get w i \/ (k = i /\ get (world_step w (k, e)) i = server_step e (get w i)).
Proof.
  unfold world_step. cbn [fst snd]. destruct (get_upd w k (server_step e (get w k)) i) as [H|(-> & _ & H)]; [left; exact H|right; split; [reflexivity|exact H]].
Qed.
Lemma world_step_length w ie : List.length (world_step w ie) = List.length w.
Proof. apply upd_length. Qed.
Lemma world_steps_length l : forall w, List.length (world_steps l w) = List.length w.
Proof. induction l as [|ie l IH]; intros w; [reflexivity|]. cbn [world_steps fold_left]. change (fold_left world_step l (world_step w ie)) with (world_steps l (world_step w ie)). rewrite IH. apply world_step_length. Qed.
Lemma world_steps_cons ie l w : world_steps (ie :: l) w = world_steps l (world_step w ie).
Proof. reflexivity. Qed.
(** what every step of a server preserves is preserved *)
Lemma world_steps_inv (P : process -> Prop) i : (forall e p, P p -> P (server_step e p)) -> forall l w, P (get w i) -> P (get (world_steps l w) i).
Proof.
  intros HP l. induction l as [|[k e] l IH]; intros w H; [exact H|]. rewrite world_steps_cons. apply IH.
  destruct (world_step_at w k e i) as [->|(_ & ->)]; [exact H|now apply HP].
Qed.
Lemma world_steps_inv_but (P : process -> Prop) i x : (forall e p, e <> x -> P p -> P (server_step e p)) -> forall l w, ~ In (i, x) l -> P (get w i) -> P (get (world_steps l w) i).
Proof.
  intros HP l. induction l as [|[k e] l IH]; intros w N H; [exact H|]. rewrite world_steps_cons. apply IH; [intros I; apply N; right; exact I|].
  destruct (world_step_at w k e i) as [->|(-> & ->)]; [exact H|]. apply HP; [|exact H]. intros ->. apply N. left. reflexivity.
Qed.
Lemma running_lt w i : running w i -> (i < List.length w)%nat.
Proof.
  intros R. destruct (Nat.lt_ge_cases i (List.length w)) as [L|L]; [exact L|]. unfold running, get in R. rewrite nth_overflow in R by exact L. discriminate R.
Qed.
Lemma get_upd_same w i v : (i < List.length w)%nat -> get (upd w i v) i = v.
Proof. apply upd_nth_same. Qed.

Definition ended (p : process) : Prop := p_alive p = false.
Lemma ended_step e p : ended p -> ended (server_step e p).
Proof.
  unfold ended. intros H. destruct e as [| | |e|]; cbn [server_step]; rewrite ?H; try reflexivity.
  destruct e; cbn [andb]; try exact H; try reflexivity; destruct (happen _ _ _); first [exact H|reflexivity].
Qed.
Lemma alive_step e p : e <> SDie -> p_alive p = true -> p_alive (server_step e p) = true.
Proof.
  intros N H. destruct e as [| | |e|]; cbn [server_step]; rewrite ?H; try reflexivity; [| |contradiction].
  - destruct (sv_emit (p_web p)); [exact H|]. destruct (p_conn p) as [[|[j|] q]|]; first [exact H|reflexivity].
  - destruct e; cbn [andb]; try first [exact H|reflexivity]; try (destruct (p_serves p); [|first [exact H|reflexivity]]); destruct (happen _ _ _); first [exact H|reflexivity].
Qed.
(** the listener of a server that runs has the connection open and will not be told to close it *)
Definition healthy (p : process) : Prop := p_alive p = true -> exists q, p_conn p = Some q /\ ~ In Close q.
Lemma healthy_step e p : healthy p -> healthy (server_step e p).
Proof.
  intros H. unfold healthy in *. destruct e as [| | |e|]; cbn [server_step].
  - destruct (p_alive p) eqn:A; [intros _; exact (H eq_refl)|intros X; rewrite A in X; discriminate X].
  - destruct (p_alive p) eqn:A; [intros _; exact (H eq_refl)|intros X; rewrite A in X; discriminate X].
  - destruct (p_alive p) eqn:A; [|intros X; rewrite A in X; discriminate X]. destruct (H eq_refl) as (q & Q & N). destruct (sv_emit (p_web p)); [intros _; exists q; auto|]. rewrite Q.
    destruct q as [|[j|] q]; [intros _; exists []; auto| |exfalso; apply N; left; reflexivity]. intros _. exists q. split; [reflexivity|]. intros I. apply N. right. exact I.
  - assert (Hw : forall w, p_alive (mkProcess (p_alive p) (p_listens p) (p_serves p) (p_conn p) (p_svg p) w) = true -> exists q, p_conn (mkProcess (p_alive p) (p_listens p) (p_serves p) (p_conn p) (p_svg p) w) = Some q /\ ~ In Close q) by (intros w; exact H).
    destruct e; try exact H.
    + destruct (p_alive p && true) eqn:A; rewrite andb_true_r in A; (destruct (p_alive p) eqn:A'; [|intros X; rewrite A' in X; discriminate X]); [|discriminate A].
      destruct (happen _ _ _); [apply Hw|intros _; exact (H eq_refl)].
    + destruct (p_alive p && p_serves p); [|exact H]. destruct (happen _ _ _); [apply Hw|exact H].
    + destruct (happen _ _ _); [apply Hw|exact H].
    + destruct (happen _ _ _); [apply Hw|exact H].
  - intros X. discriminate X.
Qed.

(** *** What [close] and [render] do *)
Lemma send_cases noticed i m w :
  (exists q, running w i /\ p_conn (get w i) = Some q /\ snd (send noticed i m w) = Done /\
     get (fst (send noticed i m w)) i = mkProcess true (p_listens (get w i)) (p_serves (get w i)) (Some (q ++ [m])) (p_svg (get w i)) (p_web (get w i)) /\
     (forall k, k <> i -> get (fst (send noticed i m w)) k = get w k)) \/
  ((p_alive (get w i) = false \/ p_conn (get w i) = None) /\ fst (send noticed i m w) = w /\ snd (send noticed i m w) = (if noticed then Fail BrokenPipeError else Done)).
Proof.
  unfold send. destruct (p_alive (get w i)) eqn:A; [|right; auto]. destruct (p_conn (get w i)) as [q|] eqn:Q; [|right; auto]. left. exists q. cbn [fst snd].
  splits; auto; [apply get_upd_same, running_lt; exact A|]. intros k N. unfold get. apply upd_nth_other. congruence.
Qed.
Lemma send_length noticed i m w : List.length (fst (send noticed i m w)) = List.length w.
Proof. unfold send. destruct (p_alive _); [|reflexivity]. destruct (p_conn _); [|reflexivity]. cbn [fst]. apply upd_length. Qed.
Lemma terminate_at i w : ~ running (terminate i w) i.
Proof.
  unfold running, terminate. destruct (get_upd w i (server_step SDie (get w i)) i) as [H|(_ & _ & H)]; [|rewrite H; discriminate].
  destruct (Nat.lt_ge_cases i (List.length w)) as [L|L]; [rewrite get_upd_same by exact L; discriminate|]. unfold get. rewrite nth_overflow; [discriminate|rewrite upd_length; exact L].
Qed.
Lemma close_length noticed cut b d o w : List.length (fst (close noticed cut b d o w)) = List.length w.
Proof.
  unfold close. destruct (a_process o) as [i|]; [|reflexivity]. destruct (negb (p_alive _)); [reflexivity|]. destruct (negb (a_socket o)); [reflexivity|].
  pose proof (send_length noticed i Close (world_steps b w)) as L. rewrite world_steps_length in L. destruct (send _ _ _ _) as [w1 [|f]]; cbn [fst] in *; [|exact L].
  destruct cut; cbn [fst]; unfold terminate; rewrite ?upd_length, world_steps_length; exact L.
Qed.
Lemma ended_send noticed i m w k : ended (get w k) -> ended (get (fst (send noticed i m w)) k).
Proof.
  intros H. destruct (send_cases noticed i m w) as [(q & R & _ & _ & G & Other)|(_ & -> & _)]; [|exact H].
  destruct (Nat.eq_dec k i) as [->|N]; [|rewrite Other by exact N; exact H]. unfold ended in H. unfold running in R. rewrite R in H. discriminate H.
Qed.
Lemma ended_terminate i w k : ended (get w k) -> ended (get (terminate i w) k).
Proof. intros H. unfold terminate. destruct (get_upd w i (server_step SDie (get w i)) k) as [->|(_ & _ & ->)]; [exact H|reflexivity]. Qed.
Lemma ended_close noticed cut b d o w k : ended (get w k) -> ended (get (fst (close noticed cut b d o w)) k).
Proof.
  intros H. unfold close. destruct (a_process o) as [i|]; [|exact H]. destruct (negb (p_alive _)); [exact H|]. destruct (negb (a_socket o)); [exact H|].
  pose proof (ended_send noticed i Close (world_steps b w) k (world_steps_inv ended k ended_step b w H)) as E.
  destruct (send _ _ _ _) as [w1 [|f]]; cbn [fst] in *; [|exact E]. pose proof (world_steps_inv ended k ended_step d w1 E) as E'.
  destruct cut; cbn [fst]; [exact E'|]. now apply ended_terminate.
Qed.
Lemma ended_use o u w k : ended (get w k) -> ended (get (fst (do_use o w u)) k).
Proof.
  intros H. destruct u as [n j|n b d|n b d|ie]; cbn [do_use].
  - unfold page_render. destruct (a_process o) as [i|]; [|exact H]. destruct (a_socket o); [|exact H]. now apply ended_send.
  - now apply ended_close.
  - now apply ended_close.
  - exact (world_steps_inv ended k ended_step [ie] w H).
Qed.
Lemma ended_uses o us : forall w k, ended (get w k) -> ended (get (do_uses o us w) k).
Proof. induction us as [|u us IH]; intros w k H; [exact H|]. cbn [do_uses fold_left]. apply IH. now apply ended_use. Qed.
Lemma not_running w i : ~ running w i <-> ended (get w i).
Proof. unfold running, ended. destruct (p_alive (get w i)); split; intros H; first [reflexivity|discriminate H|discriminate|exfalso; apply H; reflexivity]. Qed.
Lemma healthy_render noticed j o w k : healthy (get w k) -> healthy (get (fst (page_render noticed j o w)) k).
Proof.
  intros H. unfold page_render. destruct (a_process o) as [i|]; [|exact H]. destruct (a_socket o); [|exact H].
  destruct (send_cases noticed i (Config j) w) as [(q & R & Q & _ & G & Other)|(_ & -> & _)]; [|exact H].
  destruct (Nat.eq_dec k i) as [->|N]; [|rewrite Other by exact N; exact H]. rewrite G. intros _. exists (q ++ [Config j]). split; [reflexivity|].
  destruct (H R) as (q' & Q' & N). rewrite Q in Q'. injection Q' as ->. intros I. apply in_app_iff in I. destruct I as [I|[I|[]]]; [exact (N I)|discriminate I].
Qed.
(** a complete close of a healthy server *)
Lemma close_healthy noticed b d o w i : a_process o = Some i -> a_socket o = true -> healthy (get w i) ->
  ~ running (fst (close noticed false b d o w)) i /\
  (snd (close noticed false b d o w) = Done \/ (snd (close noticed false b d o w) = Fail BrokenPipeError /\ running w i /\ ~ survives i b)).
Proof.
  intros P S H. unfold close. rewrite P, S. cbn [negb]. destruct (p_alive (get w i)) eqn:A; cbn [negb]; [|split; [unfold running; cbn [fst]; rewrite A; discriminate|left; reflexivity]].
  pose proof (world_steps_inv healthy i healthy_step b w H) as H1.
  destruct (send_cases noticed i Close (world_steps b w)) as [(q & R & Q & D & _ & _)|(X & F & D)].
  - destruct (send _ _ _ _) as [w1 r]. cbn [snd] in D. subst r. cbn [fst snd]. split; [apply terminate_at|left; reflexivity].
  - assert (E : ended (get (world_steps b w) i)).
    { unfold ended. destruct (p_alive (get (world_steps b w) i)) eqn:A1; [|reflexivity]. destruct (H1 A1) as (q & Q & _). destruct X as [X|X]; [discriminate X|]. rewrite Q in X. discriminate X. }
    destruct (send _ _ _ _) as [w1 r]. cbn [fst snd] in F, D. subst w1 r. destruct noticed; cbn [fst snd].
    + split; [now apply not_running|right]. splits; [reflexivity|exact A|]. intros N.
      pose proof (world_steps_inv_but (fun p => p_alive p = true) i SDie (fun e p N' A' => alive_step e p N' A') b w N A) as A1. cbv beta in A1. unfold ended in E. rewrite E in A1. discriminate A1.
    + split; [apply terminate_at|left; reflexivity].
Qed.
Lemma healthy_uses o us : forall w i, a_process o = Some i -> a_socket o = true -> uncut us -> healthy (get w i) -> healthy (get (do_uses o us w) i).
Proof.
  induction us as [|u us IH]; intros w i P S U H; [exact H|]. cbn [do_uses fold_left]. apply IH; [exact P|exact S|intros n b d I; exact (U n b d (or_intror I))|].
  destruct u as [n j|n b d|n b d|ie]; cbn [do_use].
  - now apply healthy_render.
  - destruct (close_healthy n b d o w i P S H) as [R _]. intros A. exfalso. exact (R A).
  - exfalso. exact (U n b d (or_introl eq_refl)).
  - exact (world_steps_inv healthy i healthy_step [ie] w H).
Qed.
(** what a finished [__init__] leaves *)
Lemma open_inv packages drawing bs bw w w1 o r : open_viewer packages drawing bs bw w = (w1, o, r) ->
  (a_process o = None /\ w1 = w /\ a_socket o = false /\ r <> Done /\ (packages = false \/ exists e, drawing = Err e)) \/
  (exists svg, packages = true /\ drawing = Ok svg /\ a_process o = Some (List.length w) /\
    let w0 := world_steps bs (w ++ [started svg]) in
    (a_socket o = false /\ r = Fail (Raised RenderInitializationError) /\ w1 = w0 /\ p_alive (get w0 (List.length w)) && p_listens (get w0 (List.length w)) = false) \/
    (a_socket o = true /\ healthy (get w1 (List.length w)) /\ p_alive (get w0 (List.length w)) = true /\ p_listens (get w0 (List.length w)) = true /\
      (r = Done /\ running w1 (List.length w) /\ p_serves (get w1 (List.length w)) = true \/ r = Fail (Raised RenderInitializationError) /\ p_alive (get w1 (List.length w)) && p_serves (get w1 (List.length w)) = false))).
Proof.
  unfold open_viewer. intros H. destruct packages; cbn [negb] in H; [|injection H as <- <- <-; left; splits; try reflexivity; [discriminate|left; reflexivity]].
  destruct drawing as [svg|e]; [|injection H as <- <- <-; left; splits; try reflexivity; [discriminate|right; exists e; reflexivity]]. right. exists svg. cbv zeta in *.
  set (i := List.length w) in *. set (w0 := world_steps bs (w ++ [started svg])) in *. destruct (p_alive (get w0 i)) eqn:A, (p_listens (get w0 i)) eqn:L; cbn [andb] in H.
  2,3,4: injection H as <- <- <-; splits; try reflexivity; left; splits; reflexivity.
  set (w2 := world_steps bw (upd w0 i (connected (get w0 i)))) in *.
  assert (Hh : healthy (get w2 i)).
  { apply (world_steps_inv healthy i healthy_step). rewrite get_upd_same by (apply running_lt; exact A). intros _. exists []. split; [reflexivity|intros []]. }
  destruct (p_alive (get w2 i)) eqn:A2, (p_serves (get w2 i)) eqn:S2; cbn [andb] in H; injection H as <- <- <-; (splits; try reflexivity; right; splits; try reflexivity; [exact Hh|]).
  1: left; splits; [reflexivity|exact A2|exact S2]. all: right; split; [reflexivity|rewrite A2, S2; reflexivity].
Qed.
Lemma open_done packages drawing bs bw w w1 o : open_viewer packages drawing bs bw w = (w1, o, Done) ->
  a_process o = Some (List.length w) /\ a_socket o = true /\ healthy (get w1 (List.length w)) /\ running w1 (List.length w).
Proof.
  intros H. apply open_inv in H. destruct H as [(_ & _ & _ & N & _)|(svg & _ & _ & P & [(_ & N & _)|(S & Hh & _ & _ & [(_ & R & _)|(N & _)])])]; [contradiction|discriminate N|splits; assumption|discriminate N].
Qed.

(** ** C92 *)

(** The result of [__init__] is the one of RenderModel's GraphicViewer in the environment the schedule amounts to: can the new
    process be connected to after [bs], and does it answer after [bw]? *)
Theorem C92_environment : forall packages n nh nc seat_at commit_at bs bw w,
  let i := List.length w in
  let w0 := match base_svg n nh nc seat_at commit_at with Ok svg => world_steps bs (w ++ [started svg]) | Err _ => w end in
  let w1 := world_steps bw (upd w0 i (connected (get w0 i))) in
  let env := mkEnv packages (p_alive (get w0 i) && p_listens (get w0 i)) (p_alive (get w1 i) && p_serves (get w1 i)) in
  snd (open_viewer packages (base_svg n nh nc seat_at commit_at) bs bw w) =
    match GraphicViewer env seat_at commit_at n nh nc with Ok _ => Done | Err e => Fail (Raised e) end.
Proof.
  intros packages n nh nc sa ca bs bw w. cbv zeta. unfold open_viewer, GraphicViewer. cbn [env_packages env_socket env_server]. destruct packages; cbn [negb]; [|reflexivity].
  destruct (base_svg n nh nc sa ca) as [svg|e]; cbn [bind]; [|reflexivity]. cbv zeta. destruct (p_alive (get (world_steps bs (w ++ [started svg])) (List.length w)) && p_listens (get (world_steps bs (w ++ [started svg])) (List.length w))); cbn [negb snd]; [|reflexivity].
  match goal with |- context [if ?x then _ else _] => destruct x end; reflexivity.
Qed.
Print Assumptions C92_environment.

(** While the server process of an opened viewer lives and nobody closes the viewer, [render] raises nothing and the
    configuration is queued for the listener. *)
Theorem C92_open : forall packages drawing bs bw w w1 o us noticed j i,
  open_viewer packages drawing bs bw w = (w1, o, Done) -> a_process o = Some i ->
  (forall u, In u us -> (exists n j', u = URender n j') \/ (exists ie, u = UServer ie /\ ie <> (i, SDie))) ->
  let w2 := do_uses o us w1 in
  running w2 i /\ exists q, p_conn (get w2 i) = Some q /\
    snd (page_render noticed j o w2) = Done /\ p_conn (get (fst (page_render noticed j o w2)) i) = Some (q ++ [Config j]).
Proof.
  intros packages drawing bs bw w w1 o us noticed j i H P U. cbv zeta. destruct (open_done _ _ _ _ _ _ _ H) as (P' & S & Hh & R). rewrite P in P'. injection P' as ->. set (i := List.length w) in *.
  assert (U1 : uncut us). { intros n b d I. destruct (U _ I) as [(n' & j' & X)|(ie & X & _)]; discriminate X. }
  assert (R2 : running (do_uses o us w1) i).
  { clear H Hh U1. revert w1 R. induction us as [|u us IH]; intros w1 R; [exact R|]. cbn [do_uses fold_left]. apply IH; [intros u' I; apply U; right; exact I|].
    destruct (U u (or_introl eq_refl)) as [(n & j' & ->)|([k e] & -> & N)]; cbn [do_use fst].
    - unfold page_render. rewrite P, S. destruct (send_cases n i (Config j') w1) as [(q & _ & _ & _ & G & _)|(_ & -> & _)]; [unfold running; rewrite G; reflexivity|exact R].
    - apply (world_steps_inv_but (fun p => p_alive p = true) i SDie (fun e p N' A' => alive_step e p N' A') [(k, e)] w1); [intros [X|[]]; exact (N X)|exact R]. }
  pose proof (healthy_uses o us w1 i P S U1 Hh R2) as (q & Q & _). split; [exact R2|]. exists q. split; [exact Q|]. unfold page_render. rewrite P, S.
  destruct (send_cases noticed i (Config j) (do_uses o us w1)) as [(q' & _ & Q' & D & G & _)|([X|X] & _)].
  - rewrite Q in Q'. injection Q' as <-. split; [exact D|]. rewrite G. reflexivity.
  - unfold running in R2. rewrite X in R2. discriminate R2.
  - rewrite Q in X. discriminate X.
Qed.
Print Assumptions C92_open.

(** Closing a viewer that was opened ends its server process, whatever was rendered and whatever the server did, died
    included; it may be closed any number of times. *)
Theorem C92_close : forall packages drawing bs bw w w1 o us noticed b d i,
  open_viewer packages drawing bs bw w = (w1, o, Done) -> a_process o = Some i -> uncut us ->
  let w2 := do_uses o us w1 in
  let w3 := fst (close noticed false b d o w2) in
  let r := snd (close noticed false b d o w2) in
  ~ running w3 i /\
  (r = Done \/ (r = Fail BrokenPipeError /\ running w2 i /\ ~ survives i b)) /\
  (forall us', ~ running (do_uses o us' w3) i) /\
  (forall noticed' cut' b' d', close noticed' cut' b' d' o w3 = (w3, Done)) /\
  (b = [] -> d = [] -> forall k, k <> i -> get w3 k = get w2 k).
Proof.
  intros packages drawing bs bw w w1 o us noticed b d i H P U. cbv zeta. destruct (open_done _ _ _ _ _ _ _ H) as (P' & S & Hh & R). rewrite P in P'. injection P' as ->. set (i := List.length w) in *.
  pose proof (healthy_uses o us w1 i P S U Hh) as H2. set (w2 := do_uses o us w1) in *. destruct (close_healthy noticed b d o w2 i P S H2) as [C1 C2].
  splits; [exact C1|exact C2| | |].
  - intros us'. apply not_running. apply ended_uses. now apply not_running.
  - intros n' c' b' d'. apply not_running in C1. unfold ended in C1. unfold close at 1. rewrite P, C1. reflexivity.
  - intros -> -> k N. unfold close. rewrite P, S. cbn [negb world_steps fold_left]. destruct (negb (p_alive (get w2 i))); [reflexivity|].
    destruct (send_cases noticed i Close w2) as [(q & _ & _ & D & _ & Other)|(_ & F & D)].
    + destruct (send noticed i Close w2) as [w3 r]. cbn [fst snd] in *. subst r. cbn [fst]. unfold terminate, get. rewrite upd_nth_other by congruence. exact (Other k N).
    + destruct (send noticed i Close w2) as [w3 r]. cbn [fst snd] in *. subst w3 r. destruct noticed; cbn [fst]; [reflexivity|]. unfold terminate, get. now rewrite upd_nth_other by congruence.
Qed.
Print Assumptions C92_close.

(** After it ended the server sends nothing more: every browser has only messages left that were on their way. *)
Definition suffix {A} (l l' : list A) : Prop := exists p, l' = p ++ l.
Definition only_fewer (a b : list client) : Prop := forall k, In k b -> exists k', In k' a /\ suffix (cl_inbox k) (cl_inbox k').
Lemma only_fewer_refl a : only_fewer a a.
Proof. intros k I. exists k. split; [exact I|]. exists []. reflexivity. Qed.
Lemma only_fewer_trans a b c : only_fewer a b -> only_fewer b c -> only_fewer a c.
Proof. intros H1 H2 k I. destruct (H2 k I) as (k1 & I1 & (p1 & E1)). destruct (H1 k1 I1) as (k2 & I2 & (p2 & E2)). exists k2. split; [exact I2|]. exists (p2 ++ p1). rewrite E2, E1. apply app_assoc. Qed.
Lemma remove_nth_in {A} i : forall (l : list A) x, In x (remove_nth i l) -> In x l.
Proof. induction i as [|i IH]; intros [|y l] x I; cbn [remove_nth] in I; [exact I|right; exact I|exact I|]. destruct I as [->|I]; [left; reflexivity|right; now apply IH]. Qed.
Lemma upd_in {A} (v : A) : forall l i x, In x (upd l i v) -> x = v \/ In x l.
Proof. induction l as [|y l IH]; intros [|i] x I; cbn [upd] in I; try (right; exact I). - destruct I as [<-|I]; [left; reflexivity|right; right; exact I]. - destruct I as [->|I]; [right; left; reflexivity|]. destruct (IH _ _ I) as [X|X]; [left; exact X|right; right; exact X]. Qed.
Lemma silent_step e p : ended p -> only_fewer (sv_clients (p_web p)) (sv_clients (p_web (server_step e p))).
Proof.
  unfold ended. intros H. destruct e as [| | |e|]; cbn [server_step]; rewrite ?H; try apply only_fewer_refl.
  destruct e; cbn [andb]; try apply only_fewer_refl; cbn [happen].
  - destruct (nth_error (sv_clients (p_web p)) i) as [[page [|m r]]|] eqn:N; try apply only_fewer_refl. cbn [p_web sv_clients]. intros k I. apply upd_in in I. destruct I as [->|I].
    + exists (mkClient page (m :: r)). split; [exact (nth_error_In _ _ N)|]. exists [m]. reflexivity.
    + exists k. split; [exact I|]. exists []. reflexivity.
  - destruct (Nat.ltb i _); [|apply only_fewer_refl]. cbn [p_web sv_clients]. intros k I. apply remove_nth_in in I. exists k. split; [exact I|]. exists []. reflexivity.
Qed.
Lemma silent_events l i : forall w, ended (get w i) -> only_fewer (sv_clients (p_web (get w i))) (sv_clients (p_web (get (world_steps l w) i))).
Proof.
  intros w E. set (a := sv_clients (p_web (get w i))). apply (world_steps_inv (fun p => ended p /\ only_fewer a (sv_clients (p_web p))) i); [|split; [exact E|apply only_fewer_refl]].
  intros e p [H1 H2]. split; [now apply ended_step|]. eapply only_fewer_trans; [exact H2|now apply silent_step].
Qed.
Theorem C92_silence : forall o us w i, a_process o = Some i -> ~ running w i ->
  only_fewer (sv_clients (p_web (get w i))) (sv_clients (p_web (get (do_uses o us w) i))).
Proof.
  intros o us w i P R. apply not_running in R. revert w R. induction us as [|u us IH]; intros w R; [apply only_fewer_refl|]. cbn [do_uses fold_left].
  eapply only_fewer_trans; [|apply IH, ended_use, R]. destruct u as [n j|n b d|n b d|ie]; cbn [do_use].
  - unfold page_render. rewrite P. destruct (a_socket o); [|apply only_fewer_refl]. destruct (send_cases n i (Config j) w) as [(q & R' & _)|(_ & -> & _)]; [|apply only_fewer_refl].
    unfold ended in R. unfold running in R'. rewrite R in R'. discriminate R'.
  - unfold close. rewrite P. unfold ended in R. rewrite R. apply only_fewer_refl.
  - unfold close. rewrite P. unfold ended in R. rewrite R. apply only_fewer_refl.
  - exact (silent_events [ie] i w R).
Qed.
Print Assumptions C92_silence.

(** *** The last configuration before a close *)
(** rendering and closing at once shows nothing to anybody *)
Theorem C92_lost : forall o w i noticed noticed' j, a_process o = Some i ->
  sv_clients (p_web (get (do_uses o [URender noticed j; UClose noticed' [] []] w) i)) = sv_clients (p_web (get w i)).
Proof.
  intros o w i n n' j P.
  assert (K : forall n m w, sv_clients (p_web (get (fst (send n i m w)) i)) = sv_clients (p_web (get w i))).
  { clear. intros n m w. destruct (send_cases n i m w) as [(q & _ & _ & _ & G & _)|(_ & -> & _)]; [rewrite G; reflexivity|reflexivity]. }
  cbn [do_uses fold_left do_use].
  assert (K1 : sv_clients (p_web (get (fst (page_render n j o w)) i)) = sv_clients (p_web (get w i))) by (unfold page_render; rewrite P; destruct (a_socket o); [apply K|reflexivity]).
  rewrite <- K1. set (w1 := fst (page_render n j o w)). unfold close. rewrite P. destruct (negb _); [reflexivity|]. destruct (negb _); [reflexivity|]. cbn [world_steps fold_left].
  pose proof (K n' Close w1) as K2. destruct (send n' i Close w1) as [w2 [|f]]; cbn [fst] in *; [|exact K2]. rewrite <- K2.
  unfold terminate. destruct (get_upd w2 i (server_step SDie (get w2 i)) i) as [->|(_ & _ & ->)]; reflexivity.
Qed.
Print Assumptions C92_lost.

(** one round of the loop of [listener], graphic.py:134-143 *)
Definition loop_round (i : nat) : list (nat * sevent) := [(i, SRead); (i, SWeb EEmit)].
Definition rounds (i m : nat) : list (nat * sevent) := (i, SWeb EEmit) :: List.concat (repeat (loop_round i) m).
Definition at_rest (p : process) (q : option (list msg)) : Prop := p_alive p = true /\ sv_emit (p_web p) = None /\ p_conn p = q.
Definition round_of (p : process) : process := server_step (SWeb EEmit) (server_step SRead p).
Fixpoint loops (m : nat) (p : process) : process := match m with O => p | S m => loops m (round_of p) end.
Lemma round_config p j q : at_rest p (Some (Config j :: q)) ->
  at_rest (round_of p) (Some q) /\ sv_clients (p_web (round_of p)) = broadcast (Some j) (sv_clients (p_web p)).
Proof. intros (A & E & C). unfold round_of. cbn [server_step]. rewrite A, E, C. cbn. unfold at_rest. cbn. auto. Qed.
Lemma round_close p q : at_rest p (Some (Close :: q)) -> at_rest (round_of p) None /\ sv_clients (p_web (round_of p)) = sv_clients (p_web p).
Proof. intros (A & E & C). unfold round_of. cbn [server_step]. rewrite A, E, C. cbn. rewrite E. unfold at_rest. cbn. auto. Qed.
Lemma round_none p : at_rest p None -> at_rest (round_of p) None /\ sv_clients (p_web (round_of p)) = sv_clients (p_web p).
Proof. intros (A & E & C). unfold round_of. cbn [server_step]. rewrite A, E, C. cbn. rewrite E, A. unfold at_rest. auto. Qed.
Lemma get_step_same w i e : (i < List.length w)%nat -> get (world_step w (i, e)) i = server_step e (get w i).
Proof. intros L. unfold world_step. cbn [fst snd]. now apply get_upd_same. Qed.
Lemma rounds_at i m : forall w, (i < List.length w)%nat -> get (world_steps (List.concat (repeat (loop_round i) m)) w) i = loops m (get w i).
Proof.
  induction m as [|m IH]; intros w L; [reflexivity|]. cbn [repeat List.concat loop_round app]. rewrite !world_steps_cons, IH by (rewrite !world_step_length; exact L).
  rewrite !get_step_same by (rewrite ?world_step_length; exact L). cbn [loops]. reflexivity.
Qed.
Lemma iter_none m : forall p, at_rest p None -> sv_clients (p_web (loops m p)) = sv_clients (p_web p).
Proof. induction m as [|m IH]; intros p H; [reflexivity|]. cbn [loops]. destruct (round_none p H) as [H1 H2]. rewrite IH by exact H1. exact H2. Qed.
Lemma iter_configs js : forall m p, (List.length js <= m)%nat -> at_rest p (Some (map Config js ++ [Close])) ->
  sv_clients (p_web (loops m p)) = map (fun k => mkClient (cl_page k) (cl_inbox k ++ map Some js)) (sv_clients (p_web p)).
Proof.
  induction js as [|j js IH]; intros m p L H.
  - assert (X : map (fun k => mkClient (cl_page k) (cl_inbox k ++ map Some [])) (sv_clients (p_web p)) = sv_clients (p_web p)).
    { rewrite <- (map_id (sv_clients (p_web p))) at 2. apply map_ext. intros [pg ib]. cbn. now rewrite app_nil_r. }
    rewrite X. destruct m as [|m]; [reflexivity|]. cbn [loops map app] in *. destruct (round_close p [] H) as [H1 H2]. rewrite iter_none by exact H1. exact H2.
  - destruct m as [|m]; [cbn in L; lia|]. cbn [loops map app] in *. destruct (round_config p j _ H) as [H1 H2].
    rewrite (IH m _ ltac:(cbn in L; lia) H1), H2. unfold broadcast. rewrite map_map. apply map_ext. intros k. cbn [cl_page cl_inbox]. now rewrite <- app_assoc.
Qed.
Lemma no_close_configs q : ~ In Close q -> exists js, q = map Config js.
Proof.
  induction q as [|[j|] q IH]; intros N; [exists []; reflexivity| |exfalso; apply N; left; reflexivity].
  destruct IH as [js ->]; [intros I; apply N; right; exact I|]. exists (j :: js). reflexivity.
Qed.
(** if the listener gets enough rounds of its loop before it is terminated, the last message sent to every browser is the last
    configuration rendered *)
Theorem C92_seen : forall packages drawing bs bw w w1 o us noticed noticed' j i,
  open_viewer packages drawing bs bw w = (w1, o, Done) -> a_process o = Some i -> uncut us ->
  let w2 := fst (page_render noticed j o (do_uses o us w1)) in
  running w2 i ->
  exists m, forall m', (m <= m')%nat ->
    let w3 := fst (close noticed' false [] (rounds i m') o w2) in
    Forall (fun k => exists l, cl_inbox k = l ++ [Some j]) (sv_clients (p_web (get w3 i))) /\
    List.length (sv_clients (p_web (get w3 i))) = List.length (sv_clients (p_web (get w2 i))).
Proof.
  intros packages drawing bs bw w w1 o us n n' j i H P U. cbv zeta. destruct (open_done _ _ _ _ _ _ _ H) as (P' & S & Hh & _). rewrite P in P'. injection P' as ->. set (i := List.length w) in *.
  pose proof (healthy_uses o us w1 i P S U Hh) as H2. set (w0 := do_uses o us w1) in *. unfold page_render. rewrite P, S. intros R.
  destruct (send_cases n i (Config j) w0) as [(q & R0 & Q & _ & G & _)|([X|X] & F & _)].
  2: { rewrite F in R. unfold running in R. rewrite X in R. discriminate R. }
  2: { rewrite F in R. destruct (H2 R) as (q & Q & _). rewrite Q in X. discriminate X. }
  destruct (H2 R0) as (q' & Q' & N). rewrite Q in Q'. injection Q' as <-. destruct (no_close_configs q N) as [js ->]. exists (List.length (js ++ [j])). intros m L.
  set (w2 := fst (send n i (Config j) w0)) in *. unfold close. rewrite P, S. unfold running in R. rewrite R. cbn [negb world_steps fold_left].
  destruct (send_cases n' i Close w2) as [(q & _ & Q2 & D & G2 & _)|([X|X] & _)]; [|rewrite R in X; discriminate X|rewrite G in X; discriminate X].
  assert (Eq : q = map Config (js ++ [j])). { rewrite G in Q2. cbn [p_conn] in Q2. injection Q2 as <-. now rewrite map_app. }
  destruct (send n' i Close w2) as [w3 r] eqn:Es. cbn [fst snd] in D, G2. subst r. cbn [fst].
  assert (L3 : (i < List.length w3)%nat). { apply running_lt. unfold running. rewrite G2. reflexivity. }
  unfold terminate. rewrite get_upd_same by (change (fold_left world_step (rounds i m) w3) with (world_steps (rounds i m) w3); rewrite world_steps_length; exact L3). cbn [server_step p_web].
  change (fold_left world_step (rounds i m) w3) with (world_steps (rounds i m) w3). unfold rounds. rewrite world_steps_cons, rounds_at by (rewrite world_step_length; exact L3). rewrite get_step_same by exact L3.
  set (p := server_step (SWeb EEmit) (get w3 i)).
  assert (Hp : at_rest p (Some (map Config (js ++ [j]) ++ [Close])) /\ List.length (sv_clients (p_web p)) = List.length (sv_clients (p_web (get w2 i)))).
  { unfold p. rewrite G2. cbn [server_step p_alive p_web p_svg p_conn happen]. destruct (sv_emit (p_web (get w2 i))) eqn:Em; unfold at_rest; cbn; rewrite ?Em, Eq; splits; auto. unfold broadcast. apply map_length. }
  destruct Hp as [Hp1 Hp2]. rewrite (iter_configs (js ++ [j]) m p L Hp1). split; [|now rewrite map_length].
  apply Forall_forall. intros k I. apply in_map_iff in I. destruct I as (k0 & <- & _). cbn [cl_inbox]. exists (cl_inbox k0 ++ map Some js). rewrite map_app, app_assoc. reflexivity.
Qed.
Print Assumptions C92_seen.

(** *** A viewer that could not be opened *)
(** After [__init__] raised and Python finalised the object, a server process is left running exactly if the
    process was still starting up when the ten seconds for its socket were over. *)
Theorem C92_failed : forall packages drawing bs bw w w1 o f noticed b d,
  open_viewer packages drawing bs bw w = (w1, o, Fail f) ->
  let i := List.length w in
  let w2 := fst (close noticed false b d o w1) in
  running w2 i <-> exists svg, packages = true /\ drawing = Ok svg /\
    let w0 := world_steps bs (w ++ [started svg]) in running w0 i /\ p_listens (get w0 i) = false.
Proof.
  intros packages drawing bs bw w w1 o f n b d H. cbv zeta. apply open_inv in H.
  destruct H as [(P & -> & S & _ & X)|(svg & -> & -> & P & [(S & _ & -> & AL)|(S & Hh & A & L & _)])].
  - unfold close. rewrite P. cbn [fst]. split.
    + intros R. apply running_lt in R. lia.
    + intros (svg & -> & -> & _). destruct X as [X|(e & X)]; discriminate X.
  - unfold close. rewrite P, S. cbn [negb]. set (w0 := world_steps bs (w ++ [started svg])) in *. split.
    + intros R. exists svg. destruct (negb (p_alive (get w0 (List.length w)))) eqn:A; cbn [fst] in R.
      * unfold running in R. rewrite R in A. discriminate A.
      * splits; [reflexivity|reflexivity|exact R|]. unfold running in R. rewrite R in AL. exact AL.
    + intros (svg' & _ & E & R & _). injection E as <-. fold w0 in R. unfold running in R. rewrite R. exact R.
  - split.
    + intros R. exfalso. exact (proj1 (close_healthy n b d o w1 _ P S Hh) R).
    + intros (svg' & _ & E & R & L'). injection E as <-. rewrite L in L'. discriminate L'.
Qed.
Print Assumptions C92_failed.

(** nothing that can be done with the object ends that process *)
Theorem C92_leak : forall svg bs bw w w1 o f us, open_viewer true (Ok svg) bs bw w = (w1, o, Fail f) ->
  let i := List.length w in
  let w0 := world_steps bs (w ++ [started svg]) in
  running w0 i -> p_listens (get w0 i) = false -> Forall (use_survives i) us ->
  running (do_uses o us w1) i /\ (forall noticed cut b d, snd (close noticed cut b d o (do_uses o us w1)) = Fail AttributeError).
Proof.
  intros svg bs bw w w1 o f us H. cbv zeta. intros R L F. apply open_inv in H.
  destruct H as [(_ & _ & _ & _ & [X|(e & X)])|(svg' & _ & E & P & [(S & _ & -> & _)|(_ & _ & _ & L' & _)])]; [discriminate X|discriminate X| |injection E as <-; rewrite L in L'; discriminate L'].
  injection E as <-. set (w1 := world_steps bs (w ++ [started svg])) in *. clearbody w1.
  assert (R2 : running (do_uses o us w1) (List.length w)).
  { clear L. revert w1 R. induction F as [|u us Fu F IH]; intros w1 R; [exact R|]. cbn [do_uses fold_left]. apply IH. destruct u as [n j|n b d|n b d|ie]; cbn [do_use use_survives] in *.
    - unfold page_render. rewrite P, S. exact R.
    - unfold close. rewrite P, S. cbn [negb]. destruct (negb _); exact R.
    - unfold close. rewrite P, S. cbn [negb]. destruct (negb _); exact R.
    - apply (world_steps_inv_but (fun p => p_alive p = true) (List.length w) SDie (fun e p N' A' => alive_step e p N' A') [ie] w1); [intros [X|[]]; exact (Fu X)|exact R]. }
  split; [exact R2|]. intros n c b d. unfold close. rewrite P, S. unfold running in R2. rewrite R2. reflexivity.
Qed.
Print Assumptions C92_leak.

(** So the wish that a viewer that could not be opened leaves no server process behind is not met: with a drawing of
    a real table and a server that needs longer than ten seconds, the server comes up and stays up. *)
Theorem C92_refuted : forall seat_at commit_at, exists svg w1 o, base_svg 2 2 5 seat_at commit_at = Ok svg /\
  open_viewer true (base_svg 2 2 5 seat_at commit_at) [] [] [] = (w1, o, Fail (Raised RenderInitializationError)) /\
  (forall noticed b d, snd (close noticed false b d o w1) = Fail AttributeError) /\
  forall noticed b d, let w2 := world_steps [(O, SListen); (O, SServe)] (fst (close noticed false b d o w1)) in
    running w2 O /\ p_listens (get w2 O) = true /\ p_serves (get w2 O) = true.
Proof.
  intros sa ca. assert (B : exists svg, base_svg 2 2 5 sa ca = Ok svg) by (exists (drawing 2 2 5 sa ca); apply (base_svg_form 2); lia).
  destruct B as [svg B]. rewrite B. exists svg, [started svg], (mkObject (Some O) false). splits; [reflexivity|reflexivity|reflexivity|]. intros n b d. cbv zeta. cbn. unfold running. splits; reflexivity.
Qed.
Print Assumptions C92_refuted.

(** *** The dealer *)
(** As [Dealer.viewer] stays unassigned, every further [render] of that kind starts one more server. *)
Theorem C92_pile_up : forall k j svg a, at_packages a = true -> at_drawing a = Ok svg -> at_socket a = [] ->
  exists w, renders_human j (repeat a k) ([], None) = (w, None) /\ List.length w = k /\ forall i, (i < k)%nat -> running w i.
Proof.
  intros k j svg a A1 A2 A3.
  assert (K : forall k w0, exists w, renders_human j (repeat a k) (w0, None) = (w, None) /\ w = w0 ++ repeat (started svg) k).
  { clear k. induction k as [|k IH]; intros w0; [exists w0; split; [reflexivity|now rewrite app_nil_r]|]. cbn [repeat renders_human fold_left snd fst].
    assert (E : fst (render_human a j None w0) = (w0 ++ [started svg], None)).
    { unfold render_human, open_viewer. rewrite A1, A2, A3. cbn [negb world_steps fold_left].
      assert (G : get (w0 ++ [started svg]) (List.length w0) = started svg) by (unfold get; rewrite app_nth2, Nat.sub_diag by lia; reflexivity).
      rewrite G. cbn [started p_alive p_listens andb]. unfold close. cbn [a_process a_socket]. rewrite G. reflexivity. }
    rewrite E. destruct (IH (w0 ++ [started svg])) as (w & E1 & E2). exists w. split; [exact E1|]. rewrite E2, <- app_assoc. reflexivity. }
  destruct (K k []) as (w & E & ->). exists (repeat (started svg) k). cbn [app] in E. splits; [exact E|apply repeat_length|].
  intros i L. unfold running, get. rewrite (nth_indep _ nobody (started svg)) by (rewrite repeat_length; exact L). rewrite nth_repeat. reflexivity.
Qed.
Print Assumptions C92_pile_up.
(** Once it could open a viewer, a dealer keeps it and starts no other server. *)
Theorem C92_one : forall j l1 l2 st o, snd (renders_human j l1 st) = Some o ->
  snd (renders_human j (l1 ++ l2) st) = Some o /\ List.length (fst (renders_human j (l1 ++ l2) st)) = List.length (fst (renders_human j l1 st)).
Proof.
  intros j l1 l2 st o H. unfold renders_human in *. rewrite fold_left_app. set (st1 := fold_left _ l1 st) in *. clearbody st1. clear st. revert st1 H.
  induction l2 as [|a l2 IH]; intros [w kept] H; [split; [exact H|reflexivity]|]. cbn [snd] in H. subst kept. cbn [fold_left snd fst render_human].
  assert (L : List.length (fst (page_render (at_noticed a) j o w)) = List.length w) by (unfold page_render; destruct (a_process o); [|reflexivity]; destruct (a_socket o); [apply send_length|reflexivity]).
  destruct (page_render (at_noticed a) j o w) as [w1 r]. cbn [fst] in *. destruct (IH (w1, Some o) eq_refl) as [H1 H2]. split; [exact H1|]. rewrite H2. exact L.
Qed.
Print Assumptions C92_one.

(** *** Interrupted closes *)
(** With interruptions allowed, a close fails exactly if the process runs while its listener has gone (it read the
    message of an earlier, interrupted close) and the system noticed; the process then goes on. *)
Theorem C92_cut : forall packages drawing bs bw w w1 o us noticed i,
  open_viewer packages drawing bs bw w = (w1, o, Done) -> a_process o = Some i ->
  let w2 := do_uses o us w1 in
  (running (fst (close noticed false [] [] o w2)) i <-> running w2 i /\ p_conn (get w2 i) = None /\ noticed = true) /\
  (snd (close noticed false [] [] o w2) = if p_alive (get w2 i) && match p_conn (get w2 i) with None => noticed | Some _ => false end then Fail BrokenPipeError else Done).
Proof.
  intros packages drawing bs bw w w1 o us n i H P. cbv zeta. destruct (open_done _ _ _ _ _ _ _ H) as (_ & S & _ & _). set (w2 := do_uses o us w1). unfold close. rewrite P, S. cbn [negb world_steps fold_left].
  unfold running. destruct (p_alive (get w2 i)) eqn:A; cbn [negb andb fst snd].
  2: { split; [|reflexivity]. rewrite A. split; [discriminate|intros (X & _); discriminate X]. }
  unfold send. rewrite A. destruct (p_conn (get w2 i)) as [q|] eqn:Q; cbn [fst snd].
  - split; [|reflexivity]. split; [intros R; exfalso; exact (terminate_at _ _ R)|intros (_ & X & _); discriminate X].
  - destruct n; cbn [fst snd]; (split; [|reflexivity]); [rewrite A; split; auto|]. split; [intros R; exfalso; exact (terminate_at _ _ R)|intros (_ & _ & X); discriminate X].
Qed.
Print Assumptions C92_cut.
(** It happens: a close interrupted after its message was sent, and closed again. *)
Theorem C92_cut_refuted : forall seat_at commit_at, exists w1 o, 
  open_viewer true (base_svg 2 2 5 seat_at commit_at) [(O, SListen)] [(O, SServe)] [] = (w1, o, Done) /\
  let w2 := do_uses o [UCut false [] [(O, SRead)]] w1 in
  forall b d, ~ In (O, SDie) b -> snd (close true false b d o w2) = Fail BrokenPipeError /\ running (fst (close true false b d o w2)) O.
Proof.
  intros sa ca. assert (B : exists svg, base_svg 2 2 5 sa ca = Ok svg) by (exists (drawing 2 2 5 sa ca); apply (base_svg_form 2); lia).
  destruct B as [svg B]. rewrite B. eexists _, _. split; [reflexivity|]. cbv zeta. intros b d N.
  set (w2 := do_uses _ _ _). assert (A : p_alive (get w2 O) = true /\ p_conn (get w2 O) = None) by (split; reflexivity).
  assert (I : p_alive (get (world_steps b w2) O) = true /\ p_conn (get (world_steps b w2) O) = None).
  { apply (world_steps_inv_but (fun p => p_alive p = true /\ p_conn p = None) O SDie); [|exact N|exact A]. clear. intros e p N [A C]. split; [now apply alive_step|].
    destruct e as [| | |e|]; cbn [server_step]; rewrite ?A, ?C; try first [exact C|reflexivity].
    - destruct (sv_emit (p_web p)); first [exact C|reflexivity].
    - destruct e; cbn [andb]; try first [exact C|reflexivity]; try (destruct (p_serves p); [|first [exact C|reflexivity]]); destruct (happen _ _ _); first [exact C|reflexivity]. }
  unfold close. cbn [a_process a_socket]. rewrite (proj1 A). cbn [negb]. unfold send. rewrite (proj1 I), (proj2 I). cbn [fst snd]. split; [reflexivity|exact (proj1 I)].
Qed.
Print Assumptions C92_cut_refuted.

(** ** A run: a table opened, a browser connected, two renders, a close that gives the listener time *)
Example C92_example : forall seat_at commit_at j, exists w1 o w3,
  open_viewer true (base_svg 2 2 5 seat_at commit_at) [(O, SListen)] [(O, SServe)] [] = (w1, o, Done) /\
  do_uses o [UServer (O, SWeb EConnect); URender false j; UServer (O, SRead); URender false j; UClose false [] (rounds O 1)] w1 = w3 /\
  map cl_inbox (sv_clients (p_web (get w3 O))) = [[None; Some j; Some j]] /\ p_alive (get w3 O) = false /\
  snd (page_render true j o w3) = Fail BrokenPipeError /\ close true false [] [] o w3 = (w3, Done).
Proof.
  intros sa ca j. assert (B : exists svg, base_svg 2 2 5 sa ca = Ok svg) by (exists (drawing 2 2 5 sa ca); apply (base_svg_form 2); lia).
  destruct B as [svg B]. rewrite B. eexists _, _, _. split; [reflexivity|]. split; [reflexivity|]. splits; reflexivity.
Qed.
