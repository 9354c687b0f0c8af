(** * PropRender: C57 (Dealer.render), C59 for games, C60 (the browsers) *)
From Coq Require Import ZifyBool ZifyNat Arith Permutation.
From Verif Require Import PyBase PyFacts CardModel CardSpec CardProofs DeckProofs EngineModel EngineSpec EngineFacts EngineDemo BetFacts MoneyFacts PropBetting PropRound PropReset
  AsciiModel PropAscii JsonModel SvgModel SvgIds SvgPage SvgShow SvgFacts PropJson PropSvg RenderModel.

(** ** C57 *)
(** the configuration describes the game: everything in it that is also in the observation is the same there *)
Theorem C57_config : forall c s r o over, reachable c s -> render_config c s = Ok r -> observation c s over = Ok o ->
  rc_action r = match o_action o with Some a => Z.of_nat a | None => -1 end /\
  rc_active r = o_active o /\ rc_button r = Z.of_nat (o_button o) /\ rc_community_cards r = o_community_cards o /\
  rc_pot r = o_pot o /\ rc_stacks r = o_stacks o /\ rc_street_commits r = o_street_commits o /\
  (* of the hands, the one of the player to act is in the observation *)
  (forall a, o_action o = Some a -> nth_error (rc_hole_cards r) a = Some (o_hole_cards o)) /\
  (* all in: in the hand without chips *)
  List.length (rc_all_in r) = num_players c /\
  (forall i, (i < num_players c)%nat -> nth i (rc_all_in r) false = true <-> nth i (o_active o) false = true /\ nth i (o_stacks o) 0 = 0).
Proof.
  intros c s r o over R E O. pose proof (reachable_wf c s R) as W. unfold render_config in E. destruct (payouts c s) as [pay|]; [|discriminate E]. injection E as <-.
  unfold observation in O. destruct (if over then Ok (0, 0, 0) else bet_sizes c s) as [[[x y] z]|]; [|discriminate O]. cbn [bind] in O.
  destruct (match action s with Some a => get (hole_cards s) a | None => get_last (hole_cards s) end) as [h|] eqn:H; [|discriminate O]. injection O as <-.
  cbn [rc_action rc_active rc_button rc_community_cards rc_pot rc_stacks rc_street_commits rc_hole_cards rc_all_in o_action o_active o_button o_community_cards o_pot o_stacks o_street_commits o_hole_cards].
  do 7 (split; [reflexivity|]). split; [|split].
  - intros a A. rewrite A in H. unfold get in H. destruct (nth_error (hole_cards s) a) as [k|]; [|discriminate H]. congruence.
  - rewrite map_length, combine_length, (wf_active _ _ W), (wf_stacks _ _ W). lia.
  - intros i L. set (f := fun p : bool * Z => fst p && (snd p =? 0)). change false with (f (false, 0)) at 1.
    rewrite map_nth, combine_nth by (rewrite (wf_active _ _ W), (wf_stacks _ _ W); reflexivity). unfold f. cbn [fst snd]. rewrite andb_true_iff, Z.eqb_eq. reflexivity.
Qed.
Print Assumptions C57_config.

(** the move shown is the last one made: after a successful step the player who acted, the chips put in and
    whether the bet was negative; at the start of a hand none *)
Theorem C57_last_move : forall c s, fair c s ->
  (forall a o b B r, action s = Some a -> observation c s false = Ok o -> py_round b = Ok B -> 0 <= stack_of s a ->
     render_config c (fst (step c s b)) = Ok r -> rc_prev_action r = Some (a, put_in c s b a, pynum_neg b)) /\
  (forall rnd rb rs r, is_ok (snd (reset c s rnd rb rs)) = true -> render_config c (fst (reset c s rnd rb rs)) = Ok r -> rc_prev_action r = None).
Proof.
  assert (P : forall c s r, render_config c s = Ok r -> rc_prev_action r = match rev (history s) with h :: _ => Some h | [] => None end).
  { intros c s r E. unfold render_config in E. destruct (payouts c s); [|discriminate E]. now injection E as <-. }
  intros c s F. split.
  - intros a o b B r A O Hb St E. rewrite (P _ _ _ E), (C46_entry c s a o b B F A O Hb St), rev_app_distr. reflexivity.
  - intros rnd rb rs r H E. rewrite (P _ _ _ E). pose proof (fair_reachable c s F) as R.
    destruct (reset_spec c s rnd rb rs (reachable_cfg c s R) (reachable_wf c s R)) as [(_ & _ & X)|[(_ & X)|(_ & _ & _ & X)]]; [rewrite X in H; discriminate H|rewrite X in H; discriminate H|].
    now rewrite (re_history _ _ _ _ _ _ X).
Qed.
Print Assumptions C57_last_move.
Example C57_config_example : exists c s r, fair c s /\ render_config c s = Ok r /\ rc_all_in r = [true; false; false] /\ rc_active r = [true; false; true] /\
  rc_prev_action r = Some (1%nat, 0, true) /\ rc_stacks r = [0; 19; 18] /\ rc_action r = 2.
Proof.
  play no_limit_3 (new_hand :: bets [20; -1]) c s E.
  assert (X : exists r, render_config c s = Ok r /\ rc_all_in r = [true; false; false] /\ rc_active r = [true; false; true] /\
    rc_prev_action r = Some (1%nat, 0, true) /\ rc_stacks r = [0; 19; 18] /\ rc_action r = 2).
  { assert (K : match render_config c s with Ok r => Some (rc_all_in r, rc_active r, rc_prev_action r, rc_stacks r, rc_action r) | Err _ => None end =
      Some ([true; false; false], [true; false; true], Some (1%nat, 0, true), [0; 19; 18], 2)) by plays E.
    destruct (render_config c s) as [r|]; [|discriminate K]. injection K as K1 K2 K3 K4 K5. exists r. splits; try assumption. reflexivity. }
  destruct X as (r & X). exists r. split; [exact (played_fair _ _ _ _ E)|exact X].
Qed.

(** rendering and playing: what a program does to the game *)
Definition plays_of (l : list act) : list op := flat_map (fun a => match a with Play o => [o] | Render _ _ => [] end) l.
(** Rendering changes nothing in the game: leave out the renderings and the game is the same. *)
Theorem C57_game_unchanged : forall seat_at commit_at c s kept l,
  fst (do_acts seat_at commit_at c (s, kept) l) = run c s (plays_of l).
Proof.
  intros sa ca c s kept l. revert s kept. induction l as [|a l IH]; intros s kept; [reflexivity|]. unfold do_acts in *. cbn [fold_left plays_of flat_map].
  destruct a as [o|env mode]; cbn [do_act fst snd app]; [apply IH|]. fold (plays_of l).
  destruct (fst (render env sa ca c s kept mode)); apply IH.
Qed.
Print Assumptions C57_game_unchanged.

(** what a call of [render] with this mode should do: print the text table, or send the configuration to the server;
    a mode of another name raises *)
Definition as_asked (c : config) (s : state) (mode : string) (res : result effect) : Prop :=
  (mode = "ascii"%string -> res = let* text := render_ascii c s in Ok (Printed text)) /\
  (mode = "human"%string -> res = let* r := render_config c s in Ok (Sent (jsonify r))) /\
  (mode <> "ascii"%string -> mode <> "human"%string -> res = Err InvalidRenderModeError).
(** the browser view cannot be opened, and what is raised then *)
Definition no_browser (env : environment) : option exn :=
  if env_packages env then if env_socket env && env_server env then None else Some RenderInitializationError else Some MissingImportsError.
(** the viewer of a mode, for this game *)
Definition viewer_of (seat_at commit_at : nat -> Z * Z) (c : config) (mode : string) (v : any_viewer) : Prop :=
  let n := Z.of_nat (num_players c) in
  (mode = "ascii"%string /\ exists t, v = VText t /\ ASCIIViewer n (num_hole_cards c) (sumZ (num_community_cards c)) = Ok t) \/
  (mode = "human"%string /\ exists e, v = VPage e /\ base_svg n (num_hole_cards c) (sumZ (num_community_cards c)) seat_at commit_at = Ok e).

Lemma drawing_exists c sa ca : 0 <= sumZ (num_community_cards c) ->
  exists e, base_svg (Z.of_nat (num_players c)) (num_hole_cards c) (sumZ (num_community_cards c)) sa ca = Ok e.
Proof. intros B. eexists. apply base_svg_form. exact B. Qed.
Lemma kept_shows env sa ca c s mode0 v mode : viewer_of sa ca c mode0 v ->
  fst (render env sa ca c s (Some v) mode) = Some v /\ as_asked c s mode0 (snd (render env sa ca c s (Some v) mode)).
Proof.
  intros V. split; [reflexivity|]. cbn [render snd]. destruct V as [(-> & t & -> & T)|(-> & e & -> & _)]; (split; [|split]); intros M; try discriminate M.
  - unfold render_ascii. rewrite T. cbn [bind]. destruct (render_config c s); reflexivity.
  - congruence.
  - reflexivity.
  - intros X. now elim X.
Qed.
Lemma first_shows env sa ca c s mode : reachable c s -> 0 <= sumZ (num_community_cards c) ->
  match (if (mode =? "human")%string then no_browser env else None) with
  | Some e => render env sa ca c s None mode = (None, Err e)
  | None => as_asked c s mode (snd (render env sa ca c s None mode)) /\
      match fst (render env sa ca c s None mode) with Some v => viewer_of sa ca c mode v | None => mode <> "ascii"%string /\ mode <> "human"%string end
  end.
Proof.
  intros R B. unfold render. destruct (viewer_exists c (num_hole_cards c) (sumZ (num_community_cards c)) (reachable_cfg c s R)) as (t & T). destruct (drawing_exists c sa ca B) as (e & E).
  destruct (String.eqb_spec mode "human") as [->|NH].
  - change ("human" =? "ascii")%string with false. cbv iota. unfold GraphicViewer, no_browser. destruct (env_packages env); [|reflexivity]. cbn [negb]. rewrite E. cbn [bind].
    destruct (env_socket env), (env_server env); cbn [negb andb]; try reflexivity. split; [|right; split; [reflexivity|exists e; split; [reflexivity|exact E]]].
    cbn [snd fst]. split; [intros X; discriminate X|]. split; [reflexivity|]. intros _ X. now elim X.
  - destruct (String.eqb_spec mode "ascii") as [->|NA].
    + rewrite T. cbn [bind snd fst]. split; [|left; split; [reflexivity|exists t; split; [reflexivity|exact T]]].
      split; [|split; [intros X; discriminate X|intros X; now elim X]]. intros _. unfold render_ascii. rewrite T. cbn [bind]. destruct (render_config c s); reflexivity.
    + cbn [snd fst]. split; [|split; assumption]. split; [intros X; now elim NA|]. split; [intros X; now elim NH|reflexivity].
Qed.
(** The first rendering does what was asked for, or the browser view was asked for and cannot be opened. *)
Theorem C57_first : forall env seat_at commit_at c s mode, reachable c s -> 0 <= sumZ (num_community_cards c) ->
  let res := snd (render env seat_at commit_at c s None mode) in
  as_asked c s mode res \/ (mode = "human"%string /\ exists e, no_browser env = Some e /\ res = Err e).
Proof.
  intros env sa ca c s mode R B. cbv zeta. pose proof (first_shows env sa ca c s mode R B) as H. destruct (String.eqb_spec mode "human") as [->|NH].
  - destruct (no_browser env) as [e|]; [right; split; [reflexivity|]; exists e; rewrite H; auto|left; apply H].
  - left. apply H.
Qed.
Print Assumptions C57_first.

(** which viewer is kept after a program: the one of the first mode that could be opened *)
Inductive opens (l : list act) : string -> Prop :=
| opens_intro l1 env mode l2 : l = l1 ++ Render env mode :: l2 ->
    (mode = "ascii"%string \/ mode = "human"%string /\ no_browser env = None) ->
    (forall env' mode', In (Render env' mode') l1 -> mode' <> "ascii"%string /\ (mode' = "human"%string -> no_browser env' <> None)) -> opens l mode.
Lemma acts_kept sa ca c : 0 <= sumZ (num_community_cards c) -> forall l s, reachable c s -> all_allowed c s (plays_of l) = true ->
  match snd (do_acts sa ca c (s, None) l) with
  | Some v => exists mode, opens l mode /\ viewer_of sa ca c mode v
  | None => forall env mode, In (Render env mode) l -> mode <> "ascii"%string /\ (mode = "human"%string -> no_browser env <> None)
  end.
Proof.
  intros B. induction l as [|a l IH] using rev_ind; intros s R A; [intros ? ? []|].
  unfold do_acts in *. rewrite fold_left_app. cbn [fold_left].
  assert (A1 : all_allowed c s (plays_of l) = true).
  { unfold plays_of in A. rewrite flat_map_app in A. clear - A. set (q := flat_map _ [a]) in A. clearbody q. revert s A. unfold plays_of. set (p := flat_map _ l) in *. clearbody p. induction p as [|o p IH]; intros s A; [reflexivity|].
    cbn [app all_allowed] in *. destruct (allowedb c s o); [|discriminate A]. now apply IH. }
  specialize (IH s R A1).
  assert (RL : reachable c (fst (do_acts sa ca c (s, None) l))) by (rewrite C57_game_unchanged; now apply run_reachable).
  unfold do_acts in RL. destruct (fold_left (do_act sa ca c) l (s, None)) as [s1 kept]. cbn [fst snd] in *.
  assert (X : forall m, opens l m -> opens (l ++ [a]) m).
  { intros m [l1 env m' l2 L M N]. apply (opens_intro _ l1 env m' (l2 ++ [a])); [rewrite L, <- app_assoc; reflexivity|exact M|exact N]. }
  destruct a as [o|env mode]; cbn [do_act fst snd].
  - destruct kept as [v|]; [destruct IH as (m & M1 & M2); exists m; auto|]. intros env mode I. apply in_app_iff in I. destruct I as [I|[I|[]]]; [now apply (IH env)|discriminate I].
  - destruct kept as [v|].
    + destruct IH as (m & M1 & M2). cbn [render fst]. exists m. auto.
    + pose proof (first_shows env sa ca c s1 mode RL B) as H. destruct (render env sa ca c s1 None mode) as [kept res]. cbn [fst snd] in H.
      assert (N : forall env' mode', In (Render env' mode') (l ++ [Render env mode]) -> In (Render env' mode') l \/ env' = env /\ mode' = mode).
      { intros env' mode' I. apply in_app_iff in I. destruct I as [I|[I|[]]]; [now left|right]. now injection I as -> ->. }
      destruct (String.eqb_spec mode "human") as [->|NH].
      * destruct (no_browser env) as [e|] eqn:NB.
        -- injection H as -> ->. cbn [fst]. intros env' mode' I. apply N in I. destruct I as [I|(-> & ->)]; [now apply (IH env')|]. split; [discriminate|]. intros _. congruence.
        -- destruct H as [_ H]. destruct kept as [v|]; cbn [fst]; [|destruct H as [_ H]; now elim H]. exists "human"%string. split; [|exact H].
           apply (opens_intro _ l env "human" []); [reflexivity|now right|exact IH].
      * destruct H as [_ H]. destruct kept as [v|]; cbn [fst].
        -- exists mode. split; [|exact H]. apply (opens_intro _ l env mode []); [reflexivity| |exact IH]. destruct H as [(-> & _)|(-> & _)]; [now left|now elim NH].
        -- intros env' mode' I. apply N in I. destruct I as [I|(-> & ->)]; [now apply (IH env')|]. split; [apply H|]. intros X1. now elim NH.
Qed.
(** In a program that always asks for the same mode every rendering does what was asked for, from the moment
    the viewer can be opened. *)
Theorem C57_partial : forall seat_at commit_at c s l mode env, reachable c s -> 0 <= sumZ (num_community_cards c) ->
  all_allowed c s (plays_of l) = true -> (forall env' mode', In (Render env' mode') l -> mode' = mode) ->
  let st := do_acts seat_at commit_at c (s, None) l in
  let res := snd (render env seat_at commit_at c (fst st) (snd st) mode) in
  as_asked c (run c s (plays_of l)) mode res \/ (mode = "human"%string /\ snd st = None /\ exists e, no_browser env = Some e /\ res = Err e).
Proof.
  intros sa ca c s l mode env R B A M. cbv zeta. rewrite C57_game_unchanged. pose proof (run_reachable c s _ R A) as RL.
  pose proof (acts_kept sa ca c B l s R A) as K. destruct (snd (do_acts sa ca c (s, None) l)) as [v|].
  - left. destruct K as (m & [l1 env' m' l2 L _ _] & V). assert (m' = mode) by (apply (M env'); rewrite L; apply in_app_iff; right; now left). subst m'.
    now apply kept_shows.
  - destruct (C57_first env sa ca c (run c s (plays_of l)) mode RL B) as [H|(H1 & H2)]; [left; exact H|right; auto].
Qed.
Print Assumptions C57_partial.

(** Whatever is asked for, what is shown is the mode that was opened first. *)
Theorem C57_exact : forall seat_at commit_at c s l mode0 mode env, reachable c s -> 0 <= sumZ (num_community_cards c) ->
  all_allowed c s (plays_of l) = true -> opens l mode0 ->
  let st := do_acts seat_at commit_at c (s, None) l in
  as_asked c (run c s (plays_of l)) mode0 (snd (render env seat_at commit_at c (fst st) (snd st) mode)).
Proof.
  intros sa ca c s l mode0 mode env R B A O. cbv zeta. rewrite C57_game_unchanged.
  pose proof (acts_kept sa ca c B l s R A) as K. destruct (snd (do_acts sa ca c (s, None) l)) as [v|].
  - destruct K as (m & O' & V). assert (m = mode0).
    { destruct O as [l1 e1 m1 r1 L1 M1 N1], O' as [l2 e2 m2 r2 L2 M2 N2]. rewrite L1 in L2. clear L1.
      revert l2 L2 N2. induction l1 as [|x l1 IH]; intros [|y l2] L2 N2; cbn [app] in L2.
      - now injection L2 as _ ->.
      - injection L2 as <- _. destruct (N2 e1 m1 (or_introl eq_refl)) as [P Q]. destruct M1 as [M1|[M1 M1']]; [now elim P|now elim (Q M1)].
      - injection L2 as -> _. destruct (N1 e2 m2 (or_introl eq_refl)) as [P Q]. destruct M2 as [M2|[M2 M2']]; [now elim P|now elim (Q M2)].
      - injection L2 as -> L2. apply (IH (fun e m H => N1 e m (or_intror H)) l2 L2 (fun e m H => N2 e m (or_intror H))). }
    subst m. now apply kept_shows.
  - destruct O as [l1 e1 m1 r1 L1 M1 N1]. destruct (K e1 m1) as [P Q]; [rewrite L1; apply in_app_iff; right; now left|]. destruct M1 as [M1|[M1 M1']]; [now elim P|now elim (Q M1)].
Qed.
Print Assumptions C57_exact.

(** As stated the property is false: after the text table was rendered once, asking for the browser prints the text
    table again although a browser could be opened, and an unknown mode raises nothing. *)
Definition all_installed : environment := mkEnv true true true.
Theorem C57_refuted : exists c s, fair c s /\ in_progress s /\ 0 <= sumZ (num_community_cards c) /\ forall seat_at commit_at,
  let st := do_acts seat_at commit_at c (s, None) [Render all_installed "ascii"] in
  let shown mode := snd (render all_installed seat_at commit_at c (fst st) (snd st) mode) in
  no_browser all_installed = None /\ ~ as_asked c s "human" (shown "human"%string) /\ ~ as_asked c s "nonsense" (shown "nonsense"%string) /\
  exists text, shown "human"%string = Ok (Printed text) /\ shown "nonsense"%string = Ok (Printed text).
Proof.
  play no_limit_3 [new_hand] c s E. split; [exact (played_fair _ _ _ _ E)|].
  assert (K : (action s, is_ok (render_ascii c s), 0 <=? sumZ (num_community_cards c)) = (Some 0%nat, true, true)) by plays E.
  injection K as K1 K2 K3. apply Z.leb_le in K3. split; [unfold in_progress; rewrite K1; discriminate|]. split; [exact K3|]. intros sa ca. cbv zeta.
  pose proof (fair_reachable c s (played_fair _ _ _ _ E)) as R. clear E.
  assert (X : forall mode, exists text, render_ascii c s = Ok text /\ snd (render all_installed sa ca c (fst (do_acts sa ca c (s, None) [Render all_installed "ascii"])) (snd (do_acts sa ca c (s, None) [Render all_installed "ascii"])) mode) = Ok (Printed text)).
  { intros mode. destruct (C57_exact sa ca c s [Render all_installed "ascii"] "ascii" mode all_installed R K3 eq_refl) as [H _].
    - apply (opens_intro _ [] all_installed "ascii" []); [reflexivity|now left|intros ? ? []].
    - specialize (H eq_refl). cbn [plays_of flat_map app run fold_left] in H. destruct (render_ascii c s) as [text|]; [|discriminate K2]. exists text. auto. }
  destruct (X "human"%string) as (t1 & T1 & X1), (X "nonsense"%string) as (t2 & T2 & X2). rewrite X1, X2. split; [reflexivity|]. split; [|split].
  - intros (_ & H & _). specialize (H eq_refl). destruct (render_config c s); discriminate H.
  - intros (_ & _ & H). discriminate (H ltac:(discriminate) ltac:(discriminate)).
  - exists t1. rewrite T1 in T2. injection T2 as <-. auto.
Qed.
Print Assumptions C57_refuted.
(** three renderings in a game that always ask for the browser: the first fails for want of the packages *)
Example C57_example : exists c s r, fair c s /\ 0 <= sumZ (num_community_cards c) /\ forall seat_at commit_at,
  let l := [Render (mkEnv false true true) "human"; Play (OStep (PyInt 2)); Render all_installed "human"; Play (OStep (PyInt 1))] in
  let st := do_acts seat_at commit_at c (s, None) l in
  all_allowed c s (plays_of l) = true /\ (forall env' mode', In (Render env' mode') l -> mode' = "human"%string) /\
  snd (render (mkEnv false false false) seat_at commit_at c (fst st) (snd st) "human") = Ok (Sent (jsonify r)) /\
  rc_prev_action r = Some (1%nat, 1, false) /\ rc_stacks r = [18; 18; 18].
Proof.
  play no_limit_3 [new_hand] c s E.
  assert (K : match render_config c (run c s [OStep (PyInt 2); OStep (PyInt 1)]) with Ok r => Some (rc_prev_action r, rc_stacks r, 0 <=? sumZ (num_community_cards c)) | Err _ => None end = Some (Some (1%nat, 1, false), [18; 18; 18], true)) by plays E.
  destruct (render_config c (run c s [OStep (PyInt 2); OStep (PyInt 1)])) as [r|] eqn:Er; [|discriminate K]. injection K as K1 K2 K3. apply Z.leb_le in K3.
  exists r. pose proof (played_fair _ _ _ _ E) as F. clear E. split; [exact F|]. split; [exact K3|]. intros sa ca. cbv zeta. split; [reflexivity|].
  set (l := [Render (mkEnv false true true) "human"; Play (OStep (PyInt 2)); Render all_installed "human"; Play (OStep (PyInt 1))]).
  assert (M : forall env' mode', In (Render env' mode') l -> mode' = "human"%string).
  { intros env' mode' I. cbn in I. repeat (destruct I as [I|I]; [first [discriminate I|injection I; intros; subst; reflexivity]|]). destruct I. }
  split; [exact M|]. split; [|auto].
  destruct (C57_exact sa ca c s l "human" "human" (mkEnv false false false) (fair_reachable _ _ F) K3 eq_refl) as (_ & H & _).
  - apply (opens_intro _ [Render (mkEnv false true true) "human"; Play (OStep (PyInt 2))] all_installed "human" [Play (OStep (PyInt 1))]); [reflexivity|right; split; reflexivity|].
    intros env' mode' I. cbn in I. destruct I as [I|[I|[]]]; [|discriminate I]. injection I as <- <-. split; [discriminate|]. intros _ X. discriminate X.
  - specialize (H eq_refl). rewrite H. cbn [plays_of l flat_map app]. now rewrite Er.
Qed.

(** ** C59 in a game *)
Record shown_inv (c : config) (s : state) : Prop := mkShownInv {
  sh_full : Forall genuine (d_full (the_deck s));
  sh_deck : Forall genuine (d_cards (the_deck s));
  sh_hole : Forall genuine (List.concat (hole_cards s));
  sh_board : Forall genuine (community_cards s);
  sh_hands : Forall (fun h => (List.length h <= Z.to_nat (num_hole_cards c))%nat) (hole_cards s);
  sh_dealt : (List.length (hole_cards s) <= num_players c)%nat;
  sh_count : (List.length (community_cards s) <= comm_total c (street s))%nat
}.
Lemma firstn_genuine k l : Forall genuine l -> Forall genuine (firstn k l).
Proof. intros F. rewrite <- (firstn_skipn k l) in F. now apply Forall_app in F. Qed.
Lemma skipn_genuine k l : Forall genuine l -> Forall genuine (skipn k l).
Proof. intros F. rewrite <- (firstn_skipn k l) in F. now apply Forall_app in F. Qed.
Lemma shuffle_genuine rnd d : Forall genuine (d_full d) -> Forall genuine (d_cards (deck_shuffle rnd d)).
Proof.
  intros F. rewrite Forall_forall in *. intros x X. unfold deck_shuffle in X. cbn [d_cards] in X. destruct (d_tricked d && _ && _).
  - apply in_app_iff in X. destruct X as [X|X]; [apply F; eapply at_idcs_in; exact X|]. apply F. eapply at_idcs_in. eapply Permutation_in; [apply Permutation_sym, shuf_perm|exact X].
  - apply F. eapply Permutation_in; [apply Permutation_sym, shuf_perm|exact X].
Qed.
Lemma shown_reachable c s : reachable c s -> shown_inv c s.
Proof.
  intros R. pose proof (reachable_cfg c s R) as W. induction R as [w rnd s H|s o R IH Ho].
  - apply Dealer_inv in H. pose proof (bd_deck _ _ _ _ H) as D. rewrite (bd_state _ _ _ _ H). 
    assert (F : Forall genuine (d_full (the_deck s)) /\ Forall genuine (d_cards (the_deck s))).
    { unfold Deck in D. destruct (_ || _); [discriminate D|]. destruct (_ || _); [discriminate D|].
      destruct (deck_full (rw_num_suits w) (rw_num_ranks w)) as [full|] eqn:E; [|discriminate D]. cbn [bind] in D. injection D as D. rewrite <- D.
      assert (G : Forall genuine full).
      { unfold deck_full in E. apply map_res_ok in E. clear - E. induction E as [|x y l l' X _ IH]; constructor; [eexists; exact X|exact IH]. }
      split; [exact G|]. now apply shuffle_genuine. }
    split; cbn [the_deck hole_cards community_cards List.concat List.length]; try apply F; try constructor; lia.
  - pose proof (reachable_wf c s R) as I. destruct o as [rnd rb rs|b|cs| |l]; cbn [apply_op].
    + destruct (reset_spec c s rnd rb rs W I) as [(E1 & E2 & E3)|[(E1 & E2)|(E1 & E2 & E3 & E)]].
      * unfold reset. subst rs. cbn [reset_active fst] in *.
        replace (negb false && (count_true (map (fun x => 0 <? x) (stacks s)) <=? 1)) with true by (cbn [negb andb]; lia).
        destruct IH. split; assumption.
      * assert (Ecc : num_community_cards c = []) by (apply length_zero_iff_nil; rewrite (cw_comm _ W); exact E1).
        unfold reset. rewrite Ecc. destruct (reset_active c s rs) as [act stk]. destruct (negb rs && _); destruct IH; (split; [assumption| |assumption..]); [assumption|]. cbn [fst the_deck]. now apply shuffle_genuine.
      * set (s' := fst (reset c s rnd rb rs)) in *. pose proof (shuffle_genuine rnd _ (sh_full _ _ IH)) as G. 
        split.
        -- rewrite (re_deck _ _ _ _ _ _ E). cbn [set_cards d_full deck_shuffle]. apply (sh_full _ _ IH).
        -- rewrite (re_deck _ _ _ _ _ _ E). cbn [set_cards d_cards]. now apply skipn_genuine.
        -- rewrite (re_hole _ _ _ _ _ _ E). now apply firstn_genuine, skipn_genuine.
        -- rewrite (re_comm _ _ _ _ _ _ E). now apply firstn_genuine.
        -- apply Forall_forall. intros h Hh. apply (In_nth _ _ []) in Hh. destruct Hh as (i & L & <-). rewrite (re_hole_len _ _ _ _ _ _ E) in L. rewrite (re_hole_nth _ _ _ _ _ _ E i L). apply firstn_le_length.
        -- rewrite (re_hole_len _ _ _ _ _ _ E). lia.
        -- rewrite (re_comm _ _ _ _ _ _ E), (re_street _ _ _ _ _ _ E). apply firstn_le_length.
    + destruct (comm_run c [b] W s) as [K1 K2]. change (run_steps c s [b]) with (fst (step c s b)) in *. pose proof (step_street_mono c s b W) as Mono.
      assert (Hh : hole_cards (fst (step c s b)) = hole_cards s /\ d_full (the_deck (fst (step c s b))) = d_full (the_deck s)).
      { destruct (action s) as [a|] eqn:Ha; [|unfold step; rewrite Ha; split; reflexivity].
        destruct (step_take c s b a W Ha) as [(-> & _)|(call & mi & ma & bet & folds & s1 & H1 & P)]; [split; reflexivity|].
        pose proof (sp_bet _ _ _ _ _ _ _ _ _ _ _ P) as B. rewrite (sp_hole _ _ _ _ _ _ _ _ _ _ _ P), (be_hole _ _ _ _ _ _ _ _ _ _ B). split; [reflexivity|].
        rewrite (sp_deck _ _ _ _ _ _ _ _ _ _ _ P). destruct (settle_cases c s1 W) as [[_ E2]|[_ E2]].
        - rewrite E2, (be_deck _ _ _ _ _ _ _ _ _ _ B). reflexivity.
        - rewrite (se_deck _ _ _ (ne_street _ _ _ E2)), (be_deck _ _ _ _ _ _ _ _ _ _ B). reflexivity. }
      destruct Hh as [Hh Hf]. destruct IH as [G1 G2 G3 G4 G5 G6 G7]. split; rewrite ?Hh, ?Hf, ?K1, ?K2; try assumption.
      * now apply skipn_genuine.
      * apply Forall_app. split; [assumption|now apply firstn_genuine].
      * rewrite app_length. pose proof (firstn_le_length (comm_total c (street (fst (step c s b))) - comm_total c (street s)) (d_cards (the_deck s))) as L.
        pose proof (comm_total_mono c _ _ Mono). lia.
    + destruct (deck_trick cs (the_deck s)) as [d'|] eqn:Et; [|exact IH].
      unfold deck_trick in Et. destruct (map_res _ cs) as [idcs|]; [|discriminate Et]. injection Et as <-. destruct IH. split; assumption.
    + destruct IH. split; assumption.
    + destruct IH. split; assumption.
Qed.
Lemma comm_total_all c k : Forall (fun x => 0 <= x) (num_community_cards c) -> (comm_total c k <= Z.to_nat (sumZ (num_community_cards c)))%nat.
Proof.
  unfold comm_total. generalize (S k) as m. induction (num_community_cards c) as [|x l IH]; intros m F; [destruct m; cbn; lia|].
  inversion F as [|? ? X Y]; subst. destruct m; [cbn; lia|]. cbn [firstn map list_sum fold_right]. specialize (IH m Y). unfold list_sum in IH. rewrite sumZ_cons.
  assert (0 <= sumZ l) by (clear - Y; induction Y as [|y l Y1 _ IH]; [reflexivity|]; rewrite sumZ_cons; lia). lia.
Qed.
(** Whatever the dealer renders fits the page made for its game, and after the first hand began all hands are there. *)
Theorem C59_dealer : forall c s r, reachable c s -> Forall (fun x => 0 <= x) (num_community_cards c) -> render_config c s = Ok r ->
  let nh := Z.to_nat (num_hole_cards c) in
  let nc := Z.to_nat (sumZ (num_community_cards c)) in
  drawable (num_players c) nh nc r /\ (List.length (hole_cards s) = num_players c -> for_page (num_players c) nh nc r).
Proof.
  intros c s r R N E. cbv zeta. pose proof (reachable_wf c s R) as W. pose proof (shown_reachable c s R) as S. unfold render_config in E. destruct (payouts c s) as [pay|]; [|discriminate E]. injection E as <-.
  assert (D : drawable (num_players c) (Z.to_nat (num_hole_cards c)) (Z.to_nat (sumZ (num_community_cards c)))
     (mkRConfig (match action s with Some a => Z.of_nat a | None => -1 end) (active s) (map (fun p => fst p && (snd p =? 0)) (combine (active s) (stacks s)))
        (community_cards s) (Z.of_nat (button s)) (all_true (done_list c s)) (hole_cards s) (pot s) pay (match rev (history s) with h :: _ => Some h | [] => None end) (street_commits s) (stacks s))).
  { split; cbn [rc_active rc_all_in rc_hole_cards rc_payouts rc_street_commits rc_stacks rc_button rc_action rc_done rc_community_cards].
    - apply (wf_active _ _ W).
    - apply (wf_street _ _ W).
    - apply (wf_stacks _ _ W).
    - apply (sh_dealt _ _ S).
    - pose proof (wf_button _ _ W). lia.
    - destruct (action s) as [a|] eqn:A; [pose proof (proj1 (wf_turn _ _ W a A)); lia|lia].
    - apply (sh_hands _ _ S).
    - pose proof (sh_count _ _ S). pose proof (comm_total_all c (street s) N). lia. }
  split; [exact D|]. intros H. split; [exact D|exact H|]. split; [apply (sh_hole _ _ S)|apply (sh_board _ _ S)].
Qed.
Print Assumptions C59_dealer.

(** A page open during a game: it got what the dealer rendered at any earlier moments and shows the state rendered last. *)
Theorem C59_game : forall seat_at commit_at c ss s rs r, Forall2 (fun s r => reachable c s /\ render_config c s = Ok r) ss rs ->
  reachable c s -> render_config c s = Ok r -> List.length (hole_cards s) = num_players c ->
  0 <= num_hole_cards c -> Forall (fun x => 0 <= x) (num_community_cards c) ->
  exists e0 e, base_svg (Z.of_nat (num_players c)) (num_hole_cards c) (sumZ (num_community_cards c)) seat_at commit_at = Ok e0 /\
    receive (map Some rs ++ [Some r]) e0 = Ok e /\ NoDup (ids e) /\
    page_shows (num_players c) (Z.to_nat (num_hole_cards c)) (Z.to_nat (sumZ (num_community_cards c))) r e /\
    rc_stacks r = stacks s /\ rc_street_commits r = street_commits s /\ rc_hole_cards r = hole_cards s /\ rc_active r = active s /\
    rc_community_cards r = community_cards s /\ rc_pot r = pot s /\ rc_button r = Z.of_nat (button s) /\ rc_action r = match action s with Some a => Z.of_nat a | None => -1 end.
Proof.
  intros sa ca c ss s rs r F R E H NH NC. pose proof (proj2 (C59_dealer c s r R NC E) H) as P.
  assert (NS : 0 <= sumZ (num_community_cards c)) by (clear - NC; induction NC as [|y l Y1 _ IH]; [reflexivity|]; rewrite sumZ_cons; lia).
  destruct (C59_page (num_players c) (Z.to_nat (num_hole_cards c)) (Z.to_nat (sumZ (num_community_cards c))) sa ca (map Some rs) r) as (e0 & e & E0 & E1 & E2 & E3).
  - clear - F NC. induction F as [|s r ss rs (S1 & S2) _ IH]; constructor; [exact (proj1 (C59_dealer c s r S1 NC S2))|exact IH].
  - exact P.
  - rewrite !Z2Nat.id in E0 by assumption. exists e0, e. split; [exact E0|]. split; [exact E1|]. split; [exact E2|]. split; [exact E3|].
    unfold render_config in E. destruct (payouts c s); [|discriminate E]. injection E as <-. repeat split.
Qed.
Print Assumptions C59_game.
Lemma page_reads n nh nc e i v w : bare e = sk_page n nh nc -> reads e i v -> reads e i w -> v = w.
Proof.
  intros B (x & [X1 X2] & <-) (y & [Y1 Y2] & <-). apply inside_path in X1, Y1. destruct X1 as (p & P), Y1 as (q & Q).
  assert (p = q).
  { apply (sk_unique n nh nc p q (bare x) (bare y) i); rewrite <- ?B, ?at_path_bare, ?P, ?Q; try reflexivity; [destruct x|destruct y]; assumption. }
  subst q. rewrite P in Q. now injection Q as ->.
Qed.
(** Before the first hand the page is wrong: the configuration has no hole cards, and the page writes stacks only for
    players with an entry there.  A new dealer with 20 chips for everybody is shown with 0 chips. *)
Theorem C59_refuted : exists c s r, fair c s /\ render_config c s = Ok r /\ drawable (num_players c) (Z.to_nat (num_hole_cards c)) (Z.to_nat (sumZ (num_community_cards c))) r /\
  rc_stacks r = [20; 20; 20] /\ forall seat_at commit_at, exists e0 e,
    base_svg (Z.of_nat (num_players c)) (num_hole_cards c) (sumZ (num_community_cards c)) seat_at commit_at = Ok e0 /\ receive [Some r] e0 = Ok e /\
    NoDup (ids e) /\ reads e (name1 "chips-text" 0) (ustr "0") /\
    ~ page_shows (num_players c) (Z.to_nat (num_hole_cards c)) (Z.to_nat (sumZ (num_community_cards c))) r e.
Proof.
  play no_limit_3 (@nil op) c s E.
  assert (K : (num_players c, num_hole_cards c, num_community_cards c, stacks s, match render_config c s with Ok r => Some (last_text (NChipsText 0) (w_reset 3 1 1 ++ w_update (jsonify r))) | Err _ => None end) =
     (3%nat, 1, [0; 1], [20; 20; 20], Some (Some (ustr "0")))) by plays E.
  injection K as K1 K2 K3 K5 K6. destruct (render_config c s) as [r|] eqn:Er; [|discriminate K6]. injection K6 as K6. exists r. pose proof (played_fair _ _ _ _ E) as F. clear E.
  split; [exact F|]. split; [reflexivity|]. pose proof (fair_reachable _ _ F) as R.
  destruct (C59_dealer c s r R) as [D _]; [rewrite K3; repeat constructor; lia|exact Er|]. split; [exact D|].
  assert (X : rc_stacks r = stacks s) by (unfold render_config in Er; destruct (payouts c s); [|discriminate Er]; injection Er as <-; reflexivity).
  split; [rewrite X; exact K5|]. rewrite K1, K2, K3 in *. change (Z.to_nat (sumZ [0; 1])) with 1%nat in *. change (Z.to_nat 1) with 1%nat in *. change (sumZ [0; 1]) with 1. intros sa ca.
  pose proof (bare_drawing 3 1 1 sa ca ltac:(lia)) as B. set (e0 := drawing 3 1 1 sa ca) in *. exists e0.
  pose proof (on_config_does 3 1 1 _ (drawable_suits _ _ _ _ D) e0 B) as O. set (e := apply 3 _ e0) in *.
  assert (B' : bare e = sk_page 3 1 1) by (unfold e; now rewrite bare_apply).
  assert (RD : reads e (name1 "chips-text" 0) (ustr "0")).
  { change (name1 "chips-text" 0) with (show (NChipsText 0)). unfold e. apply (read_after 3 1 1); [exact B|exact (W_fit 3 1 1 _ (drawable_suits _ _ _ _ D))|cbn; lia|exact K6]. }
  exists e. split; [apply base_svg_form; lia|]. split; [unfold receive; cbn [fold_res option_map]; rewrite O; reflexivity|].
  split; [now apply (page_nodup 3 1 1)|]. split; [exact RD|]. intros P. pose proof (ps_stack _ _ _ _ _ P 0%nat ltac:(lia)) as Q. rewrite X, K5 in Q.
  pose proof (page_reads _ _ _ _ _ _ _ B' RD Q) as Y. vm_compute in Y. discriminate Y.
Qed.
Print Assumptions C59_refuted.
(** a game in which the page was opened before the first hand and got three renderings *)
Example C59_example_game : exists c s0, fair c s0 /\
  let s1 := run c s0 [new_hand] in
  let s := run c s0 (new_hand :: bets [20; -1]) in
  hole_cards s0 = [] /\ stacks s = [0; 19; 18] /\
  exists r0 r1 r, render_config c s0 = Ok r0 /\ render_config c s1 = Ok r1 /\ render_config c s = Ok r /\
  forall seat_at commit_at, exists e0 e, base_svg (Z.of_nat (num_players c)) (num_hole_cards c) (sumZ (num_community_cards c)) seat_at commit_at = Ok e0 /\ receive [Some r0; Some r1; Some r] e0 = Ok e /\
    reads e "chips-text-1" (ustr "19") /\ reads e "chips-text-0" (ustr "0") /\ reads e "street-commit-text-0" (ustr "20") /\ painted e "player-background-2" "#000000".
Proof.
  play no_limit_3 (@nil op) c s0 E. split; [exact (played_fair _ _ _ _ E)|]. cbv zeta. set (ops := new_hand :: bets [20; -1]).
  assert (K1 : hole_cards s0 = []) by plays E. assert (K2 : stacks (run c s0 ops) = [0; 19; 18]) by plays E. assert (K3 : List.length (hole_cards (run c s0 ops)) = 3%nat) by plays E.
  assert (K4 : num_players c = 3%nat) by plays E. assert (K5 : num_hole_cards c = 1) by plays E. assert (K6 : num_community_cards c = [0; 1]) by plays E.
  assert (K7 : is_ok (render_config c s0) = true) by plays E. assert (K8 : is_ok (render_config c (run c s0 [new_hand])) = true) by plays E. assert (K9 : is_ok (render_config c (run c s0 ops)) = true) by plays E.
  assert (K10 : all_allowed c s0 [new_hand] = true) by plays E. assert (K11 : all_allowed c s0 ops = true) by plays E.
  assert (K12 : street_commits (run c s0 ops) = [20; 1; 2]) by plays E. assert (K13 : action (run c s0 ops) = Some 2%nat) by plays E.
  pose proof (fair_reachable _ _ (played_fair _ _ _ _ E)) as R. clear E.
  split; [exact K1|]. split; [exact K2|].
  destruct (render_config c s0) as [r0|] eqn:E0; [|discriminate K7]. destruct (render_config c (run c s0 [new_hand])) as [r1|] eqn:E1; [|discriminate K8]. destruct (render_config c (run c s0 ops)) as [r|] eqn:E2; [|discriminate K9].
  exists r0, r1, r. split; [reflexivity|]. split; [reflexivity|]. split; [reflexivity|]. intros sa ca.
  destruct (C59_game sa ca c [s0; run c s0 [new_hand]] (run c s0 ops) [r0; r1] r) as (e0 & e & X0 & X1 & _ & P & Q1 & Q2 & _ & _ & _ & _ & _ & Q8).
  - constructor; [split; [exact R|exact E0]|]. constructor; [split; [now apply run_reachable|exact E1]|constructor].
  - now apply run_reachable.
  - exact E2.
  - now rewrite K3, K4.
  - rewrite K5. lia.
  - rewrite K6. repeat constructor; lia.
  - exists e0, e. split; [exact X0|]. split; [exact X1|]. rewrite K4 in P.
    pose proof (ps_stack _ _ _ _ _ P 1%nat ltac:(lia)) as P1. pose proof (ps_stack _ _ _ _ _ P 0%nat ltac:(lia)) as P2. pose proof (ps_bet _ _ _ _ _ P 0%nat ltac:(lia)) as P3. pose proof (ps_turn _ _ _ _ _ P 2%nat ltac:(lia)) as P4.
    rewrite Q1, K2 in P1, P2. rewrite Q2, K12 in P3. rewrite Q8, K13 in P4. split; [exact P1|]. split; [exact P2|]. split; [exact P3|exact P4].
Qed.

(** ** C60: every browser that has the table open *)
(** the configurations rendered in a history *)
Definition rendered (l : list event) : list jconfig := flat_map (fun e => match e with ERender j => [j] | _ => [] end) l.
(** nothing is on its way any more *)
Definition settled (w : server) : Prop := sv_pipe w = [] /\ sv_emit w = None /\ Forall (fun k => cl_inbox k = []) (sv_clients w).
(** the page after some messages *)
Definition handle (ms : list (option jconfig)) (e : elem) : result elem := fold_res (fun e m => on_config m e) ms e.
(** message number 0 is the empty configuration, number [i] the one rendered as the [i]-th *)
Definition message (js : list jconfig) (i : nat) : option jconfig := match i with O => None | S i => nth_error js i end.
(** never an older one after a newer one *)
Definition in_order (is_ : list nat) : Prop := forall a b x y, (a <= b)%nat -> nth_error is_ a = Some x -> nth_error is_ b = Some y -> (x <= y)%nat.

Definition clients_ok (svg : elem) (js : list jconfig) (read : nat) (pending : bool) (k : client) : Prop :=
  exists got todo, handle (map (message js) got) svg = Ok (cl_page k) /\ cl_inbox k = map (message js) todo /\ in_order (got ++ todo) /\
    got ++ todo <> [] /\ Forall (fun i => (i <= read)%nat) (got ++ todo) /\ (pending = false -> last (got ++ todo) O = read).
Record served (svg : elem) (js : list jconfig) (w : server) (read : nat) : Prop := mkServed {
  se_read : (read <= List.length js)%nat;
  se_pipe : sv_pipe w = skipn read js;
  se_config : sv_config w = message js read;
  se_emit : match sv_emit w with Some j => Some j = message js read | None => True end;
  se_clients : Forall (clients_ok svg js read (match sv_emit w with Some _ => true | None => false end)) (sv_clients w)
}.
Lemma in_order_snoc l x : in_order l -> Forall (fun i => (i <= x)%nat) l -> in_order (l ++ [x]).
Proof.
  intros Ho F a b y z L A B. destruct (Nat.lt_ge_cases b (List.length l)) as [X|X].
  - rewrite nth_error_app1 in A, B by lia. now apply (Ho a b).
  - rewrite nth_error_app2 in B by lia. destruct (b - List.length l)%nat as [|m] eqn:E; [|destruct m; discriminate B]. injection B as <-.
    destruct (Nat.lt_ge_cases a (List.length l)) as [Y|Y]; [rewrite nth_error_app1 in A by lia; rewrite Forall_forall in F; apply F; eapply nth_error_In; exact A|].
    rewrite nth_error_app2 in A by lia. replace (a - List.length l)%nat with O in A by lia. injection A as <-. lia.
Qed.
Lemma message_app js j i : (i <= List.length js)%nat -> message (js ++ [j]) i = message js i.
Proof. intros L. destruct i as [|i]; [reflexivity|]. cbn [message]. now rewrite nth_error_app1 by lia. Qed.
Lemma messages_app js j l n : Forall (fun i => (i <= n)%nat) l -> (n <= List.length js)%nat -> map (message (js ++ [j])) l = map (message js) l.
Proof. intros F L. apply map_ext_in. intros i I. rewrite Forall_forall in F. apply message_app. specialize (F i I). lia. Qed.
Lemma handle_app ms m e e1 : handle ms e = Ok e1 -> handle (ms ++ [m]) e = on_config m e1.
Proof.
  unfold handle. revert e. induction ms as [|m' ms IH]; intros e H; cbn [app fold_res] in *.
  - injection H as ->. destruct (on_config m e1); reflexivity.
  - destruct (on_config m' e) as [e2|]; [|discriminate H]. cbn [bind] in *. now apply IH.
Qed.
Lemma receive_ok svg js read p k : (read <= List.length js)%nat -> clients_ok svg js read p k ->
  clients_ok svg js read false (mkClient (cl_page k) (cl_inbox k ++ [message js read])).
Proof.
  intros L (got & todo & H1 & H2 & H3 & H4 & H5 & _). exists got, (todo ++ [read]). cbn [cl_page cl_inbox].
  split; [exact H1|]. split; [rewrite H2, map_app; reflexivity|]. rewrite app_assoc. split; [now apply in_order_snoc|]. split; [intros X; now apply app_eq_nil in X|].
  split; [apply Forall_app; split; [exact H5|constructor; [lia|constructor]]|]. intros _. apply last_last.
Qed.
Lemma rendered_cons e l : rendered (e :: l) = rendered [e] ++ rendered l.
Proof. unfold rendered. cbn [flat_map]. now rewrite app_nil_r. Qed.
Section Served.
Variables (n nh nc : nat) (svg : elem).
Hypothesis B : bare svg = sk_page n nh nc.
Lemma suits_message js m : Forall (suits_page n nh nc) js -> forall i, m = message js i -> match m with Some j => suits_page n nh nc j | None => True end.
Proof. intros F i ->. destruct i as [|i]; cbn [message]; [exact I|]. destruct (nth_error js i) as [j|] eqn:E; [|exact I]. rewrite Forall_forall in F. apply F. eapply nth_error_In. exact E. Qed.
Lemma handle_keeps ms e : Forall (fun m => match m with Some j => suits_page n nh nc j | None => True end) ms -> bare e = sk_page n nh nc ->
  exists e', handle ms e = Ok e' /\ bare e' = sk_page n nh nc.
Proof.
  intros F. revert e. induction F as [|m ms M _ IH]; intros e E; [exists e; auto|]. unfold handle in *. cbn [fold_res]. destruct m as [j|].
  - rewrite (on_config_does n nh nc _ M e E). cbn [bind]. apply IH. now rewrite bare_apply.
  - rewrite (on_config_empty_does n nh nc e E). cbn [bind]. apply IH. now rewrite bare_apply.
Qed.
Lemma served_step js w read e w' : Forall (suits_page n nh nc) js -> served svg js w read -> happen svg e w = Some w' ->
  Forall (suits_page n nh nc) (js ++ rendered [e]) -> exists read', served svg (js ++ rendered [e]) w' read'.
Proof.
  intros FS [S1 S2 S3 S4 S5] H FS'. destruct e as [j| | | |i|i]; cbn [happen rendered flat_map app] in *; rewrite ?app_nil_r in *.
  - injection H as <-. exists read. split; cbn [sv_pipe sv_config sv_emit sv_clients].
    + rewrite app_length. lia.
    + rewrite S2, skipn_app. replace (read - List.length js)%nat with O by lia. reflexivity.
    + now rewrite message_app.
    + destruct (sv_emit w); [|exact I]. now rewrite message_app.
    + eapply Forall_impl; [|exact S5]. intros k (got & todo & H1 & H2 & H3 & H4 & H5 & H6). exists got, todo. apply Forall_app in H5 as H7. destruct H7 as [H7 H8].
      rewrite !(messages_app js j _ read) by assumption. auto 10.
  - destruct (sv_emit w) as [x|] eqn:Em; [discriminate H|]. destruct (sv_pipe w) as [|j r] eqn:Ep; [discriminate H|]. injection H as <-. exists (S read).
    assert (L : (read < List.length js)%nat) by (pose proof (f_equal (@List.length _) S2) as X; rewrite skipn_length in X; cbn in X; lia).
    assert (N : nth_error js read = Some j /\ skipn (S read) js = r).
    { clear - S2 L. revert js S2 L. induction read as [|m IH]; intros [|y l] S2 L; cbn in L; try lia; [cbn in S2; injection S2 as <- <-; auto|]. cbn [skipn] in S2. apply (IH l); [exact S2|lia]. }
    destruct N as [N1 N2]. split; cbn [sv_pipe sv_config sv_emit sv_clients message]; [lia|now symmetry|now symmetry|now symmetry|].
    eapply Forall_impl; [|exact S5]. intros k (got & todo & H1 & H2 & H3 & H4 & H5 & H6). exists got, todo.
    split; [exact H1|]. split; [exact H2|]. split; [exact H3|]. split; [exact H4|]. split; [|intros X; discriminate X]. eapply Forall_impl; [|exact H5]. cbn. lia.
  - destruct (sv_emit w) as [j|] eqn:Em; [|discriminate H]. injection H as <-. exists read. split; cbn [sv_pipe sv_config sv_emit sv_clients]; try assumption; [exact I|].
    unfold broadcast. apply Forall_map. eapply Forall_impl; [|exact S5]. intros k K. rewrite S4. now apply receive_ok with true.
  - injection H as <-. exists read. split; cbn [sv_pipe sv_config sv_emit sv_clients]; try assumption.
    unfold broadcast. apply Forall_map. rewrite S3. set (p := match sv_emit w with Some _ => true | None => false end) in *.
    apply Forall_app. split.
    + eapply Forall_impl; [|exact S5]. intros k K. apply receive_ok with (p := p) in K; [|exact S1]. destruct K as (got & todo & H1 & H2 & H3 & H4 & H5 & H6). exists got, todo. auto 10.
    + constructor; [|constructor]. exists [], [read]. cbn [map cl_page cl_inbox app last]. split; [reflexivity|]. split; [reflexivity|]. split; [apply in_order_snoc with (l := []); [intros ? ? ? ? _ X; destruct a; discriminate X|constructor]|].
      split; [discriminate|]. split; [constructor; [lia|constructor]|reflexivity].
  - destruct (nth_error (sv_clients w) i) as [[page [|m r]]|] eqn:Ec; try discriminate H. injection H as <-. exists read. split; cbn [sv_pipe sv_config sv_emit sv_clients]; try assumption.
    assert (K : clients_ok svg js read (match sv_emit w with Some _ => true | None => false end) (mkClient (match on_config m page with Ok p => p | Err _ => page end) r)).
    { rewrite Forall_forall in S5. destruct (S5 _ (nth_error_In _ _ Ec)) as (got & todo & H1 & H2 & H3 & H4 & H5 & H6). cbn [cl_page cl_inbox] in *. destruct todo as [|t todo]; [discriminate H2|]. cbn [map] in H2. injection H2 as M R.
      exists (got ++ [t]), todo. cbn [cl_page cl_inbox]. rewrite <- !app_assoc. cbn [app]. split; [|auto].
      rewrite map_app. cbn [map]. rewrite (handle_app _ _ _ _ H1), M.
      assert (FM : Forall (fun m => match m with Some j => suits_page n nh nc j | None => True end) (map (message js) (got ++ [t]))) by (apply Forall_map, Forall_forall; intros x _; eapply (suits_message js); [exact FS|reflexivity]).
      destruct (handle_keeps _ svg FM B) as (e' & E' & _). rewrite map_app in E'. cbn [map] in E'. rewrite (handle_app _ _ _ _ H1) in E'. now rewrite E'. }
    clear - S5 K. revert i. induction S5 as [|x l X F IH]; intros i; [destruct i; constructor|]. destruct i; cbn [upd]; constructor; auto.
  - destruct (Nat.ltb i (List.length (sv_clients w))); [|discriminate H]. injection H as <-. exists read. split; cbn [sv_pipe sv_config sv_emit sv_clients]; try assumption.
    clear - S5. revert i. induction S5 as [|x l X F IH]; intros i; [destruct i; constructor|]. destruct i; cbn [remove_nth]; [assumption|constructor; auto].
Qed.
Lemma served_all l : forall js w read w', Forall (suits_page n nh nc) (js ++ rendered l) -> served svg js w read -> happen_all svg l w = Some w' ->
  exists read', served svg (js ++ rendered l) w' read'.
Proof.
  induction l as [|e l IH]; intros js w read w' F S H.
  - cbn in *. injection H as <-. rewrite app_nil_r. now exists read.
  - cbn [happen_all] in H. destruct (happen svg e w) as [w1|] eqn:E; [|discriminate H]. rewrite rendered_cons in *. rewrite app_assoc in *.
    apply Forall_app in F as F'. destruct F' as [F1 _]. apply Forall_app in F1 as F2. destruct F2 as [F2 _]. destruct (served_step js w read e w1 F2 S E F1) as (read1 & S1). now apply (IH _ w1 read1).
Qed.
End Served.
Lemma served_start svg : served svg [] server_start 0.
Proof. split; cbn; try reflexivity; constructor. Qed.
Lemma start_served n nh nc sa ca svg l w rs : base_svg (Z.of_nat n) (Z.of_nat nh) (Z.of_nat nc) sa ca = Ok svg ->
  rendered l = map jsonify rs -> Forall (drawable n nh nc) rs -> happen_all svg l server_start = Some w -> bare svg = sk_page n nh nc /\ exists read, served svg (rendered l) w read.
Proof.
  intros E J D H. rewrite base_svg_form in E by lia. injection E as <-. pose proof (bare_drawing n (Z.of_nat nh) (Z.of_nat nc) sa ca ltac:(lia)) as BD. rewrite !Nat2Z.id in BD. split; [exact BD|].
  apply (served_all n nh nc _ BD l [] server_start 0 w); [|apply served_start|exact H]. cbn [app]. rewrite J. apply Forall_map. eapply Forall_impl; [|exact D]. intros r. apply drawable_suits.
Qed.

(** When nothing is on its way, every open page shows what was rendered last, in whatever order things happened. *)
Theorem C60_shows_last : forall n nh nc seat_at commit_at svg l w rs r, base_svg (Z.of_nat n) (Z.of_nat nh) (Z.of_nat nc) seat_at commit_at = Ok svg ->
  happen_all svg l server_start = Some w -> rendered l = map jsonify (rs ++ [r]) -> Forall (drawable n nh nc) rs -> for_page n nh nc r -> settled w ->
  forall k, In k (sv_clients w) -> NoDup (ids (cl_page k)) /\ page_shows n nh nc r (cl_page k).
Proof.
  intros n nh nc sa ca svg l w rs r E H J D F (P1 & P2 & P3) k K.
  destruct (start_served n nh nc sa ca svg l w (rs ++ [r]) E J) as (BD & read & S); [apply Forall_app; split; [exact D|constructor; [apply (fg_drawable _ _ _ _ F)|constructor]]|exact H|].
  destruct S as [S1 S2 S3 S4 S5]. rewrite P2 in S5. rewrite P1 in S2. assert (RD : read = List.length (rendered l)) by (pose proof (f_equal (@List.length _) S2) as X; rewrite skipn_length in X; cbn in X; lia).
  rewrite Forall_forall in S5, P3. destruct (S5 k K) as (got & todo & H1 & H2 & H3 & H4 & H5 & H6). rewrite (P3 k K) in H2. symmetry in H2. apply map_eq_nil in H2. subst todo. rewrite app_nil_r in *. specialize (H6 eq_refl).
  destruct (exists_last H4) as (g & x & G). subst got. rewrite last_last in H6. subst x. rewrite map_app in H1. cbn [map] in H1.
  assert (M : message (rendered l) read = Some (jsonify r)) by (rewrite RD, J, map_length, app_length; cbn [List.length]; rewrite Nat.add_1_r; cbn [message]; rewrite map_app, nth_error_app2, map_length, Nat.sub_diag by (rewrite map_length; lia); reflexivity).
  assert (FM : Forall (fun m => match m with Some j => suits_page n nh nc j | None => True end) (map (message (rendered l)) g)).
  { apply Forall_map, Forall_forall. intros x _. eapply (suits_message n nh nc (rendered l)); [|reflexivity]. rewrite J. apply Forall_map. apply Forall_app. split; [eapply Forall_impl; [|exact D]; intros q; apply drawable_suits|].
    constructor; [apply drawable_suits, (fg_drawable _ _ _ _ F)|constructor]. }
  destruct (handle_keeps n nh nc _ svg FM BD) as (e1 & E1 & B1). rewrite (handle_app _ _ _ _ E1), M, (on_config_does n nh nc _ (drawable_suits _ _ _ _ (fg_drawable _ _ _ _ F)) e1 B1) in H1. injection H1 as <-.
  split; [apply (page_nodup n nh nc); now rewrite bare_apply|now apply shows_after].
Qed.
Print Assumptions C60_shows_last.

(** At every moment a page has handled configurations in the order in which they were rendered: it never goes back. *)
Theorem C60_in_order : forall n nh nc seat_at commit_at svg l w rs, base_svg (Z.of_nat n) (Z.of_nat nh) (Z.of_nat nc) seat_at commit_at = Ok svg ->
  happen_all svg l server_start = Some w -> rendered l = map jsonify rs -> Forall (drawable n nh nc) rs ->
  forall k, In k (sv_clients w) -> exists got, in_order got /\ Forall (fun i => (i <= List.length rs)%nat) got /\ handle (map (message (map jsonify rs)) got) svg = Ok (cl_page k).
Proof.
  intros n nh nc sa ca svg l w rs E H J D k K. destruct (start_served n nh nc sa ca svg l w rs E J D H) as (_ & read & [S1 S2 S3 S4 S5]). rewrite Forall_forall in S5.
  destruct (S5 k K) as (got & todo & H1 & H2 & H3 & H4 & H5 & H6). exists got. rewrite <- J. split; [|split; [|exact H1]].
  - intros a b x y L A Y. apply (H3 a b x y L); rewrite nth_error_app1; try assumption; apply nth_error_Some; congruence.
  - apply Forall_app in H5. destruct H5 as [H5 _]. eapply Forall_impl; [|exact H5]. cbn. intros i. rewrite J, map_length in S1. lia.
Qed.
Print Assumptions C60_in_order.

(** Messages on their way always arrive: as long as something is on its way the server or a browser can do something, and after as
    many such events as there is work left, in whatever order, everything has arrived. *)
Definition internal (e : event) : Prop := match e with ERead | EEmit | EDeliver _ => True | _ => False end.
Definition work (w : server) : nat :=
  (List.length (sv_pipe w) * (2 + List.length (sv_clients w)) + (match sv_emit w with Some _ => 1 + List.length (sv_clients w) | None => 0 end) + list_sum (map (fun k => List.length (cl_inbox k)) (sv_clients w)))%nat.
Lemma broadcast_work m l : list_sum (map (fun k => List.length (cl_inbox k)) (broadcast m l)) = (list_sum (map (fun k => List.length (cl_inbox k)) l) + List.length l)%nat.
Proof. induction l as [|k l IH]; [reflexivity|]. cbn [broadcast map list_sum fold_right List.length]. unfold broadcast, list_sum in *. rewrite IH. cbn [cl_inbox]. rewrite app_length. cbn. lia. Qed.
Lemma deliver_work l i page m r page' : nth_error l i = Some (mkClient page (m :: r)) ->
  S (list_sum (map (fun k => List.length (cl_inbox k)) (upd l i (mkClient page' r)))) = list_sum (map (fun k => List.length (cl_inbox k)) l).
Proof.
  revert i. induction l as [|k l IH]; intros [|i] H; try discriminate H; cbn [nth_error] in H; cbn [upd map list_sum fold_right]; unfold list_sum in *.
  - injection H as ->. cbn. lia.
  - specialize (IH i H). lia.
Qed.
Lemma internal_work svg e w w' : internal e -> happen svg e w = Some w' -> S (work w') = work w.
Proof.
  intros I H. unfold work. destruct e as [j| | | |i|i]; try destruct I; cbn [happen] in H.
  - destruct (sv_emit w); [discriminate H|]. destruct (sv_pipe w); [discriminate H|]. injection H as <-. cbn [sv_pipe sv_emit sv_clients List.length]. lia.
  - destruct (sv_emit w); [|discriminate H]. injection H as <-. cbn [sv_pipe sv_emit sv_clients]. rewrite broadcast_work. unfold broadcast. rewrite map_length. lia.
  - destruct (nth_error (sv_clients w) i) as [[page [|m r]]|] eqn:Ec; try discriminate H. injection H as <-. cbn [sv_pipe sv_emit sv_clients].
    pose proof (deliver_work _ _ _ _ _ (match on_config m page with Ok p => p | Err _ => page end) Ec) as X.
    assert (L : forall l i (x : client), List.length (upd l i x) = List.length l) by (clear; induction l as [|y l IH]; intros [|i] x; cbn; auto). rewrite L. lia.
Qed.
Lemma settled_work w : settled w <-> work w = O.
Proof.
  unfold settled, work. split.
  - intros (-> & -> & F). cbn. induction F as [|k l K _ IH]; [reflexivity|]. cbn. now rewrite K.
  - intros H. assert (H1 : List.length (sv_pipe w) = O) by (destruct (sv_pipe w); [reflexivity|cbn in H; lia]). split; [now apply length_zero_iff_nil|]. split; [destruct (sv_emit w); [lia|reflexivity]|].
    assert (X : list_sum (map (fun k => List.length (cl_inbox k)) (sv_clients w)) = O) by lia. clear - X. induction (sv_clients w) as [|k l IH]; constructor; cbn in X; unfold list_sum in *; [apply length_zero_iff_nil; lia|apply IH; lia].
Qed.
Theorem C60_arrives : forall svg w,
  (* something can happen, unless everything has arrived *)
  (~ settled w -> exists e w', internal e /\ happen svg e w = Some w') /\
  (* and everything has arrived after exactly [work w] such events, however they are ordered *)
  (forall l w', Forall internal l -> happen_all svg l w = Some w' -> (List.length l <= work w)%nat /\ (List.length l = work w <-> settled w')) /\
  exists l w', Forall internal l /\ happen_all svg l w = Some w' /\ settled w'.
Proof.
  intros svg.
  assert (A : forall w, ~ settled w -> exists e w', internal e /\ happen svg e w = Some w').
  { intros w H. destruct (sv_emit w) as [j|] eqn:Em; [exists EEmit; eexists; split; [exact I|]; cbn [happen]; rewrite Em; reflexivity|].
    destruct (sv_pipe w) as [|j r] eqn:Ep; [|exists ERead; eexists; split; [exact I|]; cbn [happen]; rewrite Em, Ep; reflexivity].
    assert (X : ~ Forall (fun k => cl_inbox k = []) (sv_clients w)) by (intros X; apply H; split; [exact Ep|split; assumption]).
    assert (Y : exists i k m r, nth_error (sv_clients w) i = Some k /\ cl_inbox k = m :: r).
    { clear - X. induction (sv_clients w) as [|k l IH]; [elim X; constructor|]. destruct (cl_inbox k) as [|m r] eqn:E.
      - destruct IH as (i & k' & m & r & N & C); [intros F; apply X; now constructor|]. exists (S i), k', m, r. auto.
      - exists O, k, m, r. auto. }
    destruct Y as (i & [page inbox] & m & r & N & C). cbn in C. subst inbox. exists (EDeliver i). eexists. split; [exact I|]. cbn [happen]. rewrite N. reflexivity. }
  assert (Bd : forall l w w', Forall internal l -> happen_all svg l w = Some w' -> (List.length l + work w')%nat = work w).
  { induction l as [|e l IH]; intros w w' F H; [injection H as <-; reflexivity|]. inversion F as [|? ? F1 F2]; subst. cbn [happen_all] in H. destruct (happen svg e w) as [w1|] eqn:E; [|discriminate H].
    specialize (IH w1 w' F2 H). pose proof (internal_work svg e w w1 F1 E). cbn [List.length]. lia. }
  intros w. split; [apply A|]. split.
  - intros l w' F H. specialize (Bd l w w' F H). rewrite settled_work. lia.
  - remember (work w) as m eqn:M. revert w M. induction m as [|m IH]; intros w M.
    + exists [], w. split; [constructor|]. split; [reflexivity|]. apply settled_work. lia.
    + destruct (A w) as (e & w1 & I1 & H1); [intros S; apply settled_work in S; lia|]. pose proof (internal_work svg e w w1 I1 H1) as W1. destruct (IH w1 ltac:(lia)) as (l & w' & F & H & S). exists (e :: l), w'. split; [now constructor|]. split; [cbn [happen_all]; rewrite H1; exact H|exact S].
Qed.
Print Assumptions C60_arrives.

(** The game seen in the browsers: what is rendered is a dealer's table at various moments.  Once everything has arrived each open
    page shows the stacks, bets, cards, board, pot, button and turn of the moment of the last rendering. *)
Theorem C60_game : forall seat_at commit_at c ss s rs r svg l w, Forall2 (fun s r => reachable c s /\ render_config c s = Ok r) ss rs ->
  reachable c s -> render_config c s = Ok r -> List.length (hole_cards s) = num_players c ->
  0 <= num_hole_cards c -> Forall (fun x => 0 <= x) (num_community_cards c) ->
  base_svg (Z.of_nat (num_players c)) (num_hole_cards c) (sumZ (num_community_cards c)) seat_at commit_at = Ok svg ->
  happen_all svg l server_start = Some w -> rendered l = map jsonify (rs ++ [r]) -> settled w ->
  forall k, In k (sv_clients w) -> NoDup (ids (cl_page k)) /\
    page_shows (num_players c) (Z.to_nat (num_hole_cards c)) (Z.to_nat (sumZ (num_community_cards c))) r (cl_page k) /\
    rc_stacks r = stacks s /\ rc_street_commits r = street_commits s /\ rc_hole_cards r = hole_cards s /\ rc_active r = active s /\
    rc_community_cards r = community_cards s /\ rc_pot r = pot s /\ rc_button r = Z.of_nat (button s) /\ rc_action r = match action s with Some a => Z.of_nat a | None => -1 end.
Proof.
  intros sa ca c ss s rs r svg l w F R E H NH NC B HA J S k K.
  assert (NS : 0 <= sumZ (num_community_cards c)) by (clear - NC; induction NC as [|y l Y1 _ IH]; [reflexivity|]; rewrite sumZ_cons; lia).
  rewrite <- (Z2Nat.id _ NH), <- (Z2Nat.id _ NS) in B.
  destruct (C60_shows_last _ _ _ sa ca svg l w rs r B HA J) with (k := k) as (X & Y); [|exact (proj2 (C59_dealer c s r R NC E) H)|exact S|exact K|].
  - clear - F NC. induction F as [|s r ss rs (S1 & S2) _ IH]; constructor; [exact (proj1 (C59_dealer c s r S1 NC S2))|exact IH].
  - split; [exact X|]. split; [exact Y|]. unfold render_config in E. destruct (payouts c s); [|discriminate E]. injection E as <-. repeat split.
Qed.
Print Assumptions C60_game.
(** One browser is open before the game, a second one comes between the reading and the sending of the first configuration.  Both are slow:
    messages of both renderings and the greetings pile up. *)
Example C60_example : exists c s0, fair c s0 /\
  let s1 := run c s0 [new_hand] in
  let s := run c s0 (new_hand :: bets [20; -1]) in
  exists r1 r, render_config c s1 = Ok r1 /\ render_config c s = Ok r /\
  forall seat_at commit_at svg, base_svg (Z.of_nat (num_players c)) (num_hole_cards c) (sumZ (num_community_cards c)) seat_at commit_at = Ok svg ->
  let l := [EConnect; ERender (jsonify r1); ERead; EConnect; ERender (jsonify r); EEmit; EDeliver 0; ERead; EDeliver 1; EEmit; EDeliver 0; EDeliver 0; EDeliver 1; EDeliver 1] in
  exists w, happen_all svg l server_start = Some w /\ ~ settled w /\
  exists w' a b, happen_all svg [EDeliver 0] w = Some w' /\ settled w' /\ sv_clients w' = [a; b] /\
    reads (cl_page a) "chips-text-1" (ustr "19") /\ reads (cl_page b) "chips-text-1" (ustr "19") /\ painted (cl_page b) "player-background-2" "#000000".
Proof.
  play no_limit_3 (@nil op) c s0 E. split; [exact (played_fair _ _ _ _ E)|]. cbv zeta. set (ops := new_hand :: bets [20; -1]).
  assert (K2 : stacks (run c s0 ops) = [0; 19; 18]) by plays E. assert (K3 : List.length (hole_cards (run c s0 ops)) = 3%nat) by plays E.
  assert (K4 : num_players c = 3%nat) by plays E. assert (K5 : num_hole_cards c = 1) by plays E. assert (K6 : num_community_cards c = [0; 1]) by plays E.
  assert (K8 : is_ok (render_config c (run c s0 [new_hand])) = true) by plays E. assert (K9 : is_ok (render_config c (run c s0 ops)) = true) by plays E.
  assert (K10 : all_allowed c s0 [new_hand] = true) by plays E. assert (K11 : all_allowed c s0 ops = true) by plays E.
  assert (K13 : action (run c s0 ops) = Some 2%nat) by plays E.
  pose proof (fair_reachable _ _ (played_fair _ _ _ _ E)) as R. clear E.
  destruct (render_config c (run c s0 [new_hand])) as [r1|] eqn:E1; [|discriminate K8]. destruct (render_config c (run c s0 ops)) as [r|] eqn:E2; [|discriminate K9].
  exists r1, r. split; [reflexivity|]. split; [reflexivity|]. intros sa ca svg B.
  set (l := [EConnect; _; _; _; _; _; _; _; _; _; _; _; _; _]).
  eexists. split; [lazy beta iota zeta delta [l happen_all happen server_start sv_pipe sv_config sv_emit sv_clients broadcast map app nth_error upd cl_page cl_inbox]; reflexivity|].
  split; [intros (_ & _ & F); lazy beta iota delta [sv_clients] in F; apply Forall_inv in F; lazy beta iota delta [cl_inbox] in F; discriminate F|].
  match goal with |- context [happen_all svg [EDeliver 0] ?w] => set (w0 := w) end.
  assert (HA : happen_all svg l server_start = Some w0) by (lazy beta iota zeta delta [l happen_all happen server_start sv_pipe sv_config sv_emit sv_clients broadcast map app nth_error upd cl_page cl_inbox]; reflexivity).
  assert (HB : exists w', happen_all svg [EDeliver 0] w0 = Some w' /\ settled w' /\ exists a b, sv_clients w' = [a; b]).
  { eexists. split; [lazy beta iota zeta delta [happen_all happen w0 sv_clients nth_error upd sv_pipe sv_config sv_emit]; reflexivity|]. split; [split; [reflexivity|split; [reflexivity|repeat (apply Forall_cons; [reflexivity|]); apply Forall_nil]]|eexists; eexists; reflexivity]. }
  destruct HB as (w' & HB & ST & a & b & AB). clearbody w0.
  assert (HC : happen_all svg (l ++ [EDeliver 0]) server_start = Some w').
  { rewrite <- HB. clear HB. revert HA. generalize server_start, w0. induction l as [|e l' IH]; intros u v U; cbn [app happen_all] in *; [injection U as ->; reflexivity|]. destruct (happen svg e u); [apply IH; exact U|discriminate U]. }
  assert (ALL : forall k, In k (sv_clients w') -> reads (cl_page k) "chips-text-1" (ustr "19") /\ painted (cl_page k) "player-background-2" "#000000").
  { intros k K. destruct (C60_game sa ca c [run c s0 [new_hand]] (run c s0 ops) [r1] r svg (l ++ [EDeliver 0]) w') with (k := k) as (_ & P & Q1 & _ & _ & _ & _ & _ & _ & Q8).
    - constructor; [split; [apply run_reachable; [exact R|exact K10]|exact E1]|constructor].
    - apply run_reachable; [exact R|exact K11].
    - exact E2.
    - rewrite K3, K4. reflexivity.
    - rewrite K5. lia.
    - rewrite K6. repeat constructor; lia.
    - exact B.
    - exact HC.
    - reflexivity.
    - exact ST.
    - exact K.
    - rewrite K4 in P. pose proof (ps_stack _ _ _ _ _ P 1%nat ltac:(lia)) as P1. pose proof (ps_turn _ _ _ _ _ P 2%nat ltac:(lia)) as P4.
      rewrite Q1, K2 in P1. rewrite Q8, K13 in P4. split; [exact P1|exact P4]. }
  exists w', a, b. split; [exact HB|]. split; [exact ST|]. split; [exact AB|]. clear HC ST. rewrite AB in ALL.
  split; [apply ALL; left; reflexivity|]. apply ALL. right. left. reflexivity.
Qed.
