(** * PropHeapPrograms: C54 for programs that write into observations at any time *)
From Coq Require Import PeanoNat.
From Verif Require Import PyBase PyFacts CardModel EvalModel EngineModel EngineSpec EngineFacts EngineDemo HeapModel HeapFacts PropHeap.

(** ** Specification *)
(** the calls of a program *)
Definition calls (l : list deed) : list op := flat_map (fun d => match d with Call o => [o] | Poke _ _ => [] end) l.
(** what a call answers *)
Definition reply : Type := result (obs * list Z * list bool).
Definition answer (c : config) (s : state) (o : op) : list reply :=
  match o with
  | OReset rnd rb rs => [let* x := snd (reset c s rnd rb rs) in Ok (x, [], [])]
  | OStep b => [let* x := snd (step c s b) in Ok (out_obs x, out_payouts x, out_done x)]
  | _ => []
  end.
Fixpoint answers (c : config) (s : state) (l : list op) : list reply :=
  match l with [] => [] | o :: r => answer c s o ++ answers c (apply_op c s o) r end.
(** the same at the dealer with objects, each answer read when it is given *)
Definition hanswer (c : config) (q : hdealer) (o : op) : list reply :=
  match o with
  | OReset rnd rb rs => [let* x := snd (hreset c q rnd rb rs) in Ok (seen (fst (hreset c q rnd rb rs)) x, [], [])]
  | OStep b => [let* x := snd (hstep c q b) in let '(x, pay, done) := x in Ok (seen (fst (hstep c q b)) x, pay, done)]
  | _ => []
  end.
Fixpoint hanswers (c : config) (w : hdealer * list hobs) (l : list deed) : list reply :=
  match l with
  | [] => []
  | d :: r => (match d with Call o => hanswer c (fst w) o | Poke _ _ => [] end) ++ hanswers c (hdo_deed c w d) r
  end.
(** a program that writes only into observations of earlier hands; [m] is the number of observations that were
    kept when the current hand was dealt *)
Fixpoint writes_old (c : config) (w : hdealer * list hobs) (m : nat) (l : list deed) : Prop :=
  match l with
  | [] => True
  | d :: r =>
    match d with Poke k _ => (k < m)%nat | Call _ => True end /\
    writes_old c (hdo_deed c w d)
      (match d with
       | Call (OReset rnd rb rs) => if is_ok (snd (hreset c (fst w) rnd rb rs)) then List.length (snd w) else m
       | _ => m
       end) r
  end.

(** ** Facts *)
Lemma given_refs c q o x : apart q -> In x (hgiven c q o) -> let q' := happly c q o in
  ho_active x = r_active (q_refs q') /\ ho_stacks x = r_stacks (q_refs q') /\ ho_commits x = r_commits (q_refs q') /\
  ho_community x = r_community (q_refs q') /\ In (ho_hole x) (r_holes (q_refs q')).
Proof.
  intros W I. destruct o as [rnd rb rs|b|cs| |l]; try contradiction; cbn [hgiven happly] in *; cbv zeta.
  - destruct (snd (hreset c q rnd rb rs)) as [y|] eqn:E; [|contradiction]. destruct I as [<-|[]]. destruct (hreset_refines c q rnd rb rs W) as ((W' & _ & _) & _).
    revert W' E. unfold hreset. cbv zeta. set (q0 := if rs then _ else _). clearbody q0. destruct (negb rs && _); [discriminate|].
    destruct (num_community_cards c); [discriminate|]. destruct (deck_draw _ _). destruct (deal_hands _ _ _). cbn [fst snd]. apply observation_refs.
  - destruct (snd (hstep c q b)) as [[[y pay] done]|] eqn:E; [|contradiction]. destruct I as [<-|[]]. destruct (hstep_refines c q b W) as ((W' & _ & _) & _).
    revert W' E. unfold hstep. destruct (z_action (q_scal q)).
    + destruct (py_round b); [|discriminate]. destruct (bet_sizes c (view q)) as [[[? ?] ?]|]; [|discriminate]. destruct (settle_bet _ _ _ _ _). cbv zeta.
      set (q2 := if all_agreed _ then _ else _). clearbody q2. unfold hstep_end. destruct (payouts c (view q2)); [|discriminate]. cbn [fst snd].
      set (q3 := if all_true _ then _ else _). clearbody q3. destruct (hobservation c q3 _) as [o''|] eqn:O; cbn [bind]; [|discriminate].
      intros W' E. injection E as <- _ _. exact (observation_refs _ _ _ _ W' O).
    + cbn [fst snd]. unfold hstep_idle. destruct (any_true _); [|discriminate]. cbv zeta. destruct (payouts c (view q)); cbn [bind]; [|discriminate].
      destruct (hobservation c q _) as [o''|] eqn:O; cbn [bind]; [|discriminate]. intros W' E. injection E as <- _ _. exact (observation_refs _ _ _ _ W' O).
Qed.
Lemma reset_makes_stale c q x rnd rb rs o' : apart q -> placed q x -> snd (hreset c q rnd rb rs) = Ok o' -> stale (fst (hreset c q rnd rb rs)) x.
Proof.
  intros W P E. destruct (reset_refs _ _ _ _ _ _ W E) as ((R1 & R2 & R3 & R4) & _). pose proof (reset_holes _ _ _ _ _ _ E) as R5. rewrite Forall_forall in R5.
  destruct (hreset_refines c q rnd rb rs W) as ((W1 & F1 & _) & _).
  pose proof (placed_frame _ _ _ F1 P) as P'. destruct P as [P1 P2 P3 P4 P5]. destruct P' as [P1' P2' P3' P4' P5']. constructor; try lia; (split; [lia|]); intros I; apply R5 in I; lia.
Qed.
Lemma hanswer_same c q o : apart q -> hanswer c q o = answer c (view q) o.
Proof.
  intros W. destruct o as [rnd rb rs|b|cs| |l]; try reflexivity; cbn [hanswer answer]; f_equal.
  - destruct (hreset_refines c q rnd rb rs W) as (_ & S). unfold same_obs in S. destruct (snd (hreset c q rnd rb rs)) as [x|e], (snd (reset c (view q) rnd rb rs)) as [y|e']; try contradiction; cbn [bind]; [|now rewrite S].
    unfold seen. now rewrite S.
  - destruct (hstep_refines c q b W) as (_ & S). unfold same_out in S. destruct (snd (hstep c q b)) as [[[x p] d]|e], (snd (step c (view q) b)) as [y|e']; try contradiction; cbn [bind]; [|now rewrite S].
    destruct S as (S1 & -> & ->). unfold seen. now rewrite S1.
Qed.
Lemma same_refs_keep q q' : q_refs q' = q_refs q -> List.length (bools (q_heap q')) = List.length (bools (q_heap q)) ->
  List.length (ints (q_heap q')) = List.length (ints (q_heap q)) -> List.length (cardss (q_heap q')) = List.length (cardss (q_heap q)) ->
  (apart q -> apart q') /\ (forall x, placed q x -> placed q' x) /\ (forall x, stale q x -> stale q' x).
Proof.
  intros B C D E. splits.
  - intros [W1 W2 W3 W4 W5 W6 W7 W8 W9 W10 W11 W12]. constructor; rewrite ?B, ?C, ?D, ?E; assumption.
  - intros x [W1 W2 W3 W4 W5]. constructor; rewrite ?B, ?C, ?D, ?E; assumption.
  - intros x [W1 W2 W3 W4 W5]. constructor; rewrite ?B, ?C, ?D, ?E; assumption.
Qed.
Definition tidy (w : hdealer * list hobs) (m : nat) : Prop :=
  apart (fst w) /\ Forall (placed (fst w)) (snd w) /\ (forall k x, (k < m)%nat -> nth_error (snd w) k = Some x -> stale (fst w) x) /\ (m <= List.length (snd w))%nat.
Lemma writes_old_same c l : forall w m, tidy w m -> writes_old c w m l ->
  view (fst (hdo_deeds c w l)) = run c (view (fst w)) (calls l) /\ hanswers c w l = answers c (view (fst w)) (calls l).
Proof.
  induction l as [|d l IH]; intros [q xs] m T H; [split; reflexivity|]. destruct T as (W & M & G & Lm). cbn [fst snd] in *.
  destruct d as [o|k p].
  - cbn [writes_old hdo_deed] in H. destruct H as [_ H]. change (hdo_deeds c (q, xs) (Call o :: l)) with (hdo_deeds c (happly c q o, xs ++ hgiven c q o) l).
    cbn [hanswers fst hdo_deed calls flat_map app answers]. fold (calls l). change (run c (view q) (o :: calls l)) with (run c (apply_op c (view q) o) (calls l)).
    rewrite (hanswer_same c q o W). destruct (happly_refines c q o W) as (W1 & F1 & V1). rewrite <- V1.
    set (m' := match o with OReset rnd rb rs => _ | _ => m end) in H.
    assert (T' : tidy (happly c q o, xs ++ hgiven c q o) m').
    { split; [exact W1|]. cbn [fst snd]. split; [|split].
      - apply Forall_app. split; [revert M; apply Forall_impl; intros x; apply placed_frame; exact F1|]. apply Forall_forall. intros x I. exact (placed_new _ _ W1 (given_refs c q o x W I)).
      - intros k x Lk Nk. assert (K : (k < m)%nat \/ (exists rnd rb rs y, o = OReset rnd rb rs /\ snd (hreset c q rnd rb rs) = Ok y /\ m' = List.length xs)).
        { unfold m' in *. destruct o as [rnd rb rs|b|cs| |s0]; try (left; exact Lk). cbn [fst snd] in Lk. destruct (snd (hreset c q rnd rb rs)) as [y|e] eqn:E; cbn [is_ok] in Lk; [|left; exact Lk].
          right. exists rnd, rb, rs, y. splits; [reflexivity|exact E|]. cbn [fst snd]. rewrite E. reflexivity. }
        destruct K as [K|(rnd & rb & rs & y & -> & E & Em)].
        + rewrite nth_error_app1 in Nk by lia. assert (Mx : placed q x) by (rewrite Forall_forall in M; apply M; exact (nth_error_In _ _ Nk)).
          apply (stale_frame q); [exact F1|exact Mx|]. exact (G k x K Nk).
        + rewrite Em in Lk. rewrite nth_error_app1 in Nk by exact Lk. assert (Mx : placed q x) by (rewrite Forall_forall in M; apply M; exact (nth_error_In _ _ Nk)).
          exact (reset_makes_stale _ _ _ _ _ _ _ W Mx E).
      - rewrite app_length. unfold m'. destruct o as [rnd rb rs|b|cs| |s0]; try lia. cbn [fst snd]. destruct (is_ok _); lia. }
    destruct (IH _ _ T' H) as [A B]. split; [exact A|]. f_equal. exact B.
  - cbn [writes_old hdo_deed] in H. destruct H as [Hp H]. change (hdo_deeds c (q, xs) (Poke k p :: l)) with (hdo_deeds c (hdo_deed c (q, xs) (Poke k p)) l).
    cbn [hanswers calls flat_map app hdo_deed]. fold (calls l). destruct (nth_error xs k) as [x|] eqn:Nk.
    + destruct (poked_stale q x p (G k x Hp Nk)) as (V & B & C & D & E). destruct (same_refs_keep q (poked q x p) B C D E) as (X1 & X2 & X3).
      assert (T' : tidy (poked q x p, xs) m).
      { split; [exact (X1 W)|]. cbn [fst snd]. split; [revert M; apply Forall_impl; exact X2|]. split; [|exact Lm]. intros k' x' L' N'. apply X3. exact (G k' x' L' N'). }
      destruct (IH _ _ T' H) as [A1 A2]. cbn [fst] in A1, A2. rewrite V in A1, A2. split; [exact A1|exact A2].
    + apply (IH (q, xs) m); [split; [exact W|split; [exact M|split; [exact G|exact Lm]]]|exact H].
Qed.

(** C54, what holds (2): a program may write into all lists of all observations of earlier hands, at any time:
    the game and all answers of the dealer are those of the program that makes only the calls *)
Theorem C54_programs_partial : forall c w rnd s l, Dealer rnd w = Ok (c, s) -> writes_old c (hnew s, []) 0 l ->
  view (fst (hdo_deeds c (hnew s, []) l)) = run c s (calls l) /\ hanswers c (hnew s, []) l = answers c s (calls l).
Proof.
  intros c w rnd s l E H. destruct (hnew_apart s) as [W V]. pose proof (writes_old_same c l (hnew s, []) 0) as X. cbn [fst] in X. rewrite V in X. apply X; [|exact H].
  split; [exact W|]. split; [constructor|]. split; [intros k x L; lia|cbn; lia].
Qed.
Print Assumptions C54_programs_partial.

(** three hands; observations of both earlier hands are written to *)
Definition meddling : list deed :=
  [Call (OReset [] false false); Call (OStep (PyInt 1)); Call (OReset [] false false); Poke 0 (PHole 0 (demo_card 48)); Poke 1 (PStacks 0 1000);
   Call (OStep (PyInt 1)); Poke 1 (PActive 1 false); Call (OReset [] false true); Poke 3 (PCommits 1 9); Poke 2 (PStacks 1 77); Call (OStep (PyInt 3))].
Fixpoint writes_old_b (c : config) (w : hdealer * list hobs) (m : nat) (l : list deed) : bool :=
  match l with
  | [] => true
  | d :: r =>
    match d with Poke k _ => (k <? m)%nat | Call _ => true end &&
    writes_old_b c (hdo_deed c w d)
      (match d with
       | Call (OReset rnd rb rs) => if is_ok (snd (hreset c (fst w) rnd rb rs)) then List.length (snd w) else m
       | _ => m
       end) r
  end.
Lemma writes_old_b_spec c l : forall w m, writes_old_b c w m l = true -> writes_old c w m l.
Proof.
  induction l as [|d l IH]; intros w m H; [exact I|]. cbn [writes_old_b] in H. apply andb_prop in H. destruct H as [A B]. split; [|apply IH; exact B].
  destruct d as [o|k p]; [exact I|]. apply Nat.ltb_lt. exact A.
Qed.
Definition meddled : result (config * state) := Dealer [] heap_game.
Lemma meddled_fact {A} (f : config -> state -> A) v c s : Dealer [] heap_game = Ok (c, s) ->
  match meddled with Ok (c, s) => Some (f c s) | Err _ => None end = Some v -> f c s = v.
Proof. unfold meddled. intros ->. intros H. injection H. exact (fun e => e). Qed.
Example C54_programs_example : exists c s, Dealer [] heap_game = Ok (c, s) /\ writes_old c (hnew s, []) 0 meddling /\
  (let w := hdo_deeds c (hnew s, []) meddling in
   stacks (view (fst w)) = [8; 6] /\ map (fun x => o_stacks (seen (fst w) x)) (snd w) = [[1000; 8]; [1000; 8]; [6; 77]; [6; 77]; [8; 6]; [8; 6]]).
Proof.
  destruct (Dealer [] heap_game) as [[c s]|] eqn:E; [|exfalso; vm_compute in E; discriminate E]. exists c, s. split; [reflexivity|].
  split; [apply writes_old_b_spec; apply (meddled_fact (fun c s => writes_old_b c (hnew s, []) 0 meddling) true c s E); vm_compute; reflexivity|].
  cbv zeta. split.
  - apply (meddled_fact (fun c s => stacks (view (fst (hdo_deeds c (hnew s, []) meddling)))) _ c s E). vm_compute. reflexivity.
  - apply (meddled_fact (fun c s => let w := hdo_deeds c (hnew s, []) meddling in map (fun x => o_stacks (seen (fst w) x)) (snd w)) _ c s E).
    vm_compute. reflexivity.
Qed.
