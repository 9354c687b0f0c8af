(** * PropNumpyHeap: C79 and C80, the lists in the observations of the dealer on arrays *)
From Coq Require Import PeanoNat.
From Verif Require Import PyBase PyFacts CardModel EvalModel EngineModel EngineSpec EngineFacts EngineDemo HeapModel HeapFacts NumpyModel NumpyHeapModel NumpyHeapFacts.

(** ** Specification *)
(** [nh_reachable c q]: the dealer [q] was built and then any calls were made *)
Inductive nh_reachable (c : config) : hdealer -> Prop :=
| nh_new w rnd s : Dealer rnd w = Ok (c, s) -> nh_reachable c (hnew s)
| nh_op q o : nh_reachable c q -> nh_reachable c (nh_apply c q o).
(** the call [o] has just returned the observation [x], and the dealer is now [q] *)
Inductive just_given (c : config) : hdealer -> hobs -> Prop :=
| just_given_by q o x : nh_reachable c q -> In x (given c q o) -> just_given c (nh_apply c q o) x.
(** the caller has the observation [x], returned by some earlier call, and the dealer is now [q] *)
Inductive kept (c : config) : hdealer -> hobs -> Prop :=
| kept_now q x : just_given c q x -> kept c q x
| kept_later q x o : kept c q x -> kept c (nh_apply c q o) x.
(** what the caller sees in it *)
Definition seen (q : hdealer) (x : hobs) : obs := look (q_heap q) x.
Definition nh_steps (c : config) (q : hdealer) (bs : list pynum) : hdealer := nh_run c q (map OStep bs).

(** ** Facts *)
Lemma nh_reachable_apart c q : nh_reachable c q -> apart q.
Proof. induction 1 as [w rnd s _|q o _ IH]; [apply hnew_apart|apply (nh_apply_refines c q o IH)]. Qed.
Lemma just_given_reachable c q x : just_given c q x -> nh_reachable c q.
Proof. intros [q' o x' R _]. exact (nh_op c q' o R). Qed.
Lemma just_given_gives c q x : just_given c q x -> gives q x.
Proof. intros [q' o x' R I]. apply given_made; [exact (nh_reachable_apart _ _ R)|exact I]. Qed.
Lemma kept_reachable c q x : kept c q x -> nh_reachable c q.
Proof. induction 1 as [q x J|q x o _ IH]; [exact (just_given_reachable _ _ _ J)|exact (nh_op c q o IH)]. Qed.
Lemma kept_made c q x : kept c q x -> made q x.
Proof.
  induction 1 as [q x J|q x o K IH]; [exact (gv_made _ _ (just_given_gives _ _ _ J))|]. apply (made_frame q); [|exact IH].
  apply nh_apply_refines. exact (nh_reachable_apart _ _ (kept_reachable _ _ _ K)).
Qed.
Lemma made_stays q q' x : frame q q' -> made q x ->
  read_bools (q_heap q') (ho_active x) = read_bools (q_heap q) (ho_active x) /\ read_ints (q_heap q') (ho_stacks x) = read_ints (q_heap q) (ho_stacks x) /\
  read_ints (q_heap q') (ho_commits x) = read_ints (q_heap q) (ho_commits x) /\ read_cards (q_heap q') (ho_hole x) = read_cards (q_heap q) (ho_hole x).
Proof.
  intros F [P1 P2 P3 P4 P5]. splits.
  - apply (fr_bools _ _ F); tauto.
  - apply (fr_ints _ _ F); tauto.
  - apply (fr_ints _ _ F); tauto.
  - apply (fr_cards _ _ F); tauto.
Qed.

(** ** C79 *)
(** reading the observation at once gives the observation of the dealer with arrays as values *)
Theorem C79_when_returned : forall c q, nh_reachable c q ->
  (forall rnd rb rs x, snd (nh_reset c q rnd rb rs) = Ok x -> snd (np_reset c (view q) rnd rb rs) = Ok (seen (fst (nh_reset c q rnd rb rs)) x)) /\
  (forall b x pay done, snd (nh_step c q b) = Ok (x, pay, done) -> snd (np_step c (view q) b) = Ok (mkOut (seen (fst (nh_step c q b)) x) pay done)).
Proof.
  intros c q R. pose proof (nh_reachable_apart _ _ R) as W. split.
  - intros rnd rb rs o E. destruct (nh_reset_refines c q rnd rb rs W) as (_ & S & _). rewrite E in S. unfold same_obs in S.
    destruct (snd (np_reset c (view q) rnd rb rs)) as [o'|e]; [|contradiction]. f_equal. symmetry. exact S.
  - intros b o pay done E. destruct (nh_step_refines c q b W) as (_ & _ & S & _). rewrite E in S. unfold same_out in S.
    destruct (snd (np_step c (view q) b)) as [[o' p' d']|e]; [|contradiction]. cbn in S. destruct S as (S1 & S2 & S3). f_equal. unfold seen. congruence.
Qed.
Print Assumptions C79_when_returned.

(** C79, what holds: nothing but the community cards of an observation ever changes, whatever is called
    later *)
Theorem C79_partial : forall c q x ops, kept c q x ->
  let now := seen q x in let later := seen (nh_run c q ops) x in
  later = mkObs (o_action now) (o_active now) (o_button now) (o_call now) (o_community_cards later) (o_hole_cards now)
                (o_max_raise now) (o_min_raise now) (o_pot now) (o_stacks now) (o_street_commits now).
Proof.
  intros c q x ops K. cbv zeta. destruct (nh_run_refines c ops q (nh_reachable_apart _ _ (kept_reachable _ _ _ K))) as (_ & F & _).
  destruct (made_stays _ _ _ F (kept_made _ _ _ K)) as (A & B & C & D). unfold seen, look. cbn. rewrite A, B, C, D. reflexivity.
Qed.
Print Assumptions C79_partial.

Lemma nh_steps_cards c bs : forall q, apart q -> same_cards q (nh_steps c q bs).
Proof.
  induction bs as [|b bs IH]; intros q W; [split; reflexivity|]. change (nh_steps c q (b :: bs)) with (nh_steps c (fst (nh_step c q b)) bs).
  destruct (nh_step_refines c q b W) as ((W1 & _ & _) & [A B] & _). destruct (IH _ W1) as [C D]. split; congruence.
Qed.
(** C79, exactly: until the next reset the observation shows the community cards as they are now *)
Theorem C79_live : forall c q x bs, just_given c q x ->
  o_community_cards (seen (nh_steps c q bs) x) = community_cards (view (nh_steps c q bs)).
Proof.
  intros c q x bs J. destruct (nh_steps_cards c bs q (nh_reachable_apart _ _ (just_given_reachable _ _ _ J))) as [A _].
  pose proof (gv_community _ _ (just_given_gives _ _ _ J)) as B. unfold seen, look, view. cbn. congruence.
Qed.
Print Assumptions C79_live.

(** C79, what holds (2): once the next hand is dealt, the observations of earlier hands never change at
    all *)
Theorem C79_after_reset : forall c q x rnd rb rs x' ops, kept c q x -> snd (nh_reset c q rnd rb rs) = Ok x' ->
  seen (nh_run c (fst (nh_reset c q rnd rb rs)) ops) x = seen q x.
Proof.
  intros c q x rnd rb rs x' ops K E. pose proof (nh_reachable_apart _ _ (kept_reachable _ _ _ K)) as W. pose proof (kept_made _ _ _ K) as P.
  destruct (nh_reset_new _ _ _ _ _ _ W E) as ((m & Em) & L & _). destruct (nh_reset_refines c q rnd rb rs W) as ((W1 & F1 & _) & _ & _).
  set (q1 := fst (nh_reset c q rnd rb rs)) in *. destruct (nh_run_refines c ops q1 W1) as (_ & F2 & _).
  destruct (made_stays _ _ _ (frame_trans _ _ _ F1 F2) P) as (A & B & C & D). unfold seen, look. rewrite A, B, C, D.
  destruct P as [_ _ _ P4 _]. rewrite (fr_cards _ _ F2) by (rewrite ?Em, ?app_length; lia). unfold read_cards at 1. rewrite Em, nth_old by apply P4. reflexivity.
Qed.
Print Assumptions C79_after_reset.

(** ** C79 is false as stated *)
Definition heap_game : raw_config := demo 2 2 [1; 2] [0; 0] [RawInf; RawInf] [RawCountInf; RawCountInf] [0; 1] 10.
Definition nh_start : result (config * hdealer * hobs) :=
  let* cs := Dealer [] heap_game in
  let '(c, s) := cs in
  let* o := snd (nh_reset c (hnew s) [] false false) in Ok (c, nh_apply c (hnew s) (OReset [] false false), o).
Lemma nh_start_given c q x : nh_start = Ok (c, q, x) -> just_given c q x.
Proof.
  unfold nh_start. destruct (Dealer [] heap_game) as [[c0 s0]|] eqn:E; cbn [bind]; [|discriminate].
  destruct (snd (nh_reset c0 (hnew s0) [] false false)) as [o0|] eqn:F; cbn [bind]; [|discriminate]. intros H. injection H as <- <- <-.
  apply (just_given_by c0 (hnew s0) (OReset [] false false)); [exact (nh_new _ _ _ _ E)|]. cbn [given]. rewrite F. left. reflexivity.
Qed.
Lemma nh_fact {A} (f : config -> hdealer -> hobs -> A) v c q o : nh_start = Ok (c, q, o) ->
  match nh_start with Ok (c, q, o) => Some (f c q o) | Err _ => None end = Some v -> f c q o = v.
Proof. intros ->. intros H. injection H. exact (fun e => e). Qed.
Ltac nheaps E := splits; lazymatch type of E with nh_start = Ok (?c, ?q, ?o) =>
  lazymatch goal with |- ?l = ?v => let p := eval pattern c, q, o in l in
    lazymatch p with ?f c q o => apply (nh_fact f v c q o E); vm_compute; reflexivity end end end.

(** Two players, blinds 1 and 2, stacks of 10 chips.  The player to act keeps the observation returned by the
    reset.  After a call and a check it still shows the bets and stacks of the start, next to the community card
    dealt since. *)
Theorem C79_refuted : exists c q x, just_given c q x /\
  (o_stacks (seen q x) = [8; 9] /\ o_street_commits (seen q x) = [2; 1] /\ List.length (o_community_cards (seen q x)) = 0%nat) /\
  (let q2 := nh_steps c q [PyInt 1; PyInt 0] in
   o_stacks (seen q2 x) = [8; 9] /\ o_street_commits (seen q2 x) = [2; 1] /\ List.length (o_community_cards (seen q2 x)) = 1%nat /\ stacks (view q2) = [8; 8]).
Proof.
  destruct nh_start as [[[c q] o]|] eqn:E; [exists c, q, o|exfalso; vm_compute in E; discriminate E].
  split; [exact (nh_start_given _ _ _ E)|]. cbv zeta. nheaps E.
Qed.
Print Assumptions C79_refuted.
(** the observation is kept when the next hand is dealt and has been played *)
Example C79_example : exists c q x, kept c q x /\ is_ok (snd (nh_reset c q [] false false)) = true /\ o_stacks (seen q x) = [8; 9] /\
  (let q1 := nh_steps c (fst (nh_reset c q [] false false)) [PyInt 1; PyInt 0] in
   stacks (view q1) = [6; 6] /\ List.length (community_cards (view q1)) = 1%nat /\ List.length (o_community_cards (seen q1 x)) = 0%nat).
Proof.
  destruct nh_start as [[[c q] o]|] eqn:E; [exists c, (nh_apply c q (OStep (PyInt 1))), o|exfalso; vm_compute in E; discriminate E].
  split; [apply kept_later; exact (kept_now _ _ _ (nh_start_given _ _ _ E))|]. cbv zeta. nheaps E.
Qed.

(** ** C80: a caller that writes into the lists of the observations *)
(** the calls of a program *)
Definition calls (l : list deed) : list op := flat_map (fun d => match d with Call o => [o] | Poke _ _ => [] end) l.
(** what a call answers *)
Definition reply : Type := result (obs * list Z * list bool).
Definition np_reply (c : config) (s : state) (o : op) : list reply :=
  match o with
  | OReset rnd rb rs => [let* x := snd (np_reset c s rnd rb rs) in Ok (x, [], [])]
  | OStep b => [let* x := snd (np_step c s b) in Ok (out_obs x, out_payouts x, out_done x)]
  | _ => []
  end.
Fixpoint np_replies (c : config) (s : state) (l : list op) : list reply :=
  match l with [] => [] | o :: r => np_reply c s o ++ np_replies c (np_apply_op c s o) r end.
(** the same at the dealer with objects, each answer read when it is given *)
Definition nh_reply (c : config) (q : hdealer) (o : op) : list reply :=
  match o with
  | OReset rnd rb rs => [let* x := snd (nh_reset c q rnd rb rs) in Ok (seen (fst (nh_reset c q rnd rb rs)) x, [], [])]
  | OStep b => [let* x := snd (nh_step c q b) in let '(x, pay, done) := x in Ok (seen (fst (nh_step c q b)) x, pay, done)]
  | _ => []
  end.
Fixpoint nh_replies (c : config) (w : hdealer * list hobs) (l : list deed) : list reply :=
  match l with
  | [] => []
  | d :: r => (match d with Call o => nh_reply c (fst w) o | Poke _ _ => [] end) ++ nh_replies c (do_deed c w d) r
  end.
(** the lists of numbers and flags *)
Definition own (p : poke) : bool := match p with PActive _ _ | PStacks _ _ | PCommits _ _ => true | _ => false end.
(** a program that writes only into these, or into observations of earlier hands; [m] is the number of
    observations that were kept when the current hand was dealt *)
Fixpoint harmless (c : config) (w : hdealer * list hobs) (m : nat) (l : list deed) : Prop :=
  match l with
  | [] => True
  | d :: r =>
    match d with Poke k p => own p = true \/ (k < m)%nat | Call _ => True end /\
    harmless c (do_deed c w d)
      (match d with
       | Call (OReset rnd rb rs) => if is_ok (snd (nh_reset c (fst w) rnd rb rs)) then List.length (snd w) else m
       | _ => m
       end) r
  end.

Definition gone (q : hdealer) (x : hobs) : Prop :=
  ho_community x <> r_community (q_refs q) /\ ~ In (ho_hole x) (r_holes (q_refs q)).
Lemma poked_same q x p : made q x -> own p = true \/ gone q x ->
  view (poked q x p) = view q /\ q_refs (poked q x p) = q_refs q /\ List.length (bools (q_heap (poked q x p))) = List.length (bools (q_heap q)) /\
  List.length (ints (q_heap (poked q x p))) = List.length (ints (q_heap q)) /\ List.length (cardss (q_heap (poked q x p))) = List.length (cardss (q_heap q)).
Proof.
  intros [S1 S2 S3 S4 S5] H. destruct q as [[b i k] r z]. cbn in *. unfold gone in H. cbn in H.
  assert (U : forall y v, ~ In y (r_holes r) -> map (fun l => nth l (upd k y v) []) (r_holes r) = map (fun l => nth l k (@nil card)) (r_holes r)).
  { intros y v N. apply map_read_upd. apply Forall_forall. intros l I ->. apply N. exact I. }
  destruct p; cbn; rewrite ?upd_length; (split; [|splits; reflexivity]); unfold view, read_bools, read_ints, read_cards; cbn.
  1, 2, 3: rewrite ?upd_nth_other by tauto; reflexivity.
  all: destruct H as [H|[H1 H2]]; [discriminate H|]; rewrite upd_nth_other by tauto; rewrite U by tauto; reflexivity.
Qed.
Lemma same_refs_apart q q' : q_refs q' = q_refs q -> List.length (bools (q_heap q')) = List.length (bools (q_heap q)) ->
  List.length (ints (q_heap q')) = List.length (ints (q_heap q)) -> List.length (cardss (q_heap q')) = List.length (cardss (q_heap q)) ->
  (apart q -> apart q') /\ (forall x, made q x -> made q' x) /\ (forall x, gone q x -> gone q' x).
Proof.
  intros B C D E. splits.
  - intros [W1 W2 W3 W4 W5 W6 W7 W8 W9 W10 W11 W12]. constructor; rewrite ?B, ?C, ?D, ?E; assumption.
  - intros x [W1 W2 W3 W4 W5]. constructor; rewrite ?B, ?C, ?D, ?E; assumption.
  - intros x H. unfold gone. rewrite B. exact H.
Qed.
Lemma gone_frame q q' x : frame q q' -> made q x -> gone q x -> gone q' x.
Proof.
  intros F P [G1 G2]. pose proof (fr_community _ _ F) as A. pose proof (fr_holes _ _ F) as B. destruct P as [_ _ _ P4 P5]. split; [lia|].
  destruct B as [->|B]; [exact G2|]. intros I. rewrite Forall_forall in B. specialize (B _ I). lia.
Qed.
Lemma reply_same c q o : apart q -> nh_reply c q o = np_reply c (view q) o.
Proof.
  intros W. destruct o as [rnd rb rs|b|cs| |l]; try reflexivity; cbn [nh_reply np_reply]; f_equal.
  - destruct (nh_reset_refines c q rnd rb rs W) as (_ & S & _). unfold same_obs in S. destruct (snd (nh_reset c q rnd rb rs)) as [x|e], (snd (np_reset c (view q) rnd rb rs)) as [y|e']; try contradiction; cbn [bind]; [|now rewrite S].
    unfold seen. now rewrite S.
  - destruct (nh_step_refines c q b W) as (_ & _ & S & _). unfold same_out in S. destruct (snd (nh_step c q b)) as [[[x p] d]|e], (snd (np_step c (view q) b)) as [y|e']; try contradiction; cbn [bind]; [|now rewrite S].
    destruct S as (S1 & -> & ->). unfold seen. now rewrite S1.
Qed.
Definition tidy (w : hdealer * list hobs) (m : nat) : Prop :=
  apart (fst w) /\ Forall (made (fst w)) (snd w) /\ (forall k x, (k < m)%nat -> nth_error (snd w) k = Some x -> gone (fst w) x) /\ (m <= List.length (snd w))%nat.
Lemma harmless_same c l : forall w m, tidy w m -> harmless c w m l ->
  view (fst (do_deeds c w l)) = np_run c (view (fst w)) (calls l) /\ nh_replies c w l = np_replies c (view (fst w)) (calls l).
Proof.
  induction l as [|d l IH]; intros [q xs] m T H; [split; reflexivity|]. destruct T as (W & M & G & Lm). cbn [fst snd] in *.
  destruct d as [o|k p].
  - cbn [harmless do_deed] in H. destruct H as [_ H]. change (do_deeds c (q, xs) (Call o :: l)) with (do_deeds c (nh_apply c q o, xs ++ given c q o) l).
    cbn [nh_replies fst do_deed calls flat_map app np_replies]. fold (calls l). change (np_run c (view q) (o :: calls l)) with (np_run c (np_apply_op c (view q) o) (calls l)).
    rewrite (reply_same c q o W). destruct (nh_apply_refines c q o W) as (W1 & F1 & V1). rewrite <- V1.
    set (m' := match o with OReset rnd rb rs => _ | _ => m end) in H.
    assert (T' : tidy (nh_apply c q o, xs ++ given c q o) m').
    { split; [exact W1|]. cbn [fst snd]. split; [|split].
      - apply Forall_app. split; [revert M; apply Forall_impl; intros x; apply made_frame; exact F1|]. apply Forall_forall. intros x I. apply (gv_made _ _ (given_made c q o x W I)).
      - intros k x Lk Nk. assert (K : (k < m)%nat \/ (exists rnd rb rs y, o = OReset rnd rb rs /\ snd (nh_reset c q rnd rb rs) = Ok y /\ m' = List.length xs)).
        { unfold m' in *. destruct o as [rnd rb rs|b|cs| |s0]; try (left; exact Lk). cbn [fst snd] in Lk. destruct (snd (nh_reset c q rnd rb rs)) as [y|e] eqn:E; cbn [is_ok] in Lk; [|left; exact Lk].
          right. exists rnd, rb, rs, y. splits; [reflexivity|exact E|]. cbn [fst snd]. rewrite E. reflexivity. }
        destruct K as [K|(rnd & rb & rs & y & -> & E & Em)].
        + rewrite nth_error_app1 in Nk by lia. assert (Mx : made q x) by (rewrite Forall_forall in M; apply M; exact (nth_error_In _ _ Nk)).
          apply (gone_frame q); [exact F1|exact Mx|]. exact (G k x K Nk).
        + rewrite Em in Lk. rewrite nth_error_app1 in Nk by exact Lk. assert (Mx : made q x) by (rewrite Forall_forall in M; apply M; exact (nth_error_In _ _ Nk)).
          destruct (nh_reset_new _ _ _ _ _ _ W E) as (_ & A & B). destruct Mx as [_ _ _ P4 P5]. cbn [nh_apply]. split; [lia|]. intros I. rewrite Forall_forall in B. specialize (B _ I). lia.
      - rewrite app_length. unfold m'. destruct o as [rnd rb rs|b|cs| |s0]; try lia. cbn [fst snd]. destruct (is_ok _); lia. }
    destruct (IH _ _ T' H) as [A B]. split; [exact A|]. f_equal. exact B.
  - cbn [harmless do_deed] in H. destruct H as [Hp H]. change (do_deeds c (q, xs) (Poke k p :: l)) with (do_deeds c (do_deed c (q, xs) (Poke k p)) l).
    cbn [nh_replies calls flat_map app do_deed]. fold (calls l). destruct (nth_error xs k) as [x|] eqn:Nk.
    + assert (Mx : made q x) by (rewrite Forall_forall in M; apply M; exact (nth_error_In _ _ Nk)).
      assert (Hx : own p = true \/ gone q x) by (destruct Hp as [Hp|Hp]; [left; exact Hp|right; exact (G k x Hp Nk)]).
      destruct (poked_same q x p Mx Hx) as (V & B & C & D & E). destruct (same_refs_apart q (poked q x p) B C D E) as (X1 & X2 & X3).
      assert (T' : tidy (poked q x p, xs) m).
      { split; [exact (X1 W)|]. cbn [fst snd]. split; [revert M; apply Forall_impl; exact X2|]. split; [|exact Lm]. intros k' x' L' N'. apply X3. exact (G k' x' L' N'). }
      destruct (IH _ _ T' H) as [A1 A2]. cbn [fst] in A1, A2. rewrite V in A1, A2. split; [exact A1|exact A2].
    + apply (IH (q, xs) m); [split; [exact W|split; [exact M|split; [exact G|exact Lm]]]|exact H].
Qed.

(** C80, what holds: a program may write into the lists of numbers and flags of all observations, and into all
    lists of the observations of earlier hands: the game and all answers of the dealer are those of the program
    that makes only the calls *)
Theorem C80_partial : forall c w rnd s l, Dealer rnd w = Ok (c, s) -> harmless c (hnew s, []) 0 l ->
  view (fst (do_deeds c (hnew s, []) l)) = np_run c s (calls l) /\ nh_replies c (hnew s, []) l = np_replies c s (calls l).
Proof.
  intros c w rnd s l E H. destruct (hnew_apart s) as [W V]. pose proof (harmless_same c l (hnew s, []) 0) as X. cbn [fst] in X. rewrite V in X. apply X; [|exact H].
  split; [exact W|]. split; [constructor|]. split; [intros k x L; lia|cbn; lia].
Qed.
Print Assumptions C80_partial.

(** C80, exactly: until the next reset, writing into the community cards or the hole cards of an observation is
    an assignment to the dealer's own cards *)
Theorem C80_live : forall c q x bs, just_given c q x ->
  let q' := nh_steps c q bs in let s := view q' in
  (forall j v, community_cards (view (poked q' x (PCommunity j v))) = upd (community_cards s) j v) /\
  (forall a, action (view q) = Some a -> forall j v,
     hole_cards (view (poked q' x (PHole j v))) = upd (hole_cards s) a (upd (nth a (hole_cards s) []) j v)).
Proof.
  intros c q x bs J. cbv zeta. pose proof (nh_reachable_apart _ _ (just_given_reachable _ _ _ J)) as W. destruct (just_given_gives _ _ _ J) as [_ E4 _ E5].
  destruct (nh_steps_cards c bs q W) as [A1 A2]. destruct (nh_run_refines c (map OStep bs) q W) as (W' & _ & _). fold (nh_steps c q bs) in W'.
  set (q' := nh_steps c q bs) in *. clearbody q'. destruct W' as [W1 W2 W3 W4 W5 W6 W7 W8 W9 W10 W11 W12]. rewrite <- A1 in E4. rewrite <- A2 in E5. clear A1 A2 W J.
  destruct q' as [[b i k] [ra ro rs rp rm rc rh] z]. unfold view, read_cards. cbn in *. rewrite E4. clear E4. split.
  - intros j v. apply upd_nth_same. exact W10.
  - intros a Ha j v. specialize (E5 a Ha). set (y := ho_hole x) in *.
    assert (Ly : (y < List.length k)%nat) by (rewrite Forall_forall in W11; exact (proj1 (W11 _ (nth_error_In _ _ E5)))).
    assert (La : (a < List.length rh)%nat) by (apply nth_error_Some; congruence).
    assert (Na : nth a (map (fun l => nth l k []) rh) [] = nth y k []).
    { rewrite (nth_indep _ [] (nth 0%nat k [])) by (rewrite map_length; exact La). rewrite (map_nth (fun l => nth l k [])). f_equal. apply nth_error_nth. exact E5. }
    rewrite Na. apply nth_ext with (d := []) (d' := []); [now rewrite upd_length, !map_length|]. intros m Hm. rewrite map_length in Hm.
    assert (Nm : forall kk, nth m (map (fun l => nth l kk (@nil card)) rh) [] = nth (nth m rh 0%nat) kk []).
    { intros kk. rewrite (nth_indep _ [] (nth 0%nat kk [])) by (rewrite map_length; exact Hm). apply (map_nth (fun l => nth l kk [])). }
    rewrite Nm. destruct (Nat.eq_dec a m) as [<-|Ne].
    + rewrite upd_nth_same by (rewrite map_length; exact La). rewrite (nth_error_nth _ _ _ E5). apply upd_nth_same. exact Ly.
    + rewrite (upd_nth_other _ a m) by exact Ne. rewrite Nm. apply upd_nth_other. intros E. apply Ne. rewrite NoDup_nth_error in W12. apply W12; [exact La|].
      rewrite E5, E. symmetry. apply nth_error_nth'. exact Hm.
Qed.
Print Assumptions C80_live.

(** ** C80 is false as stated *)
(** what the next call of [step] pays *)
Definition pays (c : config) (q : hdealer) (b : pynum) : option (list Z) :=
  match snd (nh_step c q b) with Ok (_, pay, _) => Some pay | Err _ => None end.
(** Both players have a two and the hand is a tie.  If seat 1 writes an ace into the hole cards of the observation
    it was given, seat 1 wins the hand. *)
Theorem C80_refuted : exists c q x, just_given c q x /\
  (action (view q) = Some 1%nat /\ hole_cards (view q) = [[demo_card 0]; [demo_card 1]]) /\
  pays c (nh_steps c q [PyInt 1; PyInt 0; PyInt 0]) (PyInt 0) = Some [0; 0] /\
  (let q' := poked q x (PHole 0 (demo_card 48)) in
   hole_cards (view q') = [[demo_card 0]; [demo_card 48]] /\ pays c (nh_steps c q' [PyInt 1; PyInt 0; PyInt 0]) (PyInt 0) = Some [-2; 2]).
Proof.
  destruct nh_start as [[[c q] o]|] eqn:E; [exists c, q, o|exfalso; vm_compute in E; discriminate E].
  split; [exact (nh_start_given _ _ _ E)|]. cbv zeta. nheaps E.
Qed.
Print Assumptions C80_refuted.

(** a program that writes into the stacks of the first observation at once, and into its cards once the next hand
    is dealt *)
Definition meddling : list deed :=
  [Call (OReset [] false false); Poke 0 (PStacks 1 1000); Poke 0 (PActive 0 false); Call (OStep (PyInt 1)); Call (OReset [] false false);
   Poke 0 (PHole 0 (demo_card 48)); Poke 0 (PCommits 0 7); Call (OStep (PyInt 1)); Poke 2 (PCommits 1 9); Call (OStep (PyInt 2))].
Definition meddled : result (config * state) := Dealer [] heap_game.
Lemma meddled_fact {A} (f : config -> state -> A) v c s : Dealer [] heap_game = Ok (c, s) ->
  match meddled with Ok (c, s) => Some (f c s) | Err _ => None end = Some v -> f c s = v.
Proof. unfold meddled. intros ->. intros H. injection H. exact (fun e => e). Qed.
Definition harmless_b (c : config) : hdealer * list hobs -> nat -> list deed -> bool :=
  fix go w m l :=
  match l with
  | [] => true
  | d :: r =>
    match d with Poke k p => own p || (k <? m)%nat | Call _ => true end &&
    go (do_deed c w d)
      (match d with
       | Call (OReset rnd rb rs) => if is_ok (snd (nh_reset c (fst w) rnd rb rs)) then List.length (snd w) else m
       | _ => m
       end) r
  end.
Lemma harmless_b_spec c l : forall w m, harmless_b c w m l = true -> harmless c w m l.
Proof.
  induction l as [|d l IH]; intros w m H; [exact I|]. cbn [harmless_b] in H. apply andb_prop in H. destruct H as [A B]. split; [|apply IH; exact B].
  destruct d as [o|k p]; [exact I|]. apply orb_prop in A. destruct A as [A|A]; [left; exact A|right; apply Nat.ltb_lt; exact A].
Qed.
Example C80_example : exists c s, Dealer [] heap_game = Ok (c, s) /\ harmless c (hnew s, []) 0 meddling /\
  (let w := do_deeds c (hnew s, []) meddling in
   stacks (view (fst w)) = [6; 4] /\
   map (fun x => (o_stacks (seen (fst w) x), o_hole_cards (seen (fst w) x), o_street_commits (seen (fst w) x))) (snd w) =
   [([8; 1000], [demo_card 48], [7; 1]); ([8; 8], [demo_card 0], [2; 2]); ([7; 6], [demo_card 0], [1; 9]);
    ([6; 6], [demo_card 1], [2; 2]); ([6; 4], [demo_card 0], [2; 4])]).
Proof.
  destruct (Dealer [] heap_game) as [[c s]|] eqn:E; [|exfalso; vm_compute in E; discriminate E]. exists c, s. split; [reflexivity|].
  split; [apply harmless_b_spec; apply (meddled_fact (fun c s => harmless_b c (hnew s, []) 0 meddling) true c s E); vm_compute; reflexivity|].
  cbv zeta. split.
  - apply (meddled_fact (fun c s => stacks (view (fst (do_deeds c (hnew s, []) meddling)))) _ c s E). vm_compute. reflexivity.
  - apply (meddled_fact (fun c s => let w := do_deeds c (hnew s, []) meddling in map (fun x => (o_stacks (seen (fst w) x), o_hole_cards (seen (fst w) x), o_street_commits (seen (fst w) x))) (snd w)) _ c s E).
    vm_compute. reflexivity.
Qed.
