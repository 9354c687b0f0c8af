(** * EngineSpec: vocabulary for the properties of the dealer *)
From Verif Require Import PyBase CardModel EvalModel EngineModel.

(** ** Reachable states

    A dealer is built, then any operations follow: resets, steps with any bets, tricking of the
    deck, assignments of new stacks.  Excluded is only a reset that raises in the middle of a
    hand (it overwrites [active] before it raises and so corrupts the hand that goes on; see
    C40_failed_reset_corrupts_hand), and an assignment of a list of stacks of another length. *)
Definition allowed (c : config) (s : state) (o : op) : Prop :=
  match o with
  | OReset rnd rb rs => action s = None \/ is_ok (snd (reset c s rnd rb rs)) = true
  | OSetStacks l => List.length l = num_players c
  | _ => True
  end.
Inductive reachable (c : config) : state -> Prop :=
| reach_new w rnd s : Dealer rnd w = Ok (c, s) -> reachable c s
| reach_op s o : reachable c s -> allowed c s o -> reachable c (apply_op c s o).

(** a hand is in progress: it is somebody's turn *)
Definition in_progress (s : state) : Prop := action s <> None.
(** all chips: in front of the players and in the pot *)
Definition all_chips (s : state) : Z := sumZ (stacks s) + pot s.
Definition is_active (s : state) (i : nat) : Prop := nth i (active s) false = true.
Definition stack_of (s : state) (i : nat) : Z := nth i (stacks s) 0.
Definition committed (s : state) (i : nat) : Z := nth i (pot_commits s) 0.
Definition street_committed (s : state) (i : nat) : Z := nth i (street_commits s) 0.

(** the next seat clockwise after [a] whose player is in the hand *)
Definition next_in_hand (n : nat) (act : list bool) (a a' : nat) : Prop :=
  exists i, (1 <= i <= n)%nat /\ a' = Nat.modulo (a + i) n /\ nth a' act false = true /\
    forall j, (1 <= j < i)%nat -> nth (Nat.modulo (a + j) n) act false = false.

(** amounts are not negative *)
Record sane (c : config) : Prop := mkSane {
  sane_blinds : Forall (fun b => 0 <= b) (blinds c);
  sane_antes : Forall (fun b => 0 <= b) (antes c);
  sane_raises : Forall (fun r => match r with RInt z => 0 <= z | _ => True end) (raise_sizes c);
  sane_start : 0 <= start_stack c
}.

(** the operations of a list are all allowed when they are executed one after the other *)
Definition allowedb (c : config) (s : state) (o : op) : bool :=
  match o with
  | OReset rnd rb rs => match action s with None => true | Some _ => is_ok (snd (reset c s rnd rb rs)) end
  | OSetStacks l => Nat.eqb (List.length l) (num_players c)
  | _ => true
  end.
Fixpoint all_allowed (c : config) (s : state) (ops : list op) : bool :=
  match ops with
  | [] => true
  | o :: r => if allowedb c s o then all_allowed c (apply_op c s o) r else false
  end.
Lemma run_reachable c s ops : reachable c s -> all_allowed c s ops = true -> reachable c (run c s ops).
Proof.
  revert s; induction ops as [|o ops IH]; intros s R H; [exact R|]. cbn [all_allowed] in H.
  destruct (allowedb c s o) eqn:E; [|discriminate]. cbn. apply IH; [|exact H]. apply reach_op; [exact R|].
  destruct o as [rnd rb rs|b|cs| |l]; cbn in *; try exact I.
  - destruct (action s) eqn:Ea; [now right|now left].
  - now apply PeanoNat.Nat.eqb_eq in E.
Qed.

(** ** Legal bets: what the last observation allows *)
Definition legal (o : obs) (x : Z) : Prop :=
  x = 0 \/ x = o_call o \/ o_min_raise o <= x <= o_max_raise o.
(** [v] is the legal amount nearest to [x], the smaller one if two are equally near *)
Definition nearest_legal (o : obs) (x v : Z) : Prop :=
  legal o v /\ forall u, legal o u ->
    Z.abs (v - x) <= Z.abs (u - x) /\ (Z.abs (v - x) = Z.abs (u - x) -> v <= u).

(** ** Fair play: the configured amounts are not negative, and stacks are only ever assigned
    non-negative values.  (Blinds and antes may still exceed a stack.) *)
Inductive fair (c : config) : state -> Prop :=
| fair_new w rnd s : Dealer rnd w = Ok (c, s) -> sane c -> fair c s
| fair_op s o : fair c s -> allowed c s o ->
    match o with OSetStacks l => Forall (fun x => 0 <= x) l | _ => True end ->
    fair c (apply_op c s o).
Lemma fair_reachable c s : fair c s -> reachable c s.
Proof. induction 1; [eapply reach_new; eassumption|now apply reach_op]. Qed.
Lemma fair_sane c s : fair c s -> sane c.
Proof. induction 1; assumption. Qed.

(** ** Raises *)
(** the chips the seat [a] puts in with a step *)
Definition put_in (c : config) (s : state) (b : pynum) (a : nat) : Z :=
  committed (fst (step c s b)) a - committed s a.
(** the step is a raise: chips go in, and more than the observed call *)
Definition raises (c : config) (s : state) (b : pynum) : bool :=
  match action s, observation c s false with
  | Some a, Ok o => (0 <? put_in c s b a) && (o_call o <? put_in c s b a)
  | _, _ => false
  end.
(** a full raise: the call is exceeded by at least the largest raise of the hand so far *)
Definition full_raise (c : config) (s : state) (b : pynum) : bool :=
  match action s, observation c s false with
  | Some a, Ok o => (0 <? put_in c s b a) && (o_call o <? put_in c s b a) && (largest_raise s <=? put_in c s b a - o_call o)
  | _, _ => false
  end.
(** how many of the steps [bs] satisfy [p], up to the end of the current street *)
Fixpoint count_on_street (p : state -> pynum -> bool) (c : config) (s : state) (bs : list pynum) : nat :=
  match bs with
  | [] => 0%nat
  | b :: r =>
    let s' := fst (step c s b) in
    ((if p s b then 1 else 0) +
    (if Nat.eqb (street s') (street s) then match action s' with Some _ => count_on_street p c s' r | None => 0 end else 0))%nat
  end.
(** the street has just begun *)
Definition street_start (c : config) (s : state) : Prop :=
  (exists s0 rnd rb rs, fair c s0 /\ s = fst (reset c s0 rnd rb rs) /\ is_ok (snd (reset c s0 rnd rb rs)) = true) \/
  (exists s0 b, fair c s0 /\ s = fst (step c s0 b) /\ street s <> street s0).

(** ** History *)
(** the sum of the bets of seat [i] recorded in a history *)
Definition recorded (i : nat) (h : list (nat * Z * bool)) : Z :=
  sumZ (map (fun e => let '(p, bet, _) := e in if Nat.eqb p i then bet else 0) h).
