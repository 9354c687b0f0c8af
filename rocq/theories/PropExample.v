(** * PropExample: the example programs (C63, C64) *)
From Coq Require Import ZifyBool ZifyNat Arith Permutation.
From Verif Require Import PyBase PyFacts CardModel CardSpec CardProofs DeckSpec DeckProofs EvalModel EvalSpec EvalFinal EngineModel EngineSpec EngineFacts BetFacts EngineDemo MoneyFacts ConfigsModel
  PropEval PropConfig PropRound PropReset PropBetting ShowSpec SolventSpec SolventFacts PropSolvent ShowFacts SideFacts HandEnd PropShow PaidSpec PaidFacts PropPaid PropTerm LevelFacts PropLevel AsciiModel JsonModel SvgModel RenderModel PropRender ExampleModel.

(** the hands of the players left can be evaluated *)
Definition hands_ok (c : config) (s : state) : Prop :=
  forall i, (i < num_players c)%nat -> is_ok (evaluate (the_evaluator c) (nth i (hole_cards s) []) (community_cards s)) = true.
Lemma eval_hands_total c act hole comm : List.length hole = num_players c ->
  (forall i, (i < num_players c)%nat -> is_ok (evaluate (the_evaluator c) (nth i hole []) comm) = true) ->
  is_ok (eval_hands c act hole comm) = true.
Proof.
  intros Lh H. unfold eval_hands.
  assert (Y : forall l, incl l (seq 0 (num_players c)) -> is_ok (map_res (fun p => if nth p act false then let* h := get hole p in evaluate (the_evaluator c) h comm else Ok (worst_hand c)) l) = true).
  { induction l as [|x l IH]; intros Hl; [reflexivity|]. cbn [map_res].
    assert (Hx : (x < num_players c)%nat) by (specialize (Hl x (or_introl eq_refl)); apply in_seq in Hl; lia).
    specialize (IH (fun y Hy => Hl y (or_intror Hy))).
    destruct (nth x act false).
    - unfold get. rewrite (nth_error_nth' _ []) by lia. cbn [bind]. specialize (H x Hx).
      destruct (evaluate (the_evaluator c) (nth x hole []) comm); [|discriminate H]. cbn [bind]. destruct (map_res _ l); [reflexivity|discriminate IH].
    - cbn [bind]. destruct (map_res _ l); [reflexivity|discriminate IH]. }
  apply Y. apply incl_refl.
Qed.
Lemma done_all_early c z : all_true (done_list c z) = false -> (street z < num_streets c)%nat.
Proof.
  unfold done_list. destruct (Nat.leb_spec (num_streets c) (street z)) as [H|H]; [|intros _; exact H]. cbn [orb]. intros E. exfalso.
  assert (T : forall n, all_true (repeat true n) = true) by (induction n as [|n IH]; [reflexivity|exact IH]). rewrite T in E. discriminate E.
Qed.
(** a step of a program: it ends the hand, goes on, or raises *)
Lemma step_three c s b : fair c s -> in_progress s -> (street s < num_streets c)%nat -> is_ok (py_round b) = true ->
  hands_ok c (fst (step c s b)) ->
  match step c s b with
  | (s', Err e) => e = IndexError
  | (s', Ok out) => if all_true (out_done out) then action s' = None
                    else in_progress s' /\ (street s' < num_streets c)%nat /\ observation c s' false = Ok (out_obs out)
  end.
Proof.
  intros F Hp Hs Hb Hh. pose proof (reachable_cfg c s (fair_reachable c s F)) as W.
  destruct (step_settled c s b F Hp) as [(X & _)|(z & Z)].
  { exfalso. unfold after_bet in X. destruct (action s) as [a|] eqn:Ea; [|now apply Hp]. destruct (py_round b); [|discriminate Hb].
    destruct (bet_sizes_ok c s W Hs) as [[[x y] w] E]. rewrite E in X. destruct (settle_bet _ _ _ _ _). discriminate X. }
  destruct (se_same _ _ _ _ Z) as (E1 & E2 & E3 & E4 & E5 & E6).
  rewrite (se_step _ _ _ _ Z). unfold step_end. destruct (payouts c z) as [pay|e] eqn:P.
  2:{ destruct (Z.eq_dec (count_true (active z)) 1) as [C|C].
      { destruct (payouts_fold c z C (se_active _ _ _ _ Z) (se_commits _ _ _ _ Z)) as (pay & X & _). rewrite X in P. discriminate P. }
      destruct (Nat.lt_ge_cases (street z) (num_streets c)) as [Lt|Ge].
      { destruct (payouts_early c z C Lt (se_active _ _ _ _ Z) (se_commits _ _ _ _ Z)) as (pay & X & _). rewrite X in P. discriminate P. }
      destruct (settled_paid c s b z Z C Ge) as [(e' & X & _)|(pots & _ & _ & _ & X)].
      - exfalso. unfold hands_ok in Hh. rewrite E5, E6 in Hh. pose proof (eval_hands_total c (active z) (hole_cards z) (community_cards z) (se_hole _ _ _ _ Z) Hh) as T.
        rewrite X in T. discriminate T.
      - cbv zeta in X. rewrite X in P. destruct (odd_chips pots =? 0); [discriminate P|]. destruct (first_after _ _ _); [discriminate P|]. now injection P as <-. }
  destruct (all_true (done_list c z)) eqn:D.
  - destruct (finish_obs c z pay) as (o & Ho); [rewrite (se_hole _ _ _ _ Z); pose proof (se_players _ _ _ _ Z); lia|]. rewrite Ho. cbn [bind out_done]. rewrite D. reflexivity.
  - pose proof (done_all_early c z D) as Lt. unfold observation. destruct (bet_sizes_ok c z W Lt) as [[[x y] w] E]. rewrite E. cbn [bind].
    destruct (action z) as [a|] eqn:Ea; [|exfalso; now apply (se_turn _ _ _ _ Z)].
    assert (La : (a < num_players c)%nat).
    { assert (Ez : fst (step c s b) = z) by (rewrite (se_step _ _ _ _ Z); unfold step_end; rewrite P, D; reflexivity).
      pose proof (reachable_wf c _ (fair_reachable c _ (fair_op c s (OStep b) F I I))) as I'. cbn [apply_op] in I'. rewrite Ez in I'. exact (proj1 (wf_turn _ _ I' a Ea)). }
    unfold get. rewrite (nth_error_nth' _ []) by (rewrite (se_hole _ _ _ _ Z); exact La). cbn [bind out_done out_obs]. rewrite D.
    split; [unfold in_progress; rewrite Ea; discriminate|]. split; [exact Lt|reflexivity].
Qed.

(** chips in front of the players and in the pot *)
Definition holds (c : config) (t : Z) (s : state) : Prop :=
  forall i, (i < num_players c)%nat -> 0 <= stack_of s i /\ stack_of s i + committed s i = t.
Lemma holds_step c t s b : fair c s -> in_progress s -> holds c t s ->
  in_progress (fst (step c s b)) -> holds c t (fst (step c s b)).
Proof.
  intros F Hp H Hn i Hi. destruct (H i Hi) as [H1 H2]. destruct (step_settled c s b F Hp) as [(_ & E & _)|(z & Z)]; [rewrite E; auto|].
  pose proof (se_put _ _ _ _ Z i Hi) as Pu. unfold put_in in Pu. pose proof (se_keep _ _ _ _ Z i H1) as K. destruct (se_same _ _ _ _ Z) as (_ & E2 & _).
  assert (Es : stack_of (fst (step c s b)) i = stack_of z i).
  { rewrite (se_step _ _ _ _ Z) in *. destruct (step_end_cases c z) as [(e & _ & E)|[(pay & _ & _ & E)|(pay & _ & _ & E)]]; [rewrite E; reflexivity| |rewrite E; reflexivity].
    exfalso. apply Hn. rewrite E. reflexivity. }
  split; lia.
Qed.

Section Loop.
Context {A : Type} (bet : obs -> A -> result Z) (c : config).
Definition no_error (l : list A) : Prop := forall s a o m, In m l -> fair c s -> action s = Some a -> observation c s false = Ok o -> is_ok (bet o m) = true.
Lemma plays_on_ends t l : no_error l -> forall s o, fair c s -> in_progress s -> (street s < num_streets c)%nat -> observation c s false = Ok o -> holds c t s ->
  (forall bs, hands_ok c (run_steps c s bs)) ->
  match plays_on bet c s o l with
  | Raises e => e = IndexError
  | Plays s' o' => in_progress s' /\ (street s' < num_streets c)%nat /\
      exists bs, List.length bs = List.length l /\ Forall (fun b => is_ok (py_round b) = true) bs /\ s' = run_steps c s bs
  | Prints r s' => exists s0 b out, fair c s0 /\ in_progress s0 /\ holds c t s0 /\ (level c s -> level c s0) /\ s' = fst (step c s0 b) /\ action s' = None /\ snd (step c s0 b) = Ok out /\ r = out_payouts out
  end.
Proof.
  induction l as [|m l IH]; intros N s o F Hp Hs Ho Ht Hh.
  { cbn [plays_on]. split; [exact Hp|]. split; [exact Hs|]. exists []. auto. }
  cbn [plays_on]. destruct (action s) as [a|] eqn:Ea; [|exfalso; now apply Hp].
  pose proof (N s a o m (or_introl eq_refl) F Ea Ho) as Nb. destruct (bet o m) as [b|]; [|discriminate Nb]. clear Nb.
  pose proof (step_three c s (PyInt b) F Hp Hs eq_refl (Hh [PyInt b])) as T.
  destruct (step c s (PyInt b)) as [s' [out|e]] eqn:E; [|exact T].
  destruct (all_true (out_done out)).
  - exists s, (PyInt b), out. rewrite E. cbn [fst snd]. split; [exact F|]. split; [exact Hp|]. split; [exact Ht|]. split; [auto|]. auto.
  - destruct T as (T1 & T2 & T3). assert (Es : s' = fst (step c s (PyInt b))) by (rewrite E; reflexivity).
    assert (F' : fair c s') by (rewrite Es; exact (fair_op c s (OStep (PyInt b)) F I I)).
    assert (Ht' : holds c t s') by (rewrite Es; apply holds_step; try assumption; rewrite <- Es; exact T1).
    assert (Hh' : forall bs, hands_ok c (run_steps c s' bs)) by (intros bs; rewrite Es; exact (Hh (PyInt b :: bs))).
    specialize (IH (fun s a o m Hm => N s a o m (or_intror Hm)) s' (out_obs out) F' T1 T2 T3 Ht' Hh').
    destruct (plays_on bet c s' (out_obs out) l) as [r s1|e|s1 o1]; [|exact IH|].
    { destruct IH as (s0 & b0 & out0 & I1 & I2 & I3 & I4 & I5). exists s0, b0, out0. split; [exact I1|]. split; [exact I2|]. split; [exact I3|]. split; [|exact I5].
      intros V. apply I4. rewrite Es. apply step_level; try assumption; rewrite <- Es; assumption. }
    destruct IH as (I1 & I2 & bs & L & Fb & Er). split; [exact I1|]. split; [exact I2|]. exists (PyInt b :: bs).
    split; [cbn [List.length]; congruence|]. split; [constructor; [reflexivity|exact Fb]|]. rewrite Er, Es. reflexivity.
Qed.
End Loop.

(** ** What the programs need of a configuration *)
Definition inp_list {A} (v : inp A) (n : Z) : list A := match v with Scalar x => repeat x (Z.to_nat n) | Listed l => l end.
(** no negative amounts, stacks that cover any ante and blind, hands that can be made, at least one street *)
Record ordinary (w : raw_config) : Prop := mkOrdinary {
  or_blinds : Forall (fun b => 0 <= b) (inp_list (rw_blinds w) (rw_num_players w));
  or_antes : Forall (fun b => 0 <= b) (inp_list (rw_antes w) (rw_num_players w));
  or_raises : Forall (fun r => match r with RawInt z => 0 <= z | _ => True end) (inp_list (rw_raise_sizes w) (rw_num_streets w));
  or_start : 0 < rw_start_stack w;
  or_cover : forall a b, In a (0 :: inp_list (rw_antes w) (rw_num_players w)) -> In b (0 :: inp_list (rw_blinds w) (rw_num_players w)) -> a + b <= rw_start_stack w;
  or_hand : 0 <= rw_mandatory_num_hole_cards w <= rw_num_cards_for_hand w;
  or_order : rw_order w = None \/ (order_perm (rw_order w) /\ rw_num_suits w <> 1);
  or_streets : 1 <= rw_num_streets w
}.
(** moreover everybody pays the same ante and nobody is all in after antes and blinds *)
Definition even_start (w : raw_config) : Prop :=
  (exists a, Forall (eq a) (inp_list (rw_antes w) (rw_num_players w))) /\
  forall a b, In a (inp_list (rw_antes w) (rw_num_players w)) -> In b (inp_list (rw_blinds w) (rw_num_players w)) -> a + b < rw_start_stack w.
Lemma check_inp_list {A} (v : inp A) n l : check_inp v n = Ok l -> l = inp_list v n.
Proof. unfold check_inp, inp_list. destruct v as [x|x]; [now intros H; injection H as <-|]. destruct (_ =? _); [|discriminate]. now intros H; injection H as <-. Qed.
Lemma shipped_ordinary w : In w shipped_configs -> ordinary w.
Proof.
  intros Hw. cbn [shipped_configs In] in Hw.
  assert (G : forall l : list Z, forallb (Z.leb 0) l = true -> Forall (fun b => 0 <= b) l).
  { intros l H. apply Forall_forall. intros x Hx. rewrite forallb_forall in H. apply H in Hx. lia. }
  assert (G' : forall l, forallb (fun r => match r with RawInt z => 0 <=? z | _ => true end) l = true -> Forall (fun r => match r with RawInt z => 0 <= z | _ => True end) l).
  { intros l H. apply Forall_forall. intros x Hx. rewrite forallb_forall in H. apply H in Hx. destruct x; try exact I. lia. }
  assert (G'' : forall la lb st, forallb (fun a => forallb (fun b => a + b <=? st) lb) la = true -> forall a b, In a la -> In b lb -> a + b <= st).
  { intros la lb st H a b Ha Hb. rewrite forallb_forall in H. apply H in Ha. rewrite forallb_forall in Ha. apply Ha in Hb. lia. }
  do 16 (destruct Hw as [<-|Hw]; [split;
    [apply G; reflexivity|apply G; reflexivity|apply G'; reflexivity|cbn; lia|apply G''; reflexivity|cbn; lia
    |first [left; reflexivity|right; split; [unfold order_perm; cbn [rw_order SHORT_DECK_TWO_PLAYER SHORT_DECK_SIX_PLAYER SHORT_DECK_NINE_PLAYER]; nodup_tac|cbn; lia]]
    |cbn; lia]|]).
  contradiction.
Qed.

Record started (w : raw_config) (rnd0 rnd : list nat) (c : config) (s : state) (o : obs) : Prop := mkStarted {
  sd_program : forall A (bet : obs -> A -> result Z) l, program bet w rnd0 rnd l = plays_on bet c s o l;
  sd_run : exists s0, Dealer rnd0 w = Ok (c, s0) /\ reset c s0 rnd false false = (s, Ok o);
  sd_fair : fair c s;
  sd_turn : in_progress s;
  sd_street : street s = O;
  sd_streets : num_streets c = Z.to_nat (rw_num_streets w);
  sd_obs : observation c s false = Ok o;
  sd_players : num_players c = Z.to_nat (rw_num_players w);
  sd_holds : holds c (rw_start_stack w) s;
  sd_hands : forall bs, hands_ok c (run_steps c s bs);
  sd_longest : longest c s <= (rw_num_players w * (rw_start_stack w + 1) + rw_num_streets w + 1) * rw_num_players w;
  sd_raises : exists rs, check_inp (rw_raise_sizes w) (rw_num_streets w) = Ok rs /\ Forall2 cleaned rs (raise_sizes c);
  sd_button : button s = 1%nat;
  sd_level : even_start w -> level c s
}.
Lemma run_ops_steps c s bs : run c s (map OStep bs) = run_steps c s bs.
Proof. revert s; induction bs as [|b bs IH]; intros s; [reflexivity|]. exact (IH (fst (step c s b))). Qed.
Lemma shipped_even w : In w shipped_configs -> w <> NO_LIMIT_HOLDEM_BB_ANTE_NINE_PLAYER -> even_start w.
Proof.
  intros Hw Hn. cbn [shipped_configs In] in Hw.
  assert (G : forall la lb st, forallb (fun a => forallb (fun b => a + b <? st) lb) la = true -> forall a b, In a la -> In b lb -> a + b < st).
  { intros la lb st H a b Ha Hb. rewrite forallb_forall in H. specialize (H a Ha). rewrite forallb_forall in H. specialize (H b Hb). lia. }
  assert (G' : forall x l, forallb (Z.eqb x) l = true -> exists a, Forall (eq a) l).
  { intros x l H. exists x. apply Forall_forall. intros y Hy. rewrite forallb_forall in H. specialize (H y Hy). lia. }
  repeat (destruct Hw as [<-|Hw]; [first [exfalso; apply Hn; reflexivity|split; [first [apply (G' 0); reflexivity|apply (G' 1); reflexivity]|apply G; reflexivity]]|]). destruct Hw.
Qed.
Lemma step_hole_same c s b : cfg_wf c -> hole_cards (fst (step c s b)) = hole_cards s.
Proof.
  intros W. destruct (action s) as [a|] eqn:Ea; [|unfold step; rewrite Ea; reflexivity].
  destruct (step_take c s b a W Ea) as [(-> & _)|(call & mi & ma & bet & folds & s1 & H1 & P)]; [reflexivity|].
  rewrite (sp_hole _ _ _ _ _ _ _ _ _ _ _ P). exact (be_hole _ _ _ _ _ _ _ _ _ _ (sp_bet _ _ _ _ _ _ _ _ _ _ _ P)).
Qed.
Lemma NoDup_app_piece {A} (a b d : list A) : NoDup (a ++ b ++ d) -> NoDup (b ++ a).
Proof.
  intros H. assert (P : Permutation (a ++ b ++ d) ((b ++ a) ++ d)) by (rewrite app_assoc; apply Permutation_app_tail, Permutation_app_comm).
  apply (Permutation_NoDup P) in H. revert H. generalize (b ++ a) as l. induction l as [|x l IH]; intros H; [constructor|]. inversion H as [|? ? H1 H2]; subst.
  constructor; [intros X; apply H1, in_or_app; now left|now apply IH].
Qed.
Lemma in_concat_split {A} (ll : list (list A)) i : (i < List.length ll)%nat -> exists u v, List.concat ll = u ++ nth i ll [] ++ v.
Proof.
  revert i; induction ll as [|x ll IH]; intros i Hi; [cbn in Hi; lia|]. destruct i as [|i]; [exists [], (List.concat ll); reflexivity|].
  cbn [List.length] in Hi. destruct (IH i ltac:(lia)) as (u & v & E). exists (x ++ u), v. cbn [List.concat nth]. now rewrite E, app_assoc.
Qed.
Lemma count_true_le_length l : count_true l <= Z.of_nat (List.length l).
Proof. induction l as [|x l IH]; [cbn; lia|]. unfold count_true in *. cbn [map List.length]. rewrite sumZ_cons. destruct x; unfold b2z in *; lia. Qed.
Lemma sumZ_abs_le (l : list Z) t : (forall i, (i < List.length l)%nat -> 0 <= nth i l 0 <= t) -> sumZ (map Z.abs l) <= Z.of_nat (List.length l) * t.
Proof.
  induction l as [|x l IH]; intros H; [cbn; lia|]. cbn [map List.length]. rewrite sumZ_cons.
  pose proof (H 0%nat ltac:(cbn; lia)) as H0. cbn [nth] in H0. specialize (IH (fun i Hi => H (S i) ltac:(cbn; lia))). lia.
Qed.
Lemma program_start w rnd0 rnd : ordinary w -> is_ok (Dealer rnd0 w) = true -> exists c s o, started w rnd0 rnd c s o.
Proof.
  intros Ow Hd. destruct (Dealer rnd0 w) as [[c s0]|] eqn:D; [|discriminate Hd]. clear Hd.
  pose proof (Dealer_inv _ _ _ _ D) as B. pose proof (built_cfg_wf _ _ _ _ D) as W. pose proof (bd_np _ _ _ _ B) as Np.
  pose proof (check_inp_list _ _ _ (bd_blinds _ _ _ _ B)) as Eb. pose proof (check_inp_list _ _ _ (bd_antes _ _ _ _ B)) as Ean.
  destruct (bd_raises _ _ _ _ B) as (rs & Ers & Ecr). pose proof (check_inp_list _ _ _ Ers) as Er.
  assert (Cr : Forall2 cleaned rs (raise_sizes c)).
  { destruct (clean_rs_map rs) as [[_ X]|[_ (r & X & Y)]]; rewrite X in Ecr; [discriminate Ecr|]. injection Ecr as <-. exact Y. }
  assert (Sane : sane c).
  { split.
    - rewrite Eb. apply Ow.
    - rewrite Ean. apply Ow.
    - pose proof (or_raises _ Ow) as Q. rewrite <- Er in Q. clear - Q Cr. induction Cr as [|x y l r H _ IH]; [constructor|]. inversion Q as [|? ? Q1 Q2]; subst.
      constructor; [|now apply IH]. destruct H as [(z & -> & ->)|[[-> ->]|[-> ->]]]; [exact Q1|exact I|exact I].
    - rewrite (bd_stack _ _ _ _ B). pose proof (or_start _ Ow). lia. }
  pose proof (fair_new c w rnd0 s0 D Sane) as F0. pose proof (fair_reachable c s0 F0) as R0.
  assert (St0 : forall i, (i < num_players c)%nat -> stack_of s0 i = rw_start_stack w).
  { intros i Hi. rewrite (bd_state _ _ _ _ B). unfold stack_of. cbn [stacks]. now apply nth_repeat_lt. }
  assert (Ns : num_streets c <> O) by (rewrite (bd_st _ _ _ _ B); pose proof (or_streets _ Ow); lia).
  assert (Pw : (2 <= players_with_chips s0)%nat).
  { unfold players_with_chips. rewrite (bd_state _ _ _ _ B). cbn [stacks]. rewrite (bd_n _ _ _ _ B).
    assert (X : forall n, filter (fun x => 0 <? x) (repeat (rw_start_stack w) n) = repeat (rw_start_stack w) n).
    { induction n as [|n IH]; [reflexivity|]. cbn [repeat filter]. pose proof (or_start _ Ow). replace (0 <? rw_start_stack w) with true by lia. now rewrite IH. }
    rewrite X, repeat_length. lia. }
  destruct (C40_too_few c s0 rnd false R0) as (_ & _ & Ok1 & _). specialize (Ok1 Ns Pw).
  destruct (reset c s0 rnd false false) as [s1 [o|e]] eqn:E; [|discriminate Ok1].
  assert (Es1 : s1 = fst (reset c s0 rnd false false)) by (rewrite E; reflexivity).
  assert (F1 : fair c s1) by (rewrite Es1; apply (fair_op c s0 (OReset rnd false false)); [exact F0|cbn [allowed]; right; rewrite E; reflexivity|exact I]).
  destruct (C41_reset c s0 rnd false false F0 ltac:(rewrite E; reflexivity)) as (X1 & X2 & X3 & (a & A1 & A2 & A3) & X5 & X6 & X7 & X8 & X9 & X10).
  rewrite <- Es1 in *. cbv zeta in *.
  exists c, s1, o. split.
  - intros A bet l. unfold program. rewrite D, E. reflexivity.
  - exists s0. split; [exact D|exact E].
  - exact F1.
  - unfold in_progress. rewrite A1. discriminate.
  - exact X10.
  - exact (bd_st _ _ _ _ B).
  - unfold reset in E. destruct (reset_active c s0 false) as [act stk]. destruct (_ && _); [discriminate E|]. destruct (num_community_cards c) as [|cc0 cr]; [discriminate E|].
    destruct (deck_draw cc0 _) as [comm d1]. destruct (deal_hands _ _ _) as [holes d2]. injection E as E1 E2. rewrite <- E1. exact E2.
  - exact (bd_n _ _ _ _ B).
  - intros i Hi. split; [|destruct (X7 i Hi) as (_ & Y & _); rewrite Y; now apply St0].
    rewrite Es1. apply C21_reset; [exact F0| | |rewrite E; reflexivity].
    + intros j. destruct (Nat.lt_ge_cases j (num_players c)) as [Hj|Hj]; [rewrite St0 by exact Hj; pose proof (or_start _ Ow); lia|].
      unfold stack_of. rewrite nth_overflow; [lia|]. rewrite (wf_stacks _ _ (reachable_wf c s0 R0)). exact Hj.
    + intros j x y Hj Hx Hy. cbv zeta. intros _. rewrite St0 by exact Hj. rewrite Ean in Hx. rewrite Eb in Hy. now apply (or_cover _ Ow).
  - intros bs i Hi.
    destruct (C30_no_card_twice w rnd0 c s0 (OReset rnd false false :: map OStep bs) D) as [P N].
    + cbn [all_allowed]. unfold allowedb at 1. assert (An : action s0 = None) by (rewrite (bd_state _ _ _ _ B); reflexivity). rewrite An.
      generalize (apply_op c s0 (OReset rnd false false)) as s. induction bs as [|b bs IH]; intros s; [reflexivity|]. cbn [map all_allowed allowedb]. apply IH.
    + constructor; [exact I|]. apply Forall_forall. intros x Hx. apply in_map_iff in Hx. destruct Hx as (b & <- & _). exact I.
    + change (run c s0 (OReset rnd false false :: map OStep bs)) with (run c (fst (reset c s0 rnd false false)) (map OStep bs)) in P, N.
      rewrite E in P, N. cbn [fst] in P, N. rewrite run_ops_steps in P, N.
      assert (Ri : reachable c (run_steps c s1 bs)).
      { apply fair_reachable. clear - F1. revert s1 F1; induction bs as [|b bs IH]; intros s F; [exact F|]. exact (IH _ (fair_op c s (OStep b) F I I)). }
      assert (Lh : (i < List.length (hole_cards (run_steps c s1 bs)))%nat).
      { assert (Q : forall l s, List.length (hole_cards (run_steps c s l)) = List.length (hole_cards s)).
        { clear - W. induction l as [|b l IH]; intros s; [reflexivity|]. change (run_steps c s (b :: l)) with (run_steps c (fst (step c s b)) l). rewrite IH. now rewrite (step_hole_same c s b W). }
        rewrite Q. rewrite (wf_hole _ _ (reachable_wf c s1 (fair_reachable c s1 F1))) by congruence. exact Hi. }
      destruct (in_concat_split (hole_cards (run_steps c s1 bs)) i Lh) as (u & v & Ec).
      set (hole := nth i (hole_cards (run_steps c s1 bs)) []) in *. set (comm := community_cards (run_steps c s1 bs)) in *.
      apply NoDup_map_inv in N. rewrite Ec in P, N.
      assert (Ds : 1 <= rw_num_suits w <= 4 /\ 1 <= rw_num_ranks w <= 13).
      { destruct (new_deck_inv _ _ _ _ (bd_deck _ _ _ _ B)) as [Q _ _]. pose proof (dw_s _ _ _ Q). pose proof (dw_r _ _ _ Q). lia. }
      destruct (C11_best_hand (rw_num_suits w) (rw_num_ranks w) (rw_num_cards_for_hand w) (rw_mandatory_num_hole_cards w) (rw_low_end_straight w) (rw_order w) (the_evaluator c) hole comm) as (val & Ev & _).
      * lia.
      * lia.
      * destruct (or_order _ Ow) as [->|[Q _]]; [exact I|exact Q].
      * exact (bd_eval _ _ _ _ B).
      * apply Ow.
      * destruct (or_order _ Ow) as [->|[_ Q]]; [now left|right; intros (Y & _); contradiction].
      * apply (NoDup_app_piece comm hole (u ++ v ++ d_cards (the_deck (run_steps c s1 bs)))).
        eapply Permutation_NoDup; [|exact N]. apply Permutation_app_head. rewrite <- !app_assoc. apply Permutation_app_swap_app.
      * intros x Hx. assert (Hin : In x (deck_cards (Z.to_nat (rw_num_suits w)) (Z.to_nat (rw_num_ranks w)))).
        { apply (Permutation_in x P). rewrite !in_app_iff in *. tauto. }
        apply in_deck_cards in Hin; [|lia]. destruct Hin as (y & z & Y1 & Y2 & ->). exists y, z. repeat split; lia.
      * rewrite Ev. reflexivity.
  - unfold longest. rewrite X10, (bd_st _ _ _ _ B), Nat.sub_0_r.
    assert (Sm : sumZ (map Z.abs (stacks s1)) <= rw_num_players w * rw_start_stack w).
    { replace (rw_num_players w) with (Z.of_nat (List.length (stacks s1))) by (rewrite X5, (bd_n _ _ _ _ B); lia). apply sumZ_abs_le. rewrite X5. intros i Hi.
      destruct (X7 i Hi) as (Y0 & Y & _). rewrite St0 in Y by exact Hi. unfold stack_of in Y. split; [|lia].
      change (nth i (stacks s1) 0) with (stack_of s1 i). rewrite Es1. apply C21_reset; [exact F0| | |rewrite E; reflexivity].
      + intros j. destruct (Nat.lt_ge_cases j (num_players c)) as [Hj|Hj]; [rewrite St0 by exact Hj; pose proof (or_start _ Ow); lia|].
        unfold stack_of. rewrite nth_overflow; [lia|]. rewrite (wf_stacks _ _ (reachable_wf c s0 R0)). exact Hj.
      + intros j x y Hj Hx Hy. cbv zeta. intros _. rewrite St0 by exact Hj. rewrite Ean in Hx. rewrite Eb in Hy. now apply (or_cover _ Ow). }
    pose proof (count_true_le_length (active s1)) as Ct. rewrite X2, (bd_n _ _ _ _ B) in Ct. rewrite (bd_n _ _ _ _ B). pose proof (or_streets _ Ow).
    rewrite !Z2Nat.id in * by lia. apply Z.mul_le_mono_nonneg_r; lia.
  - exists rs. split; [exact Ers|exact Cr].
  - rewrite X1. rewrite (bd_state _ _ _ _ B). cbn [button]. rewrite Nat.mod_small; [reflexivity|]. rewrite (bd_n _ _ _ _ B). lia.
  - intros (Q1 & Q2). rewrite Es1. apply (reset_level c s0 rnd false false (rw_start_stack w) (fair_money c s0 F0)); [|rewrite E; reflexivity]. split; [|split].
    + intros i Hi. right. now apply St0.
    + unfold equal_antes. now rewrite Ean.
    + rewrite Ean, Eb. exact Q2.
Qed.

(** ** C63 The program of the README *)
(** What a program that plays one hand with the configuration [w] has done after [k] bets:
    - it is still playing, which it can only do for a certain number of bets;
    - it has raised an IndexError (the showdown that cannot be paid out, see C34_exact);
    - it has printed the rewards: the change of everybody's stack, at most all chips lost or won, and [total] in sum. *)
Definition accounted (w : raw_config) (total : state -> Z) (k : nat) (out : outcome) : Prop :=
  let n := rw_num_players w in
  match out with
  | Plays _ _ => Z.of_nat k < (n * (rw_start_stack w + 1) + rw_num_streets w + 1) * n
  | Raises e => e = IndexError
  | Prints rewards s =>
      Z.of_nat (List.length rewards) = n /\
      (forall i, Z.of_nat i < n -> - rw_start_stack w <= nth i rewards 0 <= (n - 1) * rw_start_stack w /\
         stack_of s i = rw_start_stack w + nth i rewards 0) /\
      sumZ rewards = total s
  end.
(** the chips of the folded players are lost if several players are left and the board is not complete *)
Definition lost_chips (w : raw_config) (s : state) : Z :=
  if (2 <=? count_true (active s)) && (Z.of_nat (street s) <? rw_num_streets w) then - folded_chips s else 0.
Lemma sumZ_ge_others (l : list Z) t : (forall i, (i < List.length l)%nat -> - t <= nth i l 0) ->
  forall i, (i < List.length l)%nat -> nth i l 0 - (Z.of_nat (List.length l) - 1) * t <= sumZ l.
Proof.
  induction l as [|x l IH]; intros H i Hi; [cbn in Hi; lia|]. cbn [List.length] in *. rewrite sumZ_cons.
  assert (L : forall l : list Z, (forall i, (i < List.length l)%nat -> - t <= nth i l 0) -> - (Z.of_nat (List.length l) * t) <= sumZ l).
  { clear. induction l as [|y l IH]; intros H; [cbn; lia|]. cbn [List.length] in *. rewrite sumZ_cons. pose proof (H 0%nat ltac:(lia)) as H0. cbn [nth] in H0.
    specialize (IH (fun i Hi => H (S i) ltac:(lia))). lia. }
  destruct i as [|i].
  - cbn [nth]. specialize (L l (fun i Hi => H (S i) ltac:(lia))). lia.
  - cbn [nth]. specialize (IH (fun i Hi => H (S i) ltac:(lia)) i ltac:(lia)). pose proof (H 0%nat ltac:(lia)) as H0. cbn [nth] in H0. lia.
Qed.
Lemma sumZ_map_nonneg {A} (f : A -> Z) l : (forall x, In x l -> 0 <= f x) -> 0 <= sumZ (map f l).
Proof.
  induction l as [|x l IH]; intros H; [cbn; lia|]. cbn [map]. rewrite sumZ_cons. pose proof (H x (or_introl eq_refl)). specialize (IH (fun y Hy => H y (or_intror Hy))). lia.
Qed.
Lemma program_accounted {A} (bet : obs -> A -> result Z) w rnd0 rnd l c s o : started w rnd0 rnd c s o -> no_error bet c l ->
  accounted w (lost_chips w) (List.length l) (plays_on bet c s o l) /\ (even_start w -> accounted w (fun _ => 0) (List.length l) (plays_on bet c s o l)).
Proof.
  intros S N. pose proof (fair_money c s (sd_fair _ _ _ _ _ _ S)) as M. pose proof (cw_two _ (mo_cfg _ _ M)) as N2. pose proof (sd_players _ _ _ _ _ _ S) as Np.
  assert (Hs : (street s < num_streets c)%nat).
  { destruct (num_streets c) as [|k] eqn:Ek; [|rewrite (sd_street _ _ _ _ _ _ S); lia]. exfalso.
    pose proof (sd_obs _ _ _ _ _ _ S) as Q. unfold observation in Q. destruct (bet_sizes c s) as [p|e] eqn:Eb; [|discriminate Q].
    pose proof (bet_sizes_street c s p (mo_cfg _ _ M) Eb) as Q'. lia. }
  pose proof (plays_on_ends bet c (rw_start_stack w) l N s o (sd_fair _ _ _ _ _ _ S) (sd_turn _ _ _ _ _ _ S) Hs (sd_obs _ _ _ _ _ _ S) (sd_holds _ _ _ _ _ _ S) (sd_hands _ _ _ _ _ _ S)) as T.
  unfold accounted. destruct (plays_on bet c s o l) as [r s'|e|s' o']; [|split; [exact T|intros _; exact T]|].
  - destruct T as (s0 & b & out & F0 & Hp & Ho & Vl & Es & Hn & Eo & Er).
    pose proof (C20_exact c s0 b F0 Hp) as X. pose proof (C37_payout c s0 b F0 Hp) as Y. cbv zeta in X, Y. rewrite <- Es in X, Y.
    destruct (X Hn) as (out1 & X1 & X2 & X3). destruct (Y Hn) as (out2 & Y1 & Y2).
    assert (out1 = out) by congruence. assert (out2 = out) by congruence. subst out1 out2. clear X1 Y1. rewrite <- Er in *. clear Er.
    assert (Mc : forall i, 0 <= committed s' i) by (rewrite Es; apply (mo_commit _ _ (fair_money c _ (fair_op c s0 (OStep b) F0 I I)))).
    assert (G : forall i, (i < num_players c)%nat -> stack_of s' i = rw_start_stack w + nth i r 0 /\ - rw_start_stack w <= nth i r 0).
    { intros i Hi. destruct (Y2 i Hi) as (Z1 & Z2 & _ & Z4). destruct (Ho i Hi) as [H1 H2]. unfold put_in in Z2. rewrite <- Es in Z2. specialize (Z4 H1). lia. }
    match goal with |- (?p /\ ?q /\ _) /\ _ => enough (Q : p /\ q) end; [|split; [lia|]].
    + split.
      * split; [apply Q|]. split; [apply Q|]. rewrite X3. unfold lost_chips, cut_short. pose proof (sd_streets _ _ _ _ _ _ S) as St.
        replace (Nat.ltb (street s') (num_streets c)) with (Z.of_nat (street s') <? rw_num_streets w) by lia. destruct (_ && _); lia.
      * intros Ev. split; [apply Q|]. split; [apply Q|]. rewrite X3.
        destruct (step_level c s0 b F0 Hp (Vl (sd_level _ _ _ _ _ _ S Ev))) as [_ V]. rewrite <- Es in V. rewrite (V Hn). reflexivity.
    + intros i Hi. assert (Hi' : (i < num_players c)%nat) by lia. destruct (G i Hi') as [G1 G2]. split; [|exact G1]. split; [exact G2|].
      pose proof (sumZ_ge_others r (rw_start_stack w) (fun j Hj => proj2 (G j ltac:(lia))) i ltac:(lia)) as U. rewrite X2, X3 in U.
      assert (V : 0 <= if cut_short c s' then folded_chips s' else 0).
      { destruct (cut_short c s'); [|lia]. unfold folded_chips. apply sumZ_map_nonneg. intros x _. destruct (nth x (active s') false); [lia|apply Mc]. }
      rewrite Np, Z2Nat.id in U by lia. lia.
  - enough (Q : Z.of_nat (List.length l) < (rw_num_players w * (rw_start_stack w + 1) + rw_num_streets w + 1) * rw_num_players w) by (split; [exact Q|intros _; exact Q]).
    destruct T as (T1 & T2 & bs & L & Fb & Es). destruct (Z.lt_ge_cases (Z.of_nat (List.length l)) (longest c s)) as [Lt|Ge].
    + pose proof (sd_longest _ _ _ _ _ _ S). lia.
    + exfalso. rewrite <- L in Ge. pose proof (C32_exact c s bs (sd_fair _ _ _ _ _ _ S) Fb Ge) as Q. cbv zeta in Q. rewrite <- Es in Q.
      destruct Q as [Q|(_ & Q & _)]; [now apply T1|lia].
Qed.

(** Any program of that kind, for any configuration with even antes, in particular all the shipped ones but one, and any
    way to choose bets *)
Theorem C63_any_program : forall A (bet : obs -> A -> Z) w rnd0 rnd l,
  (In w shipped_configs /\ w <> NO_LIMIT_HOLDEM_BB_ANTE_NINE_PLAYER) \/ (ordinary w /\ even_start w /\ is_ok (Dealer rnd0 w) = true) ->
  accounted w (fun _ => 0) (List.length l) (program (fun o m => Ok (bet o m)) w rnd0 rnd l).
Proof.
  intros A bet w rnd0 rnd l H.
  assert (H' : ordinary w /\ even_start w /\ is_ok (Dealer rnd0 w) = true).
  { destruct H as [[H Hn]|H]; [|exact H]. split; [now apply shipped_ordinary|]. split; [now apply shipped_even|]. destruct (C17_shipped rnd0 w H) as (c & s & ->). reflexivity. }
  destruct H' as (H1 & H2 & H3).
  destruct (program_start w rnd0 rnd H1 H3) as (c & s & o & S). rewrite (sd_program _ _ _ _ _ _ S). apply (program_accounted _ w rnd0 rnd); [exact S| |exact H2].
  intros s1 a o1 m _ _ _ _. reflexivity.
Qed.
Print Assumptions C63_any_program.
(** ... and if the antes differ, or a blind takes all chips of a player *)
Theorem C63_any_antes : forall A (bet : obs -> A -> Z) w rnd0 rnd l,
  In w shipped_configs \/ (ordinary w /\ is_ok (Dealer rnd0 w) = true) ->
  accounted w (lost_chips w) (List.length l) (program (fun o m => Ok (bet o m)) w rnd0 rnd l).
Proof.
  intros A bet w rnd0 rnd l H.
  assert (H' : ordinary w /\ is_ok (Dealer rnd0 w) = true).
  { destruct H as [H|H]; [|exact H]. split; [now apply shipped_ordinary|]. destruct (C17_shipped rnd0 w H) as (c & s & ->). reflexivity. }
  destruct (program_start w rnd0 rnd (proj1 H') (proj2 H')) as (c & s & o & S). rewrite (sd_program _ _ _ _ _ _ S). apply (program_accounted _ w rnd0 rnd); [exact S|].
  intros s1 a o1 m _ _ _ _. reflexivity.
Qed.
Print Assumptions C63_any_antes.

(** The program of the README: [randint] never fails, it stops after less than 7266 bets, the six rewards lie between -200 and
    1000 and sum to zero; or it stops with an IndexError *)
Theorem C63_exact : forall rnd0 rnd l, accounted NO_LIMIT_HOLDEM_SIX_PLAYER (fun _ => 0) (List.length l) (readme rnd0 rnd l).
Proof.
  intros rnd0 rnd l. assert (Hw : In NO_LIMIT_HOLDEM_SIX_PLAYER shipped_configs) by (cbn [shipped_configs In]; tauto).
  destruct (C17_shipped rnd0 _ Hw) as (c0 & s0 & D).
  destruct (program_start NO_LIMIT_HOLDEM_SIX_PLAYER rnd0 rnd (shipped_ordinary _ Hw) ltac:(rewrite D; reflexivity)) as (c & s & o & S).
  unfold readme. rewrite (sd_program _ _ _ _ _ _ S). apply (program_accounted _ _ rnd0 rnd); [exact S| |apply shipped_even; [exact Hw|discriminate]].
  intros s1 a o1 m _ F1 A1 O1. destruct m as [| |k]; [reflexivity|reflexivity|]. cbn [readme_bet].
  pose proof (C22_interval c s1 a o1 F1 A1 O1) as Q. replace (o_max_raise o1 <? o_min_raise o1) with false; [reflexivity|]. symmetry. apply Z.ltb_ge. apply Q.
  destruct (sd_raises _ _ _ _ _ _ S) as (rs & E1 & E2). apply check_inp_list in E1. cbn in E1. intros X. apply nth_error_In in X.
  assert (Y : forall l r, Forall2 cleaned l r -> Forall (eq RawInf) l -> ~ In RPot r).
  { clear. induction 1 as [|x y l r H _ IH]; intros Fa; [intros []|]. inversion Fa as [|? ? F1 F2]; subst. intros [Hy|Hy]; [|now apply IH].
    subst y. destruct H as [(z & H & _)|[[H _]|[_ H]]]; discriminate H. }
  apply (Y rs (raise_sizes c) E2); [|exact X]. rewrite E1. repeat constructor.
Qed.
Print Assumptions C63_exact.
(** What it bets: nothing, the call, or one of the raises from the observed minimum to the observed maximum, each of which
    some random number leads to; [randint] raises only if there is no such raise. *)
Theorem C63_bets : forall o,
  (forall m b, readme_bet o m = Ok b -> b = 0 \/ b = o_call o \/ o_min_raise o <= b <= o_max_raise o) /\
  (forall b, o_min_raise o <= b <= o_max_raise o -> exists k, readme_bet o (MRaise k) = Ok b) /\
  (forall m e, readme_bet o m = Err e -> e = ValueError /\ o_max_raise o < o_min_raise o) /\
  (o_max_raise o < o_min_raise o -> forall k, readme_bet o (MRaise k) = Err ValueError) /\
  readme_bet o MZero = Ok 0 /\ readme_bet o MCall = Ok (o_call o).
Proof.
  intros o. split.
  { intros [| |k] b; cbn [readme_bet]; intros H; [injection H as <-; auto|injection H as <-; auto|].
    destruct (o_max_raise o <? o_min_raise o) eqn:E; [discriminate H|]. injection H as <-. right; right.
    pose proof (Z.mod_pos_bound (Z.of_nat k) (o_max_raise o - o_min_raise o + 1) ltac:(lia)). lia. }
  split.
  { intros b Hb. exists (Z.to_nat (b - o_min_raise o)). cbn [readme_bet]. replace (o_max_raise o <? o_min_raise o) with false by lia.
    rewrite Z2Nat.id, Z.mod_small by lia. f_equal. lia. }
  split.
  { intros [| |k] e; cbn [readme_bet]; intros H; try discriminate H. destruct (o_max_raise o <? o_min_raise o) eqn:E; [|discriminate H]. injection H as <-. split; [reflexivity|lia]. }
  split; [|split; reflexivity]. intros H k. cbn [readme_bet]. now replace (o_max_raise o <? o_min_raise o) with true by lia.
Qed.
Print Assumptions C63_bets.

(** the IndexError does occur.  The deck comes unshuffled: the board is 5555 and a 6, all hands tie.  Seats 0 and 1 limp, the
    small blind folds, the big blind folds on the flop to a raise of seat 0: the pot of 11 chips cannot be split *)
Definition readme_crash : list move :=
  [MZero; MZero; MCall; MCall; MZero; MZero; MZero; MRaise 0; MCall; MZero; MCall; MCall; MCall; MCall].
Theorem C63_refuted : ~ forall rnd0 rnd l, match readme rnd0 rnd l with Raises _ => False | _ => True end.
Proof.
  intros H. specialize (H [] [] readme_crash).
  assert (X : match readme [] [] readme_crash with Raises _ => true | _ => false end = true) by (vm_compute; reflexivity).
  destruct (readme [] [] readme_crash); [discriminate X|exact H|discriminate X].
Qed.
Print Assumptions C63_refuted.
(** ... and other runs print rewards: here seat 4 raises to 104 chips, seats 0 and 2 call, and both others fold to a bet of
    seat 2 on the turn *)
Example C63_prints :
  match readme [] [] [MRaise 100; MZero; MCall; MZero; MCall; MZero; MCall; MCall; MCall; MRaise 95; MZero; MZero] with
  | Prints r s => Some (r, stacks s)
  | _ => None
  end = Some ([-104; 0; 210; -2; -104; 0], [96; 200; 410; 198; 96; 200]).
Proof. vm_compute. reflexivity. Qed.
(** the configuration that is left out of C63_any_program, and one more that meets its second condition *)
Example C63_bb_ante : ~ even_start NO_LIMIT_HOLDEM_BB_ANTE_NINE_PLAYER.
Proof.
  intros ((a & H) & _). cbn in H. inversion H as [|? ? H0 H1]; subst. inversion H1 as [|? ? H2 H3]; subst. discriminate H2.
Qed.
Example C63_any_met : ordinary no_limit_3 /\ even_start no_limit_3 /\ is_ok (Dealer [] no_limit_3) = true.
Proof.
  split; [|split; [|vm_compute; reflexivity]].
  - split; cbn; try lia; try (now left); repeat constructor; lia.
  - split; cbn; [exists 0; repeat constructor|]. intros a b Ha Hb. lia.
Qed.

(** ** C64 example.py *)
Lemma payouts_again c s b z pay : HandEnd.settled c s b z -> is_ok (payouts c z) = true -> is_ok (payouts c (finish_hand z pay)) = true.
Proof.
  intros Z. destruct (Z.eq_dec (count_true (active z)) 1) as [C|C].
  { intros _. unfold payouts. cbn [finish_hand active]. rewrite C. reflexivity. }
  destruct (Nat.lt_ge_cases (street z) (num_streets c)) as [Lt|Ge].
  { intros _. unfold payouts. cbn [finish_hand active street]. destruct (_ =? 1); [reflexivity|]. replace (Nat.leb (num_streets c) (street z)) with false by lia. reflexivity. }
  destruct (show_payouts c z C Ge (se_commits _ _ _ _ Z) (se_hole _ _ _ _ Z) (se_button _ _ _ _ Z) (se_nonneg _ _ _ _ Z) (or_introl (se_pot _ _ _ _ Z))) as [(e & X1 & X2)|(st & X1 & _ & _ & X2)];
  destruct (show_payouts c (finish_hand z pay) C Ge (se_commits _ _ _ _ Z) (se_hole _ _ _ _ Z) (se_button _ _ _ _ Z) (se_nonneg _ _ _ _ Z) (or_intror (Z.le_refl 0))) as [(e' & Y1 & Y2)|(st' & Y1 & _ & _ & Y2)];
  cbn [finish_hand active hole_cards community_cards] in Y1; rewrite X1 in Y1; try discriminate Y1.
  - rewrite X2. intros H. discriminate H.
  - injection Y1 as <-. rewrite X2, Y2. trivial.
Qed.
Lemma step_shown c s b out : fair c s -> in_progress s -> snd (step c s b) = Ok out -> is_ok (render_config c (fst (step c s b))) = true.
Proof.
  intros F Hp Ho. enough (X : is_ok (payouts c (fst (step c s b))) = true) by (unfold render_config; destruct (payouts c _); [reflexivity|discriminate X]).
  destruct (step_settled c s b F Hp) as [(_ & _ & X)|(z & Z)]; [rewrite Ho in X; discriminate X|]. rewrite (se_step _ _ _ _ Z) in *.
  destruct (step_end_cases c z) as [(e & _ & E)|[(pay & P & _ & E)|(pay & P & _ & E)]]; rewrite E in *; [discriminate Ho| |].
  - cbn [fst]. apply (payouts_again c s b z pay Z). now rewrite P.
  - now rewrite P.
Qed.
Lemma step_undone c s b out : fair c s -> in_progress s -> snd (step c s b) = Ok out -> all_true (out_done out) = false -> in_progress (fst (step c s b)).
Proof.
  intros F Hp Ho D. destruct (step_settled c s b F Hp) as [(_ & _ & X)|(z & Z)]; [rewrite Ho in X; discriminate X|]. rewrite (se_step _ _ _ _ Z) in *.
  unfold step_end in *. destruct (payouts c z) as [pay|]; [|discriminate Ho]. cbn [fst snd] in *.
  destruct (all_true (done_list c z)) eqn:Dz; [|exact (se_turn _ _ _ _ Z)].
  destruct (observation c (finish_hand z pay) true); [|discriminate Ho]. injection Ho as <-. cbn [out_done] in D. congruence.
Qed.
(** drawing the table does not interfere *)
Lemma example_loop_draws env sa ca c svg : forall l s o, fair c s -> in_progress s ->
  example_loop env sa ca c s o (Some (VPage svg)) l = plays_on (fun o m => Ok (example_bet o m)) c s o l.
Proof.
  induction l as [|m l IH]; intros s o F Hp; [reflexivity|]. cbn [example_loop plays_on].
  pose proof (step_shown c s (PyInt (example_bet o m))) as Q. pose proof (step_undone c s (PyInt (example_bet o m))) as U.
  pose proof (fair_op c s (OStep (PyInt (example_bet o m))) F I I) as F'. cbn [apply_op] in F'.
  destruct (step c s (PyInt (example_bet o m))) as [s' [out|e]] eqn:E; [|reflexivity]. cbn [fst snd] in *. specialize (Q out F Hp eq_refl). specialize (U out F Hp eq_refl).
  unfold render. destruct (render_config c s') as [r|]; [|discriminate Q]. cbn [bind viewer_render]. destruct (all_true (out_done out)) eqn:D; [reflexivity|].
  apply IH; [exact F'|now apply U].
Qed.
Lemma example_start env sa ca c s o l : fair c s -> in_progress s -> (street s < num_streets c)%nat -> 0 <= sumZ (num_community_cards c) ->
  match render env sa ca c s None "human" with (_, Err e) => Raises e | (kept, Ok _) => example_loop env sa ca c s o kept l end =
  match no_browser env with Some e => Raises e | None => plays_on (fun o m => Ok (example_bet o m)) c s o l end.
Proof.
  intros F Hp Hs Cc.
  assert (Rc : is_ok (render_config c s) = true).
  { unfold render_config, payouts. pose proof (wf_count _ _ (reachable_wf c s (fair_reachable c s F)) Hp) as C2. replace (count_true (active s) =? 1) with false by lia.
    replace (Nat.leb (num_streets c) (street s)) with false by lia. reflexivity. }
  pose proof (first_shows env sa ca c s "human" (fair_reachable c s F) Cc) as Fs. cbn [String.eqb Ascii.eqb Bool.eqb] in Fs.
  destruct (no_browser env) as [e|]; [rewrite Fs; reflexivity|]. destruct Fs as ((_ & As & _) & V). specialize (As eq_refl).
  destruct (render env sa ca c s None "human") as [k r]. cbn [fst snd] in *. destruct (render_config c s) as [rc|]; [|discriminate Rc]. cbn [bind] in As. rewrite As.
  destruct k as [v|]; [|destruct V as [_ V]; now elim V]. destruct V as [(X & _)|(_ & svg & -> & _)]; [discriminate X|]. apply example_loop_draws; assumption.
Qed.
(** If the browser view cannot be opened, example.py stops with the error that says so.  Otherwise it plays the hand as it would
    without drawing anything, and the nine rewards sum to zero (or the hand ends in an IndexError). *)
Theorem C64_exact : forall env seat_at commit_at rnd0 rnd l,
  let bet := fun o m => Ok (example_bet o m) in
  match no_browser env with
  | Some e => example_py env seat_at commit_at rnd0 rnd l = Raises e
  | None => example_py env seat_at commit_at rnd0 rnd l = program bet NO_LIMIT_HOLDEM_NINE_PLAYER rnd0 rnd l /\
      accounted NO_LIMIT_HOLDEM_NINE_PLAYER (fun _ => 0) (List.length l) (example_py env seat_at commit_at rnd0 rnd l)
  end.
Proof.
  intros env sa ca rnd0 rnd l bet. assert (Hw : In NO_LIMIT_HOLDEM_NINE_PLAYER shipped_configs) by (cbn [shipped_configs In]; tauto).
  assert (Hn : NO_LIMIT_HOLDEM_NINE_PLAYER <> NO_LIMIT_HOLDEM_BB_ANTE_NINE_PLAYER) by (intros X; discriminate X).
  destruct (C17_shipped rnd0 _ Hw) as (c0 & s00 & D0).
  destruct (program_start NO_LIMIT_HOLDEM_NINE_PLAYER rnd0 rnd (shipped_ordinary _ Hw) ltac:(rewrite D0; reflexivity)) as (c & s & o & S). clear c0 s00 D0.
  pose proof (C63_any_program move example_bet NO_LIMIT_HOLDEM_NINE_PLAYER rnd0 rnd l (or_introl (conj Hw Hn))) as Acc. fold bet in Acc.
  pose proof (sd_fair _ _ _ _ _ _ S) as F. pose proof (sd_turn _ _ _ _ _ _ S) as Hp.
  destruct (sd_run _ _ _ _ _ _ S) as (s0 & D & E).
  assert (Cc : 0 <= sumZ (num_community_cards c)).
  { pose proof (bd_comm _ _ _ _ (Dealer_inv _ _ _ _ D)) as Q. apply check_inp_list in Q. rewrite Q. clear. cbn. lia. }
  assert (Hs : (street s < num_streets c)%nat) by (rewrite (sd_street _ _ _ _ _ _ S), (sd_streets _ _ _ _ _ _ S); clear; cbn; lia).
  pose proof (example_start env sa ca c s o l F Hp Hs Cc) as Q. rewrite (sd_program _ _ _ _ _ _ S) in *. fold bet in Q.
  assert (Ex : example_py env sa ca rnd0 rnd l = match no_browser env with Some e => Raises e | None => plays_on bet c s o l end).
  { rewrite <- Q. unfold example_py. rewrite D, E. reflexivity. }
  clear - Ex Acc. rewrite Ex. destruct (no_browser env); [reflexivity|]. split; [reflexivity|exact Acc].
Qed.
Print Assumptions C64_exact.
(** both cases occur *)
Example C64_cases : no_browser (mkEnv true true true) = None /\ no_browser (mkEnv false true true) = Some MissingImportsError /\
  no_browser (mkEnv true false true) = Some RenderInitializationError.
Proof. splits; reflexivity. Qed.
(** a run that prints: eight players fold *)
Example C64_prints : match example_py (mkEnv true true true) (fun _ => (0, 0)) (fun _ => (0, 0)) [] [] [MZero; MRaise 0; MZero; MZero; MZero; MZero; MZero; MZero; MZero] with
  | Prints r s => Some (r, stacks s)
  | _ => None
  end = Some ([0; 0; -1; -2; 0; 3; 0; 0; 0], [200; 200; 199; 198; 200; 203; 200; 200; 200]).
Proof. vm_compute. reflexivity. Qed.
(** and a run that does not: the unshuffled deck puts 66777 on the board, which nobody of the two players left can improve *)
Theorem C64_refuted : ~ forall seat_at commit_at rnd0 rnd l, match example_py (mkEnv true true true) seat_at commit_at rnd0 rnd l with Raises _ => False | _ => True end.
Proof.
  intros H. set (l := [MZero; MZero; MZero; MZero; MZero; MCall; MCall; MZero; MZero; MZero; MRaise 0; MCall; MZero; MCall; MCall; MCall; MCall]).
  specialize (H (fun _ => (0, 0)) (fun _ => (0, 0)) [] [] l).
  assert (X : match example_py (mkEnv true true true) (fun _ => (0, 0)) (fun _ => (0, 0)) [] [] l with Raises IndexError => true | _ => false end = true) by (vm_compute; reflexivity).
  destruct (example_py _ _ _ [] [] l); [discriminate X|exact H|discriminate X].
Qed.
Print Assumptions C64_refuted.
