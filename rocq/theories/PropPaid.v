(** * PropPaid: what a showdown pays, in every case (C34, C35, C36) *)
From Coq Require Import ZifyBool ZifyNat Arith Permutation.
From Verif Require Import PyBase PyFacts CardModel EvalModel EngineModel EngineSpec EngineFacts BetFacts EngineDemo MoneyFacts PropRound ShowSpec ShowFacts SideFacts SideExists HandEnd PropSide PaidSpec PaidFacts.

Lemma settled_paid c s b z : settled c s b z -> count_true (active z) <> 1 -> (num_streets c <= street z)%nat ->
  (exists e, eval_hands c (active z) (hole_cards z) (community_cards z) = Err e /\ payouts c z = Err e) \/
  (exists pots, paid_pots (show_of c z) 0 pots /\ Forall (good_pot (num_players c)) pots /\
    (forall i, (i < num_players c)%nat -> is_active z i -> evaluate (the_evaluator c) (nth i (hole_cards z) []) (community_cards z) = Ok (sd_rank (show_of c z) i)) /\
    let base := map (share pots) (seq 0 (num_players c)) in
    payouts c z = if odd_chips pots =? 0 then Ok (sub_lists base (pot_commits z))
                  else match first_after (button z) (num_players c) base with
                       | Some q => Ok (sub_lists (add_at base (q - button z) (odd_chips pots)) (pot_commits z))
                       | None => Err IndexError
                       end).
Proof.
  intros Z Hc Hs.
  destruct (show_payouts c z Hc Hs (se_commits _ _ _ _ Z) (se_hole _ _ _ _ Z) (se_button _ _ _ _ Z) (se_nonneg _ _ _ _ Z) (or_introl (se_pot _ _ _ _ Z))) as [E|(st & E & G & T & P)]; [now left|right].
  cbv zeta in *. exists (pots_of c z st). destruct (eval_hands_spec c z st (se_hole _ _ _ _ Z) E) as [Ls Hst]. split; [|split; [|split]].
  - apply show_paid with (n := num_players c); try assumption; try reflexivity; [apply Z| |].
    + intros i Hi Ai. destruct (Hst i Hi) as [H _]. destruct (H Ai) as (H1 & H2 & _). auto.
    + intros i Hi Ai. destruct (Hst i Hi) as [_ H]. now apply H.
  - exact G.
  - intros i Hi Ai. destruct (Hst i Hi) as [H _]. destruct (H Ai) as (H1 & H2 & H3). congruence.
  - exact P.
Qed.

(** Every showdown, for all hands and amounts: the pots of [PaidSpec] are paid out in equal shares; the odd chips of all pots together go to one
    seat, found by going up from the button to the first seat with winnings and then moved down by the position of the button; if no
    seat above the button has winnings the step raises and the hand does not end. *)
Theorem C34_exact : forall c s b, fair c s -> in_progress s ->
  let s' := fst (step c s b) in
  (street s < num_streets c)%nat -> (num_streets c <= street s')%nat -> 2 <= count_true (active s') ->
  (forall i, (i < num_players c)%nat -> is_active s' i ->
     is_ok (evaluate (the_evaluator c) (nth i (hole_cards s') []) (community_cards s')) = true) ->
  (* the ranks of the showdown are those of the evaluator *)
  (forall i, (i < num_players c)%nat -> is_active s' i ->
     evaluate (the_evaluator c) (nth i (hole_cards s') []) (community_cards s') = Ok (sd_rank (show_of c s') i)) /\
  exists pots, paid_pots (show_of c s') 0 pots /\
    ((odd_chips pots = 0 /\ action s' = None /\ exists out, snd (step c s b) = Ok out /\
        forall i, (i < num_players c)%nat -> nth i (out_payouts out) 0 = share pots i - committed s' i) \/
     (0 < odd_chips pots /\ action s' = None /\ exists out q, snd (step c s b) = Ok out /\
        (button s' < q < num_players c)%nat /\ 0 < share pots q /\ (forall j, (button s' < j < q)%nat -> share pots j = 0) /\
        forall i, (i < num_players c)%nat -> nth i (out_payouts out) 0 = share pots i - committed s' i + (if Nat.eqb i (q - button s') then odd_chips pots else 0)) \/
     (0 < odd_chips pots /\ action s' <> None /\ snd (step c s b) = Err IndexError /\
        forall j, (button s' < j < num_players c)%nat -> share pots j = 0)).
Proof.
  intros c s b F Hp. cbv zeta. intros Hs0 Hs Hc Ev.
  destruct (step_settled c s b F Hp) as [(_ & E & _)|(z & Z)]; [rewrite E in Hs; lia|].
  rewrite (show_of_same _ _ _ _ Z) in *.
  destruct (se_same _ _ _ _ Z) as (E1 & E2 & E3 & E4 & E5 & E6). rewrite E1 in Hc. rewrite E3 in Hs.
  destruct (settled_paid c s b z Z ltac:(lia) Hs) as [(e & X & _)|(pots & SP & G & Ev' & P)].
  { exfalso. unfold eval_hands in X.
    assert (Y : forall l, incl l (seq 0 (num_players c)) -> map_res (fun p => if nth p (active z) false then let* h := get (hole_cards z) p in evaluate (the_evaluator c) h (community_cards z) else Ok (worst_hand c)) l <> Err e).
    { induction l as [|x l IH]; intros Hl; [discriminate|]. cbn [map_res]. assert (Hx : (x < num_players c)%nat) by (specialize (Hl x (or_introl eq_refl)); apply in_seq in Hl; lia).
      assert (Hl' : incl l (seq 0 (num_players c))) by (intros y Hy; apply Hl; now right). specialize (IH Hl').
      destruct (nth x (active z) false) eqn:Ax.
      - unfold get. rewrite (nth_error_nth' _ []) by (rewrite (se_hole _ _ _ _ Z); exact Hx). cbn [bind].
        specialize (Ev x Hx). unfold is_active in Ev. rewrite E1, E5, E6 in Ev. specialize (Ev Ax).
        destruct (evaluate (the_evaluator c) (nth x (hole_cards z) []) (community_cards z)); [|discriminate]. cbn [bind].
        destruct (map_res _ l); [discriminate|cbn [bind]; congruence].
      - cbn [bind]. destruct (map_res _ l); [discriminate|cbn [bind]; congruence]. }
    apply (Y _ (incl_refl _) X). }
  pose proof (odd_nonneg _ _ G) as On.
  split; [intros i Hi Ai; unfold is_active in Ai; rewrite E1 in Ai; rewrite E5, E6; now apply Ev'|].
  cbv zeta in P. exists pots. split; [exact SP|]. rewrite E4.
  assert (Ec : forall i, committed (fst (step c s b)) i = committed z i) by (intros i; unfold committed; now rewrite E2).
  pose proof (se_players _ _ _ _ Z) as Hpl. pose proof (se_commits _ _ _ _ Z) as Lc.
  assert (D : all_true (done_list c z) = true).
  { unfold done_list. replace (Nat.leb (num_streets c) (street z)) with true by lia. cbn [orb]. rewrite all_true_spec, repeat_length. intros i Hi. now apply nth_repeat_lt. }
  assert (Good : forall pay, payouts c z = Ok pay -> action (fst (step c s b)) = None /\ exists o, snd (step c s b) = Ok (mkOut o pay (done_list c z))).
  { intros pay Hpay. rewrite (se_step _ _ _ _ Z). unfold step_end. rewrite Hpay, D. cbn [fst snd]. split; [reflexivity|].
    destruct (finish_obs c z pay) as (o & ->); [rewrite (se_hole _ _ _ _ Z); lia|]. cbn [bind]. eauto. }
  destruct (odd_chips pots =? 0) eqn:E0.
  - left. destruct (Good _ P) as (G1 & o & G2). split; [lia|]. split; [exact G1|]. eexists. split; [exact G2|]. cbn [out_payouts]. intros i Hi.
    rewrite Ec, sub_lists_nth by (now rewrite base_length). now rewrite base_nth by exact Hi.
  - right. destruct (first_after _ _ _) as [q|] eqn:Eq.
    + left. destruct (Good _ P) as (G1 & o & G2). split; [lia|]. split; [exact G1|]. eexists. exists q. split; [exact G2|]. cbn [out_payouts].
      apply first_after_spec in Eq. destruct Eq as (Q1 & Q2 & Q3). rewrite base_nth in Q2 by lia.
      pose proof (share_nonneg _ _ q G) as Nn.
      split; [exact Q1|]. split; [lia|]. split; [intros j Hj; specialize (Q3 j Hj); now rewrite base_nth in Q3 by lia|].
      intros i Hi. rewrite Ec, sub_lists_nth by (now rewrite add_at_length, base_length). rewrite add_at_nth by (rewrite base_length; lia).
      unfold committed. destruct (Nat.eqb_spec i (q - button z)) as [->|]; rewrite ?base_nth by lia; lia.
    + right. split; [lia|]. assert (Es : step c s b = (z, Err IndexError)) by (rewrite (se_step _ _ _ _ Z); unfold step_end; now rewrite P).
      assert (Es1 : fst (step c s b) = z) by now rewrite Es. assert (Es2 : snd (step c s b) = Err IndexError) by now rewrite Es.
      split; [rewrite Es1; apply Z|]. split; [exact Es2|]. intros j Hj.
      destruct (Z.eq_dec (share pots j) 0) as [E'|E']; [exact E'|exfalso].
      assert (X : find (fun q => negb (nth q (map (share pots) (seq 0 (num_players c))) 0 =? 0)) (seq (S (button z)) (num_players c - S (button z))) = None) by exact Eq.
      apply find_none with (x := j) in X; [|apply in_seq; lia]. rewrite base_nth in X by lia. lia.
Qed.
Print Assumptions C34_exact.
(** [PaidSpec] leaves nothing open: it determines what everybody gets *)
Theorem C34_determined : forall d p p', paid_pots d 0 p -> paid_pots d 0 p' -> odd_chips p = odd_chips p' /\ forall i, share p i = share p' i.
Proof. intros d p p' H H'. exact (paid_pots_unique d 0 p H p' H'). Qed.
Print Assumptions C34_determined.

(** the hand of [C34_refuted]: seats 0 to 2 tie, they have put in 10, 10 and 20 chips, seat 3 has put in 20: first 40 chips are shared by
    the three, then 20 chips by seats 1 and 2 *)
Example C34_exact_example : exists c s, fair c s /\ in_progress s /\ (street s < num_streets c)%nat /\
  let s' := fst (step c s (PyInt 20)) in
  (num_streets c <= street s')%nat /\ 2 <= count_true (active s') /\
  paid_pots (show_of c s') 0 [([0; 1; 2]%nat, 40); ([1; 2]%nat, 20)] /\
  option_map out_payouts (match snd (step c s (PyInt 20)) with Ok out => Some out | Err _ => None end) = Some [3; 14; 3; -20].
Proof.
  assert (K : exists c s, fair c s /\ action s = Some 2%nat /\ street s = 0%nat /\ num_streets c = 1%nat /\
    street (fst (step c s (PyInt 20))) = 1%nat /\ active (fst (step c s (PyInt 20))) = [true; true; true; true] /\
    paid_fun 5 (show_of c (fst (step c s (PyInt 20)))) 0 = [([0; 1; 2]%nat, 40); ([1; 2]%nat, 20)] /\
    Nat.ltb (List.length (above (show_of c (fst (step c s (PyInt 20)))) 0)) 5 = true /\
    option_map out_payouts (match snd (step c s (PyInt 20)) with Ok out => Some out | Err _ => None end) = Some [3; 14; 3; -20]).
  { play side_game side_ops c s E. split; [exact (played_fair _ _ _ _ E)|]. plays E. }
  destruct K as (c & s & F & K1 & K2 & K3 & K4 & K5 & K6 & K7 & K8). exists c, s. split; [exact F|]. split; [unfold in_progress; rewrite K1; discriminate|].
  split; [lia|]. cbv zeta. split; [lia|]. split; [rewrite K5; cbn; lia|]. split; [|exact K8]. rewrite <- K6. apply paid_fun_ok. lia.
Qed.

(** ** C36 Folded players *)
(** What folded players get at a showdown: equal shares of the chips above everything a player in the hand has put in, which they share with
    each other and with everybody who has opened a side pot; and one seat gets the odd chips. *)
Theorem C36_exact : forall c s b, fair c s -> in_progress s ->
  let s' := fst (step c s b) in
  action s' = None -> 2 <= count_true (active s') -> (num_streets c <= street s')%nat ->
  exists out, snd (step c s b) = Ok out /\
  forall most, (forall i, (i < num_players c)%nat -> is_active s' i -> committed s' i <= most) -> (exists i, (i < num_players c)%nat /\ is_active s' i /\ committed s' i = most) ->
  forall sharers, NoDup sharers -> (forall i, In i sharers <-> (i < num_players c)%nat /\ (~ is_active s' i \/ ~ left_over (show_of c s') i)) ->
  exists excess odd q,
    sumZ excess = sumZ (map (fun i => Z.max 0 (committed s' i - most)) (seq 0 (num_players c))) /\ Forall (fun x => 0 < x) excess /\ 0 <= odd /\
    (odd <> 0 -> 0 < nth q (out_payouts out) 0 + committed s' q) /\
    forall i, (i < num_players c)%nat -> ~ is_active s' i ->
      nth i (out_payouts out) 0 = sumZ (map (fun x => x / Z.of_nat (List.length sharers)) excess) - committed s' i + (if Nat.eqb i q then odd else 0).
Proof.
  intros c s b F Hp. cbv zeta. intros Hn Hc Hs. destruct (step_ended c s b F Hp Hn) as (z & pay & o & E).
  pose proof (en_settled _ _ _ _ _ _ E) as Z. pose proof (show_of_same _ _ _ _ Z) as Sh.
  destruct (se_same _ _ _ _ Z) as (E1 & E2 & E3 & E4 & E5 & E6). rewrite E1 in Hc. rewrite E3 in Hs.
  destruct (settled_paid c s b z Z ltac:(lia) Hs) as [(e & _ & X)|(pots & SP & G & _ & P)]; [rewrite (en_pay _ _ _ _ _ _ E) in X; discriminate|].
  exists (mkOut o pay (done_list c z)). split; [apply E|]. cbn [out_payouts]. intros most Hm He sharers Ns Ws.
  assert (Ec : forall i, committed (fst (step c s b)) i = committed z i) by (intros i; unfold committed; now rewrite E2).
  rewrite Sh in Ws. unfold is_active in *. rewrite E1 in *.
  assert (Hin : forall i, (i < sd_players (show_of c z))%nat -> sd_in (show_of c z) i = true -> sd_put (show_of c z) i <= most).
  { intros i Hi Ai. cbn [show_of sd_put]; rewrite <- (Ec i). now apply Hm. }
  destruct (paid_excess _ _ _ SP most) as (excess & X1 & X2 & X3).
  { destruct He as (i & Hi & Ai & <-). rewrite Ec. apply (se_nonneg _ _ _ _ Z). }
  { exact Hin. }
  { destruct He as (i & Hi & Ai & Ei). exists i. rewrite Ec in Ei. auto. }
  specialize (X3 sharers Ns). pose proof (se_commits _ _ _ _ Z) as Lc. pose proof (odd_nonneg _ _ G) as On. pose proof (se_players _ _ _ _ Z) as Hpl.
  assert (W' : forall i, In i sharers <-> (i < sd_players (show_of c z))%nat /\ (sd_in (show_of c z) i = false \/ ~ left_over (show_of c z) i)).
  { intros i. rewrite Ws. cbn [show_of sd_players sd_in]. rewrite not_true_iff_false. reflexivity. }
  specialize (X3 W').
  assert (X1' : sumZ excess = sumZ (map (fun i => Z.max 0 (committed (fst (step c s b)) i - most)) (seq 0 (num_players c)))).
  { rewrite X1. unfold chips_above. cbn [show_of sd_players sd_put]. f_equal. apply map_ext. intros i. now rewrite Ec. }
  rewrite (en_pay _ _ _ _ _ _ E) in P. cbv zeta in P. destruct (odd_chips pots =? 0) eqn:E0.
  - injection P as ->. exists excess, 0, 0%nat. split; [exact X1'|]. split; [exact X2|]. split; [lia|]. split; [congruence|]. intros i Hi Ai.
    rewrite Ec, sub_lists_nth by (now rewrite base_length). rewrite base_nth by exact Hi. rewrite <- (X3 i Hi (not_true_is_false _ Ai)). unfold committed. destruct (Nat.eqb i 0); lia.
  - destruct (first_after _ _ _) as [q|] eqn:Eq; [|discriminate]. injection P as ->. apply first_after_spec in Eq. exists excess, (odd_chips pots), (q - button z)%nat. split; [exact X1'|]. split; [exact X2|]. split; [lia|]. split.
    + intros _. rewrite Ec, sub_lists_nth by (now rewrite add_at_length, base_length). rewrite add_at_nth by (rewrite base_length; lia). rewrite Nat.eqb_refl, base_nth by lia. pose proof (share_nonneg _ _ (q - button z) G). unfold committed. lia.
    + intros i Hi Ai. rewrite Ec, sub_lists_nth by (now rewrite add_at_length, base_length). rewrite add_at_nth by (rewrite base_length; lia). rewrite base_nth by lia.
      rewrite <- (X3 i Hi (not_true_is_false _ Ai)). unfold committed. destruct (Nat.eqb i (q - button z)); lia.
Qed.
Print Assumptions C36_exact.
(** the hand of [C36_refuted_antes]: seats 0 and 1 have put in 6 chips each, seat 2 folded with 11.  The 5 chips above 6 are shared by seat 2
    and seat 1, who won the pot; 2 for each and an odd chip for seat 1. *)
Example C36_exact_example : exists c s, fair c s /\ in_progress s /\
  let s' := fst (step c s (PyInt 3)) in
  action s' = None /\ active s' = [true; true; false] /\ (num_streets c <= street s')%nat /\ map (committed s') [0; 1; 2]%nat = [6; 6; 11] /\
  map (left_overb (show_of c s')) [0; 1; 2]%nat = [true; false; false] /\
  paid_pots (show_of c s') 0 [([1]%nat, 18); ([1; 2]%nat, 5)] /\
  option_map out_payouts (match snd (step c s (PyInt 3)) with Ok out => Some out | Err _ => None end) = Some [-6; 15; -9].
Proof.
  assert (K : exists c s, fair c s /\ action s = Some 0%nat /\ num_streets c = 1%nat /\ action (fst (step c s (PyInt 3))) = None /\
    active (fst (step c s (PyInt 3))) = [true; true; false] /\ street (fst (step c s (PyInt 3))) = 1%nat /\ map (committed (fst (step c s (PyInt 3)))) [0; 1; 2]%nat = [6; 6; 11] /\
    map (fun i => left_overb (show_of c (fst (step c s (PyInt 3)))) i) [0; 1; 2]%nat = [true; false; false] /\
    paid_fun 5 (show_of c (fst (step c s (PyInt 3)))) 0 = [([1]%nat, 18); ([1; 2]%nat, 5)] /\
    Nat.ltb (List.length (above (show_of c (fst (step c s (PyInt 3)))) 0)) 5 = true /\
    option_map out_payouts (match snd (step c s (PyInt 3)) with Ok out => Some out | Err _ => None end) = Some [-6; 15; -9]).
  { play ante_game ante_ops c s E. split; [exact (played_fair _ _ _ _ E)|]. plays E. }
  destruct K as (c & s & F & K1 & K2 & K3 & K4 & K5 & K6 & K7 & K8 & K9 & K10). exists c, s. split; [exact F|]. split; [unfold in_progress; rewrite K1; discriminate|].
  cbv zeta. split; [exact K3|]. split; [exact K4|]. split; [lia|]. split; [exact K6|]. split; [exact K7|]. split; [|exact K10]. rewrite <- K8. apply paid_fun_ok. lia.
Qed.
