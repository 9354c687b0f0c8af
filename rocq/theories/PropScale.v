(** * PropScale: property C82 (the value of a chip does not matter) *)
From Coq Require Import ZifyBool ZifyNat Arith Permutation.
From Verif Require Import PyBase PyFacts CardModel EvalModel EngineModel EngineSpec EngineFacts BetFacts EngineDemo MoneyFacts
  PropRound ShowSpec ShowFacts SideFacts SideExists HandEnd PropSide PaidSpec PaidFacts PropPaid PropBetween ScaleSpec.

Section Scale.
Variable k : Z.
Hypothesis K : 0 < k.
Local Notation sc := (k_config k).
Local Notation ss := (k_state k).
Local Notation "'km' l" := (map (Z.mul k) l) (at level 9, l at level 8).

(** ** Lists *)
Lemma km_sum l : sumZ (km l) = k * sumZ l.
Proof. induction l as [|x l IH]; cbn [map sumZ fold_right]; [lia|]. unfold sumZ in IH. rewrite IH. lia. Qed.
Lemma km_nth i l : nth i (km l) 0 = k * nth i l 0.
Proof. rewrite <- (map_nth (Z.mul k)). f_equal. lia. Qed.
Lemma km_max l : maxZ (km l) = k * maxZ l.
Proof.
  destruct l as [|x l]; [cbn; lia|]. cbn [map maxZ]. revert x. induction l as [|y l IH]; intros x; [reflexivity|].
  cbn [map fold_left]. rewrite <- IH. f_equal. nia.
Qed.
Lemma km_upd l i v : upd (km l) i (k * v) = km (upd l i v).
Proof. revert i. induction l as [|x l IH]; intros [|i]; cbn [map upd]; [reflexivity..|]. now rewrite IH. Qed.
Lemma km_add_at l i v : add_at (km l) i (k * v) = km (add_at l i v).
Proof. unfold add_at. rewrite km_nth, <- Z.mul_add_distr_l. apply km_upd. Qed.
Lemma km_add a b : add_lists (km a) (km b) = km (add_lists a b).
Proof.
  unfold add_lists. revert b. induction a as [|x a IH]; intros [|y b]; cbn [map combine]; [reflexivity..|].
  cbn [fst snd]. rewrite IH, Z.mul_add_distr_l. reflexivity.
Qed.
Lemma km_sub a b : sub_lists (km a) (km b) = km (sub_lists a b).
Proof.
  unfold sub_lists. revert b. induction a as [|x a IH]; intros [|y b]; cbn [map combine]; [reflexivity..|].
  cbn [fst snd]. rewrite IH, Z.mul_sub_distr_l. reflexivity.
Qed.
Lemma km_repeat v n : repeat (k * v) n = km (repeat v n).
Proof. induction n as [|n IH]; cbn [repeat map]; congruence. Qed.
Lemma km_zero n : repeat 0 n = km (repeat 0 n).
Proof. rewrite <- km_repeat. f_equal. lia. Qed.
Lemma km_roll a l : roll a (km l) = km (roll a l).
Proof. unfold roll. destruct a; [reflexivity|]. now rewrite map_length, map_app, <- firstn_map, <- skipn_map. Qed.
Lemma k_eqb a b : (k * a =? k * b) = (a =? b).
Proof. destruct (Z.eqb_spec a b) as [->|]; [lia|]. apply Z.eqb_neq. nia. Qed.
Lemma k_eqb0 a : (k * a =? 0) = (a =? 0).
Proof. rewrite <- (k_eqb a 0). f_equal. lia. Qed.
Lemma k_ltb a b : (k * a <? k * b) = (a <? b).
Proof. destruct (Z.ltb_spec a b); nia. Qed.
Lemma k_ltb0 a : (0 <? k * a) = (0 <? a).
Proof. destruct (Z.ltb_spec 0 a); nia. Qed.
Lemma k_leb a b : (k * a <=? k * b) = (a <=? b).
Proof. destruct (Z.leb_spec a b); nia. Qed.
Lemma k_min a b : Z.min (k * a) (k * b) = k * Z.min a b.
Proof. nia. Qed.
Lemma k_max a b : Z.max (k * a) (k * b) = k * Z.max a b.
Proof. nia. Qed.
Lemma k_abs a : Z.abs (k * a) = k * Z.abs a.
Proof. nia. Qed.

(** ** Moving on and collecting bets *)
Lemma move_k c s : move_action (sc c) (ss s) = ss (move_action c s).
Proof.
  unfold move_action. cbn [act_idx k_config num_players k_state action active street_option].
  change (act_idx (sc c) (ss s)) with (act_idx c s).
  destruct (move_loop (num_players c) (act_idx c s) (active s) (num_players c) 1 (act_idx c s) (street_option s)) as [a opt].
  reflexivity.
Qed.
Lemma forced_k s bets : forced_bets (ss s) (km bets) = km (forced_bets s bets).
Proof.
  unfold forced_bets. cbn [k_state stacks active]. generalize (stacks s), (active s). revert bets.
  induction bets as [|b bets IH]; intros [|x st] [|a act]; cbn [map combine]; try reflexivity.
  rewrite k_ltb0, IH. destruct ((0 <? x) && a); [reflexivity|]. f_equal. lia.
Qed.
Lemma collect_k c s bets to : collect_multiple_bets (sc c) (ss s) (km bets) to = ss (collect_multiple_bets c s bets to).
Proof.
  unfold collect_multiple_bets. change (act_idx (sc c) (ss s)) with (act_idx c s). rewrite km_roll, forced_k.
  cbn [k_state action active button community_cards the_deck history hole_cards largest_raise pot pot_commits stacks street
       street_commits street_option street_raises]. unfold k_state at 1.
  cbn [action active button community_cards the_deck history hole_cards largest_raise pot pot_commits stacks street
       street_commits street_option street_raises].
  rewrite km_sum, !km_add, km_sub, <- Z.mul_add_distr_l. destruct to; reflexivity.
Qed.

Definition k_sizes (t : Z * Z * Z) : Z * Z * Z := let '(a, b, d) := t in (k * a, k * b, k * d).
Lemma get_map {A B} (f : A -> B) l i : get (map f l) i = match get l i with Ok v => Ok (f v) | Err e => Err e end.
Proof. unfold get. rewrite nth_error_map. now destruct (nth_error l i). Qed.
Lemma sizes_k c s : bet_sizes (sc c) (ss s) = k_result k_sizes (bet_sizes c s).
Proof.
  unfold bet_sizes. change (act_idx (sc c) (ss s)) with (act_idx c s).
  cbn [k_state k_config stacks street_commits raise_sizes num_raises street street_raises largest_raise pot big_blind].
  rewrite get_map, !km_nth, km_max, <- Z.mul_sub_distr_l.
  destruct (get (raise_sizes c) (street s)) as [r|e]; [|reflexivity]. cbn [bind].
  set (call := maxZ (street_commits s) - nth (act_idx c s) (street_commits s) 0).
  set (st := nth (act_idx c s) (stacks s) 0).
  destruct (get (num_raises c) (street s)) as [cap|e]; [|destruct r; reflexivity].
  assert (E : exists lo hi lo' hi',
     match r with RInt z => (z + call, z + call)
       | RPot => (Z.max (big_blind c) (largest_raise s + call), pot s + call * 2)
       | RInf => (Z.max (big_blind c) (largest_raise s + call), st) end = (lo, hi) /\
     match k_rsize k r with RInt z => (z + k * call, z + k * call)
       | RPot => (Z.max (k * big_blind c) (k * largest_raise s + k * call), k * pot s + k * call * 2)
       | RInf => (Z.max (k * big_blind c) (k * largest_raise s + k * call), k * st) end = (lo', hi') /\
     lo' = k * lo /\ hi' = k * hi).
  { destruct r as [z| |]; cbn [k_rsize]; eexists _, _, _, _; (split; [reflexivity|]); (split; [reflexivity|]); split;
      rewrite ?(Z.mul_add_distr_l k), <- ?k_max, ?(Z.mul_add_distr_l k); lia. }
  destruct E as (lo & hi & lo' & hi' & -> & -> & -> & ->). cbn [bind].
  rewrite k_ltb.
  destruct (match cap with Some q => q <=? street_raises s | None => false end);
    destruct (negb (street_raises s =? 0) && (call <? largest_raise s)); cbn [k_result k_sizes];
    rewrite <- ?k_min; rewrite ?Z.mul_0_r; reflexivity.
Qed.

Lemma argmin_k l : argmin (km l) = argmin l.
Proof.
  unfold argmin. enough (G : forall l i m best, argmin_loop (km l) i (option_map (Z.mul k) m) best = argmin_loop l i m best) by apply (G l 0%nat None 0%nat).
  clear l. induction l as [|v l IH]; intros i m best; [reflexivity|]. cbn [map argmin_loop].
  destruct m as [m|]; cbn [option_map].
  - rewrite k_ltb. destruct (v <? m); [apply (IH _ (Some v))|apply (IH _ (Some m))].
  - apply (IH _ (Some v)).
Qed.
Lemma clean_k b call lo hi : clean_bet (k * b) (k * call) (k * lo) (k * hi) = k * clean_bet b call lo hi.
Proof.
  unfold clean_bet. replace (Z.max 0 (k * b)) with (k * Z.max 0 b) by nia. set (x := Z.max 0 b).
  replace (map (fun v => Z.abs (v - k * x)) [0; k * call; k * lo; k * hi])
     with (km (map (fun v => Z.abs (v - x)) [0; call; lo; hi])).
  2:{ cbn [map]. rewrite <- !k_abs, !Z.mul_sub_distr_l, Z.mul_0_r. reflexivity. }
  rewrite argmin_k. destruct (argmin _) as [|[|[|[|q]]]]; rewrite ?k_max, ?k_min; lia.
Qed.
Lemma settle_k fold b call lo hi :
  settle_bet fold (k * b) (k * call) (k * lo) (k * hi)
  = let '(bet, folds) := settle_bet fold b call lo hi in (k * bet, folds).
Proof.
  unfold settle_bet. rewrite clean_k, k_eqb0, k_ltb.
  destruct (negb (call =? 0) && ((clean_bet b call lo hi <? call) || fold)); f_equal. lia.
Qed.
Lemma place_k c s a fold bet folds call :
  place_bet (sc c) (ss s) a fold (k * bet) folds (k * call) = ss (place_bet c s a fold bet folds call).
Proof.
  unfold place_bet. cbv zeta. rewrite <- move_k. f_equal. unfold k_state.
  cbn [action active button community_cards the_deck history hole_cards largest_raise pot pot_commits stacks street
       street_commits street_option street_raises].
  rewrite k_eqb0, km_nth, k_min, <- Z.mul_sub_distr_l, k_leb, map_app.
  replace (- (k * Z.min (nth a (stacks s) 0) bet)) with (k * - Z.min (nth a (stacks s) 0) bet) by lia.
  rewrite !km_add_at, <- Z.mul_add_distr_l. cbn [map k_entry].
  destruct (negb (bet =? 0) && (largest_raise s <=? bet - call)); reflexivity.
Qed.
Lemma agreed_k s : all_agreed (ss s) = all_agreed s.
Proof.
  unfold all_agreed. cbn [k_state street_option street_commits stacks active]. rewrite km_max. f_equal.
  generalize (maxZ (street_commits s)). intros m. f_equal. generalize (active s), (stacks s), (street_commits s).
  induction l as [|a l IH]; intros [|x st] [|y cm]; cbn [map combine]; try reflexivity.
  now rewrite IH, k_eqb, k_eqb0.
Qed.
Lemma done_k c s : done_list (sc c) (ss s) = done_list c s.
Proof.
  unfold done_list. cbn [k_state k_config num_streets num_players street active stacks].
  destruct (Nat.leb (num_streets c) (street s) || (count_true (active s) <=? 1)); [reflexivity|].
  generalize (active s), (stacks s). induction l as [|a l IH]; intros [|x st]; cbn [map combine]; try reflexivity.
  cbn [fst snd]. now rewrite IH, k_eqb0.
Qed.
Lemma street_loop_k c f s : street_loop (sc c) f (ss s) = ss (street_loop c f s).
Proof.
  revert s. induction f as [|f IH]; intros s; [reflexivity|]. cbn [street_loop].
  cbn [k_state k_config num_streets street active stacks the_deck num_community_cards].
  assert (E : map (fun p : bool * Z => fst p && (snd p =? 0)) (combine (active s) (km (stacks s)))
              = map (fun p => fst p && (snd p =? 0)) (combine (active s) (stacks s))).
  { generalize (active s), (stacks s). induction l as [|a l IH']; intros [|x st]; cbn [map combine]; try reflexivity.
    cbn [fst snd]. now rewrite IH', k_eqb0. }
  rewrite E. destruct (Nat.leb (num_streets c) (S (street s))); [reflexivity|].
  destruct (deck_draw (nth (S (street s)) (num_community_cards c) 0) (the_deck s)) as [cards d].
  destruct (count_true (active s) - _ <=? 1); [|reflexivity]. rewrite <- IH. reflexivity.
Qed.
Lemma next_k c s : next_street (sc c) (ss s) = ss (next_street c s).
Proof.
  unfold next_street. change (set_action (ss s) (Some (button (ss s)))) with (ss (set_action s (Some (button s)))).
  rewrite move_k. cbn [k_config num_streets]. fold (sc c). rewrite street_loop_k.
  set (z := street_loop _ _ _). unfold k_state.
  cbn [k_state action active button community_cards the_deck history hole_cards largest_raise pot pot_commits stacks street
       street_commits street_option street_raises num_players k_config]. rewrite <- km_zero. reflexivity.
Qed.

(** ** The showdown *)
Definition k_show (d : showdown) : showdown := mkShow (sd_players d) (sd_in d) (sd_rank d) (fun i => k * sd_put d i).
Definition k_pots (pots : list (list nat * Z)) : list (list nat * Z) := map (fun p => (fst p, k * snd p)) pots.

Lemma between_k d a b : chips_between (k_show d) (k * a) (k * b) = k * chips_between d a b.
Proof.
  unfold chips_between. cbn [k_show sd_players sd_put]. rewrite <- km_sum, map_map. f_equal. apply map_ext. intros i.
  rewrite !k_min. lia.
Qed.
Lemma contends_k d a i : contends (k_show d) (k * a) i <-> contends d a i.
Proof. unfold contends. cbn [k_show sd_players sd_in sd_put]. split; intros (A & B & C); splits; try assumption; nia. Qed.
Lemma best_k d a i : best_above (k_show d) (k * a) i <-> best_above d a i.
Proof.
  unfold best_above. rewrite contends_k. cbn [k_show sd_rank]. split; intros [A B]; (split; [exact A|]); intros j Hj; apply B; now apply contends_k.
Qed.
Lemma left_k d i : left_over (k_show d) i <-> left_over d i.
Proof.
  unfold left_over. cbn [k_show sd_players sd_in sd_rank sd_put].
  split; (intros [H|(j & Hj & Ij & H)]; [left; nia|right; exists j; split; [exact Hj|]; split; [exact Ij|]]);
    (destruct H as [[H1 H2]|(H1 & H2 & H3)]; [left; split; [exact H1|nia]|right; split; [exact H1|]; split; [nia|exact H3]]).
Qed.
Lemma paid_k d a pots : paid_pots d a pots -> paid_pots (k_show d) (k * a) (k_pots pots).
Proof.
  induction 1 as [a N|a w b r Nd (x & Bx & Ex) Hb Hw Hr IH|a w b r No Nd (x & Hx & Lx & Ex) Hb Hw Hr IH]; cbn [k_pots map fst snd].
  - apply paid_none. intros i Hi. cbn [k_show sd_put]. specialize (N i Hi). nia.
  - rewrite <- between_k. apply paid_next; [exact Nd| | | |exact IH].
    + exists x. split; [now apply best_k|]. cbn [k_show sd_put]. now rewrite Ex.
    + intros i Hi. apply (proj1 (best_k _ _ _)) in Hi. specialize (Hb i Hi). cbn [k_show sd_put]. nia.
    + intros i. rewrite Hw, best_k, left_k. cbn [k_show sd_players sd_in sd_put sd_rank].
      split; (intros [H|(A & B & C & D & (y & By & Ey))]; [now left|right; splits; try assumption; try nia; exists y; split; [now apply best_k|exact Ey]]).
  - rewrite <- between_k. apply paid_folded; [| exact Nd| | | |exact IH].
    + intros i Hi. apply (proj1 (contends_k _ _ _)) in Hi. now apply (No i).
    + exists x. cbn [k_show sd_players sd_put]. splits; [exact Hx|nia|nia].
    + intros i Hi Li. cbn [k_show sd_players sd_put] in *. specialize (Hb i Hi). nia.
    + intros i. rewrite Hw, left_k. reflexivity.
Qed.
Lemma even_pots n pots : Forall (good_pot n) pots -> odd_chips pots = 0 ->
  odd_chips (k_pots pots) = 0 /\ forall i, share (k_pots pots) i = k * share pots i.
Proof.
  induction 1 as [|[w x] pots G Hp IH]; intros H.
  - split; [reflexivity|]. intros i. cbn. lia.
  - unfold odd_chips in H. cbn [map sumZ fold_right fst snd] in H. fold (sumZ (map (fun p : list nat * Z => snd p mod Z.of_nat (List.length (fst p))) pots)) in H.
    fold (odd_chips pots) in H. pose proof (odd_nonneg _ _ Hp) as On.
    assert (M : 0 <= x mod Z.of_nat (List.length w)).
    { destruct G as (_ & G & _). cbn [fst] in G. apply Z.mod_pos_bound. destruct w; [now destruct G|cbn [List.length]; lia]. }
    assert (Hm : x mod Z.of_nat (List.length w) = 0) by lia. destruct (IH ltac:(lia)) as [I1 I2]. clear IH.
    assert (D : k * x = Z.of_nat (List.length w) * (k * (x / Z.of_nat (List.length w))) \/ Z.of_nat (List.length w) = 0).
    { destruct (Z.eq_dec (Z.of_nat (List.length w)) 0) as [E|E]; [now right|left]. pose proof (Z.div_mod x _ E). nia. }
    split.
    + unfold odd_chips, k_pots. cbn [map sumZ fold_right fst snd]. fold (k_pots pots).
      fold (sumZ (map (fun p : list nat * Z => snd p mod Z.of_nat (List.length (fst p))) (k_pots pots))). fold (odd_chips (k_pots pots)). rewrite I1.
      destruct D as [->|E]; [rewrite Z.mul_comm, Z_mod_mult; reflexivity|]. rewrite E, Zmod_0_r in *. nia.
    + intros i. unfold share, k_pots. cbn [map sumZ fold_right fst snd]. fold (k_pots pots).
      specialize (I2 i). unfold share in I2. unfold sumZ in I2. rewrite I2, Z.mul_add_distr_l. f_equal.
      destruct (existsb (Nat.eqb i) w); [|lia]. destruct (Z.eq_dec (Z.of_nat (List.length w)) 0) as [E|E]; [rewrite E, !Zdiv_0_r; lia|].
      destruct D as [->|D]; [|contradiction]. rewrite Z.mul_comm, Z.div_mul by exact E. reflexivity.
Qed.

Definition fit (c : config) (z : state) : Prop :=
  List.length (pot_commits z) = num_players c /\ List.length (hole_cards z) = num_players c /\ (button z < num_players c)%nat /\
  (forall i, 0 <= committed z i) /\ (pot z = sumZ (pot_commits z) \/ pot z <= 0).

Lemma payouts_k c z : (2 <= count_true (active z) -> (num_streets c <= street z)%nat -> fit c z \/ exists e, eval_hands c (active z) (hole_cards z) (community_cards z) = Err e) ->
  1 <= count_true (active z) -> no_odd_chips c z ->
  payouts (sc c) (ss z) = k_result (map (Z.mul k)) (payouts c z).
Proof.
  intros F C1 NO.
  destruct (Z.eq_dec (count_true (active z)) 1) as [E1|N1]; [|destruct (Nat.leb (num_streets c) (street z)) eqn:Es].
  - unfold payouts. cbn [k_state k_config active pot_commits pot street]. replace (count_true (active z) =? 1) with true by lia. cbn [k_result].
    f_equal. generalize (active z), (pot_commits z). induction l as [|a l IH]; intros [|x cm]; cbn [map combine]; try reflexivity. 
    cbn [fst snd]. rewrite IH. f_equal. destruct a; lia.
  - assert (C2 : 2 <= count_true (active z)) by lia. assert (Hs : (num_streets c <= street z)%nat) by lia.
    destruct (F C2 Hs) as [(Lc & Lh & Hb & Hn & Hp)|(e & E)].
    2:{ unfold payouts, eval_round. cbn [k_state k_config active pot_commits pot street num_streets hole_cards community_cards].
        replace (count_true (active z) =? 1) with false by lia. rewrite Es.
        change (eval_hands (sc c) (active z) (hole_cards z) (community_cards z)) with (eval_hands c (active z) (hole_cards z) (community_cards z)). rewrite E. reflexivity. }
    destruct (show_payouts c z N1 Hs Lc Lh Hb Hn Hp) as [(e & E & P)|(st & E & G & T & P)].
    { rewrite P. unfold payouts, eval_round. cbn [k_state k_config active pot_commits pot street num_streets hole_cards community_cards].
      replace (count_true (active z) =? 1) with false by lia. rewrite Es.
      change (eval_hands (sc c) (active z) (hole_cards z) (community_cards z)) with (eval_hands c (active z) (hole_cards z) (community_cards z)). rewrite E. reflexivity. }
    cbv zeta in *. destruct (eval_hands_spec c z st Lh E) as [Ls Hst].
    assert (SP : paid_pots (show_of c z) 0 (pots_of c z st)).
    { apply show_paid with (n := num_players c); try assumption; try reflexivity.
      + intros i Hi Ai. destruct (Hst i Hi) as [H _]. destruct (H Ai) as (H1 & H2 & _). auto.
      + intros i Hi Ai. destruct (Hst i Hi) as [_ H]. now apply H. }
    pose proof (NO C2 Hs _ SP) as Odd. rewrite Odd in P. cbn [Z.eqb] in P. rewrite P. cbn [k_result].
    destruct (show_payouts (sc c) (ss z)) as [(e & E' & _)|(st' & E' & G' & T' & P')]; cbn [k_state k_config active pot_commits pot street num_streets num_players hole_cards community_cards button]; try assumption.
    { now rewrite map_length. }
    { intros i. unfold committed. cbn [pot_commits k_state]. rewrite km_nth. specialize (Hn i). unfold committed in Hn. nia. }
    { rewrite km_sum. destruct Hp as [->|Hp]; [now left|right; nia]. }
    { cbn [k_state active hole_cards community_cards] in E'. change (eval_hands (sc c) (active z) (hole_cards z) (community_cards z)) with (eval_hands c (active z) (hole_cards z) (community_cards z)) in E'. rewrite E in E'. discriminate E'. }
    cbv zeta in P'. cbn [k_state active hole_cards community_cards] in E'.
    change (eval_hands (sc c) (active z) (hole_cards z) (community_cards z)) with (eval_hands c (active z) (hole_cards z) (community_cards z)) in E'.
    rewrite E in E'. injection E' as <-.
    assert (SP' : paid_pots (show_of (sc c) (ss z)) 0 (pots_of (sc c) (ss z) st)).
    { apply show_paid with (n := num_players c); try assumption; try reflexivity.
      + cbn [k_state pot_commits]. now rewrite map_length.
      + intros i Hi Ai. destruct (Hst i Hi) as [H _]. destruct (H Ai) as (H1 & H2 & _). auto.
      + intros i Hi Ai. destruct (Hst i Hi) as [_ H]. now apply H. }
    assert (SK : paid_pots (show_of (sc c) (ss z)) 0 (k_pots (pots_of c z st))).
    { apply paid_k in SP. rewrite Z.mul_0_r in SP.
      assert (X : forall d d' a p, sd_players d = sd_players d' -> (forall i, sd_in d i = sd_in d' i) -> (forall i, sd_rank d i = sd_rank d' i) ->
                 (forall i, sd_put d i = sd_put d' i) -> paid_pots d a p -> paid_pots d' a p).
      { clear. intros [n f r u] [n' f' r' u'] a p. cbn. intros -> A B C H.
        assert (L : forall i, left_over (mkShow n' f r u) i <-> left_over (mkShow n' f' r' u') i).
        { intros i. unfold left_over. cbn. rewrite C. split; (intros [X|(j & X1 & X2 & X3)]; [now left|right; exists j]);
            [rewrite <- A, <- !B, <- !C|rewrite A, !B, !C]; rewrite ?C in *; rewrite ?A, ?B in *; auto. }
        assert (N : forall a i, contends (mkShow n' f r u) a i <-> contends (mkShow n' f' r' u') a i).
        { intros b i. unfold contends. cbn. rewrite A, C. reflexivity. }
        assert (Be : forall a i, best_above (mkShow n' f r u) a i <-> best_above (mkShow n' f' r' u') a i).
        { intros b i. unfold best_above. rewrite N. cbn. split; intros [X Y]; (split; [exact X|]); intros j Hj; [rewrite <- !B|rewrite !B]; apply Y; now apply N. }
        assert (Ch : forall a b, chips_between (mkShow n' f r u) a b = chips_between (mkShow n' f' r' u') a b).
        { intros x y. unfold chips_between. cbn. f_equal. apply map_ext. intros i. now rewrite C. }
        induction H as [a M|a w b q Nd (x & Bx & Ex) Hb Hw Hr IH|a w b q No Nd (x & Hx & Lx & Ex) Hb Hw Hr IH]; rewrite ?Ch.
        - apply paid_none. intros i Hi. cbn in *. rewrite <- C. now apply M.
        - apply paid_next; [exact Nd| | | |exact IH].
          + exists x. split; [now apply Be|]. cbn in *. now rewrite <- C.
          + intros i Hi. cbn in *. rewrite <- C. apply Hb. now apply Be.
          + intros i. rewrite Hw. cbn. rewrite Be, L, A, C.
            split; (intros [X|(X1 & X2 & X3 & X4 & (y & By & Ey))]; [now left|right; splits; try assumption; exists y; split; [now apply Be|]]); [rewrite <- !B|rewrite !B]; exact Ey.
        - apply paid_folded; [|exact Nd| | | |exact IH].
          + intros i Hi. apply (No i). now apply N.
          + exists x. cbn in *. rewrite <- C. auto.
          + intros i Hi Li. cbn in *. rewrite <- C in *. now apply Hb.
          + intros i. rewrite Hw, L. cbn. now rewrite A. }
      eapply X; [| | | |exact SP]; try reflexivity. intros i. cbn [k_show sd_put show_of]. unfold committed. cbn [k_state pot_commits]. now rewrite km_nth. }
    destruct (paid_pots_unique _ _ _ SP' _ SK) as [U1 U2].
    destruct (even_pots _ _ G Odd) as [V1 V2]. rewrite U1, V1 in P'. cbn [Z.eqb] in P'. rewrite P'. f_equal.
    rewrite <- km_sub. cbn [k_state pot_commits k_config num_players]. f_equal.
    rewrite map_map. apply map_ext. intros i. now rewrite U2, V2.
  - unfold payouts. cbn [k_state k_config active pot_commits pot street num_streets]. replace (count_true (active z) =? 1) with false by lia. rewrite Es. cbn [k_result].
    f_equal. generalize (active z), (pot_commits z). induction l as [|a l IH]; intros [|x cm]; cbn [map combine]; try reflexivity.
    cbn [fst snd]. rewrite IH. f_equal. destruct a; lia.
Qed.

(** ** Observations, steps and resets *)
Lemma observation_k c s d : observation (sc c) (ss s) d = k_result (k_obs k) (observation c s d).
Proof.
  unfold observation. rewrite sizes_k. cbn [k_state action hole_cards].
  destruct d.
  - cbn [bind]. destruct (match action s with Some a => get (hole_cards s) a | None => get_last (hole_cards s) end); [|reflexivity].
    cbn [bind k_result k_obs o_action o_active o_button o_call o_community_cards o_hole_cards o_max_raise o_min_raise o_pot o_stacks o_street_commits].
    unfold k_obs. cbn. rewrite !Z.mul_0_r. reflexivity.
  - destruct (bet_sizes c s) as [[[a b] d]|e]; [|reflexivity]. cbn [bind k_result k_sizes].
    destruct (match action s with Some a => get (hole_cards s) a | None => get_last (hole_cards s) end); reflexivity.
Qed.
Lemma reset_k c s rnd rb rs : reset (sc c) (ss s) rnd rb rs = (ss (fst (reset c s rnd rb rs)), k_result (k_obs k) (snd (reset c s rnd rb rs))).
Proof.
  unfold reset.
  assert (A : reset_active (sc c) (ss s) rs = (fst (reset_active c s rs), km (snd (reset_active c s rs)))).
  { unfold reset_active. cbn [k_config k_state num_players start_stack stacks]. destruct rs; cbn [fst snd]; [now rewrite km_repeat|].
    f_equal. rewrite map_map. apply map_ext. intros x. apply k_ltb0. }
  rewrite A. destruct (reset_active c s rs) as [act stk]. cbn [fst snd].
  destruct (negb rs && (count_true act <=? 1)); [reflexivity|].
  change (num_community_cards (sc c)) with (num_community_cards c). destruct (num_community_cards c) as [|cc0 ccs] eqn:Ec; [reflexivity|].
  change (the_deck (ss s)) with (the_deck s). change (num_players (sc c)) with (num_players c). change (num_hole_cards (sc c)) with (num_hole_cards c).
  change (button (ss s)) with (button s).
  destruct (deck_draw cc0 (deck_shuffle rnd (the_deck s))) as [comm d1]. destruct (deal_hands (num_players c) (num_hole_cards c) d1) as [holes d2].
  cbv zeta. set (b := if rb then 0%nat else ((button s + 1) mod num_players c)%nat).
  set (s1 := mkState (Some b) act b comm d2 [] holes (big_blind c) 0 (repeat 0 (num_players c)) stk 0 (repeat 0 (num_players c)) (repeat false (num_players c)) 0).
  assert (S1 : mkState (Some b) act b comm d2 [] holes (big_blind (sc c)) 0 (repeat 0 (num_players c)) km stk 0 (repeat 0 (num_players c)) (repeat false (num_players c)) 0 = ss s1).
  { unfold s1, k_state. cbn. rewrite <- km_zero, Z.mul_0_r. reflexivity. }
  rewrite S1. change (antes (sc c)) with (km (antes c)). change (blinds (sc c)) with (km (blinds c)).
  assert (E2 : (if (2 <? num_players c)%nat then move_action (sc c) (ss s1) else ss s1) = ss (if (2 <? num_players c)%nat then move_action c s1 else s1)).
  { destruct (2 <? num_players c)%nat; [apply move_k|reflexivity]. }
  rewrite E2, !collect_k, !move_k, observation_k. reflexivity.
Qed.

Lemma round_k b : whole b -> py_round (k_bet k b) = k_result (Z.mul k) (py_round b) /\ pynum_neg (k_bet k b) = pynum_neg b.
Proof.
  destruct b as [z|q|n|]; cbn [whole k_bet py_round pynum_neg k_result].
  - intros _. split; [reflexivity|]. destruct (Z.ltb_spec z 0); nia.
  - intros (z & ->). unfold inject_Z, Qmult, round_half_even. cbn [Qnum Qden]. rewrite Pos.mul_1_l, !Z.mod_1_r, !Z.div_1_r. cbn.
    split; [reflexivity|]. destruct (Z.ltb_spec z 0); nia.
  - intros _. split; [destruct n; reflexivity|reflexivity].
  - intros _. split; reflexivity.
Qed.

Lemma step_end_k c z : (2 <= count_true (active z) -> (num_streets c <= street z)%nat -> fit c z \/ exists e, eval_hands c (active z) (hole_cards z) (community_cards z) = Err e) ->
  1 <= count_true (active z) -> no_odd_chips c z ->
  step_end (sc c) (ss z) = (ss (fst (step_end c z)), k_result (k_out k) (snd (step_end c z))).
Proof.
  intros F C NO. unfold step_end. rewrite done_k, payouts_k by assumption. destruct (payouts c z) as [pay|e]; [|reflexivity].
  cbn [k_result]. destruct (all_true (done_list c z)).
  - assert (E : finish_hand (ss z) (km pay) = ss (finish_hand z pay)).
    { unfold finish_hand, k_state. cbn [action active button community_cards the_deck history hole_cards largest_raise pot pot_commits stacks street street_commits street_option street_raises]. rewrite !km_add, Z.mul_0_r. reflexivity. }
    rewrite E, observation_k. cbn [fst snd]. destruct (observation c (finish_hand z pay) true); reflexivity.
  - rewrite observation_k. cbn [fst snd]. destruct (observation c z false); reflexivity.
Qed.
Lemma no_odd_same c z s' : active s' = active z -> pot_commits s' = pot_commits z -> street s' = street z -> hole_cards s' = hole_cards z -> community_cards s' = community_cards z ->
  no_odd_chips c s' -> no_odd_chips c z.
Proof. intros E1 E2 E3 E4 E5. unfold no_odd_chips, show_of, committed. now rewrite E1, E2, E3, E4, E5. Qed.


(** either no hand was ever dealt, or everybody holds cards *)
Lemma deal_hands_length m num : forall d, List.length (fst (deal_hands m num d)) = m.
Proof.
  induction m as [|m IH]; intros d; [reflexivity|]. cbn [deal_hands]. destruct (deck_draw num d) as [h d1]. specialize (IH d1).
  destruct (deal_hands m num d1) as [hs d2]. cbn [fst List.length] in *. now rewrite IH.
Qed.
Lemma move_hole c s : hole_cards (move_action c s) = hole_cards s.
Proof. unfold move_action. destruct (move_loop _ _ _ _ _ _ _). reflexivity. Qed.
Lemma street_loop_hole c f : forall s, hole_cards (street_loop c f s) = hole_cards s.
Proof.
  induction f as [|f IH]; intros s; [reflexivity|]. cbn [street_loop]. destruct (Nat.leb _ _); [reflexivity|].
  destruct (deck_draw _ _) as [cards d]. destruct (_ <=? 1); [|reflexivity]. now rewrite IH.
Qed.
Lemma step_hole c s b : hole_cards (fst (step c s b)) = hole_cards s.
Proof.
  unfold step. destruct (action s) as [a|]; [|reflexivity]. destruct (py_round b) as [bet0|]; [|reflexivity].
  destruct (bet_sizes c s) as [[[call mi] ma]|]; [|reflexivity]. destruct (settle_bet _ _ _ _ _) as [bet folds]. cbv zeta.
  set (s1 := place_bet _ _ _ _ _ _ _).
  assert (E1 : hole_cards s1 = hole_cards s) by (unfold s1, place_bet; cbv zeta; rewrite move_hole; reflexivity).
  assert (E2 : hole_cards (if all_agreed s1 then next_street c s1 else s1) = hole_cards s).
  { destruct (all_agreed s1); [|exact E1]. unfold next_street. cbn [hole_cards]. rewrite street_loop_hole, move_hole. exact E1. }
  revert E2. generalize (if all_agreed s1 then next_street c s1 else s1). intros z E2. unfold step_end. cbv zeta.
  destruct (payouts c z); [|exact E2]. cbn [fst]. now destruct (all_true (done_list c z)).
Qed.
Lemma hole_dealt c s : reachable c s -> hole_cards s = [] \/ List.length (hole_cards s) = num_players c.
Proof.
  induction 1 as [w rnd s D|s o R IH A].
  - apply Dealer_inv in D. rewrite (bd_state _ _ _ _ D). now left.
  - destruct o as [rnd rb rs|b|cs| |l]; cbn [apply_op].
    + unfold reset. destruct (reset_active c s rs) as [act stk]. destruct (negb rs && _); [exact IH|]. destruct (num_community_cards c); [exact IH|].
      destruct (deck_draw _ _) as [cm d1]. pose proof (deal_hands_length (num_players c) (num_hole_cards c) d1) as L.
      destruct (deal_hands _ _ _) as [hs d2]. cbn [fst] in *. right. rewrite !move_hole. unfold collect_multiple_bets. cbn [hole_cards].
      destruct (2 <? num_players c)%nat; rewrite ?move_hole; exact L.
    + rewrite step_hole. exact IH.
    + destruct (deck_trick cs (the_deck s)); exact IH.
    + exact IH.
    + exact IH.
Qed.
Lemma no_hands c act cm : 1 <= count_true act -> List.length act = num_players c -> exists e, eval_hands c act [] cm = Err e.
Proof.
  intros H L. destruct (count_true_pos act ltac:(lia)) as (j & Hj & Aj). unfold eval_hands.
  assert (G : forall l, In j l -> exists e, map_res (fun p => if nth p act false then let* h := get [] p in evaluate (the_evaluator c) h cm else Ok (worst_hand c)) l = Err e).
  { induction l as [|x l IH]; intros Hl; [destruct Hl|]. cbn [map_res]. destruct (nth x act false) eqn:Ex.
    - unfold get. replace (nth_error (@nil (list card)) x) with (@None (list card)) by (now destruct x). cbn [bind]. eauto.
    - destruct Hl as [->|Hl]; [congruence|]. destruct (IH Hl) as (e & E). cbn [bind]. rewrite E. cbn [bind]. eauto. }
  apply G. apply in_seq. lia.
Qed.

Lemma step_k c s b : fair c s -> whole b -> no_odd_chips c (fst (step c s b)) ->
  step (sc c) (ss s) (k_bet k b) = (ss (fst (step c s b)), k_result (k_out k) (snd (step c s b))).
Proof.
  intros F Wb NO. destruct (round_k b Wb) as [Rb Nb]. destruct (action s) as [a|] eqn:Ea.
  - assert (Hp : in_progress s) by (unfold in_progress; rewrite Ea; discriminate).
    assert (St : step c s b = match py_round b with Err e => (s, Err e) | Ok bet0 => match bet_sizes c s with Err e => (s, Err e) | Ok (call, mi, ma) =>
       let '(bet, folds) := settle_bet (pynum_neg b) bet0 call mi ma in let s1 := place_bet c s a (pynum_neg b) bet folds call in
       step_end c (if all_agreed s1 then next_street c s1 else s1) end end) by (unfold step; rewrite Ea; reflexivity).
    unfold step at 1. change (action (ss s)) with (action s). rewrite Ea, Nb, Rb, sizes_k.
    destruct (py_round b) as [bet0|e] eqn:Er; cbn [k_result]; [|rewrite St; reflexivity].
    destruct (bet_sizes c s) as [[[call mi] ma]|e] eqn:Eb; cbn [k_result k_sizes]; [|rewrite St; reflexivity].
    rewrite settle_k. destruct (settle_bet (pynum_neg b) bet0 call mi ma) as [bet folds] eqn:Es. cbv zeta in *. rewrite place_k, agreed_k.
    set (s1 := place_bet c s a (pynum_neg b) bet folds call) in *.
    assert (E2 : (if all_agreed s1 then next_street (sc c) (ss s1) else ss s1) = ss (if all_agreed s1 then next_street c s1 else s1)).
    { destruct (all_agreed s1); [apply next_k|reflexivity]. }
    rewrite E2. fold (settle c s1) in *.
    assert (H1 : after_bet c s b = Some s1) by (unfold after_bet; rewrite Ea, Er, Eb, Es; reflexivity).
    pose proof (fair_money c s F) as M. pose proof (mo_cfg _ _ M) as W. pose proof (mo_wf _ _ M) as I.
    destruct (after_bet_wf c s b s1 W I H1) as (A1 & A2 & A3 & A4 & A5 & A6 & A7 & A8 & A9 & A10 & A11).
    destruct (settle_wf c s1 W A1 A2 A3 A4 A5 A6 A7 A8 A9 A10) as (_ & B1 & B2 & B3 & B4 & B5 & B6 & B7 & B8 & B9).
    destruct (after_bet_money c s b s1 M H1) as (C1 & C2 & C3). pose proof (settle_keep c s1 W) as Kp.
    rewrite St. apply step_end_k.
    + intros _ _. left. unfold fit. splits; try assumption.
      * intros i. unfold committed. rewrite (sk_commits _ _ Kp). apply C1.
      * left. rewrite (sk_pot _ _ Kp), (sk_commits _ _ Kp). exact A8.
    + rewrite (sk_active _ _ Kp). exact A9.
    + rewrite St in NO. destruct (step_end_cases c (settle c s1)) as [(e & _ & X)|[(pay & _ & _ & X)|(pay & _ & _ & X)]]; rewrite X in NO; cbn [fst] in NO; exact NO.
  - assert (St : step c s b = (s, step_idle c s)) by (unfold step; rewrite Ea; reflexivity). rewrite St in *. cbn [fst snd] in *.
    unfold step. change (action (ss s)) with (action s). rewrite Ea. f_equal. unfold step_idle. change (active (ss s)) with (active s).
    destruct (any_true (active s)) eqn:An; [|reflexivity]. cbv zeta.
    assert (C1 : 1 <= count_true (active s)).
    { apply any_true_spec in An. destruct An as (j & Aj). apply (count_true_any _ j Aj). }
    pose proof (fair_money c s F) as M. pose proof (mo_wf _ _ M) as I. pose proof (fair_reachable c s F) as R.
    rewrite done_k, payouts_k; [|intros _ _|exact C1|exact NO].
    + destruct (payouts c s) as [pay|e]; [|reflexivity]. cbn [k_result bind]. rewrite observation_k. destruct (observation c s _); reflexivity.
    + destruct (hole_dealt c s R) as [H0|H0]; [right; rewrite H0; apply no_hands; [exact C1|apply I]|left].
      unfold fit. splits; [apply I|exact H0|apply I|apply M|right]. destruct (C55_pot_empty c s R Ea) as [-> _]. lia.
Qed.

Lemma check_inp_k {A} (f : A -> A) v n : check_inp (k_inp f v) n = k_result (map f) (check_inp v n).
Proof.
  destruct v as [a|l]; cbn [k_inp check_inp k_result].
  - f_equal. induction (Z.to_nat n) as [|m IH]; cbn [repeat map]; congruence.
  - rewrite map_length. destruct (_ =? n); reflexivity.
Qed.
Lemma clean_rs_k l : map_res clean_rs (map (k_raw_raise k) l) = k_result (map (k_rsize k)) (map_res clean_rs l).
Proof.
  induction l as [|r l IH]; [reflexivity|]. cbn [map map_res]. rewrite IH.
  destruct r; cbn [k_raw_raise clean_rs bind]; try (destruct (map_res clean_rs l); reflexivity).
Qed.
Lemma dealer_k rnd w : Dealer rnd (k_raw k w) = match Dealer rnd w with Ok (c, s) => Ok (sc c, ss s) | Err e => Err e end.
Proof.
  unfold Dealer. cbn [k_raw rw_num_players rw_num_streets rw_blinds rw_antes rw_raise_sizes rw_num_raises rw_num_suits rw_num_ranks
    rw_num_hole_cards rw_num_community_cards rw_num_cards_for_hand rw_mandatory_num_hole_cards rw_start_stack rw_low_end_straight rw_order].
  rewrite !check_inp_k.
  destruct (check_inp (rw_blinds w) (rw_num_players w)) as [bl|]; [|reflexivity]. cbn [bind k_result].
  destruct (check_inp (rw_antes w) (rw_num_players w)) as [an|]; [|reflexivity]. cbn [bind k_result].
  destruct (check_inp (rw_raise_sizes w) (rw_num_streets w)) as [rs|]; [|reflexivity]. cbn [bind k_result].
  destruct (check_inp (rw_num_raises w) (rw_num_streets w)) as [nr|]; [|reflexivity]. cbn [bind k_result].
  destruct (check_inp (rw_num_community_cards w) (rw_num_streets w)) as [cc|]; [|reflexivity]. cbn [bind].
  rewrite get_map. destruct (get bl 1) as [bb|]; [|reflexivity]. cbn [bind]. rewrite clean_rs_k.
  destruct (map_res clean_rs rs) as [crs|]; [|reflexivity]. cbn [bind k_result].
  destruct (map_res clean_count nr) as [cnr|]; [|reflexivity]. cbn [bind].
  destruct (Deck rnd (rw_num_suits w) (rw_num_ranks w)) as [dk|]; [|reflexivity]. cbn [bind].
  destruct (Evaluator (rw_num_suits w) (rw_num_ranks w) (rw_num_cards_for_hand w) (rw_mandatory_num_hole_cards w) (rw_low_end_straight w) (rw_order w)) as [ev|]; [|reflexivity]. cbn [bind].
  destruct ((rw_num_players w <? 2) || (10 <? rw_num_players w)); [reflexivity|].
  unfold k_config, k_state. cbn [action active button community_cards the_deck history hole_cards largest_raise pot pot_commits stacks street
    street_commits street_option street_raises num_players num_streets blinds antes big_blind raise_sizes num_raises num_hole_cards num_community_cards start_stack the_evaluator map].
  rewrite <- km_zero, <- km_repeat, !Z.mul_0_r. reflexivity.
Qed.

Lemma op_k c s o : fair c s -> match o with OStep b => whole b /\ no_odd_chips c (fst (step c s b)) | _ => True end ->
  apply_op (sc c) (ss s) (k_op k o) = ss (apply_op c s o).
Proof.
  intros F H. destruct o as [rnd rb rs|b|cs| |l]; cbn [apply_op k_op].
  - rewrite reset_k. reflexivity.
  - destruct H as [W N]. rewrite step_k by assumption. reflexivity.
  - change (the_deck (ss s)) with (the_deck s). destruct (deck_trick cs (the_deck s)); reflexivity.
  - reflexivity.
  - reflexivity.
Qed.
End Scale.

(** ** Theorems *)
(** the constructor: the same checks, and the same table with [k] times the chips *)
Theorem C82_dealer : forall k rnd w, 0 < k ->
  Dealer rnd (k_raw k w) = match Dealer rnd w with Ok (c, s) => Ok (k_config k c, k_state k s) | Err e => Err e end.
Proof. intros k rnd w _. apply dealer_k. Qed.
Print Assumptions C82_dealer.

Theorem C82_reset : forall k c s rnd rb rs, 0 < k ->
  let '(s', r) := reset c s rnd rb rs in
  reset (k_config k c) (k_state k s) rnd rb rs = (k_state k s', k_result (k_obs k) r).
Proof. intros k c s rnd rb rs K. rewrite reset_k by exact K. now destruct (reset c s rnd rb rs). Qed.
Print Assumptions C82_reset.

Theorem C82_step : forall k c s b, 0 < k -> fair c s -> whole b ->
  let '(s', r) := step c s b in
  no_odd_chips c s' ->
  step (k_config k c) (k_state k s) (k_bet k b) = (k_state k s', k_result (k_out k) r).
Proof.
  intros k c s b K F W. destruct (step c s b) as [s' r] eqn:E. intros N.
  rewrite step_k; try assumption; rewrite E; [reflexivity|exact N].
Qed.
Print Assumptions C82_step.

(** whole sessions: any number of hands, with resets, tricked decks and assigned stacks *)
Theorem C82_session : forall k rnd w ops, 0 < k ->
  match Dealer rnd w with
  | Err e => Dealer rnd (k_raw k w) = Err e
  | Ok (c, s) => sane c -> all_allowed c s ops = true -> fair_ops ops = true -> evenly c s ops ->
    Dealer rnd (k_raw k w) = Ok (k_config k c, k_state k s) /\
    run (k_config k c) (k_state k s) (map (k_op k) ops) = k_state k (run c s ops)
  end.
Proof.
  intros k rnd w ops K. rewrite dealer_k. destruct (Dealer rnd w) as [[c s]|e] eqn:E; [|reflexivity].
  intros Sn Al Fo Ev. split; [reflexivity|]. assert (F : fair c s) by (eapply fair_new; eassumption). clear E.
  revert s F Al Fo Ev. induction ops as [|o ops IH]; intros s F Al Fo Ev; [reflexivity|].
  unfold run. cbn [map fold_left]. fold (run (k_config k c) (apply_op (k_config k c) (k_state k s) (k_op k o)) (map (k_op k) ops)).
  fold (run c (apply_op c s o) ops). cbn [all_allowed] in Al. destruct (allowedb c s o) eqn:Ao; [|discriminate Al].
  cbn [fair_ops forallb] in Fo. apply andb_prop in Fo. destruct Fo as [Fo1 Fo2]. destruct Ev as [Ev1 Ev2].
  rewrite (op_k k K c s o F Ev1). apply IH; try assumption. apply fair_op; [exact F| |].
  - destruct o; cbn [allowedb allowed] in *; try exact I; [destruct (action s); [now right|now left]|lia].
  - destruct o; try exact I. rewrite forallb_forall in Fo1. apply Forall_forall. intros x Hx. specialize (Fo1 x Hx). lia.
Qed.
Print Assumptions C82_session.

(** the condition on showdowns is needed: 40 chips shared by three leave one over, 120 chips do not *)
Theorem C82_odd_chips : exists c s, fair c s /\
  let pays r := match snd r with Ok out => out_payouts out | Err _ => [] end in
  pays (step c s (PyInt 20)) = [3; 14; 3; -20] /\
  pays (step (k_config 3 c) (k_state 3 s) (PyInt 60)) = [10; 40; 10; -60].
Proof. play side_game side_ops c s E. split; [exact (played_fair _ _ _ _ E)|]. cbv zeta. plays E. Qed.
Print Assumptions C82_odd_chips.

(** seats 0 and 1 tie, with 10 and 20 chips; seats 2 and 3 lose 20 chips each *)
Definition even_ops := [OTrick [demo_card 48; demo_card 49; demo_card 0; demo_card 4]; OSetStacks [10; 20; 20; 20]; OReset [] true false] ++ bets [20; 20; 20].
Example C82_example : exists c s, fair c s /\ in_progress s /\ no_odd_chips c (fst (step c s (PyInt 20))) /\
  2 <= count_true (active (fst (step c s (PyInt 20)))) /\ (num_streets c <= street (fst (step c s (PyInt 20))))%nat /\
  match snd (step c s (PyInt 20)) with Ok out => out_payouts out | Err _ => [] end = [10; 30; -20; -20].
Proof.
  assert (G : exists c s, fair c s /\ action s = Some 2%nat /\
    active (fst (step c s (PyInt 20))) = [true; true; true; true] /\ num_streets c = 1%nat /\ street (fst (step c s (PyInt 20))) = 1%nat /\
    Nat.ltb (List.length (above (show_of c (fst (step c s (PyInt 20)))) 0)) 5 = true /\
    odd_chips (paid_fun 5 (show_of c (fst (step c s (PyInt 20)))) 0) = 0 /\
    match snd (step c s (PyInt 20)) with Ok out => out_payouts out | Err _ => [] end = [10; 30; -20; -20]).
  { play side_game even_ops c s E. split; [exact (played_fair _ _ _ _ E)|]. plays E. }
  destruct G as (c & s & F & G1 & G2 & G3 & G4 & G5 & G6 & G7). exists c, s. split; [exact F|]. split; [unfold in_progress; rewrite G1; discriminate|].
  split; [|split; [rewrite G2; cbn; lia|split; [lia|exact G7]]].
  intros _ _ pots H. assert (L : (List.length (above (show_of c (fst (step c s (PyInt 20)))) 0) < 5)%nat) by lia.
  destruct (paid_pots_unique _ _ _ H _ (paid_fun_ok _ 5 0 L)) as [-> _]. exact G6.
Qed.
(** which bets are bets of whole chips *)
Example C82_example_whole : whole (PyFloat (inject_Z 7)) /\ whole (PyInt (-1)) /\ ~ whole (PyFloat (1 # 2)).
Proof. splits; [exists 7; reflexivity|exact I|intros (z & H); discriminate H]. Qed.
