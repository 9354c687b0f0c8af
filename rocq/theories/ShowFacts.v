(** * ShowFacts: the loops of the showdown *)
From Coq Require Import ZifyBool ZifyNat Arith Permutation Sorted.
From Verif Require Import PyBase PyFacts CardModel EvalModel EngineModel EngineFacts ShowSpec.

(** ** sorting *)
Lemma insert_perm {A} (le : A -> A -> bool) x l : Permutation (insert_sorted le x l) (x :: l).
Proof. induction l as [|y l IH]; [reflexivity|]. cbn. destruct (le x y); [reflexivity|]. rewrite IH. apply perm_swap. Qed.
Lemma sort_perm {A} (le : A -> A -> bool) l : Permutation (sort_by le l) l.
Proof. induction l as [|x l IH]; [reflexivity|]. cbn. rewrite insert_perm. now apply perm_skip. Qed.
Definition hle (a b : hand3) : Prop := hand_le a b = true.
Lemma hle_spec a b : hle a b <-> h_strength a < h_strength b \/ (h_strength a = h_strength b /\ h_commit a <= h_commit b).
Proof. unfold hle, hand_le. lia. Qed.
Lemma insert_sorted_sorted x l : StronglySorted hle l -> StronglySorted hle (insert_sorted hand_le x l).
Proof.
  induction 1 as [|y l H IH F]; cbn; [repeat constructor|]. destruct (hand_le x y) eqn:E.
  - constructor; [now constructor|]. constructor; [exact E|]. eapply Forall_impl; [|exact F].
    intros z Hz. apply hle_spec in E, Hz. apply hle_spec. lia.
  - constructor; [exact IH|]. rewrite Forall_forall in *. intros z Hz.
    apply (Permutation_in _ (insert_perm hand_le x l)) in Hz. destruct Hz as [<-|Hz]; [|now apply F].
    apply hle_spec. assert (X : ~ hle x y) by (unfold hle; congruence). rewrite hle_spec in X. lia.
Qed.
Lemma sort_sorted l : StronglySorted hle (sort_by hand_le l).
Proof. induction l as [|x l IH]; [constructor|]. cbn. now apply insert_sorted_sorted. Qed.

(** ** adding to payouts *)
Lemma add_all_nth w v : forall pay i, NoDup w -> (forall j, In j w -> (j < List.length pay)%nat) ->
  nth i (fold_left (fun pay j => add_at pay j v) w pay) 0 = nth i pay 0 + if existsb (Nat.eqb i) w then v else 0.
Proof.
  induction w as [|x w IH]; intros pay i ND B; cbn [fold_left existsb]; [lia|].
  inversion ND as [|? ? Nx ND']; subst. rewrite IH; [|exact ND'|intros j Hj; rewrite add_at_length; apply B; now right].
  rewrite add_at_nth by (apply B; now left). destruct (Nat.eqb_spec i x) as [->|]; cbn [orb]; [|lia].
  destruct (existsb (Nat.eqb x) w) eqn:E; [|lia]. exfalso. apply existsb_exists in E. destruct E as (y & Hy & E).
  apply Nat.eqb_eq in E. subst y. contradiction.
Qed.
Lemma add_all_length w v : forall pay, List.length (fold_left (fun pay j => add_at pay j v) w pay) = List.length pay.
Proof. induction w as [|x w IH]; intros pay; [reflexivity|]. cbn [fold_left]. now rewrite IH, add_at_length. Qed.
Lemma add_all_sum w v : forall pay, (forall j, In j w -> (j < List.length pay)%nat) ->
  sumZ (fold_left (fun pay j => add_at pay j v) w pay) = sumZ pay + v * Z.of_nat (List.length w).
Proof.
  induction w as [|x w IH]; intros pay B; cbn [fold_left List.length]; [lia|].
  rewrite IH by (intros j Hj; rewrite add_at_length; apply B; now right).
  rewrite add_at_sum by (apply B; now left). lia.
Qed.

(** ** the pots dealt out by the loop *)
Section Pots.
  Variable worst : Z.
  Definition mark : Type := nat -> bool.
  Definition cur_strength (mk : mark) (o : hand3) : Z := if mk (h_idx o) then worst else h_strength o.
  (** the hands at level [L] *)
  Definition view (mk : mark) (L : Z) (o : hand3) : hand3 :=
    mkHand (h_idx o) (cur_strength mk o) (Z.max 0 (h_commit o - L)).
  Definition chips_of (all : list hand3) (a b : Z) : Z :=
    sumZ (map (fun o => Z.min (h_commit o) b - Z.min (h_commit o) a) all).
  Definition eligible_for (all : list hand3) (mk : mark) (s : Z) : list nat :=
    map h_idx (filter (fun o => cur_strength mk o =? s) all).
  Fixpoint dealt (all rest : list hand3) (L : Z) (mk : mark) : list (list nat * Z) :=
    match rest with
    | [] => []
    | h :: r =>
      if h_commit h <=? L then dealt all r L mk
      else (eligible_for all mk (h_strength h), chips_of all L (h_commit h))
           :: dealt all r (h_commit h) (fun i => Nat.eqb i (h_idx h) || mk i)
    end.
  Definition pay_pot (pay : list Z) (p : list nat * Z) : list Z :=
    fold_left (fun pay i => add_at pay i (snd p / Z.of_nat (List.length (fst p)))) (fst p) pay.

  Lemma cut_view mk L h all : L < h_commit h -> 
    sumZ (map (fun o => Z.min (h_commit o) (h_commit (view mk L h))) (map (view mk L) all)) = chips_of all L (h_commit h).
  Proof.
    intros H. unfold chips_of. rewrite map_map. f_equal. apply map_ext. intros o. cbn. lia.
  Qed.
  Lemma cut_view_0 mk L h all : h_commit h <= L ->
    sumZ (map (fun o => Z.min (h_commit o) (h_commit (view mk L h))) (map (view mk L) all)) = 0.
  Proof.
    intros H. rewrite map_map. induction all as [|o all IH]; [reflexivity|]. cbn [map]. rewrite sumZ_cons, IH. cbn. lia.
  Qed.
  Lemma chips_pos all L h : In h all -> L < h_commit h -> 0 < chips_of all L (h_commit h).
  Proof.
    intros Hi HL. unfold chips_of. induction all as [|o all IH]; [destruct Hi|]. cbn [map]. rewrite sumZ_cons.
    assert (P : 0 <= sumZ (map (fun o0 => Z.min (h_commit o0) (h_commit h) - Z.min (h_commit o0) L) all)).
    { clear -HL. induction all as [|o all IH]; [cbn; lia|]. cbn [map]. rewrite sumZ_cons. lia. }
    destruct Hi as [->|Hi]; [lia|]. specialize (IH Hi). lia.
  Qed.
  Lemma eligible_view mk L all s :
    map h_idx (filter (fun o => h_strength o =? s) (map (view mk L) all)) = eligible_for all mk s.
  Proof.
    unfold eligible_for. induction all as [|o all IH]; [reflexivity|]. cbn [map filter]. cbn [view h_strength].
    destruct (cur_strength mk o =? s); cbn [map]; now rewrite IH.
  Qed.
  Lemma dealt_none all rest L mk : (forall h, In h rest -> h_commit h <= L) -> dealt all rest L mk = [].
  Proof.
    revert L mk; induction rest as [|h r IH]; intros L mk H; [reflexivity|]. cbn [dealt].
    replace (h_commit h <=? L) with true by (pose proof (H h (or_introl eq_refl)); lia). apply IH. intros x Hx. apply H. now right.
  Qed.
  Lemma view_next mk L h all : NoDup (map h_idx all) -> In h all -> L < h_commit h ->
    forall k, nth_error all k = Some h ->
    upd (map (fun o => mkHand (h_idx o) (h_strength o) (h_commit o - Z.min (h_commit o) (h_commit (view mk L h)))) (map (view mk L) all))
        k (mkHand (h_idx h) worst (h_commit (view mk L h) - Z.min (h_commit (view mk L h)) (h_commit (view mk L h)))) =
    map (view (fun i => Nat.eqb i (h_idx h) || mk i) (h_commit h)) all.
  Proof.
    intros ND Hi HL k Hk. rewrite map_map.
    apply nth_ext with (d := mkHand 0 0 0) (d' := mkHand 0 0 0); [now rewrite upd_length, !map_length|].
    intros j Hj. rewrite upd_length, map_length in Hj.
    set (f := fun x => mkHand (h_idx (view mk L x)) (h_strength (view mk L x)) (h_commit (view mk L x) - Z.min (h_commit (view mk L x)) (h_commit (view mk L h)))).
    destruct (nth_error all j) as [o|] eqn:Ej; [|apply nth_error_None in Ej; lia].
    assert (E2 : nth j (map (view (fun i => Nat.eqb i (h_idx h) || mk i) (h_commit h)) all) (mkHand 0 0 0) = view (fun i => Nat.eqb i (h_idx h) || mk i) (h_commit h) o).
    { apply nth_error_nth. rewrite nth_error_map, Ej. reflexivity. }
    rewrite E2. destruct (Nat.eq_dec k j) as [Ekj|Ekj].
    - subst j. rewrite upd_nth_same by (rewrite map_length; exact Hj). rewrite Hk in Ej. injection Ej as <-.
      unfold view, cur_strength. cbn [h_idx h_commit]. rewrite Nat.eqb_refl. cbn [orb]. f_equal. lia.
    - rewrite upd_nth_other by exact Ekj.
      assert (E1 : nth j (map f all) (mkHand 0 0 0) = f o) by (apply nth_error_nth; rewrite nth_error_map, Ej; reflexivity).
      rewrite E1. unfold f, view, cur_strength. cbn [h_idx h_commit h_strength].
      replace (Nat.eqb (h_idx o) (h_idx h)) with false; [cbn [orb]; f_equal; lia|].
      symmetry. apply Nat.eqb_neq. intros Eq. apply Ekj. rewrite NoDup_nth_error in ND.
      apply (ND k j); [rewrite map_length; apply nth_error_Some; congruence|]. now rewrite !nth_error_map, Hk, Ej; cbn; rewrite Eq.
  Qed.

  Lemma total_view mk L all : sumZ (map h_commit (map (view mk L) all)) = sumZ (map (fun o => Z.max 0 (h_commit o - L)) all).
  Proof. rewrite map_map. f_equal. Qed.
  Lemma total_step all L L' : L <= L' -> sumZ (map (fun o => Z.max 0 (h_commit o - L)) all) - chips_of all L L' = sumZ (map (fun o => Z.max 0 (h_commit o - L')) all).
  Proof.
    intros H. unfold chips_of. induction all as [|o all IH]; [reflexivity|]. cbn [map]. rewrite !sumZ_cons. lia.
  Qed.
  Lemma total_zero all L : sumZ (map (fun o => Z.max 0 (h_commit o - L)) all) = 0 -> forall o, In o all -> h_commit o <= L.
  Proof.
    assert (P : forall l, 0 <= sumZ (map (fun o => Z.max 0 (h_commit o - L)) l)).
    { induction l as [|o l IH]; [cbn; lia|]. cbn [map]. rewrite sumZ_cons. lia. }
    induction all as [|x all IH]; intros H o Ho; [destruct Ho|]. cbn [map] in H. rewrite sumZ_cons in H. pose proof (P all).
    destruct Ho as [->|Ho]; [lia|]. apply IH; [lia|exact Ho].
  Qed.

  (** the loop deals out exactly [dealt]; it does not matter whether it stops early *)
  Lemma pot_loop_dealt all : NoDup (map h_idx all) -> forall rest pre L mk p, all = pre ++ rest ->
    (forall h, In h rest -> mk (h_idx h) = false) -> p_hands p = map (view mk L) all ->
    (p_pot p = sumZ (map h_commit (p_hands p)) \/ p_pot p <= 0) ->
    p_payouts (pot_loop worst (seq (List.length pre) (List.length rest)) p) = fold_left pay_pot (dealt all rest L mk) (p_payouts p) /\
    p_remainder (pot_loop worst (seq (List.length pre) (List.length rest)) p) = p_remainder p + odd_chips (dealt all rest L mk).
  Proof.
    intros ND. induction rest as [|h rest IH]; intros pre L mk p Ea Hm Hh Hp; [cbn; split; [reflexivity|unfold odd_chips; cbn; lia]|].
    cbn [List.length seq pot_loop dealt].
    assert (Hn : nth_error all (List.length pre) = Some h).
    { rewrite Ea, nth_error_app2 by lia. now rewrite Nat.sub_diag. }
    assert (Hi : In h all) by (rewrite Ea; apply in_or_app; right; now left).
    assert (Es : all = (pre ++ [h]) ++ rest) by (rewrite Ea, <- app_assoc; reflexivity).
    assert (El : List.length (pre ++ [h]) = S (List.length pre)) by (rewrite app_length; cbn; lia).
    assert (Hm' : forall x, In x rest -> mk (h_idx x) = false) by (intros x Hx; apply Hm; now right).
    unfold pot_step. rewrite Hh, nth_error_map, Hn. cbn [option_map].
    assert (Hs : h_strength (view mk L h) = h_strength h) by (unfold view, cur_strength; cbn; now rewrite (Hm h (or_introl eq_refl))).
    destruct (h_commit h <=? L) eqn:EL.
    - rewrite cut_view_0 by lia. cbn [Z.eqb]. rewrite <- El. exact (IH (pre ++ [h]) L mk p Es Hm' Hh Hp).
    - rewrite cut_view by lia. pose proof (chips_pos all L h Hi ltac:(lia)) as Cp.
      replace (chips_of all L (h_commit h) =? 0) with false by lia. rewrite Hs, eligible_view.
      match goal with |- context [nth_error (map ?f (map (view mk L) all)) (List.length pre)] =>
        replace (nth_error (map f (map (view mk L) all)) (List.length pre)) with (Some (f (view mk L h)))
          by (now rewrite !nth_error_map, Hn) end.
      cbv beta. cbn [h_idx h_commit h_strength] in *.
      pose proof (view_next mk L h all ND Hi ltac:(lia) _ Hn) as VN. cbn [view h_idx h_commit] in VN |- *. rewrite VN.
      set (mk' := fun i => Nat.eqb i (h_idx h) || mk i) in *.
      set (p' := mkPots _ _ _ _).
      assert (Hm2 : forall x, In x rest -> mk' (h_idx x) = false).
      { intros x Hx. unfold mk'. rewrite (Hm' x Hx), orb_false_r. apply Nat.eqb_neq. intros Eq.
        rewrite Ea, map_app in ND. cbn [map] in ND. apply NoDup_remove_2 in ND. apply ND. rewrite <- Eq. apply in_or_app. right. now apply in_map. }
      assert (Hp' : p_pot p' = sumZ (map h_commit (p_hands p')) \/ p_pot p' < 0).
      { unfold p'. cbn [p_pot p_hands]. destruct Hp as [Hp|Hp]; [left|right; lia]. rewrite Hp, Hh.
        rewrite (total_view mk L all). change (map (view mk' (h_commit h)) all) with (map (view mk' (h_commit h)) all).
        rewrite (total_view mk' (h_commit h) all). apply total_step. lia. }
      assert (OC : forall d r, odd_chips (d :: r) = snd d mod Z.of_nat (List.length (fst d)) + odd_chips r) by reflexivity.
      destruct (p_pot p - chips_of all L (h_commit h) =? 0) eqn:Estop.
      + assert (Z0 : dealt all rest (h_commit h) mk' = []).
        { apply dealt_none. intros x Hx. destruct Hp' as [Hp'|Hp']; [|unfold p' in Hp'; cbn [p_pot] in Hp'; lia].
          unfold p' in Hp'. cbn [p_pot p_hands] in Hp'. rewrite total_view in Hp'. apply (total_zero all (h_commit h)); [lia|].
          rewrite Es. apply in_or_app. now right. }
        rewrite Z0. unfold p'. cbn [p_payouts p_remainder]. rewrite OC. unfold odd_chips at 1. cbn [map sumZ fold_right fst snd fold_left]. split; [reflexivity|lia].
      + rewrite <- El. destruct (IH (pre ++ [h]) (h_commit h) mk' p' Es Hm2 eq_refl) as [I1 I2]; [destruct Hp' as [Hp'|Hp']; [now left|right; lia]|].
        rewrite I1, I2. unfold p'. cbn [p_payouts p_remainder fold_left]. rewrite OC. cbn [fst snd]. split; [reflexivity|lia].
  Qed.
End Pots.

(** ** totals *)
Definition good_pot (n : nat) (p : list nat * Z) : Prop :=
  NoDup (fst p) /\ fst p <> [] /\ (forall i, In i (fst p) -> (i < n)%nat) /\ 0 < snd p.
Lemma NoDup_map_filter {A B} (f : A -> B) g l : NoDup (map f l) -> NoDup (map f (filter g l)).
Proof.
  induction l as [|x l IH]; intros H; [constructor|]. cbn [map filter] in *. inversion H as [|? ? N H']; subst.
  destruct (g x); [|now apply IH]. cbn [map]. constructor; [|now apply IH]. intros X. apply N.
  apply in_map_iff in X. destruct X as (y & Ey & Hy). apply filter_In in Hy. rewrite <- Ey. now apply in_map.
Qed.
Lemma dealt_good worst n all : NoDup (map h_idx all) -> (forall h, In h all -> (h_idx h < n)%nat) ->
  forall rest L mk, incl rest all -> (forall h, In h rest -> mk (h_idx h) = false) -> NoDup (map h_idx rest) ->
  Forall (good_pot n) (dealt worst all rest L mk).
Proof.
  intros ND B. induction rest as [|h r IH]; intros L mk Hi Hm Nr; [constructor|]. cbn [dealt].
  inversion Nr as [|? ? Nh Nr']; subst.
  assert (Hi' : incl r all) by (intros x Hx; apply Hi; now right).
  assert (Hm' : forall x, In x r -> mk (h_idx x) = false) by (intros x Hx; apply Hm; now right).
  destruct (h_commit h <=? L) eqn:E; [now apply IH|]. constructor.
  - split; [now apply NoDup_map_filter|]. split; [|split].
    + intros X. assert (Y : In (h_idx h) (eligible_for worst all mk (h_strength h))).
      { unfold eligible_for. apply in_map. apply filter_In. split; [apply Hi; now left|].
        unfold cur_strength. rewrite (Hm h (or_introl eq_refl)). lia. }
      cbn [fst] in X. rewrite X in Y. destruct Y.
    + intros i X. apply in_map_iff in X. destruct X as (o & <- & Ho). apply filter_In in Ho. now apply B.
    + apply chips_pos; [apply Hi; now left|lia].
  - apply IH; [exact Hi'| |exact Nr']. intros x Hx. rewrite (Hm' x Hx), orb_false_r. apply Nat.eqb_neq. intros Eq. apply Nh. rewrite <- Eq. now apply in_map.
Qed.
Lemma chips_refl all a : chips_of all a a = 0.
Proof. unfold chips_of. induction all as [|o all IH]; [reflexivity|]. cbn [map]. rewrite sumZ_cons, IH. lia. Qed.
(** the chips of all pots: everything above [L] *)
Lemma dealt_total worst all : forall rest pre L mk, all = pre ++ rest -> (forall h, In h pre -> h_commit h <= L) ->
  sumZ (map snd (dealt worst all rest L mk)) = sumZ (map (fun o => Z.max 0 (h_commit o - L)) all).
Proof.
  induction rest as [|h r IH]; intros pre L mk Ea Hp; cbn [dealt].
  - rewrite app_nil_r in Ea. subst pre. cbn [map]. symmetry.
    assert (X : forall l, (forall h, In h l -> h_commit h <= L) -> sumZ (map (fun o => Z.max 0 (h_commit o - L)) l) = 0).
    { induction l as [|o l IHl]; intros H; [reflexivity|]. cbn [map]. rewrite sumZ_cons, IHl by (intros x Hx; apply H; now right).
      pose proof (H o (or_introl eq_refl)). lia. }
    now apply X.
  - assert (Es : all = (pre ++ [h]) ++ r) by (rewrite Ea, <- app_assoc; reflexivity).
    destruct (h_commit h <=? L) eqn:E.
    + apply (IH (pre ++ [h])); [exact Es|]. intros x Hx. apply in_app_or in Hx. destruct Hx as [Hx|[<-|[]]]; [now apply Hp|lia].
    + cbn [map snd]. rewrite sumZ_cons, (IH (pre ++ [h])); [|exact Es|].
      * pose proof (total_step all L (h_commit h) ltac:(lia)). lia.
      * intros x Hx. apply in_app_or in Hx. destruct Hx as [Hx|[<-|[]]]; [specialize (Hp x Hx); lia|lia].
Qed.
Lemma pay_pots_nth n pots : Forall (good_pot n) pots -> forall pay i, List.length pay = n ->
  nth i (fold_left pay_pot pots pay) 0 = nth i pay 0 + share pots i.
Proof.
  induction 1 as [|p pots [G1 [G2 [G3 G4]]] _ IH]; intros pay i Hl; [unfold share; cbn; lia|]. cbn [fold_left].
  rewrite IH by (unfold pay_pot; now rewrite add_all_length). unfold pay_pot. rewrite add_all_nth; [|exact G1|rewrite Hl; exact G3].
  unfold share. cbn [map]. rewrite sumZ_cons. lia.
Qed.
Lemma pay_pots_length pots : forall pay, List.length (fold_left pay_pot pots pay) = List.length pay.
Proof. induction pots as [|p pots IH]; intros pay; [reflexivity|]. cbn [fold_left]. rewrite IH. apply add_all_length. Qed.
Lemma pay_pots_sum n pots : Forall (good_pot n) pots -> forall pay, List.length pay = n ->
  sumZ (fold_left pay_pot pots pay) + odd_chips pots = sumZ pay + sumZ (map snd pots).
Proof.
  induction 1 as [|p pots [G1 [G2 [G3 G4]]] _ IH]; intros pay Hl; [reflexivity|]. cbn [fold_left map].
  unfold odd_chips. cbn [map]. rewrite !sumZ_cons. fold (odd_chips pots).
  specialize (IH (pay_pot pay p) ltac:(unfold pay_pot; now rewrite add_all_length)).
  unfold pay_pot in IH at 3. rewrite add_all_sum in IH by (rewrite Hl; exact G3).
  assert (K : 0 < Z.of_nat (List.length (fst p))) by (destruct (fst p); [congruence|cbn; lia]).
  pose proof (Z.div_mod (snd p) (Z.of_nat (List.length (fst p))) ltac:(lia)). lia.
Qed.
Lemma share_nonneg n pots i : Forall (good_pot n) pots -> 0 <= share pots i.
Proof.
  induction 1 as [|p pots [G1 [G2 [G3 G4]]] _ IH]; [cbn; lia|]. unfold share. cbn [map]. rewrite sumZ_cons. fold (share pots i).
  destruct (existsb _ _); [|lia]. assert (K : 0 < Z.of_nat (List.length (fst p))) by (destruct (fst p); [congruence|cbn; lia]).
  pose proof (Z.div_pos (snd p) _ ltac:(lia) K). lia.
Qed.
Lemma odd_nonneg n pots : Forall (good_pot n) pots -> 0 <= odd_chips pots.
Proof.
  induction 1 as [|p pots [G1 [G2 [G3 G4]]] _ IH]; [cbn; lia|]. unfold odd_chips. cbn [map]. rewrite sumZ_cons. fold (odd_chips pots).
  assert (K : 0 < Z.of_nat (List.length (fst p))) by (destruct (fst p); [congruence|cbn; lia]).
  pose proof (Z.mod_pos_bound (snd p) _ K). lia.
Qed.

(** ** the odd chips *)
(** the first seat after the button (not going past the last seat) with winnings *)
Definition first_after (button n : nat) (pay : list Z) : option nat :=
  find (fun q => negb (nth q pay 0 =? 0)) (seq (S button) (n - S button)).
Lemma remainder_loop_spec n b r pay : List.length pay = n -> (b < n)%nat -> forall k i, (i + k = S n)%nat -> (1 <= i)%nat -> (i + b <= n)%nat ->
  remainder_loop n b k i r pay =
  match find (fun q => negb (nth q pay 0 =? 0)) (seq (i + b) (n - (i + b))) with
  | Some q => Ok (add_at pay (q - b) r)
  | None => Err IndexError
  end.
Proof.
  intros Hl Hb. induction k as [|k IH]; intros i Hk Hi Hib.
  - lia.
  - cbn [remainder_loop]. rewrite (Nat.mod_small b n Hb). destruct (Nat.eq_dec (i + b) n) as [En|En].
    + unfold get. replace (nth_error pay (i + b)) with (@None Z) by (symmetry; apply nth_error_None; lia). cbn [bind].
      rewrite En, Nat.sub_diag. reflexivity.
    + unfold get. rewrite (nth_error_nth' pay 0) by lia. cbn [bind].
      replace (n - (i + b))%nat with (S (n - (S i + b))) by lia. cbn [seq find]. destruct (negb (nth (i + b) pay 0 =? 0)).
      * rewrite (nth_error_nth' pay 0) by lia. cbn [bind]. now replace (i + b - b)%nat with i by lia.
      * rewrite IH by lia. reflexivity.
Qed.
Lemma first_after_spec b n pay : forall q, first_after b n pay = Some q <->
  (b < q < n)%nat /\ nth q pay 0 <> 0 /\ forall j, (b < j < q)%nat -> nth j pay 0 = 0.
Proof.
  unfold first_after. intros q.
  assert (X : forall k i, find (fun q => negb (nth q pay 0 =? 0)) (seq i k) = Some q <->
     (i <= q < i + k)%nat /\ nth q pay 0 <> 0 /\ forall j, (i <= j < q)%nat -> nth j pay 0 = 0).
  { induction k as [|k IH]; intros i; cbn [seq find]; [split; [discriminate|lia]|].
    destruct (negb (nth i pay 0 =? 0)) eqn:E.
    - split; [intros H; injection H as <-; split; [lia|]; split; [lia|intros; lia]|]. intros (H1 & H2 & H3).
      destruct (Nat.eq_dec i q) as [->|N]; [reflexivity|]. specialize (H3 i ltac:(lia)). lia.
    - rewrite IH. split; intros (H1 & H2 & H3).
      + split; [lia|]. split; [exact H2|]. intros j Hj. destruct (Nat.eq_dec j i) as [->|N]; [lia|]. apply H3. lia.
      + assert (i <> q) by (intros ->; lia). split; [lia|]. split; [exact H2|]. intros j Hj. apply H3. lia. }
  rewrite X. split; intros (H1 & H2 & H3); (split; [lia|]; split; [exact H2|]; intros j Hj; apply H3; lia).
Qed.

(** ** the whole showdown *)
Definition show_hands (st cm : list Z) : list hand3 := sort_by hand_le (zip_hands st cm).
Definition show_pots (worst : Z) (st cm : list Z) : list (list nat * Z) :=
  dealt worst (show_hands st cm) (show_hands st cm) 0 (fun _ => false).
Lemma zip_in st cm h : List.length cm = List.length st -> (In h (zip_hands st cm) <->
  (h_idx h < List.length st)%nat /\ h_strength h = nth (h_idx h) st 0 /\ h_commit h = nth (h_idx h) cm 0).
Proof.
  intros Hl. unfold zip_hands. rewrite in_map_iff. split.
  - intros (((i, a), b) & <- & Hi). cbn.
    assert (X : forall st k cm, List.length cm = List.length st -> In (i, a, b) (combine (combine (seq k (List.length st)) st) cm) ->
      (k <= i < k + List.length st)%nat /\ a = nth (i - k) st 0 /\ b = nth (i - k) cm 0).
    { clear. induction st as [|x st IH]; intros k [|y cm] Hl H; try discriminate; [destruct H|]. cbn [List.length seq combine] in H.
      destruct H as [H|H]; [injection H as <- <- <-; rewrite Nat.sub_diag; cbn; split; [lia|auto]|].
      apply IH in H; [|cbn in Hl; lia]. destruct H as (H1 & H2 & H3). cbn [List.length]. split; [lia|].
      replace (i - k)%nat with (S (i - S k)) by lia. now cbn. }
    apply (X st 0%nat cm Hl) in Hi. rewrite Nat.sub_0_r in Hi. destruct Hi as (H1 & H2 & H3). split; [lia|auto].
  - intros (H1 & H2 & H3). exists (h_idx h, h_strength h, h_commit h). split; [now destruct h|]. rewrite H2, H3.
    assert (E : forall (st cm : list Z) k i, List.length cm = List.length st -> (i < List.length st)%nat ->
      In ((k + i)%nat, nth i st 0, nth i cm 0) (combine (combine (seq k (List.length st)) st) cm)).
    { clear. induction st as [|x st IH]; intros [|y cm] k i Hl Hi; try discriminate; cbn in Hi; try lia. cbn [List.length seq combine].
      destruct i as [|i]; [left; f_equal; f_equal; lia|]. right. replace (k + S i)%nat with (S k + i)%nat by lia. cbn [nth]. apply IH; [now injection Hl|lia]. }
    apply (E st cm 0%nat _ Hl H1).
Qed.
Lemma zip_idx st cm : List.length cm = List.length st -> map h_idx (zip_hands st cm) = seq 0 (List.length st).
Proof.
  intros Hl. unfold zip_hands. rewrite map_map. cbn [h_idx].
  assert (X : forall (st cm : list Z) k, List.length cm = List.length st -> map (fun x => fst (fst x)) (combine (combine (seq k (List.length st)) st) cm) = seq k (List.length st)).
  { clear. induction st as [|x st IH]; intros [|y cm] k Hl; try discriminate; [reflexivity|]. cbn [List.length seq combine map fst]. f_equal. apply IH. now injection Hl. }
  now apply X.
Qed.
Lemma zip_commits st cm : List.length cm = List.length st -> map h_commit (zip_hands st cm) = cm.
Proof.
  intros Hl. unfold zip_hands. rewrite map_map. cbn [h_commit].
  assert (X : forall (st cm : list Z) k, List.length cm = List.length st -> map snd (combine (combine (seq k (List.length st)) st) cm) = cm).
  { clear. induction st as [|x st IH]; intros [|y cm] k Hl; try discriminate; [reflexivity|]. cbn [List.length seq combine map snd]. f_equal. apply IH. now injection Hl. }
  now apply X.
Qed.
Lemma show_idx st cm : List.length cm = List.length st -> Permutation (map h_idx (show_hands st cm)) (seq 0 (List.length st)).
Proof. intros Hl. unfold show_hands. rewrite sort_perm. now rewrite zip_idx. Qed.
Lemma show_nodup st cm : List.length cm = List.length st -> NoDup (map h_idx (show_hands st cm)).
Proof. intros Hl. eapply Permutation_NoDup; [symmetry; now apply show_idx|apply seq_NoDup]. Qed.
Lemma show_in st cm h : List.length cm = List.length st -> (In h (show_hands st cm) <->
  (h_idx h < List.length st)%nat /\ h_strength h = nth (h_idx h) st 0 /\ h_commit h = nth (h_idx h) cm 0).
Proof.
  intros Hl. rewrite <- (zip_in st cm h Hl). unfold show_hands. split; apply Permutation_in; [apply sort_perm|symmetry; apply sort_perm].
Qed.
Lemma show_sum st cm : List.length cm = List.length st -> sumZ (map h_commit (show_hands st cm)) = sumZ cm.
Proof. intros Hl. unfold show_hands. rewrite <- (zip_commits st cm Hl) at 2. apply sumZ_perm, Permutation_map, sort_perm. Qed.
Lemma show_good worst st cm : List.length cm = List.length st -> Forall (good_pot (List.length st)) (show_pots worst st cm).
Proof.
  intros Hl. apply dealt_good; [now apply show_nodup| |intros x; auto|reflexivity|now apply show_nodup].
  intros h Hh. now apply show_in in Hh.
Qed.
Lemma clamp_sum (l : list hand3) : (forall o, In o l -> 0 <= h_commit o) -> sumZ (map (fun o => Z.max 0 (h_commit o - 0)) l) = sumZ (map h_commit l).
Proof.
  induction l as [|o l IH]; intros H; [reflexivity|]. cbn [map]. rewrite !sumZ_cons, IH by (intros x Hx; apply H; now right).
  pose proof (H o (or_introl eq_refl)). lia.
Qed.
Lemma view_start worst (l : list hand3) : (forall o, In o l -> 0 <= h_commit o) -> map (view worst (fun _ => false) 0) l = l.
Proof.
  induction l as [|o l IH]; intros H; [reflexivity|]. cbn [map]. rewrite IH by (intros x Hx; apply H; now right). f_equal.
  pose proof (H o (or_introl eq_refl)). unfold view, cur_strength. destruct o as [i s c]. cbn in *. f_equal. lia.
Qed.

(** what the showdown pays, for any hands and amounts put in *)
Lemma split_pots_spec n b worst pt st cm : List.length st = n -> List.length cm = n -> (b < n)%nat ->
  Forall (fun x => 0 <= x) cm -> (pt = sumZ cm \/ pt <= 0) ->
  let pots := show_pots worst st cm in
  let base := map (share pots) (seq 0 n) in
  split_pots n b worst pt st cm =
    (if odd_chips pots =? 0 then Ok base
     else match first_after b n base with
          | Some q => Ok (add_at base (q - b) (odd_chips pots))
          | None => Err IndexError
          end) /\
  Forall (good_pot n) pots /\ sumZ base + odd_chips pots = sumZ cm /\ sumZ (map snd pots) = sumZ cm.
Proof.
  intros Hs Hc Hb Hnn Hpt. cbv zeta. assert (Hl : List.length cm = List.length st) by congruence.
  assert (Nn : forall o, In o (show_hands st cm) -> 0 <= h_commit o).
  { intros o Ho. apply show_in in Ho; [|exact Hl]. destruct Ho as (H1 & _ & ->). rewrite Forall_forall in Hnn. apply Hnn. apply nth_In. lia. }
  pose proof (show_good worst st cm Hl) as G. rewrite Hs in G.
  pose proof (dealt_total worst (show_hands st cm) (show_hands st cm) [] 0 (fun _ => false) eq_refl ltac:(intros h [])) as T.
  fold (show_pots worst st cm) in T. rewrite clamp_sum, show_sum in T by assumption.
  unfold split_pots. fold (show_hands st cm).
  destruct (pot_loop_dealt worst (show_hands st cm) (show_nodup st cm Hl) (show_hands st cm) [] 0 (fun _ => false)
    (mkPots (show_hands st cm) pt 0 (repeat 0 n)) eq_refl ltac:(reflexivity)) as [P1 P2].
  { cbn [p_hands]. now rewrite view_start. }
  { cbn [p_hands p_pot]. rewrite show_sum by exact Hl. exact Hpt. }
  cbn [List.length p_payouts p_remainder] in P1, P2. fold (show_pots worst st cm) in P1, P2. rewrite P1, P2, Z.add_0_l.
  assert (E : fold_left pay_pot (show_pots worst st cm) (repeat 0 n) = map (share (show_pots worst st cm)) (seq 0 n)).
  { apply nth_ext_Z; rewrite pay_pots_length, repeat_length; [now rewrite map_length, seq_length|].
    intros i Hi. rewrite (pay_pots_nth n) by (assumption || apply repeat_length). rewrite nth_repeat_lt by exact Hi.
    rewrite (map_nth_lt _ _ _ 0 0%nat) by (rewrite seq_length; exact Hi). rewrite seq_nth by exact Hi. reflexivity. }
  rewrite E. pose proof (pay_pots_sum n (show_pots worst st cm) G (repeat 0 n) (repeat_length _ _)) as S1. rewrite E, sumZ_repeat0 in S1.
  split; [|split; [exact G|split; [lia|exact T]]]. destruct (odd_chips (show_pots worst st cm) =? 0); [reflexivity|].
  rewrite remainder_loop_spec; [reflexivity| |exact Hb|lia|lia|lia]. now rewrite map_length, seq_length.
Qed.
