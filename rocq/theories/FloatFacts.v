(** * FloatFacts: the model's division is the rounding of FloatSpec *)
From Coq Require Import ZifyBool ZifyNat Arith Qabs Qpower Lqa Lia.
From Verif Require Import PyBase PyFacts CardModel EvalModel EngineModel NumpyModel FloatModel FloatSpec.

(** ** Rounding to an integer *)
Lemma half_even_near p q k : 0 < q -> Z.abs (half_even p q * q - p) <= Z.abs (k * q - p).
Proof.
  intros Hq. unfold half_even. pose proof (Z.div_mod p q ltac:(lia)) as D. pose proof (Z.mod_pos_bound p q Hq) as R.
  set (d := p / q) in *. set (r := p mod q) in *. clearbody d r.
  destruct (Z_le_gt_dec k d) as [L|L].
  - assert (k * q <= d * q) by nia.
    destruct (2 * r <? q) eqn:E1; [|destruct (q <? 2 * r) eqn:E2; [|destruct (Z.even d)]]; lia.
  - assert ((d + 1) * q <= k * q) by nia.
    destruct (2 * r <? q) eqn:E1; [|destruct (q <? 2 * r) eqn:E2; [|destruct (Z.even d)]]; lia.
Qed.
Lemma half_even_error p q : 0 < q -> 2 * Z.abs (half_even p q * q - p) <= q.
Proof.
  intros Hq. unfold half_even. pose proof (Z.div_mod p q ltac:(lia)) as D. pose proof (Z.mod_pos_bound p q Hq) as R.
  set (d := p / q) in *. set (r := p mod q) in *. clearbody d r.
  destruct (2 * r <? q) eqn:E1; [|destruct (q <? 2 * r) eqn:E2; [|destruct (Z.even d)]]; lia.
Qed.
Lemma half_even_tie p q k : 0 < q -> k <> half_even p q -> Z.abs (k * q - p) = Z.abs (half_even p q * q - p) -> Z.even (half_even p q) = true.
Proof.
  intros Hq. unfold half_even. pose proof (Z.div_mod p q ltac:(lia)) as D. pose proof (Z.mod_pos_bound p q Hq) as R.
  set (d := p / q) in *. set (r := p mod q) in *. clearbody d r.
  assert (C : k <= d - 1 \/ k = d \/ k = d + 1 \/ d + 2 <= k) by lia.
  destruct (2 * r <? q) eqn:E1; [|destruct (q <? 2 * r) eqn:E2; [|destruct (Z.even d) eqn:E3; [intros; exact E3|]]].
  - intros N E. exfalso. destruct C as [C|[->|[->|C]]]; [assert (k * q <= (d - 1) * q) by nia| | |assert ((d + 2) * q <= k * q) by nia]; lia.
  - intros N E. exfalso. destruct C as [C|[->|[->|C]]]; [assert (k * q <= (d - 1) * q) by nia| | |assert ((d + 2) * q <= k * q) by nia]; lia.
  - intros _ _. rewrite Z.add_1_r, Z.even_succ, <- Z.negb_even, E3. reflexivity.
Qed.
Lemma half_even_mono p p' q : 0 < q -> p <= p' -> half_even p q <= half_even p' q.
Proof.
  intros Hq H. pose proof (half_even_near p q (half_even p' q) Hq) as A. pose proof (half_even_near p' q (half_even p q) Hq) as B.
  destruct (Z_le_gt_dec (half_even p q) (half_even p' q)) as [L|L]; [exact L|exfalso].
  set (x := half_even p q) in *. set (y := half_even p' q) in *. assert (y * q + q <= x * q) by nia.
  assert (X : p = p' \/ p < p') by lia. destruct X as [X|X]; [subst; subst x y; lia|]. lia.
Qed.
Lemma half_even_range p q m : 0 < q -> p <= m * q -> half_even p q <= m.
Proof.
  intros Hq H. pose proof (half_even_near p q m Hq) as A. destruct (Z_le_gt_dec (half_even p q) m) as [L|L]; [exact L|exfalso].
  set (x := half_even p q) in *. assert ((m + 1) * q <= x * q) by nia. lia.
Qed.
Lemma half_even_least p q m : 0 < q -> m * q <= p -> m <= half_even p q.
Proof.
  intros Hq H. pose proof (half_even_near p q m Hq) as A. destruct (Z_le_gt_dec m (half_even p q)) as [L|L]; [exact L|exfalso].
  set (x := half_even p q) in *. assert ((x + 1) * q <= m * q) by nia. lia.
Qed.

(** ** The number of places *)
Lemma places_spec a b : 0 < a <= 2 ^ 52 * b -> let e := places a b in
  0 <= e <= 1074 /\ a * 2 ^ e < 2 ^ 53 * b /\ (e = 1074 \/ 2 ^ 52 * b <= a * 2 ^ e).
Proof.
  intros H. cbv zeta. unfold places. set (k := Z.log2 b - Z.log2 a).
  assert (Hb : 0 < b) by lia.
  pose proof (Z.log2_spec a ltac:(lia)) as A. pose proof (Z.log2_spec b ltac:(lia)) as B.
  pose proof (Z.log2_nonneg a) as Na. pose proof (Z.log2_nonneg b) as Nb.
  assert (Hk : -52 <= k).
  { pose proof (Z.log2_le_mono a (2 ^ 52 * b) ltac:(lia)) as K. rewrite Z.mul_comm, Z.log2_mul_pow2 in K by lia. lia. }
  set (T1 := 2 ^ Z.max 0 k). set (T2 := 2 ^ Z.max 0 (- k)).
  assert (E : 2 ^ Z.log2 b * T2 = 2 ^ Z.log2 a * T1) by (unfold T1, T2; rewrite <- !Z.pow_add_r by lia; f_equal; lia).
  assert (E2 : 2 ^ (52 + k) * T2 = 2 ^ 52 * T1) by (unfold T1, T2; rewrite <- !Z.pow_add_r by lia; f_equal; lia).
  rewrite Z.pow_succ_r in A, B by lia.
  assert (P1 : 0 < T1) by (apply Z.pow_pos_nonneg; lia). assert (P2 : 0 < T2) by (apply Z.pow_pos_nonneg; lia).
  set (pa := 2 ^ Z.log2 a) in *. set (pb := 2 ^ Z.log2 b) in *. clearbody pa pb T1 T2.
  assert (L : a * T1 < 2 * (b * T2)) by nia. assert (U : b * T2 < 2 * (a * T1)) by nia.
  assert (S : exists e0, (if a * T1 <? b * T2 then 53 + k else 52 + k) = e0 /\ 0 <= e0 /\ a * 2 ^ e0 < 2 ^ 53 * b /\ 2 ^ 52 * b <= a * 2 ^ e0).
  { change (2 ^ 53) with (2 * 2 ^ 52). set (W := 2 ^ 52) in *. assert (W0 : 0 < W) by (subst W; reflexivity). clearbody W.
    destruct (a * T1 <? b * T2) eqn:Et; eexists; (split; [reflexivity|]); (split; [lia|]).
    - replace (53 + k) with (1 + (52 + k)) by lia. rewrite Z.pow_add_r by lia. change (2 ^ 1) with 2. set (V := 2 ^ (52 + k)) in *.
      split; [apply (Z.mul_lt_mono_pos_r T2)|apply (Z.mul_le_mono_pos_r _ _ T2)]; try exact P2.
      + replace (a * (2 * V) * T2) with (2 * (W * (a * T1))) by (rewrite <- (Z.mul_assoc a), (Z.mul_comm (2 * V)); nia). nia.
      + replace (a * (2 * V) * T2) with (2 * (W * (a * T1))) by nia. nia.
    - set (V := 2 ^ (52 + k)) in *.
      split; [apply (Z.mul_lt_mono_pos_r T2)|apply (Z.mul_le_mono_pos_r _ _ T2)]; try exact P2.
      + replace (a * V * T2) with (W * (a * T1)) by nia. nia.
      + replace (a * V * T2) with (W * (a * T1)) by nia. nia. }
  destruct S as (e0 & -> & S0 & S1 & S2). destruct (Z.min_spec 1074 e0) as [[M ->]|[M ->]].
  - split; [lia|]. split; [|now left]. assert (2 ^ 1074 <= 2 ^ e0) by (apply Z.pow_le_mono_r; lia). nia.
  - split; [lia|]. split; [exact S1|now right].
Qed.

(** ** The quotient *)
Local Open Scope Q_scope.
Lemma inject_pos z : (0 < z)%Z -> 0 < inject_Z z.
Proof. intros H. unfold Qlt. cbn. lia. Qed.
Lemma two_pow_inject n : (0 <= n)%Z -> (2 # 1) ^ n == inject_Z (2 ^ n).
Proof. intros H. symmetry. exact (Zpower_Qpower 2 n H). Qed.
Lemma two_pow_add x y : (2 # 1) ^ (x + y) == (2 # 1) ^ x * (2 # 1) ^ y.
Proof. apply Qpower_plus. intros H. discriminate H. Qed.
Lemma two_pow_pos x : 0 < (2 # 1) ^ x.
Proof. apply Qpower_0_lt. reflexivity. Qed.
Lemma scaled_double d e : (0 <= e)%Z -> double d ->
  (exists k, d * inject_Z (2 ^ e) == inject_Z k) \/
  ((e < 1074)%Z /\ Qabs (d * inject_Z (2 ^ e)) < inject_Z (2 ^ 52)).
Proof.
  intros He (m & x & [Hm Hx] & Ed). destruct (Z_le_gt_dec (- e) x) as [L|L].
  - left. exists (m * 2 ^ (x + e))%Z. rewrite Ed, inject_Z_mult, <- !two_pow_inject by lia. rewrite two_pow_add. ring.
  - right. split; [lia|]. rewrite Ed, <- two_pow_inject by lia. rewrite <- Qmult_assoc, <- two_pow_add.
    set (n := (- (x + e))%Z). replace (x + e)%Z with (- n)%Z by lia.
    assert (H1 : (2 # 1) ^ (- n) <= 1 # 2).
    { rewrite Qpower_opp. assert (H : 2 # 1 <= (2 # 1) ^ n).
      { rewrite two_pow_inject by lia. change (2 # 1) with (inject_Z 2). rewrite <- Zle_Qle.
        change 2%Z with (2 ^ 1)%Z at 1. apply Z.pow_le_mono_r; lia. }
      pose proof (two_pow_pos n) as P. apply (Qmult_le_r _ _ ((2 # 1) ^ n) P). rewrite Qmult_comm, Qmult_inv_r by lra. lra. }
    rewrite Qabs_Qmult. rewrite (Qabs_pos ((2 # 1) ^ (- n))) by (apply Qlt_le_weak, two_pow_pos).
    assert (H2 : Qabs (inject_Z m) < inject_Z (2 ^ 53)) by (change (Qabs (inject_Z m)) with (inject_Z (Z.abs m)); rewrite <- Zlt_Qlt; exact Hm).
    assert (H3 : inject_Z (2 ^ 53) == (2 # 1) * inject_Z (2 ^ 52)) by reflexivity.
    pose proof (Qabs_nonneg (inject_Z m)) as H0. pose proof (two_pow_pos (- n)) as P.
    set (u := Qabs (inject_Z m)) in *. set (v := (2 # 1) ^ (- n)) in *. rewrite H3 in H2. set (w := inject_Z (2 ^ 52)) in *. clearbody u v w. nra.
Qed.
Lemma Qabs_scale u v t : 0 < t -> (Qabs (u * t) <= Qabs (v * t) <-> Qabs u <= Qabs v).
Proof.
  intros T. rewrite !Qabs_Qmult. apply Qmult_le_r. rewrite Qabs_pos by lra. exact T.
Qed.
Lemma Qabs_scale_eq u v t : 0 < t -> Qabs u == Qabs v -> Qabs (u * t) == Qabs (v * t).
Proof. intros T H. rewrite !Qabs_Qmult, H. reflexivity. Qed.

Section Quotient.
  Variables a b : Z.
  Hypothesis Ha : (0 < a <= 2 ^ 52 * b)%Z.
  Lemma b_pos : (0 < b)%Z.
  Proof. lia. Qed.
  Let e := places a b.
  Let P := (2 ^ e)%Z.
  Let M := half_even (a * P) b.
  Let q := inject_Z a / inject_Z b.
  Let N := inject_Z (P * b).
  Lemma P_pos : (0 < P)%Z.
  Proof. apply Z.pow_pos_nonneg; [lia|]. pose proof (places_spec a b Ha) as X. cbv zeta in X. subst e. lia. Qed.
  Lemma N_pos : 0 < N.
  Proof. apply inject_pos. pose proof P_pos. pose proof b_pos. nia. Qed.
  Lemma true_div_scaled : true_div a b * inject_Z P == inject_Z M.
  Proof.
    unfold true_div. replace (a =? 0)%Z with false by lia. cbv zeta. fold e. fold P. fold M.
    pose proof P_pos as H. destruct P as [|p|p]; [lia| |lia]. cbn [Z.to_pos]. unfold Qeq. cbn. lia.
  Qed.
  Lemma q_scaled : q * N == inject_Z (a * P).
  Proof.
    unfold q, N. rewrite !inject_Z_mult. assert (H : ~ inject_Z b == 0) by (unfold Qeq; cbn; lia). field. exact H.
  Qed.
  Lemma f_error : (true_div a b - q) * N == inject_Z (M * b - a * P).
  Proof.
    setoid_replace ((true_div a b - q) * N) with ((true_div a b * inject_Z P) * inject_Z b - q * N) by (unfold N; rewrite inject_Z_mult; ring).
    rewrite true_div_scaled, q_scaled, <- inject_Z_mult. unfold Z.sub. rewrite inject_Z_plus, inject_Z_opp. reflexivity.
  Qed.
  Lemma d_error d : (d - q) * N == (d * inject_Z P) * inject_Z b - inject_Z (a * P).
  Proof.
    setoid_replace ((d - q) * N) with ((d * inject_Z P) * inject_Z b - q * N) by (unfold N; rewrite inject_Z_mult; ring). rewrite q_scaled. reflexivity.
  Qed.
  Lemma abs_inject z : Qabs (inject_Z z) = inject_Z (Z.abs z).
  Proof. reflexivity. Qed.
  (** the distance of any double, and when it is the same *)
  Lemma nearest d : double d -> Qabs (true_div a b - q) <= Qabs (d - q) /\
    (~ d == true_div a b -> Qabs (d - q) == Qabs (true_div a b - q) -> Z.even M = true).
  Proof.
    intros D. pose proof N_pos as HN. pose proof P_pos as HP. pose proof (places_spec a b Ha) as X. cbv zeta in X. fold e in X. fold P in X. destruct X as (Xe & Xu & Xl).
    destruct (scaled_double d e ltac:(lia) D) as [[k Ek]|[Le Lt]]; [fold P in Ek|fold P in Lt].
    - assert (Ed : (d - q) * N == inject_Z (k * b - a * P)).
      { rewrite d_error, Ek, <- inject_Z_mult. unfold Z.sub. rewrite inject_Z_plus, inject_Z_opp. reflexivity. }
      split.
      + apply (Qabs_scale _ _ _ HN). rewrite f_error, Ed, !abs_inject, <- Zle_Qle. apply half_even_near. lia.
      + intros Ne Eq. apply (half_even_tie (a * P) b k); [lia| |].
        * intros E. apply Ne. fold M in E. assert (Y : d * inject_Z P == true_div a b * inject_Z P) by (rewrite Ek, true_div_scaled, E; reflexivity).
          apply (proj1 (Qmult_inj_r _ _ (inject_Z P) ltac:(pose proof (inject_pos P HP); lra))). exact Y.
        * apply (Qabs_scale_eq _ _ N HN) in Eq. rewrite f_error, Ed, !abs_inject, inject_Z_injective in Eq. exact Eq.
    - destruct Xl as [Xl|Xl]; [lia|].
      assert (S : Qabs (true_div a b - q) < Qabs (d - q)).
      { assert (S1 : Qabs ((true_div a b - q) * N) <= inject_Z (a * P - 2 ^ 52 * b)).
        { rewrite f_error, abs_inject, <- Zle_Qle. pose proof (half_even_near (a * P) b (2 ^ 52) ltac:(lia)) as H. fold M in H. revert H Xl. generalize (2 ^ 52)%Z. intros. lia. }
        assert (S2 : inject_Z (a * P - 2 ^ 52 * b) < Qabs ((d - q) * N)).
        { rewrite d_error. eapply Qlt_le_trans; [|rewrite <- Qabs_opp; apply Qle_Qabs].
          assert (H : d * inject_Z P < inject_Z (2 ^ 52)) by (eapply Qle_lt_trans; [apply Qle_Qabs|exact Lt]).
          assert (Hb : 0 < inject_Z b) by (apply inject_pos; lia).
          unfold Z.sub. rewrite inject_Z_plus, inject_Z_opp, (inject_Z_mult (2 ^ 52)).
          set (u := d * inject_Z P) in *. set (w := inject_Z (2 ^ 52)) in *. set (v := inject_Z b) in *. set (z := inject_Z (a * P)). clearbody u v w z. nra. }
        assert (S3 : Qabs ((true_div a b - q) * N) < Qabs ((d - q) * N)) by (eapply Qle_lt_trans; [exact S1|exact S2]).
        destruct (Qlt_le_dec (Qabs (true_div a b - q)) (Qabs (d - q))) as [Y|Y]; [exact Y|].
        apply (proj2 (Qabs_scale _ _ N HN)) in Y. lra. }
      split; [lra|]. intros _ Y. lra.
  Qed.
  Lemma M_range : (0 <= M <= 2 ^ 53)%Z /\ ((2 ^ 52 <= M)%Z \/ e = 1074%Z).
  Proof.
    pose proof P_pos as HP. pose proof (places_spec a b Ha) as X. cbv zeta in X. fold e in X. fold P in X. destruct X as (Xe & Xu & Xl).
    split; [split|].
    - apply half_even_least; [lia|]. nia.
    - apply half_even_range; lia.
    - destruct Xl as [Xl|Xl]; [now right|left]. apply half_even_least; lia.
  Qed.
  Lemma form_double m x : (Z.abs m < 2 ^ 53)%Z -> (-1074 <= x <= 971)%Z -> true_div a b == inject_Z m * (2 # 1) ^ x ->
    double (true_div a b) /\ ((2 ^ 52 <= Z.abs m)%Z \/ x = (-1074)%Z -> Z.even m = true -> even_double (true_div a b)).
  Proof.
    intros H1 H2 H3. split; [exists m, x; auto|]. intros H4 H5. exists m, x. auto.
  Qed.
  Lemma true_div_form : true_div a b == inject_Z M * (2 # 1) ^ (- e).
  Proof.
    pose proof (places_spec a b Ha) as X. cbv zeta in X. fold e in X. rewrite <- true_div_scaled. unfold P. rewrite <- two_pow_inject by lia.
    rewrite <- Qmult_assoc, <- two_pow_add, Z.add_opp_diag_r. cbn [Qpower]. ring.
  Qed.
  Lemma true_div_double : double (true_div a b) /\ (Z.even M = true -> even_double (true_div a b)).
  Proof.
    pose proof (places_spec a b Ha) as X. cbv zeta in X. fold e in X. destruct X as (Xe & _). destruct M_range as [R1 R2].
    destruct (Z.eq_dec M (2 ^ 53)) as [E|E].
    - destruct (form_double (2 ^ 52) (1 - e) ltac:(reflexivity) ltac:(lia)) as [A B].
      { rewrite true_div_form, E. unfold Z.sub. rewrite two_pow_add. change (inject_Z (2 ^ 53)) with (inject_Z (2 ^ 52) * (2 # 1)).
        setoid_replace ((2 # 1) ^ 1) with (2 # 1) by reflexivity. rewrite Qmult_assoc. reflexivity. }
      split; [exact A|]. intros _. apply B; [left; discriminate|reflexivity].
    - destruct (form_double M (- e) ltac:(lia) ltac:(lia) true_div_form) as [A B]. split; [exact A|]. apply B.
      destruct R2 as [R2|R2]; [left|right]; lia.
  Qed.
  Lemma true_div_rounds_pos : rounds_to q (true_div a b).
  Proof.
    destruct true_div_double as [D1 D2]. split; [exact D1|]. split; [intros d D; apply (nearest d D)|].
    intros d D Ne Eq. apply D2. exact (proj2 (nearest d D) Ne Eq).
  Qed.
End Quotient.

Lemma double_int k : (Z.abs k < 2 ^ 53)%Z -> double (inject_Z k).
Proof. intros H. exists k, 0%Z. split; [lia|]. cbn [Qpower]. ring. Qed.
Lemma true_div_rounds a b : (0 <= a <= 2 ^ 52 * b)%Z -> (0 < b)%Z -> rounds_to (inject_Z a / inject_Z b) (true_div a b).
Proof.
  intros Ha Hb. destruct (Z.eq_dec a 0) as [->|Na]; [|apply true_div_rounds_pos; lia].
  assert (E : inject_Z 0 / inject_Z b == 0) by (unfold Qdiv; rewrite Qmult_0_l; reflexivity).
  change (true_div 0 b) with (inject_Z 0). split; [apply double_int; reflexivity|]. split.
  - intros d _. rewrite E. change (Qabs (inject_Z 0 - 0)) with 0. apply Qabs_nonneg.
  - intros d _ Ne Eq. exfalso. apply Ne. rewrite E in Eq. change (Qabs (inject_Z 0 - 0)) with 0 in Eq.
    pose proof (Qle_Qabs (d - 0)). pose proof (Qle_Qabs (- (d - 0))) as H1. rewrite Qabs_opp in H1. change (inject_Z 0) with 0. lra.
Qed.
Lemma true_div_error a b : (0 <= a <= b)%Z -> (0 < b)%Z -> Qabs (true_div a b - inject_Z a / inject_Z b) <= 1 # Z.to_pos (2 ^ 54).
Proof.
  intros Ha Hb. destruct (Z.eq_dec a 0) as [->|Na].
  { assert (E : inject_Z 0 / inject_Z b == 0) by (unfold Qdiv; rewrite Qmult_0_l; reflexivity). rewrite E. change (true_div 0 b) with 0. discriminate. }
  assert (H : (0 < a <= 2 ^ 52 * b)%Z) by lia. pose proof (N_pos a b H) as HN. pose proof (f_error a b H) as F. pose proof (P_pos a b H) as HP.
  set (P := (2 ^ places a b)%Z) in *. set (u := true_div a b - inject_Z a / inject_Z b) in *.
  destruct (Z.eq_dec a b) as [E|E].
  - assert (Z0 : (half_even (a * P) b * b - a * P)%Z = 0%Z).
    { pose proof (half_even_near (a * P) b P Hb) as X. rewrite E in *. lia. }
    rewrite Z0 in F. assert (U : u == 0) by (change (inject_Z 0) with 0 in F; nra). rewrite U. discriminate.
  - assert (e53 : (53 <= places a b)%Z).
    { unfold places. pose proof (Z.log2_le_mono a b ltac:(lia)) as L. destruct (Z.eq_dec (Z.log2 b - Z.log2 a) 0) as [Z0|Z0].
      - rewrite Z0. change (2 ^ Z.max 0 0)%Z with 1%Z. change (2 ^ Z.max 0 (- 0))%Z with 1%Z. replace (a * 1 <? b * 1)%Z with true by lia. lia.
      - destruct (_ <? _)%Z; lia. }
    assert (P53 : (2 ^ 53 <= P)%Z) by (apply Z.pow_le_mono_r; lia).
    assert (A : Qabs u * inject_Z (P * b) == inject_Z (Z.abs (half_even (a * P) b * b - a * P))).
    { rewrite <- abs_inject, <- F, Qabs_Qmult, (Qabs_pos (inject_Z (P * b))) by (apply Qlt_le_weak, HN). reflexivity. }
    pose proof (half_even_error (a * P) b Hb) as Er. rewrite Zle_Qle, inject_Z_mult, <- A, inject_Z_mult in Er.
    assert (B : 0 < inject_Z b) by (apply inject_pos; lia). rewrite Zle_Qle in P53.
    change (1 # Z.to_pos (2 ^ 54)) with (/ (inject_Z 2 * inject_Z (2 ^ 53))).
    set (w := inject_Z (2 ^ 53)) in *. assert (Hw : 0 < w) by (subst w; reflexivity).
    set (p := inject_Z P) in *. set (v := inject_Z b) in *. change (inject_Z 2) with (2 # 1) in *. pose proof (Qabs_nonneg u) as U. set (t := Qabs u) in *.
    assert (I : t * ((2 # 1) * w) <= 1).
    { assert (I1 : (2 # 1) * (t * p) <= 1) by (apply (Qmult_le_r _ _ v B); lra). clearbody t p w. nra. }
    apply (Qmult_le_r _ _ ((2 # 1) * w)); [lra|]. rewrite (Qmult_comm (/ _)), Qmult_inv_r by lra. exact I.
Qed.

(** ** What follows from the specification alone *)
Lemma Qabs_cases x : (0 <= x /\ Qabs x == x) \/ (x <= 0 /\ Qabs x == - x).
Proof. destruct (Qlt_le_dec x 0) as [H|H]; [right; split; [lra|apply Qabs_neg; lra]|left; split; [exact H|now apply Qabs_pos]]. Qed.
Ltac qabs := repeat match goal with
  | |- context [Qabs ?x] => let H := fresh in destruct (Qabs_cases x) as [[? H]|[? H]]; rewrite H in *; clear H
  | K : context [Qabs ?x] |- _ => let H := fresh in destruct (Qabs_cases x) as [[? H]|[? H]]; rewrite H in *; clear H
  end.
Lemma rounds_mono q q' f f' : q < q' -> rounds_to q f -> rounds_to q' f' -> f <= f'.
Proof.
  intros H (D & N & _) (D' & N' & _). specialize (N f' D'). specialize (N' f D).
  destruct (Qlt_le_dec f' f) as [L|L]; [exfalso|exact L]. qabs; lra.
Qed.
Lemma rounds_range q f : 0 <= q <= 1 -> rounds_to q f -> 0 <= f <= 1.
Proof.
  intros H (D & N & _). pose proof (N _ (double_int 0 ltac:(reflexivity))) as N0. pose proof (N _ (double_int 1 ltac:(reflexivity))) as N1.
  change (inject_Z 0) with 0 in *. change (inject_Z 1) with 1 in *. split.
  - clear N1. qabs; lra.
  - clear N0. qabs; lra.
Qed.
Lemma rounds_zero q f : (2 # 1) ^ (-1074) <= q -> rounds_to q f -> 0 < f.
Proof.
  intros H (D & N & _). set (t := (2 # 1) ^ (-1074)) in *. assert (T : 0 < t) by apply two_pow_pos.
  assert (Dt : double t) by (exists 1%Z, (-1074)%Z; split; [split; [reflexivity|split; discriminate]|fold t; change (inject_Z 1) with 1; ring]).
  specialize (N t Dt). clearbody t. clear D Dt. qabs; lra.
Qed.
Lemma rounds_one q f : q < 1 - (2 # 1) ^ (-54) -> rounds_to q f -> f < 1.
Proof.
  intros H (D & N & _). set (t := 1 - (2 # 1) ^ (-53)).
  assert (Dt : double t) by (exists (2 ^ 53 - 1)%Z, (-53)%Z; split; [split; [reflexivity|split; discriminate]|reflexivity]).
  specialize (N t Dt). unfold t in *. clear t. assert (T : (2 # 1) ^ (-53) == (2 # 1) * (2 # 1) ^ (-54)) by reflexivity. rewrite T in *.
  assert (U : 0 < (2 # 1) ^ (-54)) by apply two_pow_pos. set (u := (2 # 1) ^ (-54)) in *. clearbody u. clear T D Dt. qabs; lra.
Qed.
(** the specification leaves no choice *)
Lemma even_next f g : 0 <= f -> even_double f -> even_double g -> f < g -> exists d, double d /\ f < d /\ d < g.
Proof.
  intros Pf (m & x & [Hm Hx] & Nm & Em & Ef) G L.
  pose proof (two_pow_pos x) as Px.
  assert (Hm0 : (0 <= m)%Z).
  { destruct (Z_lt_le_dec m 0) as [X|X]; [exfalso|exact X]. rewrite Zlt_Qlt in X. change (inject_Z 0) with 0 in X. nra. }
  assert (Hm1 : (m + 1 < 2 ^ 53)%Z).
  { destruct (Z.eq_dec (m + 1) (2 ^ 53)) as [X|X]; [exfalso|lia]. assert (m = 2 ^ 53 - 1)%Z by lia. subst m. discriminate Em. }
  exists (inject_Z (m + 1) * (2 # 1) ^ x).
  assert (E1 : inject_Z (m + 1) == inject_Z m + 1) by (rewrite inject_Z_plus; reflexivity).
  split; [exists (m + 1)%Z, x; split; [lia|reflexivity]|].
  split; [rewrite E1; nra|].
  destruct G as (m' & x' & [Hm' Hx'] & Nm' & Em' & Eg). rewrite Eg in *. rewrite Ef in *. clear Ef Eg f g.
  destruct (Z_le_gt_dec x x') as [C|C].
  - assert (Ex : inject_Z m' * (2 # 1) ^ x' == inject_Z (m' * 2 ^ (x' - x)) * (2 # 1) ^ x).
    { replace x' with (x' - x + x)%Z at 1 by lia. rewrite two_pow_add, two_pow_inject, inject_Z_mult by lia. ring. }
    rewrite Ex in L |- *. apply Qmult_lt_r in L; [|exact Px]. apply Qmult_lt_r; [exact Px|]. rewrite <- Zlt_Qlt in L |- *.
    assert (m' * 2 ^ (x' - x) <> m + 1)%Z; [|lia]. intros X.
    assert (Y : Z.even (m + 1) = true) by (rewrite <- X, Z.even_mul, Em'; reflexivity).
    rewrite Z.add_1_r, Z.even_succ, <- Z.negb_even, Em in Y. discriminate Y.
  - exfalso. assert (Nm1 : (2 ^ 52 <= m)%Z) by lia. clear Nm Nm'.
    assert (Ex : inject_Z m * (2 # 1) ^ x == inject_Z (m * 2 ^ (x - x')) * (2 # 1) ^ x').
    { replace x with (x - x' + x')%Z at 1 by lia. rewrite two_pow_add, two_pow_inject, inject_Z_mult by lia. ring. }
    rewrite Ex in L. apply Qmult_lt_r in L; [|apply two_pow_pos]. rewrite <- Zlt_Qlt in L.
    assert (2 ^ 1 <= 2 ^ (x - x'))%Z by (apply Z.pow_le_mono_r; lia). change (2 ^ 1)%Z with 2%Z in *.
    assert (2 ^ 53 = 2 * 2 ^ 52)%Z by reflexivity. nia.
Qed.
Lemma rounds_unique q f g : 0 <= q -> rounds_to q f -> rounds_to q g -> f == g.
Proof.
  assert (G : forall f g, 0 <= q -> rounds_to q f -> rounds_to q g -> f < g -> False).
  { intros x y Q0 (D & N & T) (D' & N' & T') L. pose proof (N y D') as A. pose proof (N' x D) as B.
    assert (E : Qabs (y - q) == Qabs (x - q)) by lra.
    assert (P0 : 0 <= x).
    { pose proof (N _ (double_int 0 ltac:(reflexivity))) as Z. change (inject_Z 0) with 0 in Z. clear A B E N N' T T'. qabs; lra. }
    destruct (even_next x y P0) as (d & Dd & L1 & L2).
    - apply (T y D'); [lra|exact E].
    - apply (T' x D); [lra|symmetry; exact E].
    - exact L.
    - pose proof (N d Dd) as C. pose proof (N' d Dd) as C'. clear T T' N N' D D' Dd. qabs; lra. }
  intros Q0 F H. destruct (Q_dec f g) as [[L|L]|E]; [exfalso; now apply (G f g)|exfalso; now apply (G g f)|exact E].
Qed.
