(** * PropEdge: C52, the seats of the graphical table *)
From Coq Require Import Reals Lra Psatz.
From Verif Require Import PyBase EdgeModel.
Open Scope R_scope.

(** ** Specification *)
(** A rectangle with rounded sides, no higher than wide: all points at the distance [height / 2] from
    a horizontal segment of the length [width - height] around its centre. *)
Definition proper (r : rrect) : Prop := 0 < r_height r <= r_width r.
Definition middle_x (r : rrect) : R := r_x r + r_center_x r.
Definition middle_y (r : rrect) : R := r_y r + r_center_y r.
Definition half_segment (r : rrect) : R := (r_width r - r_height r) / 2.
Definition radius (r : rrect) : R := r_height r / 2.
(** the point of the segment nearest to a point with the given distance from the middle *)
Definition clamp (h x : R) : R := Rmax (- h) (Rmin h x).
Definition on_edge (r : rrect) (p : R * R) : Prop :=
  let dx := fst p - middle_x r in let dy := snd p - middle_y r in
  (dx - clamp (half_segment r) dx)² + dy² = (radius r)².

(** ** The five pieces of the edge *)
(** the point after the way [w] from the middle of the lower side, going left *)
Inductive piece_at (h r w : R) (p : R * R) : Prop :=
| lower_left : 0 <= w < h -> p = (- w, r) -> piece_at h r w p
| left_arc t : h <= w < h + PI * r -> t = PI / 2 + (w - h) / r -> p = (r * cos t - h, r * sin t) -> piece_at h r w p
| upper : h + PI * r <= w < 3 * h + PI * r -> p = (w - 2 * h - PI * r, - r) -> piece_at h r w p
| right_arc t : 3 * h + PI * r <= w < 3 * h + 2 * PI * r -> t = 3 * PI / 2 + (w - 3 * h - PI * r) / r -> p = (r * cos t + h, r * sin t) -> piece_at h r w p
| lower_right : 3 * h + 2 * PI * r <= w < 4 * h + 2 * PI * r -> p = (4 * h + 2 * PI * r - w, r) -> piece_at h r w p.

Definition around (r : rrect) : R := 4 * half_segment r + 2 * PI * radius r.

Ltac splits_r := repeat (match goal with |- _ /\ _ => split end); lra.
Lemma ltR_true a b : a < b -> ltR a b = true.
Proof. intros H. unfold ltR. destruct (Rlt_dec a b); [reflexivity|contradiction]. Qed.
Lemma ltR_false a b : b <= a -> ltR a b = false.
Proof. intros H. unfold ltR. destruct (Rlt_dec a b); [lra|reflexivity]. Qed.
Lemma py_div_ok a b : b <> 0 -> py_div a b = Ok (a / b).
Proof. intros H. unfold py_div. destruct (Req_EM_T b 0); [contradiction|reflexivity]. Qed.

Lemma edge_pieces r f : proper r -> 0 <= f < 1 ->
  exists p, edge_offset r f = Ok p /\ piece_at (half_segment r) (radius r) (f * around r) p.
Proof.
  intros [H1 H2] F. set (h := half_segment r). set (q := radius r).
  assert (Q : 0 < q) by (unfold q, radius; lra). assert (Hh : 0 <= h) by (unfold h, half_segment; lra).
  pose proof PI_RGT_0 as HP. assert (HQ : 0 < PI * q) by (apply Rmult_lt_0_compat; assumption).
  assert (ESW : straight_width r = 2 * h) by (unfold straight_width, h, half_segment; lra).
  assert (ECP : circle_perimeter r = 2 * (PI * q)) by (unfold circle_perimeter, q, radius; lra).
  assert (ER : radius_height r = q) by (unfold radius_height, q, radius; lra).
  assert (EP : perimeter r = around r) by (unfold perimeter, around; rewrite ESW, ER; fold h q; lra).
  unfold edge_offset. cbv zeta. rewrite EP, ER, ESW, ECP. replace 0.5 with (/ 2) by lra. replace 1.5 with (3 / 2) by lra.
  set (w := f * around r).
  assert (W : 0 <= w < 4 * h + 2 * (PI * q)).
  { unfold w. assert (A : 0 < around r) by (unfold around; fold h q; lra). split; [apply Rmult_le_pos; lra|].
    apply Rlt_le_trans with (1 * around r); [apply Rmult_lt_compat_r; lra|unfold around; fold h q; lra]. }
  clearbody w h q. clear H1 H2 ESW ECP ER EP.
  destruct (Rlt_dec w h) as [C1|C1].
  { rewrite ltR_true by lra. eexists. split; [reflexivity|]. apply lower_left; [lra|reflexivity]. }
  rewrite ltR_false by lra. destruct (Rlt_dec w (h + PI * q)) as [C2|C2].
  { rewrite ltR_true by lra. rewrite py_div_ok by lra. cbn [bind]. eexists. split; [reflexivity|].
    apply (left_arc h q w _ (PI / 2 + (w - h) / q)); [lra|reflexivity|].
    replace (PI * / 2 + PI * ((w - 2 * h * / 2) / (2 * (PI * q) * / 2))) with (PI / 2 + (w - h) / q) by (field; splits_r). f_equal. lra. }
  rewrite ltR_false by lra. destruct (Rlt_dec w (3 * h + PI * q)) as [C3|C3].
  { rewrite ltR_true by lra. rewrite py_div_ok by lra. cbn [bind]. eexists. split; [reflexivity|]. apply upper; [lra|].
    replace (((w - 2 * h * / 2 - 2 * (PI * q) * / 2) / (2 * h) - / 2) * (2 * h)) with (w - 2 * h - PI * q) by (field; splits_r). reflexivity. }
  rewrite ltR_false by lra. destruct (Rlt_dec w (3 * h + 2 * (PI * q))) as [C4|C4].
  { rewrite ltR_true by lra. rewrite py_div_ok by lra. cbn [bind]. eexists. split; [reflexivity|].
    apply (right_arc h q w _ (3 * PI / 2 + (w - 3 * h - PI * q) / q)); [lra|reflexivity|].
    replace (PI * (3 / 2) + PI * ((w - 2 * h * (3 / 2) + 2 * (PI * q) * / 2) / (2 * (PI * q) * / 2))) with (3 * PI / 2 + (w - 3 * h - PI * q) / q + 2 * INR 1 * PI) by (cbn [INR]; field; splits_r).
    rewrite cos_period, sin_period. f_equal. lra. }
  rewrite ltR_false by lra. unfold leR. destruct (Rle_dec f 1) as [_|N]; [|lra]. rewrite py_div_ok by lra. cbn [bind]. eexists. split; [reflexivity|].
  apply lower_right; [lra|]. replace ((- ((w - 2 * h * (3 / 2) - 2 * (PI * q)) / (2 * h)) + / 2) * (2 * h)) with (4 * h + 2 * PI * q - w) by (field; splits_r). reflexivity.
Qed.

Lemma clamp_inside h x : - h <= x <= h -> clamp h x = x.
Proof. intros H. unfold clamp. rewrite Rmin_right by lra. rewrite Rmax_right by lra. reflexivity. Qed.
Lemma clamp_left h x : 0 <= h -> x <= - h -> clamp h x = - h.
Proof. intros H X. unfold clamp. rewrite Rmin_right by lra. rewrite Rmax_left by lra. reflexivity. Qed.
Lemma clamp_right h x : 0 <= h -> h <= x -> clamp h x = h.
Proof. intros H X. unfold clamp. rewrite Rmin_left by lra. rewrite Rmax_right by lra. reflexivity. Qed.

Lemma arc_angle h q w lo : 0 < q -> h <= w < h + PI * q -> lo <= lo + (w - h) / q < lo + PI.
Proof.
  intros Q W. split.
  - assert (0 <= (w - h) / q); [|lra]. apply Rmult_le_pos; [lra|]. left. now apply Rinv_0_lt_compat.
  - apply Rplus_lt_compat_l. apply Rmult_lt_reg_r with q; [exact Q|]. unfold Rdiv. rewrite Rmult_assoc, Rinv_l by lra. lra.
Qed.
Lemma cos_left_half t : PI / 2 <= t <= 3 * PI / 2 -> cos t <= 0.
Proof. intros H. apply cos_le_0; lra. Qed.
Lemma cos_right_half t : 3 * PI / 2 <= t <= 5 * PI / 2 -> 0 <= cos t.
Proof.
  intros H. replace t with ((t - 2 * PI) + 2 * INR 1 * PI) by (cbn [INR]; lra). rewrite cos_period. apply cos_ge_0; lra.
Qed.

Lemma piece_on_edge h q w p : 0 <= h -> 0 < q -> piece_at h q w p ->
  (fst p - clamp h (fst p))² + (snd p)² = q².
Proof.
  intros H Q P. pose proof PI_RGT_0 as HP.
  destruct P as [W ->|t W T ->|W ->|t W T ->|W ->]; cbn [fst snd].
  - rewrite clamp_inside by lra. unfold Rsqr. lra.
  - pose proof (arc_angle h q w (PI / 2) Q ltac:(lra)) as A. rewrite <- T in A.
    pose proof (cos_left_half t ltac:(lra)) as C. assert (q * cos t <= 0) by nra. rewrite clamp_left by lra.
    pose proof (sin2_cos2 t) as S. unfold Rsqr in *. nra.
  - rewrite clamp_inside by lra. unfold Rsqr. lra.
  - pose proof (arc_angle (3 * h + PI * q) q w (3 * PI / 2) Q ltac:(lra)) as A. replace (w - (3 * h + PI * q)) with (w - 3 * h - PI * q) in A by lra. rewrite <- T in A.
    pose proof (cos_right_half t ltac:(lra)) as C. assert (0 <= q * cos t) by nra. rewrite clamp_right by lra.
    pose proof (sin2_cos2 t) as S. unfold Rsqr in *. nra.
  - rewrite clamp_inside by lra. unfold Rsqr. lra.
Qed.

Lemma mod1_range f : 0 <= mod1 f < 1.
Proof. unfold mod1. destruct (base_fp f). lra. Qed.
Lemma proper_pos r : proper r -> 0 <= half_segment r /\ 0 < radius r /\ 0 < around r.
Proof.
  intros [A B]. pose proof PI_RGT_0 as P. assert (Q : 0 < radius r) by (unfold radius; lra). assert (H : 0 <= half_segment r) by (unfold half_segment; lra).
  split; [exact H|]. split; [exact Q|]. unfold around. assert (0 < PI * radius r) by (apply Rmult_lt_0_compat; assumption). lra.
Qed.

(** C52, first part: for every fraction there is a point, it is on the edge, and no division by zero
    happens (also for a circle, whose straight parts have the length 0). *)
Theorem C52_on_edge : forall r f, proper r -> exists p, edge r f = Ok p /\ on_edge r p.
Proof.
  intros r f Pr. destruct (edge_pieces r (mod1 f) Pr (mod1_range f)) as (p & E & P). destruct (proper_pos r Pr) as (H & Q & _).
  unfold edge. rewrite E. cbn [bind]. eexists. split; [reflexivity|]. unfold on_edge, middle_x, middle_y. cbn [fst snd].
  replace (fst p + (r_center_x r + r_x r) - (r_x r + r_center_x r)) with (fst p) by lra.
  replace (snd p + (r_center_y r + r_y r) - (r_y r + r_center_y r)) with (snd p) by lra.
  exact (piece_on_edge _ _ _ _ H Q P).
Qed.
Print Assumptions C52_on_edge.

(** C52, second part: only the fraction modulo one matters. *)
Lemma mod1_shift f (k : Z) : mod1 (f + IZR k) = mod1 f.
Proof.
  unfold mod1. destruct (base_fp f) as [A B]. destruct (base_fp (f + IZR k)) as [C D]. 
  assert (E : Int_part (f + IZR k) = (Int_part f + k)%Z).
  { unfold frac_part in *. assert (L : IZR (Int_part (f + IZR k)) - IZR (Int_part f + k) < 1) by (rewrite plus_IZR; lra).
    assert (M : -1 < IZR (Int_part (f + IZR k)) - IZR (Int_part f + k)) by (rewrite plus_IZR; lra).
    rewrite <- minus_IZR in L, M. apply lt_IZR in L. change (-1) with (IZR (-1)) in M. apply lt_IZR in M. lia. }
  unfold frac_part. rewrite E, plus_IZR. lra.
Qed.
Theorem C52_mod_one : forall r f (k : Z), edge r (f + IZR k) = edge r f.
Proof. intros r f k. unfold edge. now rewrite mod1_shift. Qed.
Print Assumptions C52_mod_one.

(** ** One way, one point *)
Lemma left_arc_facts h q w t : 0 < q -> h <= w < h + PI * q -> t = PI / 2 + (w - h) / q ->
  PI / 2 <= t < 3 * PI / 2 /\ q * cos t - h <= - h /\ (q * cos t - h = - h -> q * sin t = q) /\ w = h + q * (t - PI / 2).
Proof.
  intros Q W T. pose proof (arc_angle h q w (PI / 2) Q W) as A. rewrite <- T in A. pose proof PI_RGT_0 as HP.
  pose proof (cos_left_half t ltac:(lra)) as C. split; [lra|]. split; [nra|]. split.
  - intros E. destruct (Req_dec t (PI / 2)) as [->|N]; [rewrite sin_PI2; lra|]. exfalso. pose proof (cos_lt_0 t ltac:(lra) ltac:(lra)). nra.
  - rewrite T. field. lra.
Qed.
Lemma right_arc_facts h q w t : 0 < q -> 3 * h + PI * q <= w < 3 * h + 2 * PI * q -> t = 3 * PI / 2 + (w - 3 * h - PI * q) / q ->
  3 * PI / 2 <= t < 5 * PI / 2 /\ h <= q * cos t + h /\ (q * cos t + h = h -> q * sin t = - q) /\ w = 3 * h + PI * q + q * (t - 3 * PI / 2).
Proof.
  intros Q W T. pose proof (arc_angle (3 * h + PI * q) q w (3 * PI / 2) Q ltac:(lra)) as A. replace (w - (3 * h + PI * q)) with (w - 3 * h - PI * q) in A by lra. rewrite <- T in A.
  pose proof PI_RGT_0 as HP. pose proof (cos_right_half t ltac:(lra)) as C. split; [lra|]. split; [nra|]. split.
  - intros E. destruct (Req_dec t (3 * PI / 2)) as [->|N].
    + replace (3 * PI / 2) with (3 * (PI / 2)) by lra. rewrite sin_3PI2. lra.
    + exfalso. assert (0 < cos t); [|nra]. replace t with ((t - 2 * PI) + 2 * INR 1 * PI) by (cbn [INR]; lra). rewrite cos_period. apply cos_gt_0; lra.
  - rewrite T. field. lra.
Qed.
Lemma piece_inj h q w w' p : 0 <= h -> 0 < q -> piece_at h q w p -> piece_at h q w' p -> w = w'.
Proof.
  intros H Q P P'. pose proof PI_RGT_0 as HP.
  destruct P as [W E|t W T E|W E|t W T E|W E]; destruct P' as [W' E'|t' W' T' E'|W' E'|t' W' T' E'|W' E']; rewrite E in E'; pose proof (f_equal fst E') as X; pose proof (f_equal snd E') as Y; cbn [fst snd] in X, Y; clear E E';
    try (destruct (left_arc_facts h q w t Q W T) as (A1 & A2 & A3 & A4)); try (destruct (left_arc_facts h q w' t' Q W' T') as (B1 & B2 & B3 & B4));
    try (destruct (right_arc_facts h q w t Q W T) as (A1 & A2 & A3 & A4)); try (destruct (right_arc_facts h q w' t' Q W' T') as (B1 & B2 & B3 & B4)); try lra;
    try (exfalso; specialize (A3 ltac:(lra)); lra); try (exfalso; specialize (B3 ltac:(lra)); lra); try (exfalso; specialize (A3 ltac:(lra)); specialize (B3 ltac:(lra)); lra).
  - (* left arc *) assert (S : sin t = sin t') by nra. enough (ET : t = t') by (rewrite A4, B4, ET; reflexivity).
    destruct (Rtotal_order t t') as [L|[L|L]]; [|exact L|].
    + pose proof (sin_decreasing_1 t t' ltac:(lra) ltac:(lra) ltac:(lra) ltac:(lra) L). lra.
    + pose proof (sin_decreasing_1 t' t ltac:(lra) ltac:(lra) ltac:(lra) ltac:(lra) L). lra.
  - (* right arc *) assert (S : sin t = sin t') by nra. enough (ET : t = t') by (rewrite A4, B4, ET; reflexivity).
    assert (G : forall x, sin x = sin (x - 2 * PI)) by (intros x; rewrite <- (sin_period (x - 2 * PI) 1); f_equal; cbn [INR]; lra).
    rewrite (G t), (G t') in S. destruct (Rtotal_order t t') as [L|[L|L]]; [|exact L|].
    + pose proof (sin_increasing_1 (t - 2 * PI) (t' - 2 * PI) ltac:(lra) ltac:(lra) ltac:(lra) ltac:(lra) ltac:(lra)). lra.
    + pose proof (sin_increasing_1 (t' - 2 * PI) (t - 2 * PI) ltac:(lra) ltac:(lra) ltac:(lra) ltac:(lra) ltac:(lra)). lra.
Qed.
Lemma piece_fun h q w p p' : 0 <= h -> 0 < q -> piece_at h q w p -> piece_at h q w p' -> p = p'.
Proof.
  intros H Q P P'. pose proof PI_RGT_0 as HP. assert (0 < PI * q) by (apply Rmult_lt_0_compat; assumption).
  destruct P as [W ->|t W -> ->|W ->|t W -> ->|W ->]; destruct P' as [W' ->|t' W' -> ->|W' ->|t' W' -> ->|W' ->]; try reflexivity; exfalso; lra.
Qed.

(** the relation between fraction and point, without the modulus *)
Lemma edge_iff r f p : proper r -> 0 <= f < 1 ->
  edge r f = Ok p <-> piece_at (half_segment r) (radius r) (f * around r) (fst p - middle_x r, snd p - middle_y r).
Proof.
  intros Pr F. destruct (proper_pos r Pr) as (H & Q & _). unfold edge.
  assert (M : mod1 f = f).
  { unfold mod1, frac_part. assert (E : Int_part f = 0%Z); [|rewrite E; lra]. destruct (base_Int_part f) as [A B].
    assert (L : IZR (Int_part f) < 1) by lra. assert (K : -1 < IZR (Int_part f)) by lra. apply lt_IZR in L. change (-1) with (IZR (-1)) in K. apply lt_IZR in K. lia. }
  rewrite M. destruct (edge_pieces r f Pr F) as (o & E & P). rewrite E. cbn [bind]. unfold middle_x, middle_y. split.
  - intros X. injection X as <-. cbn [fst snd].
    replace (fst o + (r_center_x r + r_x r) - (r_x r + r_center_x r)) with (fst o) by lra.
    replace (snd o + (r_center_y r + r_y r) - (r_y r + r_center_y r)) with (snd o) by lra. destruct o; exact P.
  - intros X. pose proof (piece_fun _ _ _ _ _ H Q P X) as ->. cbn [fst snd]. destruct p as [a b]. cbn [fst snd]. do 2 f_equal; lra.
Qed.

(** C52, third part: different fractions of the perimeter give different points... *)
Theorem C52_distinct : forall r f g p, proper r -> edge r f = Ok p -> edge r g = Ok p -> exists k : Z, g = f + IZR k.
Proof.
  intros r f g p Pr Ef Eg. destruct (proper_pos r Pr) as (H & Q & A).
  assert (R : forall x, edge r x = edge r (mod1 x)).
  { intros x. pose proof (C52_mod_one r (mod1 x) (Int_part x)) as E. rewrite <- E. f_equal. unfold mod1, frac_part. lra. }
  rewrite R in Ef, Eg. apply (edge_iff r _ p Pr (mod1_range f)) in Ef. apply (edge_iff r _ p Pr (mod1_range g)) in Eg.
  pose proof (piece_inj _ _ _ _ _ H Q Ef Eg) as E. apply Rmult_eq_reg_r in E; [|lra].
  exists (Int_part g - Int_part f)%Z. rewrite minus_IZR. unfold mod1, frac_part in E. lra.
Qed.
Print Assumptions C52_distinct.

(** ...and every point of the edge belongs to one. *)
Theorem C52_whole_edge : forall r p, proper r -> on_edge r p -> exists f, 0 <= f < 1 /\ edge r f = Ok p.
Proof.
  intros r p Pr O. destruct (proper_pos r Pr) as (H & Q & A). pose proof PI_RGT_0 as HP.
  enough (X : exists w, 0 <= w < around r /\ piece_at (half_segment r) (radius r) w (fst p - middle_x r, snd p - middle_y r)).
  { destruct X as (w & W & X). assert (F : 0 <= w / around r < 1).
    { split; [apply Rmult_le_pos; [lra|left; apply Rinv_0_lt_compat; exact A]|]. apply Rmult_lt_reg_r with (around r); [exact A|]. unfold Rdiv. rewrite Rmult_assoc, Rinv_l by lra. lra. }
    exists (w / around r). split; [exact F|]. apply (edge_iff r _ p Pr F). replace (w / around r * around r) with w by (field; lra). exact X. }
  unfold on_edge in O. cbv zeta in O. unfold around in *. set (h := half_segment r) in *. set (q := radius r) in *. set (x := fst p - middle_x r) in *. set (y := snd p - middle_y r) in *.
  clearbody h q x y. clear p r Pr. assert (PQ : 0 < PI * q) by (apply Rmult_lt_0_compat; assumption).
  destruct (Rlt_dec x (- h)) as [L|L]; [|destruct (Rlt_dec h x) as [R|R]].
  - (* left *) rewrite clamp_left in O by lra. replace (x - - h) with (x + h) in O by lra.
    assert (U : -1 <= y / q <= 1 /\ (y / q)² = 1 - ((x + h) / q)²).
    { assert (E : (y / q)² = 1 - ((x + h) / q)²) by (unfold Rsqr in *; field_simplify_eq; [nra|lra]). split; [|exact E].
      assert ((y / q)² <= 1²) by (rewrite E; pose proof (Rle_0_sqr ((x + h) / q)); unfold Rsqr at 2; lra). apply Rsqr_le_abs_0 in H0. rewrite Rabs_R1 in H0. unfold Rabs in H0; destruct (Rcase_abs (y / q)); lra. }
    destruct U as [U1 U2]. set (t := PI - asin (y / q)). pose proof (asin_bound (y / q)) as B.
    assert (S : sin t = y / q) by (unfold t; rewrite sin_PI_x; apply sin_asin; exact U1).
    assert (N : (x + h) / q < 0) by (apply Rmult_lt_reg_r with q; [exact Q|]; unfold Rdiv; rewrite Rmult_assoc, Rinv_l by lra; lra).
    assert (C : cos t = (x + h) / q).
    { unfold t. rewrite Rtrigo_facts.cos_pi_minus, cos_asin by exact U1. rewrite U2. replace (1 - (1 - ((x + h) / q)²)) with ((- ((x + h) / q))²) by (unfold Rsqr; lra). rewrite sqrt_Rsqr by lra. lra. }
    assert (T : t < 3 * PI / 2).
    { destruct (Req_dec (asin (y / q)) (- (PI / 2))) as [Z|Z]; [|unfold t; lra]. exfalso. unfold t in C. rewrite Z in C. replace (PI - - (PI / 2)) with (3 * (PI / 2)) in C by lra. rewrite cos_3PI2 in C. lra. }
    exists (h + q * (t - PI / 2)). assert (T' : PI / 2 <= t) by (unfold t; lra).
    assert (W : h <= h + q * (t - PI / 2) < h + PI * q). { split; [nra|]. assert (q * (t - PI / 2) < q * PI) by (apply Rmult_lt_compat_l; lra). lra. }
    split; [lra|]. apply (left_arc h q _ _ t); [exact W|field; lra|]. rewrite C, S. f_equal; field; lra.
  - (* right *) rewrite clamp_right in O by lra.
    assert (U : -1 <= y / q <= 1 /\ (y / q)² = 1 - ((x - h) / q)²).
    { assert (E : (y / q)² = 1 - ((x - h) / q)²) by (unfold Rsqr in *; field_simplify_eq; [nra|lra]). split; [|exact E].
      assert ((y / q)² <= 1²) by (rewrite E; pose proof (Rle_0_sqr ((x - h) / q)); unfold Rsqr at 2; lra). apply Rsqr_le_abs_0 in H0. rewrite Rabs_R1 in H0. unfold Rabs in H0; destruct (Rcase_abs (y / q)); lra. }
    destruct U as [U1 U2]. set (t := asin (y / q) + 2 * INR 1 * PI). pose proof (asin_bound (y / q)) as B.
    assert (ET : t = asin (y / q) + 2 * PI) by (unfold t; cbn [INR]; lra).
    assert (S : sin t = y / q) by (unfold t; rewrite sin_period; apply sin_asin; exact U1).
    assert (N : 0 < (x - h) / q) by (apply Rmult_lt_0_compat; [lra|apply Rinv_0_lt_compat; exact Q]).
    assert (C : cos t = (x - h) / q).
    { unfold t. rewrite cos_period, cos_asin by exact U1. rewrite U2. replace (1 - (1 - ((x - h) / q)²)) with (((x - h) / q)²) by lra. rewrite sqrt_Rsqr by lra. reflexivity. }
    assert (T : t < 5 * PI / 2).
    { destruct (Req_dec (asin (y / q)) (PI / 2)) as [Z|Z]; [|lra]. exfalso. unfold t in C. rewrite cos_period, Z, cos_PI2 in C. lra. }
    exists (3 * h + PI * q + q * (t - 3 * PI / 2)). assert (T' : 3 * PI / 2 <= t) by lra.
    assert (W : 3 * h + PI * q <= 3 * h + PI * q + q * (t - 3 * PI / 2) < 3 * h + 2 * PI * q). { split; [nra|]. assert (q * (t - 3 * PI / 2) < q * PI) by (apply Rmult_lt_compat_l; lra). lra. }
    split; [lra|]. apply (right_arc h q _ _ t); [exact W|field; lra|]. rewrite C, S. f_equal; field; lra.
  - (* between *) rewrite clamp_inside in O by lra. replace (x - x) with 0 in O by lra.
    assert (Y : y = q \/ y = - q) by (destruct (Rsqr_eq y q ltac:(unfold Rsqr in *; lra)); [left|right]; assumption).
    destruct Y as [-> | ->].
    + destruct (Rlt_dec 0 x) as [X|X].
      * exists (4 * h + 2 * PI * q - x). split; [lra|]. apply lower_right; [lra|]. f_equal. lra.
      * destruct (Req_dec x (- h)) as [E|E].
        -- exists h. split; [lra|]. apply (left_arc h q _ _ (PI / 2)); [lra|field; lra|]. rewrite cos_PI2, sin_PI2. f_equal; lra.
        -- exists (- x). split; [lra|]. apply lower_left; [lra|]. f_equal. lra.
    + destruct (Req_dec x h) as [E|E].
      * exists (3 * h + PI * q). split; [lra|]. apply (right_arc h q _ _ (3 * (PI / 2))); [lra|field; lra|]. rewrite cos_3PI2, sin_3PI2. f_equal; lra.
      * exists (x + 2 * h + PI * q). split; [lra|]. apply upper; [lra|]. f_equal. lra.
Qed.
Print Assumptions C52_whole_edge.

(** ** Symmetry *)
Lemma turned h q w p : 0 <= h -> 0 < q -> piece_at h q w p ->
  piece_at h q (if Rlt_dec w (2 * h + PI * q) then w + (2 * h + PI * q) else w - (2 * h + PI * q)) (- fst p, - snd p).
Proof.
  intros H Q P. pose proof PI_RGT_0 as HP. assert (PQ : 0 < PI * q) by (apply Rmult_lt_0_compat; assumption).
  assert (CS : forall t, - (q * cos t) = q * cos (t + PI) /\ - (q * sin t) = q * sin (t + PI)) by (intros t; rewrite neg_cos, neg_sin; lra).
  assert (CM : forall t, - (q * cos t) = q * cos (t - PI) /\ - (q * sin t) = q * sin (t - PI)).
  { intros t. destruct (CS (t - PI)) as [A B]. replace (t - PI + PI) with t in A, B by lra. lra. }
  destruct P as [W ->|t W T ->|W ->|t W T ->|W ->]; cbn [fst snd]; destruct (Rlt_dec w (2 * h + PI * q)) as [L|L]; try (exfalso; lra).
  - apply upper; [lra|]. f_equal; lra.
  - apply (right_arc h q _ _ (t + PI)); [lra|rewrite T; field; lra|]. destruct (CS t) as [A B]. rewrite <- A, <- B. f_equal; lra.
  - apply lower_right; [lra|]. f_equal; lra.
  - apply lower_left; [lra|]. f_equal; lra.
  - apply (left_arc h q _ _ (t - PI)); [lra|rewrite T; field; lra|]. destruct (CM t) as [A B]. rewrite <- A, <- B. f_equal; lra.
  - apply upper; [lra|]. f_equal; lra.
Qed.
Lemma mod1_unique f g (k : Z) : 0 <= g < 1 -> f = g + IZR k -> mod1 f = g.
Proof.
  intros G ->. rewrite mod1_shift. unfold mod1, frac_part. assert (E : Int_part g = 0%Z); [|rewrite E; lra]. destruct (base_Int_part g) as [A B].
  assert (L : IZR (Int_part g) < 1) by lra. assert (K : -1 < IZR (Int_part g)) by lra. apply lt_IZR in L. change (-1) with (IZR (-1)) in K. apply lt_IZR in K. lia.
Qed.
Lemma edge_mod1 r f : edge r f = edge r (mod1 f).
Proof. pose proof (C52_mod_one r (mod1 f) (Int_part f)) as E. rewrite <- E. f_equal. unfold mod1, frac_part. lra. Qed.
Lemma edge_total r f : proper r -> exists p, edge r f = Ok p.
Proof. intros P. destruct (C52_on_edge r f P) as (p & E & _). exists p. exact E. Qed.

(** C52, fourth part: half the way further is the opposite point (so with an even number of players
    everybody sits opposite somebody) *)
Theorem C52_opposite : forall r f p, proper r -> edge r f = Ok p ->
  edge r (f + 1 / 2) = Ok (2 * middle_x r - fst p, 2 * middle_y r - snd p).
Proof.
  intros r f p Pr E. destruct (proper_pos r Pr) as (H & Q & A). rewrite edge_mod1 in E.
  apply (edge_iff r _ p Pr (mod1_range f)) in E. apply (turned _ _ _ _ H Q) in E. cbn [fst snd] in E.
  pose proof (mod1_range f) as M. assert (HA : 2 * half_segment r + PI * radius r = around r / 2) by (unfold around; lra). rewrite HA in E.
  assert (F : f = mod1 f + IZR (Int_part f)) by (unfold mod1, frac_part; lra).
  assert (G : mod1 (f + 1 / 2) * around r = if Rlt_dec (mod1 f * around r) (around r / 2) then mod1 f * around r + around r / 2 else mod1 f * around r - around r / 2).
  { destruct (Rlt_dec (mod1 f * around r) (around r / 2)) as [L|L].
    - assert (mod1 f < 1 / 2) by (apply Rmult_lt_reg_r with (around r); lra). rewrite (mod1_unique _ (mod1 f + 1 / 2) (Int_part f)); [lra|lra|lra].
    - assert (1 / 2 <= mod1 f) by (apply Rmult_le_reg_r with (around r); lra). rewrite (mod1_unique _ (mod1 f - 1 / 2) (Int_part f + 1)); [lra|lra|rewrite plus_IZR; lra]. }
  rewrite <- G in E. rewrite edge_mod1. apply (edge_iff r _ _ Pr (mod1_range _)). cbn [fst snd].
  replace (2 * middle_x r - fst p - middle_x r) with (- (fst p - middle_x r)) by lra. replace (2 * middle_y r - snd p - middle_y r) with (- (snd p - middle_y r)) by lra. exact E.
Qed.
Print Assumptions C52_opposite.

Lemma mirrored h q w p : 0 <= h -> 0 < q -> 0 < w -> piece_at h q w p -> piece_at h q (4 * h + 2 * PI * q - w) (- fst p, snd p).
Proof.
  intros H Q W0 P. pose proof PI_RGT_0 as HP. assert (PQ : 0 < PI * q) by (apply Rmult_lt_0_compat; assumption).
  assert (CS : forall t, - (q * cos t) = q * cos (3 * PI - t) /\ q * sin t = q * sin (3 * PI - t)).
  { intros t. replace (3 * PI - t) with ((PI - t) + 2 * INR 1 * PI) by (cbn [INR]; lra). rewrite cos_period, sin_period, Rtrigo_facts.cos_pi_minus, sin_PI_x. lra. }
  destruct P as [W ->|t W T ->|W ->|t W T ->|W ->]; cbn [fst snd].
  - apply lower_right; [lra|]. f_equal; lra.
  - destruct (Req_dec w h) as [E|E].
    + assert (ET : t = PI / 2) by (rewrite T, E; field; lra). rewrite ET, cos_PI2, sin_PI2. apply lower_right; [lra|]. f_equal; lra.
    + apply (right_arc h q _ _ (3 * PI - t)); [lra|rewrite T; field; lra|]. destruct (CS t) as [A B]. rewrite <- A, <- B. f_equal; lra.
  - destruct (Req_dec w (h + PI * q)) as [E|E].
    + apply (right_arc h q _ _ (3 * (PI / 2))); [lra|rewrite E; field; lra|]. rewrite cos_3PI2, sin_3PI2, E. f_equal; lra.
    + apply upper; [lra|]. f_equal; lra.
  - destruct (Req_dec w (3 * h + PI * q)) as [E|E].
    + assert (ET : t = 3 * (PI / 2)) by (rewrite T, E; field; lra). rewrite ET, cos_3PI2, sin_3PI2. destruct (Req_dec h 0) as [Z|Z].
      * apply (right_arc h q _ _ (3 * (PI / 2))); [lra|rewrite E, Z; field; lra|]. rewrite cos_3PI2, sin_3PI2. f_equal; lra.
      * apply upper; [lra|]. f_equal; lra.
    + apply (left_arc h q _ _ (3 * PI - t)); [lra|rewrite T; field; lra|]. destruct (CS t) as [A B]. rewrite <- A, <- B. f_equal; lra.
  - destruct (Req_dec w (3 * h + 2 * PI * q)) as [E|E].
    + apply (left_arc h q _ _ (PI / 2)); [lra|rewrite E; field; lra|]. rewrite cos_PI2, sin_PI2, E. f_equal; lra.
    + apply lower_left; [lra|]. f_equal; lra.
Qed.
(** C52, fifth part: the way in the other direction gives the mirror image *)
Theorem C52_mirror : forall r f p, proper r -> edge r f = Ok p -> edge r (- f) = Ok (2 * middle_x r - fst p, snd p).
Proof.
  intros r f p Pr E. destruct (proper_pos r Pr) as (H & Q & A). rewrite edge_mod1 in E. apply (edge_iff r _ p Pr (mod1_range f)) in E.
  pose proof (mod1_range f) as M. assert (F : f = mod1 f + IZR (Int_part f)) by (unfold mod1, frac_part; lra).
  rewrite edge_mod1. apply (edge_iff r _ _ Pr (mod1_range _)). cbn [fst snd]. replace (2 * middle_x r - fst p - middle_x r) with (- (fst p - middle_x r)) by lra.
  destruct (Req_dec (mod1 f) 0) as [Z|Z].
  - rewrite (mod1_unique _ 0 (- Int_part f)); [|lra|rewrite opp_IZR; lra]. rewrite Z in E. rewrite Rmult_0_l in *.
    set (x := fst p - middle_x r) in *. set (y := snd p - middle_y r) in *. enough (X : x = 0) by (rewrite X, Ropp_0 in *; exact E). clearbody x y.
    pose proof PI_RGT_0 as HP. set (h := half_segment r) in *. set (q := radius r) in *. clearbody h q. assert (PQ : 0 < PI * q) by (apply Rmult_lt_0_compat; assumption).
    inversion E as [W X|t W T X|W X|t W T X|W X]; pose proof (f_equal fst X) as X1; cbn [fst] in X1; try (exfalso; lra); [lra|].
    assert (HZ : h = 0) by lra. assert (ET : t = PI / 2) by (rewrite T, HZ; field; lra). rewrite ET, cos_PI2 in X1. lra.
  - rewrite (mod1_unique _ (1 - mod1 f) (- Int_part f - 1)); [|lra|rewrite minus_IZR, opp_IZR; lra].
    replace ((1 - mod1 f) * around r) with (4 * half_segment r + 2 * PI * radius r - mod1 f * around r) by (unfold around; lra).
    assert (W : 0 < mod1 f * around r) by (apply Rmult_lt_0_compat; lra). exact (mirrored _ _ _ _ H Q W E).
Qed.
Print Assumptions C52_mirror.

(** ** The seats *)
(** C52, sixth part: for any number of players every seat is a point of the edge of its own *)
Theorem C52_seats : forall r n, proper r -> (0 < n)%nat ->
  (forall i, exists p, seat_edge r n i = Ok p /\ on_edge r p) /\
  (forall i j p q, (i < n)%nat -> (j < n)%nat -> seat_edge r n i = Ok p -> seat_edge r n j = Ok q -> p = q -> i = j).
Proof.
  intros r n Pr N. assert (P : 0 < INR n) by (apply lt_0_INR; exact N). unfold seat_edge. split.
  - intros i. rewrite py_div_ok by lra. cbn [bind]. apply C52_on_edge. exact Pr.
  - intros i j p q I J. rewrite !py_div_ok by lra. cbn [bind]. intros E F <-. destruct (C52_distinct r _ _ p Pr E F) as (k & K).
    assert (K' : INR j = INR i + IZR k * INR n) by (replace (INR j) with (INR j / INR n * INR n) by (field; lra); rewrite K; field; lra).
    rewrite !INR_IZR_INZ, <- mult_IZR, <- plus_IZR in K'. apply eq_IZR in K'. 
    destruct (Z.lt_trichotomy k 0) as [L|[->|L]]; [|lia|].
    + assert (k * Z.of_nat n <= (-1) * Z.of_nat n)%Z by (apply Z.mul_le_mono_nonneg_r; lia). lia.
    + assert (1 * Z.of_nat n <= k * Z.of_nat n)%Z by (apply Z.mul_le_mono_nonneg_r; lia). lia.
Qed.
Print Assumptions C52_seats.
(** the two rectangles of the table, with the width and the height changed after construction, have
    the middle of the table as their middle *)
Theorem C52_concentric : forall x y w h dw dh, let t := RoundedRectangle x y w h in
  middle_x (resize t dw dh) = x + w / 2 /\ middle_y (resize t dw dh) = y + h / 2.
Proof. intros. unfold middle_x, middle_y, t, resize, RoundedRectangle. cbn. lra. Qed.
Print Assumptions C52_concentric.
(** and reach as far from it as the changed width and height say: the lowest, the leftmost, the highest and the rightmost point *)
Theorem C52_extent : forall x y w h dw dh, let t := resize (RoundedRectangle x y w h) dw dh in 0 < h + dh <= w + dw ->
  edge t 0 = Ok (x + w / 2, y + h / 2 + (h + dh) / 2) /\
  edge t (1 / 4) = Ok (x + w / 2 - (w + dw) / 2, y + h / 2) /\
  edge t (1 / 2) = Ok (x + w / 2, y + h / 2 - (h + dh) / 2) /\
  edge t (3 / 4) = Ok (x + w / 2 + (w + dw) / 2, y + h / 2).
Proof.
  intros x y w h dw dh t B. destruct (C52_concentric x y w h dw dh) as [Mx My]. fold t in Mx, My.
  assert (P : proper t) by (unfold proper, t; cbn; lra). destruct (proper_pos t P) as (H & Q & A). pose proof PI_RGT_0 as HP.
  assert (PQ : 0 < PI * radius t) by (apply Rmult_lt_0_compat; assumption).
  assert (Ra : radius t = (h + dh) / 2) by (unfold radius, t; cbn; lra). assert (Hs : half_segment t = (w + dw - (h + dh)) / 2) by (unfold half_segment, t; cbn; lra).
  assert (E0 : edge t 0 = Ok (x + w / 2, y + h / 2 + (h + dh) / 2)).
  { apply (edge_iff t 0 _ P ltac:(lra)). cbn [fst snd]. rewrite Rmult_0_l, Mx, My. destruct (Req_dec (half_segment t) 0) as [Z|Z].
    - apply (left_arc _ _ _ _ (PI / 2)); [lra|rewrite Z; field; lra|]. rewrite cos_PI2, sin_PI2. f_equal; lra.
    - apply lower_left; [lra|]. f_equal; lra. }
  assert (E1 : edge t (1 / 4) = Ok (x + w / 2 - (w + dw) / 2, y + h / 2)).
  { assert (F : 0 <= 1 / 4 < 1) by lra. apply (edge_iff t _ _ P F). cbn [fst snd]. rewrite Mx, My. unfold around. apply (left_arc _ _ _ _ PI); [lra|field; lra|]. rewrite cos_PI, sin_PI. f_equal; lra. }
  pose proof (C52_opposite t _ _ P E0) as E2. pose proof (C52_opposite t _ _ P E1) as E3. rewrite Mx, My in E2, E3. cbn [fst snd] in E2, E3.
  split; [exact E0|]. split; [exact E1|]. split.
  - replace (1 / 2) with (0 + 1 / 2) by lra. rewrite E2. do 2 f_equal; lra.
  - replace (3 / 4) with (1 / 4 + 1 / 2) by lra. rewrite E3. do 2 f_equal; lra.
Qed.
Print Assumptions C52_extent.
(** what is returned is rounded: it is as near to the edge as the rounding is exact *)
Theorem C52_rounded : forall rnd r f e, proper r -> (forall x, Rabs (rnd x - x) <= e) ->
  exists p q, edge_rounded rnd r f = Ok q /\ on_edge r p /\ Rabs (fst q - fst p) <= e /\ Rabs (snd q - snd p) <= e.
Proof.
  intros rnd r f e Pr X. destruct (C52_on_edge r f Pr) as (p & E & O). exists p, (rnd (fst p), rnd (snd p)). unfold edge_rounded. rewrite E. cbn [bind fst snd].
  split; [reflexivity|]. split; [exact O|]. split; apply X.
Qed.
Print Assumptions C52_rounded.

(** a table 600 wide and 300 high whose upper left corner is at (100, 50): the first seat is at the
    middle of the lower side, and the one opposite at the middle of the upper side *)
Example C52_example : let t := RoundedRectangle 100 50 600 300 in proper t /\ edge t 0 = Ok (400, 350) /\ edge t (1 / 2) = Ok (400, 50).
Proof.
  cbv zeta. set (t := RoundedRectangle 100 50 600 300). assert (P : proper t) by (unfold proper, t; cbn; lra). split; [exact P|].
  assert (E : edge t 0 = Ok (400, 350)).
  { apply (edge_iff t 0 (400, 350) P ltac:(lra)). cbn [fst snd]. unfold middle_x, middle_y, half_segment, radius, t. cbn. apply lower_left; [lra|]. f_equal; lra. }
  split; [exact E|]. pose proof (C52_opposite t 0 (400, 350) P E) as G. rewrite Rplus_0_l in G. rewrite G. cbn [fst snd]. unfold middle_x, middle_y, t. cbn. do 2 f_equal; lra.
Qed.
(** the ring of the seats around that table: 700 wide and 400 high around the same middle *)
Example C52_extent_met : let t := resize (RoundedRectangle 100 50 600 300) 100 100 in
  0 < 300 + 100 <= 600 + 100 /\ edge t 0 = Ok (400, 400) /\ edge t (1 / 4) = Ok (50, 200).
Proof.
  cbv zeta. split; [lra|]. destruct (C52_extent 100 50 600 300 100 100 ltac:(lra)) as (A & B & _). rewrite A, B. split; do 2 f_equal; lra.
Qed.
