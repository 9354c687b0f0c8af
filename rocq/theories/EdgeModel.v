(** * EdgeModel: clubs/render/graphic.py:223-283, class _RoundedRectangle

    Floats are modelled by real numbers: rounding errors are not modelled, [float("nan")] and
    infinities neither.  [round(x, 2)] is the parameter [rnd] of [edge_rounded]. *)
From Coq Require Import Reals.
From Verif Require Import PyBase.
Open Scope R_scope.

(** graphic.py:224-230: the attributes; the centre is computed by the constructor and is not changed
    when the width and the height are assigned later *)
Record rrect : Type := mkRect {
  r_x : R; r_y : R; r_width : R; r_height : R; r_center_x : R; r_center_y : R
}.
Definition RoundedRectangle (x y width height : R) : rrect :=
  mkRect x y width height (width * 0.5) (height * 0.5).
(** graphic.py:541-542, 546-547: the assignments [rectangle.width += dw], [rectangle.height += dh] *)
Definition resize (r : rrect) (dw dh : R) : rrect :=
  mkRect (r_x r) (r_y r) (r_width r + dw) (r_height r + dh) (r_center_x r) (r_center_y r).

(** graphic.py:269-283, the properties *)
Definition radius_height (r : rrect) : R := r_height r * 0.5.
Definition circle_perimeter (r : rrect) : R := PI * r_height r.
Definition straight_width (r : rrect) : R := r_width r - r_height r.
Definition perimeter (r : rrect) : R := straight_width r * 2 + 2 * PI * radius_height r.

(** [a / b] *)
Definition py_div (a b : R) : result R := if Req_EM_T b 0 then Err ZeroDivisionError else Ok (a / b).

(** graphic.py:233, [frac % 1] *)
Definition mod1 (f : R) : R := frac_part f.

Definition ltR (a b : R) : bool := if Rlt_dec a b then true else false.
Definition leR (a b : R) : bool := if Rle_dec a b then true else false.

(** graphic.py:232-266, _RoundedRectangle.edge before rounding *)
Definition edge_offset (r : rrect) (frac : R) : result (R * R) :=
  let sw := straight_width r in
  let cp := circle_perimeter r in
  let pf := frac * perimeter r in
  if ltR pf (sw * 0.5) then Ok (- pf, radius_height r)
  else if ltR pf (sw * 0.5 + cp * 0.5) then
    let* circle_frac := py_div (pf - sw * 0.5) (cp * 0.5) in
    let angle := PI * 0.5 + PI * circle_frac in
    Ok (radius_height r * cos angle - sw * 0.5, radius_height r * sin angle)
  else if ltR pf (sw * 1.5 + cp * 0.5) then
    let* straight_frac := py_div (pf - sw * 0.5 - cp * 0.5) sw in
    Ok ((straight_frac - 0.5) * sw, - radius_height r)
  else if ltR pf (sw * 1.5 + cp) then
    let* circle_frac := py_div (pf - sw * 1.5 + cp * 0.5) (cp * 0.5) in
    let angle := PI * 1.5 + PI * circle_frac in
    Ok (radius_height r * cos angle + sw * 0.5, radius_height r * sin angle)
  else if leR frac 1 then
    let* straight_frac := py_div (pf - sw * 1.5 - cp) sw in
    Ok ((- straight_frac + 0.5) * sw, radius_height r)
  else Ok (0, 0).
Definition edge (r : rrect) (frac : R) : result (R * R) :=
  let* p := edge_offset r (mod1 frac) in
  Ok (fst p + (r_center_x r + r_x r), snd p + (r_center_y r + r_y r)).
(** graphic.py:267 *)
Definition edge_rounded (rnd : R -> R) (r : rrect) (frac : R) : result (R * R) :=
  let* p := edge r frac in Ok (rnd (fst p), rnd (snd p)).

(** graphic.py:622-623: the fraction for a seat *)
Definition seat_edge (r : rrect) (num_players idx : nat) : result (R * R) :=
  let* f := py_div (INR idx) (INR num_players) in edge r f.
