(** * EvalSweep1: the checks of EvalCheck.v that are done by computation *)
From Verif Require Import PyBase EvalModel EvalCheck.

Lemma sweep_cfg :
  forallb (fun s => forallb (fun r => forallb (fun c => forallb (cfg_ok s r c) [true; false])
     (zrange 1 6)) (zrange 1 14)) (zrange 1 5) = true.
Proof. vm_cast_no_check (eq_refl true). Qed.
Lemma sweep_lens :
  forallb (fun r => forallb (fun c => forallb (fun low => if hopeless r c low then true else check_lens r c low) [true; false])
     (zrange 1 6)) (zrange 1 14) = true.
Proof. vm_cast_no_check (eq_refl true). Qed.
Lemma sweep_nonneg :
  forallb (fun s => forallb (fun r => forallb (fun c => forallb (check_nonneg s r c) [true; false])
     (zrange 1 6)) (zrange 1 14)) (zrange 1 5) = true.
Proof. vm_cast_no_check (eq_refl true). Qed.
