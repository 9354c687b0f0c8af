(** * EvalSweep2: which decks have a table, and the order of the classes, by computation *)
From Verif Require Import PyBase EvalModel EvalSpec EvalCheck EvalRare.

Lemma sweep_built :
  forallb (fun s => forallb (fun r => forallb (fun c => forallb (fun low =>
     match Evaluator s r c 0 low None with
     | Ok _ => constructible s r c low
     | Err AssertionError => negb (constructible s r c low) && negb (key_error s r c low)
     | Err KeyError => key_error s r c low
     | Err _ => false
     end) [true; false])
     (zrange 1 6)) (zrange 1 14)) (zrange 1 5) = true.
Proof. vm_cast_no_check (eq_refl true). Qed.
Lemma sweep_total :
  forallb (fun s => forallb (fun r => forallb (fun c => forallb (fun low =>
     if 0 <? sumZ (map (ucount s r c low) all_classes) then true else negb (buildable s r c low)) [true; false])
     (zrange 1 6)) (zrange 1 14)) (zrange 1 5) = true.
Proof. vm_cast_no_check (eq_refl true). Qed.
(** flushes are unranked in the tight decks with the default order *)
Lemma sweep_tight_flush :
  forallb (fun s => forallb (fun c => 
     match ranked_classes (hand_counts s c c false) None with
     | Ok hs => negb (existsb (hclass_eqb FL) (r_ranked (compute_ranking (hand_counts s c c false) hs)))
     | Err _ => true
     end) (zrange 3 6)) (zrange 1 5) = true.
Proof. vm_cast_no_check (eq_refl true). Qed.
Lemma sweep_rarity :
  forallb (fun s => forallb (fun r => forallb (fun c => forallb (rarity_ok s r c) [true; false])
     (zrange 1 6)) (zrange 1 14)) (zrange 1 5) = true.
Proof. vm_cast_no_check (eq_refl true). Qed.
Lemma sweep_tight :
  forallb (fun s => forallb (tight_ok s) (zrange 3 6)) (zrange 1 5) = true.
Proof. vm_cast_no_check (eq_refl true). Qed.
