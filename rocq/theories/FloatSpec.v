(** * FloatSpec: double precision floats as rational numbers (IEEE 754 binary64)

    Specification only; nothing here is taken from the model. *)
From Coq Require Import ZArith QArith Qabs.

(** the finite doubles: a significand of 53 bits times a power of two *)
Definition double (q : Q) : Prop :=
  exists m x : Z, (Z.abs m < 2 ^ 53 /\ -1074 <= x <= 971)%Z /\ q == inject_Z m * (2 # 1) ^ x.

(** the doubles whose last bit is zero: the significand is written with all its 53 bits, or the exponent is
    the least one *)
Definition even_double (q : Q) : Prop :=
  exists m x : Z, (Z.abs m < 2 ^ 53 /\ -1074 <= x <= 971)%Z /\ ((2 ^ 52 <= Z.abs m)%Z \/ x = (-1074)%Z) /\
    Z.even m = true /\ q == inject_Z m * (2 # 1) ^ x.

(** [f] is the double for the number [q]: no double is nearer to it, and if another one is as near then [f] is
    the even one *)
Definition rounds_to (q f : Q) : Prop :=
  double f /\
  (forall d, double d -> Qabs (f - q) <= Qabs (d - q)) /\
  (forall d, double d -> ~ d == f -> Qabs (d - q) == Qabs (f - q) -> even_double f).
