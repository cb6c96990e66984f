(** * SpecF64: the decimal value of an IEEE 754 binary64 bit pattern, from its fields. *)
From Coq Require Import ZArith QArith Qabs Qpower.
From Verif Require Import Spec.
Open Scope Z_scope.

Definition is_f64 (raw : Z) : Prop := 0 <= raw < 2 ^ 64.
Definition f64_sign (raw : Z) : bool := 2 ^ 63 <=? raw.
Definition f64_exponent (raw : Z) : Z := (raw / 2 ^ 52) mod 2 ^ 11.
Definition f64_fraction (raw : Z) : Z := raw mod 2 ^ 52.
(** Neither an infinity nor a NaN. *)
Definition f64_finite (raw : Z) : Prop := is_f64 raw /\ f64_exponent raw <> 2047.
(** The magnitude of a finite float as a multiple of the smallest positive one, [2^-1074]. *)
Definition f64_units (raw : Z) : Z :=
  if f64_exponent raw =? 0 then f64_fraction raw
  else (2 ^ 52 + f64_fraction raw) * 2 ^ (f64_exponent raw - 1).
Definition f64_val (raw : Z) : Q :=
  (Zq (if f64_sign raw then - f64_units raw else f64_units raw) * Qpower (2 # 1) (-1074))%Q.
(** The bit pattern with the sign bit flipped. *)
Definition f64_negate (raw : Z) : Z := if f64_sign raw then raw - 2 ^ 63 else raw + 2 ^ 63.
(** No finite float is closer to [q]. *)
Definition f64_nearest (q : Q) (raw : Z) : Prop :=
  f64_finite raw /\ forall raw', f64_finite raw' -> (Qabs (f64_val raw - q) <= Qabs (f64_val raw' - q))%Q.
(** No finite float lies between [q] and this one, and if [q] is a float it is this one. *)
Definition f64_faithful (q : Q) (raw : Z) : Prop :=
  f64_finite raw /\ forall raw', f64_finite raw' ->
    (f64_val raw' <= q -> f64_val raw' <= f64_val raw)%Q /\ (q <= f64_val raw' -> f64_val raw <= f64_val raw')%Q.
(** [z] is [q] cut to an integer: towards zero up to four ninths, else away from it (for [q >= 0]). *)
Definition cuts (q : Q) (z : Z) : Prop := (Zq z - (5 # 9) < q /\ q <= Zq z + (4 # 9))%Q.
