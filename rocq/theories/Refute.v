(** * Refute: witnesses for the properties that do not hold as first stated. *)
From Verif Require Import Base Promo Ops Fixed Spec.
From Verif Require Import Fixed.
Open Scope Z_scope.

Ltac wit := repeat match goal with |- _ /\ _ => split end; try example.

(** -0.00…01 * 0.99…9 rounds to -0.00…01. *)
Lemma mul38_refuted :
  exists x y r, valid dev L128 38 /\ valid release L128 38 /\ in_range L128 x /\ in_range L128 y /\ in_range L128 r /\
    rounds_to Nearest 38 (dec 38 x * dec 38 y) r /\
    rmul dev L128 38 x y Nearest = Panic /\
    (exists s, rmul release L128 38 x y Nearest = Ret (Ok s) /\ s <> r).
Proof. exists (-1), 99999999999999999999999999999999999999, (-1). wit. exists 0. wit. Qed.
Lemma sat_mul38_refuted :
  exists x y, valid dev L128 38 /\ in_range L128 x /\ in_range L128 y /\ saturating_rmul dev L128 38 x y Nearest = Panic.
Proof. exists (-1), 99999999999999999999999999999999999999. wit. Qed.

(** 1 / 3.2767 is 0.30518…, 0.0001 / -3.2768 is -0.0000305…. *)
Lemma rdiv_refuted :
  exists x y r, valid dev L16 4 /\ valid release L16 4 /\ in_range L16 x /\ in_range L16 y /\ y <> 0 /\ in_range L16 r /\
    rounds_to Nearest 4 (dec 4 x / dec 4 y) r /\
    rdiv dev L16 4 x y Nearest = Panic /\
    (exists s, rdiv release L16 4 x y Nearest = Ret (Ok s) /\ s <> r).
Proof. exists 10000, 32767, 3052. wit. exists 3051. wit. Qed.
Lemma rdiv_min_refuted :
  exists x r, in_range L16 x /\ in_range L16 r /\ rounds_to Nearest 4 (dec 4 x / dec 4 (lo L16)) r /\
    rdiv dev L16 4 x (lo L16) Nearest = Panic /\
    (exists s, rdiv release L16 4 x (lo L16) Nearest = Ret (Ok s) /\ s <> r).
Proof. exists 1, 0. wit. exists (-1). wit. Qed.
Lemma recip_refuted :
  exists x r, valid dev L16 4 /\ valid release L16 4 /\ in_range L16 x /\ x <> 0 /\ in_range L16 r /\
    rounds_to Nearest 4 (1 / dec 4 x) r /\
    recip dev L16 4 x Nearest = Panic /\
    (exists s, recip release L16 4 x Nearest = Ret (Ok s) /\ s <> r).
Proof. exists 32767, 3052. wit. exists 3051. wit. Qed.

Lemma rdiv_int_refuted :
  exists x n, in_range L16 x /\ in_range L16 n /\ n <> 0 /\
    (forall m, rdiv_int dev L16 x n m = Panic /\ rdiv_int release L16 x n m = Panic).
Proof. exists (-32768), (-1). wit. intros m. destruct m; wit. Qed.
Lemma rdiv_int_nearest_refuted :
  exists x n r, in_range L16 x /\ in_range L16 n /\ n <> 0 /\ in_range L16 r /\
    rounds_to Nearest 4 (dec 4 x / Zq n) r /\
    rdiv_int dev L16 x n Nearest = Panic /\
    (exists s, rdiv_int release L16 x n Nearest = Ret (Ok s) /\ s <> r).
Proof. exists 20000, 32767, 1. wit. exists 0. wit. Qed.
Lemma int_rdiv_fp_refuted :
  exists n x r, valid dev L16 4 /\ in_range L16 n /\ in_range L16 x /\ x <> 0 /\ in_range L16 r /\
    rounds_to Floor 4 (Zq n / dec 4 x) r /\ int_rdiv_fp dev L16 4 n x Floor = Ret (Err Overflow).
Proof. exists 10, 32767, 30518. wit. Qed.

Lemma half_sum_refuted :
  exists x y r s, valid dev L16 4 /\ in_range L16 x /\ in_range L16 y /\ rounds_to Nearest 4 ((dec 4 x + dec 4 y) / 2) r /\
    half_sum dev L16 x y Nearest = Ret s /\ s <> r.
Proof. exists (-1), (-2), (-2), (-1). wit. Qed.
(** -3276.8 rounds down to -3277. *)
Lemma integral_refuted :
  exists x i j, valid dev L16 1 /\ valid release L16 1 /\ in_range L16 x /\ rounds Floor (dec 1 x) i /\
    integral dev L16 1 x Floor = Panic /\ integral release L16 1 x Floor = Ret j /\ j <> i.
Proof. exists (-32768), (-3277), (-3276). wit. Qed.
Lemma floor_refuted :
  (exists x i j, valid release L16 1 /\ in_range L16 x /\ rounds Floor (dec 1 x) i /\
     (forall r, in_range L16 r -> ~ (dec 1 r == Zq i)%Q) /\ floor release L16 1 x = Ret j) /\
  (exists x i r, valid dev L16 0 /\ in_range L16 x /\ rounds Floor (dec 0 x) i /\ represents L16 0 (Zq i) r /\
     floor dev L16 0 x = Panic).
Proof.
  split.
  - exists (-32768), (-3277), (-32760). wit. intros r [H1 _] E. unfold dec, Zq, Qeq in E. cbn in E.
    change (lo L16) with (-32768) in H1. lia.
  - exists (-32768), (-32768), (-32768). wit.
Qed.
(** 1 * 10^10 does not fit an i64 with 9 digits after the point; 0 * 10^10 does. *)
Lemma from_decimal_refuted :
  (exists m e r, valid release L64 9 /\ in_range L64 m /\ -9 <= e <= 10 /\ from_decimal release L64 9 m e = Ret (Ok r) /\
     ~ (dec 9 r == Zq m * q10 e)%Q) /\
  (exists m e r, valid dev L64 9 /\ in_range L64 m /\ -9 <= e <= 10 /\ represents L64 9 (Zq m * q10 e) r /\
     from_decimal dev L64 9 m e = Panic).
Proof.
  split.
  - exists 1, 10, (-8446744073709551616). wit.
  - exists 0, 10, 0. wit.
Qed.
(** The same division succeeds with different results in two layouts. *)
Lemma layouts_refuted :
  exists x y r r', valid release L16 4 /\ valid release L32 4 /\ in_range L16 x /\ in_range L16 y /\
    rdiv release L16 4 x y Nearest = Ret (Ok r) /\ rdiv release L32 4 x y Nearest = Ret (Ok r') /\ r <> r'.
Proof. exists 10000, 32767, 3051, 3052. wit. Qed.
Lemma profiles_refuted :
  exists x y r, valid dev L16 4 /\ valid release L16 4 /\ in_range L16 x /\ in_range L16 y /\
    rdiv dev L16 4 x y Nearest = Panic /\ rdiv release L16 4 x y Nearest = Ret (Ok r).
Proof. exists 10000, 32767, 3051. wit. Qed.
Lemma integral_brackets_refuted :
  exists x f c, valid release L16 1 /\ in_range L16 x /\ integral release L16 1 x Floor = Ret f /\
    integral release L16 1 x Ceil = Ret c /\ f = c /\ (forall z, ~ (dec 1 x == Zq z)%Q).
Proof.
  exists (-32768), (-3276), (-3276). wit. intros z E. unfold dec, Zq, Qeq in E. cbn in E. lia.
Qed.
