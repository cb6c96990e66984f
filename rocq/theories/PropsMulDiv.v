(** * PropsMulDiv: C05-C14 and the exact forms C51-C54. *)
From Verif Require Import Base Promo Ops Fixed Spec SimpleProofs ArithProofs MulDiv Refute.
From Verif Require Import Fixed.
From Verif Require Import Meets.
Open Scope Z_scope.

(** ** C05 *)
Theorem C05_rmul_directed : forall b L P, valid b L P -> forall x y, in_range L x -> in_range L y ->
  forall m, m <> Nearest -> rounded_or_overflow L P m (dec P x * dec P y) (rmul b L P x y m).
Proof. exact rmul_directed. Qed.
Print Assumptions C05_rmul_directed.
Example C05_rmul_directed_case : valid dev L64 9 /\ in_range L64 1500000000 /\ in_range L64 (-700000001) /\ Ceil <> Nearest.
Proof. meets. Qed.
Example C05_example : valid dev L128 38 /\ in_range L128 (-1) /\ in_range L128 99999999999999999999999999999999999999 /\
  rmul dev L128 38 (-1) 99999999999999999999999999999999999999 Floor = Ret (Ok (-1)) /\
  rmul dev L64 18 (-9223372036854775808) 1000000000000000001 Ceil = Ret (Err Overflow).
Proof. example. Qed.

(** ** C06 *)
(** Missing: the 128-bit layout at precision 38, where the property is false; see C51. *)
Theorem C06_rmul_nearest_partial : forall b L P, valid b L P -> forall x y, in_range L x -> in_range L y ->
  ~ (L = L128 /\ P = 38) ->
  rounded_or_overflow L P Nearest (dec P x * dec P y) (rmul b L P x y Nearest).
Proof. exact rmul_nearest. Qed.
Print Assumptions C06_rmul_nearest_partial.
Example C06_rmul_nearest_partial_case : valid dev L64 9 /\ in_range L64 1500000000 /\ in_range L64 (-700000001) /\ ~ (L64 = L128
  /\ 9 = 38).
Proof. meets. Qed.
Theorem C06_rmul_nearest_refuted :
  exists x y r, valid dev L128 38 /\ valid release L128 38 /\ in_range L128 x /\ in_range L128 y /\ in_range L128 r /\
    rounds_to Nearest 38 (dec 38 x * dec 38 y) r /\
    rmul dev L128 38 x y Nearest = Panic /\
    (exists s, rmul release L128 38 x y Nearest = Ret (Ok s) /\ s <> r).
Proof. exact mul38_refuted. Qed.
Print Assumptions C06_rmul_nearest_refuted.
Example C06_example : valid release L16 1 /\ in_range L16 (-5) /\ in_range L16 5 /\
  rmul release L16 1 (-5) 5 Nearest = Ret (Ok (-3)).
Proof. example. Qed.

(** ** C07 *)
Theorem C07_rmul_comm : forall b L P x y m, valid b L P -> in_range L x -> in_range L y ->
  rmul b L P x y m = rmul b L P y x m.
Proof. exact rmul_comm. Qed.
Print Assumptions C07_rmul_comm.
Example C07_rmul_comm_case : valid dev L64 9 /\ in_range L64 1500000000 /\ in_range L64 (-700000001).
Proof. meets. Qed.
Theorem C07_rmul_one : forall b L P x m, valid b L P -> in_range L x ->
  exists one, ONE b L P = Ret one /\ rmul b L P x one m = Ret (Ok x) /\ rmul b L P one x m = Ret (Ok x).
Proof. exact rmul_one. Qed.
Print Assumptions C07_rmul_one.
Example C07_rmul_one_case : valid dev L64 9 /\ in_range L64 1500000000.
Proof. meets. Qed.
Theorem C07_rmul_zero : forall b L P x m, valid b L P -> in_range L x ->
  rmul b L P x ZERO m = Ret (Ok ZERO) /\ rmul b L P ZERO x m = Ret (Ok ZERO).
Proof. exact rmul_zero. Qed.
Print Assumptions C07_rmul_zero.
Example C07_rmul_zero_case : valid dev L64 9 /\ in_range L64 1500000000.
Proof. meets. Qed.
Theorem C07_rmul_neg : forall b L P x y r m, valid b L P -> in_range L x -> in_range L (- x) -> in_range L y ->
  in_range L r -> in_range L (- r) -> m <> Nearest ->
  (rmul b L P (- x) y (flip m) = Ret (Ok (- r)) <-> rmul b L P x y m = Ret (Ok r)).
Proof. exact rmul_neg. Qed.
Print Assumptions C07_rmul_neg.
Example C07_rmul_neg_case : valid dev L64 9 /\ in_range L64 1500000000 /\ in_range L64 (- 1500000000) /\ in_range L64 (-700000001)
  /\ in_range L64 (-1050000002) /\ in_range L64 (- (-1050000002)) /\ Ceil <> Nearest.
Proof. meets. Qed.
Example C07_example : valid dev L32 9 /\ in_range L32 1999999999 /\ in_range L32 (-7) /\
  rmul dev L32 9 1999999999 (-7) Ceil = Ret (Ok (-13)) /\ rmul dev L32 9 1999999999 7 Floor = Ret (Ok 13).
Proof. example. Qed.

(** ** C08 *)
(** Missing: [Nearest] on the 128-bit layout at precision 38, where the operation may panic. *)
Theorem C08_saturating_rmul_partial : forall b L P x y m, valid b L P -> in_range L x -> in_range L y ->
  (m = Nearest -> ~ (L = L128 /\ P = 38)) ->
  exists r, saturating_rmul b L P x y m = Ret r /\
    (exists v, rmul b L P x y m = Ret v /\
       match v with
       | Ok v => r = v
       | Err _ => ((dec P (hi L) < dec P x * dec P y)%Q /\ r = hi L) \/
                  ((dec P x * dec P y < dec P (lo L))%Q /\ r = lo L)
       end).
Proof. exact saturating_rmul_spec. Qed.
Print Assumptions C08_saturating_rmul_partial.
Example C08_saturating_rmul_partial_case : valid dev L64 9 /\ in_range L64 1500000000 /\ in_range L64 (-700000001) /\ (Nearest =
  Nearest -> ~ (L64 = L128 /\ 9 = 38)).
Proof. meets. Qed.
Theorem C08_saturating_rmul_refuted :
  exists x y, valid dev L128 38 /\ in_range L128 x /\ in_range L128 y /\ saturating_rmul dev L128 38 x y Nearest = Panic.
Proof. exact sat_mul38_refuted. Qed.
Print Assumptions C08_saturating_rmul_refuted.
Example C08_example : valid dev L16 1 /\ in_range L16 (-32768) /\ in_range L16 32767 /\
  saturating_rmul dev L16 1 (-32768) 32767 Nearest = Ret (-32768) /\
  saturating_rmul dev L16 1 (-32768) (-11) Ceil = Ret 32767.
Proof. example. Qed.

(** ** C09 *)
Theorem C09_rdiv_directed : forall b L P x y m, valid b L P -> in_range L x -> in_range L y -> y <> 0 -> m <> Nearest ->
  rounded_or_overflow L P m (dec P x / dec P y) (rdiv b L P x y m).
Proof. exact rdiv_directed. Qed.
Print Assumptions C09_rdiv_directed.
Example C09_rdiv_directed_case : valid dev L64 9 /\ in_range L64 1500000000 /\ in_range L64 (-700000001) /\ (-700000001) <> 0 /\
  Ceil <> Nearest.
Proof. meets. Qed.
Example C09_example : valid dev L128 38 /\ in_range L128 (lo L128) /\ in_range L128 (hi L128) /\ hi L128 <> 0 /\
  rdiv dev L128 38 (lo L128) (hi L128) Floor = Ret (Ok (-100000000000000000000000000000000000001)) /\
  rdiv dev L128 38 (lo L128) (hi L128) Ceil = Ret (Ok (-100000000000000000000000000000000000000)) /\
  rdiv dev L64 18 1 3 Floor = Ret (Ok 333333333333333333).
Proof. example. Qed.

(** ** C10 *)
(** Missing: divisors so large that twice the remainder overflows, and MIN, where the property is
    false; see C52. *)
Theorem C10_rdiv_nearest_partial : forall b L P x y, valid b L P -> in_range L x -> in_range L y -> y <> 0 ->
  (Z.rem (x * 10 ^ P) y <> 0 -> 2 * Z.abs (Z.rem (x * 10 ^ P) y) <= hi L /\ y <> lo L) ->
  rounded_or_overflow L P Nearest (dec P x / dec P y) (rdiv b L P x y Nearest).
Proof. exact rdiv_nearest_ok. Qed.
Print Assumptions C10_rdiv_nearest_partial.
Example C10_rdiv_nearest_partial_case : valid dev L64 9 /\ in_range L64 1500000000 /\ in_range L64 (-700000001) /\ (-700000001) <>
  0 /\ (Z.rem (1500000000 * 10 ^ 9) (-700000001) <> 0 -> 2 * Z.abs (Z.rem (1500000000 * 10 ^ 9) (-700000001)) <= hi L64 /\
  (-700000001) <> lo L64).
Proof. meets. Qed.
(** In particular every divisor up to half the range is fine. *)
Theorem C10_rdiv_small_divisor_partial : forall b L P x y, valid b L P -> in_range L x -> y <> 0 ->
  2 * Z.abs y <= hi L + 1 -> rounded_or_overflow L P Nearest (dec P x / dec P y) (rdiv b L P x y Nearest).
Proof. exact rdiv_nearest_small. Qed.
Print Assumptions C10_rdiv_small_divisor_partial.
Example C10_rdiv_small_divisor_partial_case : valid dev L64 9 /\ in_range L64 1500000000 /\ (-700000001) <> 0 /\ 2 * Z.abs
  (-700000001) <= hi L64 + 1.
Proof. meets. Qed.
Theorem C10_rdiv_nearest_refuted :
  exists x y r, valid dev L16 4 /\ valid release L16 4 /\ in_range L16 x /\ in_range L16 y /\ y <> 0 /\ in_range L16 r /\
    rounds_to Nearest 4 (dec 4 x / dec 4 y) r /\
    rdiv dev L16 4 x y Nearest = Panic /\
    (exists s, rdiv release L16 4 x y Nearest = Ret (Ok s) /\ s <> r).
Proof. exact rdiv_refuted. Qed.
Print Assumptions C10_rdiv_nearest_refuted.
Example C10_example : valid release L16 4 /\ in_range L16 10000 /\ in_range L16 (-16000) /\
  rdiv release L16 4 10000 (-16000) Nearest = Ret (Ok (-6250)) /\ rdiv release L16 1 1 4 Nearest = Ret (Ok 3).
Proof. example. Qed.

(** ** C11 *)
Theorem C11_rdiv_zero : forall b L P x m, rdiv b L P x 0 m = Ret (Err DivisionByZero).
Proof. exact rdiv_zero. Qed.
Print Assumptions C11_rdiv_zero.
Theorem C11_int_rdiv_zero : forall b t x m, int_rdiv b t x 0 m = Ret (Err DivisionByZero).
Proof. exact int_rdiv_zero. Qed.
Print Assumptions C11_int_rdiv_zero.
Theorem C11_rdiv_int_zero : forall b L x m, rdiv_int b L x 0 m = Ret (Err DivisionByZero).
Proof. exact rdiv_int_zero. Qed.
Print Assumptions C11_rdiv_int_zero.
Theorem C11_recip_zero : forall b L P m, valid b L P -> recip b L P 0 m = Ret (Err DivisionByZero).
Proof. exact recip_zero. Qed.
Print Assumptions C11_recip_zero.
Example C11_recip_zero_case : valid dev L64 9.
Proof. meets. Qed.
Theorem C11_int_rdiv_fp_zero : forall b L P n m, valid b L P -> (exists r, represents L P (Zq n) r) ->
  int_rdiv_fp b L P n 0 m = Ret (Err DivisionByZero).
Proof. exact int_rdiv_fp_zero. Qed.
Print Assumptions C11_int_rdiv_fp_zero.
Example C11_int_rdiv_fp_zero_case : valid dev L64 9 /\ (exists r, represents L64 9 (Zq 7) r).
Proof. meets. Qed.
Theorem C11_int_rdiv_fp_overflow : forall b L P n x m, valid b L P -> (forall r, ~ represents L P (Zq n) r) ->
  int_rdiv_fp b L P n x m = Ret (Err Overflow).
Proof. exact int_rdiv_fp_overflow. Qed.
Print Assumptions C11_int_rdiv_fp_overflow.
Example C11_int_rdiv_fp_overflow_case : valid dev L64 9 /\ (forall r, ~ represents L64 9 (Zq 9223372037) r).
Proof. split; [meets|]; intros r [[_ h] e]; change (hi L64) with 9223372036854775807 in h; unfold dec, Zq, Qeq in e; cbn in e;
  lia. Qed.
Example C11_example : valid dev L16 4 /\ represents L16 4 (Zq (-3)) (-30000) /\
  rdiv dev L16 4 (-32768) 0 Nearest = Ret (Err DivisionByZero) /\
  int_rdiv_fp dev L16 4 (-3) 0 Nearest = Ret (Err DivisionByZero) /\
  int_rdiv_fp dev L16 4 4 0 Nearest = Ret (Err Overflow).
Proof. example. Qed.

(** ** C12 *)
(** Missing: MIN divided by -1, and the [Nearest] cases where twice the remainder overflows or the
    divisor is MIN, where the property is false; see C53. *)
Theorem C12_rdiv_int_partial : forall b L P x n m, 0 <= P -> in_range L x -> in_range L n -> n <> 0 ->
  ~ (x = lo L /\ n = -1) ->
  (m = Nearest -> Z.rem x n <> 0 -> 2 * Z.abs (Z.rem x n) <= hi L /\ n <> lo L) ->
  rounded_or_overflow L P m (dec P x / Zq n) (rdiv_int b L x n m).
Proof. exact rdiv_int_rounded. Qed.
Print Assumptions C12_rdiv_int_partial.
Example C12_rdiv_int_partial_case : 0 <= 9 /\ in_range L64 1500000000 /\ in_range L64 7 /\ 7 <> 0 /\ ~ (1500000000 = lo L64 /\ 7 =
  -1) /\ (Nearest = Nearest -> Z.rem 1500000000 7 <> 0 -> 2 * Z.abs (Z.rem 1500000000 7) <= hi L64 /\ 7 <> lo L64).
Proof. meets. Qed.
Theorem C12_int_rdiv_partial : forall b t x y m, is_signed t = true -> fits t x -> fits t y -> y <> 0 ->
  ~ (x = imin t /\ y = -1) ->
  (m = Nearest -> Z.rem x y <> 0 -> 2 * Z.abs (Z.rem x y) <= imax t /\ y <> imin t) ->
  exists r, rounds m (Zq x / Zq y) r /\
    ((fits t r /\ int_rdiv b t x y m = Ret (Ok r)) \/ (~ fits t r /\ int_rdiv b t x y m = Ret (Err Overflow))).
Proof. exact int_rdiv_rounded. Qed.
Print Assumptions C12_int_rdiv_partial.
Example C12_int_rdiv_partial_case : is_signed I32 = true /\ fits I32 1500000000 /\ fits I32 (-700000001) /\ (-700000001) <> 0 /\ ~
  (1500000000 = imin I32 /\ (-700000001) = -1) /\ (Nearest = Nearest -> Z.rem 1500000000 (-700000001) <> 0 -> 2 * Z.abs (Z.rem
  1500000000 (-700000001)) <= imax I32 /\ (-700000001) <> imin I32).
Proof. meets. Qed.
Theorem C12_rdiv_int_refuted :
  exists x n, in_range L16 x /\ in_range L16 n /\ n <> 0 /\
    (forall m, rdiv_int dev L16 x n m = Panic /\ rdiv_int release L16 x n m = Panic).
Proof. exact rdiv_int_refuted. Qed.
Print Assumptions C12_rdiv_int_refuted.
Theorem C12_rdiv_int_nearest_refuted :
  exists x n r, in_range L16 x /\ in_range L16 n /\ n <> 0 /\ in_range L16 r /\
    rounds_to Nearest 4 (dec 4 x / Zq n) r /\
    rdiv_int dev L16 x n Nearest = Panic /\
    (exists s, rdiv_int release L16 x n Nearest = Ret (Ok s) /\ s <> r).
Proof. exact rdiv_int_nearest_refuted. Qed.
Print Assumptions C12_rdiv_int_nearest_refuted.
Example C12_example : int_rdiv dev I8 (-7) 2 Nearest = Ret (Ok (-4)) /\ int_rdiv dev I8 (-7) 2 Ceil = Ret (Ok (-3)) /\
  rdiv_int dev L32 7 (-2) Floor = Ret (Ok (-4)).
Proof. example. Qed.

(** ** C13 *)
(** Missing: integers that are not themselves representable, for which the operation reports
    overflow whatever the quotient, and the [Nearest] guard; see C54. *)
Theorem C13_int_rdiv_fp_partial : forall b L P n x m, valid b L P -> in_range L x -> x <> 0 ->
  (exists r, represents L P (Zq n) r) ->
  (m = Nearest -> Z.rem (n * 10 ^ P * 10 ^ P) x <> 0 -> 2 * Z.abs (Z.rem (n * 10 ^ P * 10 ^ P) x) <= hi L /\ x <> lo L) ->
  rounded_or_overflow L P m (Zq n / dec P x) (int_rdiv_fp b L P n x m).
Proof. exact int_rdiv_fp_rounded. Qed.
Print Assumptions C13_int_rdiv_fp_partial.
Example C13_int_rdiv_fp_partial_case : valid dev L64 9 /\ in_range L64 1500000000 /\ 1500000000 <> 0 /\ (exists r, represents L64
  9 (Zq 7) r) /\ (Nearest = Nearest -> Z.rem (7 * 10 ^ 9 * 10 ^ 9) 1500000000 <> 0 -> 2 * Z.abs (Z.rem (7 * 10 ^ 9 * 10 ^ 9)
  1500000000) <= hi L64 /\ 1500000000 <> lo L64).
Proof. meets. Qed.
Theorem C13_int_rdiv_fp_refuted :
  exists n x r, valid dev L16 4 /\ in_range L16 n /\ in_range L16 x /\ x <> 0 /\ in_range L16 r /\
    rounds_to Floor 4 (Zq n / dec 4 x) r /\ int_rdiv_fp dev L16 4 n x Floor = Ret (Err Overflow).
Proof. exact int_rdiv_fp_refuted. Qed.
Print Assumptions C13_int_rdiv_fp_refuted.
Example C13_example : valid dev L64 9 /\ represents L64 9 (Zq 2) 2000000000 /\
  int_rdiv_fp dev L64 9 2 3000000000 Nearest = Ret (Ok 666666667).
Proof. example. Qed.

(** ** C14 *)
(** Missing: the [Nearest] guard, as in C10. *)
Theorem C14_recip_partial : forall b L P x m, valid b L P -> in_range L x -> x <> 0 ->
  (m = Nearest -> Z.rem (10 ^ P * 10 ^ P) x <> 0 -> 2 * Z.abs (Z.rem (10 ^ P * 10 ^ P) x) <= hi L /\ x <> lo L) ->
  rounded_or_overflow L P m (1 / dec P x) (recip b L P x m).
Proof. exact recip_rounded. Qed.
Print Assumptions C14_recip_partial.
Example C14_recip_partial_case : valid dev L64 9 /\ in_range L64 1500000000 /\ 1500000000 <> 0 /\ (Nearest = Nearest -> Z.rem (10
  ^ 9 * 10 ^ 9) 1500000000 <> 0 -> 2 * Z.abs (Z.rem (10 ^ 9 * 10 ^ 9) 1500000000) <= hi L64 /\ 1500000000 <> lo L64).
Proof. meets. Qed.
Theorem C14_recip_refuted :
  exists x r, valid dev L16 4 /\ valid release L16 4 /\ in_range L16 x /\ x <> 0 /\ in_range L16 r /\
    rounds_to Nearest 4 (1 / dec 4 x) r /\
    recip dev L16 4 x Nearest = Panic /\
    (exists s, recip release L16 4 x Nearest = Ret (Ok s) /\ s <> r).
Proof. exact recip_refuted. Qed.
Print Assumptions C14_recip_refuted.
Example C14_example : valid dev L64 9 /\ in_range L64 (-3) /\ recip dev L64 9 (-3) Floor = Ret (Ok (-333333333333333334)) /\
  recip dev L16 4 1 Floor = Ret (Err Overflow).
Proof. example. Qed.

(** ** C51: [rmul] with [Nearest] on the 128-bit layout at precision 38 *)
Theorem C51_rmul38_ok : forall b x y, valid b L128 38 -> in_range L128 x -> in_range L128 y ->
  in_range L128 (2 * Z.rem (x * y) (10 ^ 38)) ->
  rounded_or_overflow L128 38 Nearest (dec 38 x * dec 38 y) (rmul b L128 38 x y Nearest).
Proof. exact rmul38_ok. Qed.
Print Assumptions C51_rmul38_ok.
Example C51_rmul38_ok_case : valid dev L128 38 /\ in_range L128 12345678901234567890123456789012345678 /\ in_range L128
  150000000000000000000000000000000000000 /\ in_range L128 (2 * Z.rem (12345678901234567890123456789012345678 *
  150000000000000000000000000000000000000) (10 ^ 38)).
Proof. meets. Qed.
Theorem C51_rmul38_overflow : forall b x y, valid b L128 38 -> in_range L128 x -> in_range L128 y ->
  ~ in_range L128 (Z.quot (x * y) (10 ^ 38)) ->
  rmul b L128 38 x y Nearest = Ret (Err Overflow) /\
  (forall r, rounds_to Nearest 38 (dec 38 x * dec 38 y) r -> ~ in_range L128 r).
Proof. exact rmul38_overflow. Qed.
Print Assumptions C51_rmul38_overflow.
Example C51_rmul38_overflow_case : valid dev L128 38 /\ in_range L128 (-150000000000000000000000000000000000000) /\ in_range L128
  150000000000000000000000000000000000000 /\ ~ in_range L128 (Z.quot ((-150000000000000000000000000000000000000) *
  150000000000000000000000000000000000000) (10 ^ 38)).
Proof. meets. Qed.
Theorem C51_rmul38_panic : forall b x y, valid b L128 38 -> in_range L128 x -> in_range L128 y -> ovf b = true ->
  in_range L128 (Z.quot (x * y) (10 ^ 38)) -> ~ in_range L128 (2 * Z.rem (x * y) (10 ^ 38)) ->
  rmul b L128 38 x y Nearest = Panic.
Proof. exact rmul38_panic. Qed.
Print Assumptions C51_rmul38_panic.
Example C51_rmul38_panic_case : valid dev L128 38 /\ in_range L128 99999999999999999999999999999999999999 /\ in_range L128
  10000000001 /\ ovf dev = true /\ in_range L128 (Z.quot (99999999999999999999999999999999999999 * 10000000001) (10 ^ 38)) /\ ~
  in_range L128 (2 * Z.rem (99999999999999999999999999999999999999 * 10000000001) (10 ^ 38)).
Proof. meets. Qed.
Theorem C51_rmul38_release_pos : forall b x y, valid b L128 38 -> in_range L128 x -> in_range L128 y -> ovf b = false ->
  in_range L128 (Z.quot (x * y) (10 ^ 38)) -> ~ in_range L128 (2 * Z.rem (x * y) (10 ^ 38)) -> 0 < x * y ->
  rounded_or_overflow L128 38 Nearest (dec 38 x * dec 38 y) (rmul b L128 38 x y Nearest).
Proof. exact rmul38_wrap_pos. Qed.
Print Assumptions C51_rmul38_release_pos.
Example C51_rmul38_release_pos_case : valid release L128 38 /\ in_range L128 99999999999999999999999999999999999999 /\ in_range
  L128 10000000001 /\ ovf release = false /\ in_range L128 (Z.quot (99999999999999999999999999999999999999 * 10000000001) (10 ^
  38)) /\ ~ in_range L128 (2 * Z.rem (99999999999999999999999999999999999999 * 10000000001) (10 ^ 38)) /\ 0 <
  99999999999999999999999999999999999999 * 10000000001.
Proof. meets. Qed.
Theorem C51_rmul38_release_neg : forall b x y, valid b L128 38 -> in_range L128 x -> in_range L128 y -> ovf b = false ->
  in_range L128 (Z.quot (x * y) (10 ^ 38)) -> ~ in_range L128 (2 * Z.rem (x * y) (10 ^ 38)) -> x * y < 0 ->
  exists r, rmul b L128 38 x y Nearest = Ret (Ok r) /\ rounds_to Ceil 38 (dec 38 x * dec 38 y) r /\
    ~ rounds_to Nearest 38 (dec 38 x * dec 38 y) r.
Proof. exact rmul38_wrap_neg. Qed.
Print Assumptions C51_rmul38_release_neg.
Example C51_rmul38_release_neg_case : valid release L128 38 /\ in_range L128 (-99999999999999999999999999999999999999) /\ in_range
  L128 10000000001 /\ ovf release = false /\ in_range L128 (Z.quot ((-99999999999999999999999999999999999999) * 10000000001) (10 ^
  38)) /\ ~ in_range L128 (2 * Z.rem ((-99999999999999999999999999999999999999) * 10000000001) (10 ^ 38)) /\
  (-99999999999999999999999999999999999999) * 10000000001 < 0.
Proof. meets. Qed.
Example C51_example : valid release L128 38 /\ in_range L128 (-1) /\ in_range L128 99999999999999999999999999999999999999 /\
  ~ in_range L128 (2 * Z.rem (-1 * 99999999999999999999999999999999999999) (10 ^ 38)) /\
  rmul release L128 38 (-1) 99999999999999999999999999999999999999 Nearest = Ret (Ok 0).
Proof. example. Qed.

(** ** C52: [rdiv] with [Nearest] when twice the remainder overflows or the divisor is MIN *)
Theorem C52_rdiv_panic : forall b L P, valid b L P -> forall x y, in_range L x -> in_range L y -> y <> 0 ->
  in_range L (Z.quot (x * 10 ^ P) y) -> Z.rem (x * 10 ^ P) y <> 0 ->
  hi L < 2 * Z.abs (Z.rem (x * 10 ^ P) y) \/ y = lo L ->
  ovf b = true -> rdiv b L P x y Nearest = Panic.
Proof. exact rdiv_nearest_panic. Qed.
Print Assumptions C52_rdiv_panic.
Example C52_rdiv_panic_case : valid dev L64 9 /\ in_range L64 9000000000000000000 /\ in_range L64 9200000000000000007 /\
  9200000000000000007 <> 0 /\ in_range L64 (Z.quot (9000000000000000000 * 10 ^ 9) 9200000000000000007) /\ Z.rem
  (9000000000000000000 * 10 ^ 9) 9200000000000000007 <> 0 /\ (hi L64 < 2 * Z.abs (Z.rem (9000000000000000000 * 10 ^ 9)
  9200000000000000007) \/ 9200000000000000007 = lo L64) /\ ovf dev = true.
Proof. meets. Qed.
Theorem C52_rdiv_release : forall b L P x y r, valid b L P -> in_range L x -> in_range L y -> y <> 0 -> y <> lo L ->
  in_range L (Z.quot (x * 10 ^ P) y) -> hi L < 2 * Z.abs (Z.rem (x * 10 ^ P) y) -> ovf b = false ->
  rounds_to Nearest P (dec P x / dec P y) r ->
  exists s, rdiv b L P x y Nearest = Ret (Ok s) /\ s <> r /\ Z.abs (r - s) = 1.
Proof. exact rdiv_release_wrong. Qed.
Print Assumptions C52_rdiv_release.
Example C52_rdiv_release_case : valid release L64 9 /\ in_range L64 9000000000000000000 /\ in_range L64 9200000000000000007 /\
  9200000000000000007 <> 0 /\ 9200000000000000007 <> lo L64 /\ in_range L64 (Z.quot (9000000000000000000 * 10 ^ 9)
  9200000000000000007) /\ hi L64 < 2 * Z.abs (Z.rem (9000000000000000000 * 10 ^ 9) 9200000000000000007) /\ ovf release = false /\
  rounds_to Nearest 9 (dec 9 9000000000000000000 / dec 9 9200000000000000007) 978260870.
Proof. meets. Qed.
Theorem C52_rdiv_release_min : forall b L P x, valid b L P -> in_range L x ->
  in_range L (Z.quot (x * 10 ^ P) (lo L)) -> Z.rem (x * 10 ^ P) (lo L) <> 0 -> ovf b = false ->
  exact_or_overflow L (Z.quot (x * 10 ^ P) (lo L) - Z.sgn x) (rdiv b L P x (lo L) Nearest).
Proof. exact rdiv_release_min. Qed.
Print Assumptions C52_rdiv_release_min.
Example C52_rdiv_release_min_case : valid release L64 9 /\ in_range L64 9000000000000000000 /\ in_range L64 (Z.quot
  (9000000000000000000 * 10 ^ 9) (lo L64)) /\ Z.rem (9000000000000000000 * 10 ^ 9) (lo L64) <> 0 /\ ovf release = false.
Proof. meets. Qed.
Theorem C52_rdiv_overflow : forall b L P x y m, valid b L P -> in_range L x -> in_range L y -> y <> 0 ->
  ~ in_range L (Z.quot (x * 10 ^ P) y) ->
  rdiv b L P x y m = Ret (Err Overflow) /\
  (forall r, rounds_to m P (dec P x / dec P y) r -> ~ in_range L r).
Proof. exact rdiv_overflow. Qed.
Print Assumptions C52_rdiv_overflow.
Example C52_rdiv_overflow_case : valid dev L64 9 /\ in_range L64 9000000000000000000 /\ in_range L64 5 /\ 5 <> 0 /\ ~ in_range L64
  (Z.quot (9000000000000000000 * 10 ^ 9) 5).
Proof. meets. Qed.
Example C52_example : valid release L16 4 /\ in_range L16 10000 /\ in_range L16 32767 /\
  in_range L16 (Z.quot (10000 * 10 ^ 4) 32767) /\ hi L16 < 2 * Z.abs (Z.rem (10000 * 10 ^ 4) 32767) /\
  rdiv release L16 4 10000 32767 Nearest = Ret (Ok 3051) /\ rdiv release L16 4 1 (lo L16) Nearest = Ret (Ok (-1)).
Proof. example. Qed.

(** ** C53: integer division outside the guards *)
Theorem C53_int_rdiv_min : forall b t m, is_signed t = true -> int_rdiv b t (imin t) (-1) m = Panic.
Proof. exact int_rdiv_min. Qed.
Print Assumptions C53_int_rdiv_min.
Example C53_int_rdiv_min_case : is_signed I32 = true.
Proof. meets. Qed.
Theorem C53_int_rdiv_panic : forall b t x y, is_signed t = true -> fits t x -> fits t y -> y <> 0 -> y <> -1 ->
  ovf b = true -> Z.rem x y <> 0 -> (imax t < 2 * Z.abs (Z.rem x y) \/ y = imin t) ->
  int_rdiv b t x y Nearest = Panic.
Proof. exact int_rdiv_nearest_panic. Qed.
Print Assumptions C53_int_rdiv_panic.
Example C53_int_rdiv_panic_case : is_signed I32 = true /\ fits I32 1500000000 /\ fits I32 (-2000000001) /\ (-2000000001) <> 0 /\
  (-2000000001) <> -1 /\ ovf dev = true /\ Z.rem 1500000000 (-2000000001) <> 0 /\ (imax I32 < 2 * Z.abs (Z.rem 1500000000
  (-2000000001)) \/ (-2000000001) = imin I32).
Proof. meets. Qed.
Theorem C53_int_rdiv_release : forall b t x y, is_signed t = true -> fits t x -> fits t y -> y <> 0 -> y <> imin t ->
  ovf b = false -> imax t < 2 * Z.abs (Z.rem x y) -> int_rdiv b t x y Nearest = Ret (Ok (Z.quot x y)).
Proof. exact int_rdiv_release. Qed.
Print Assumptions C53_int_rdiv_release.
Example C53_int_rdiv_release_case : is_signed I32 = true /\ fits I32 1500000000 /\ fits I32 (-2000000001) /\ (-2000000001) <> 0 /\
  (-2000000001) <> imin I32 /\ ovf release = false /\ imax I32 < 2 * Z.abs (Z.rem 1500000000 (-2000000001)).
Proof. meets. Qed.
Theorem C53_int_rdiv_release_min : forall b t x, is_signed t = true -> fits t x -> x <> 0 -> x <> imin t ->
  ovf b = false -> int_rdiv b t x (imin t) Nearest = Ret (Ok (- Z.sgn x)).
Proof. exact int_rdiv_release_min. Qed.
Print Assumptions C53_int_rdiv_release_min.
Example C53_int_rdiv_release_min_case : is_signed I32 = true /\ fits I32 1500000000 /\ 1500000000 <> 0 /\ 1500000000 <> imin I32
  /\ ovf release = false.
Proof. meets. Qed.
Example C53_example : int_rdiv release I8 (-128) (-1) Floor = Panic /\ int_rdiv dev I8 100 127 Nearest = Panic /\
  int_rdiv release I8 100 127 Nearest = Ret (Ok 0) /\ int_rdiv release I8 1 (-128) Nearest = Ret (Ok (-1)) /\
  Z.rem 100 127 = 100 /\ imax I8 = 127.
Proof. example. Qed.

(** ** C54: integer divided by fixed-point is conversion followed by [rdiv] *)
Theorem C54_int_rdiv_fp : forall b L P n x m, valid b L P ->
  (exists r, represents L P (Zq n) r /\ int_rdiv_fp b L P n x m = rdiv b L P r x m) \/
  ((forall r, ~ represents L P (Zq n) r) /\ int_rdiv_fp b L P n x m = Ret (Err Overflow)).
Proof. exact int_rdiv_fp_cases. Qed.
Print Assumptions C54_int_rdiv_fp.
Example C54_int_rdiv_fp_case : valid dev L64 9.
Proof. meets. Qed.
Example C54_example : valid dev L16 4 /\ represents L16 4 (Zq 3) 30000 /\
  int_rdiv_fp dev L16 4 3 20000 Floor = Ret (Ok 15000) /\ int_rdiv_fp dev L16 4 4 20000 Floor = Ret (Err Overflow).
Proof. example. Qed.
