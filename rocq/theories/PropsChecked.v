(** * Statements: with overflow checks what is returned is right (C99); what is returned by any build (C100); order (C101). *)
From Coq Require Import QArith Qabs.
From Verif Require Import Base Promo Ops Fixed Str Spec SpecText.
From Verif Require Import Fixed.
From Verif Require Import SpecCheck Checked.
From Verif Require Import Meets.
Open Scope Z_scope.

(** ** C99 *)
Theorem C99_rmul : forall b L P x y m, valid b L P -> in_range L x -> in_range L y -> ovf b = true ->
  rounded_or_panic L P m (dec P x * dec P y) (rmul b L P x y m).
Proof. exact rmul_checked. Qed.
Print Assumptions C99_rmul.
Example C99_rmul_case : valid dev L64 9 /\ in_range L64 1500000000 /\ in_range L64 (-700000001) /\ ovf dev = true.
Proof. meets. Qed.
Theorem C99_saturating_rmul : forall b L P x y m, valid b L P -> in_range L x -> in_range L y -> ovf b = true ->
  saturating_rmul b L P x y m = Panic \/
  exists r v, saturating_rmul b L P x y m = Ret r /\ rounds_to m P (dec P x * dec P y) v /\ clamped L v r.
Proof. exact saturating_rmul_checked. Qed.
Print Assumptions C99_saturating_rmul.
Example C99_saturating_rmul_case : valid dev L64 9 /\ in_range L64 1500000000 /\ in_range L64 (-700000001) /\ ovf dev = true.
Proof. meets. Qed.
Theorem C99_rdiv : forall b L P x y m, valid b L P -> in_range L x -> in_range L y -> y <> 0 -> ovf b = true ->
  rounded_or_panic L P m (dec P x / dec P y) (rdiv b L P x y m).
Proof. exact rdiv_checked. Qed.
Print Assumptions C99_rdiv.
Example C99_rdiv_case : valid dev L64 9 /\ in_range L64 1500000000 /\ in_range L64 (-700000001) /\ (-700000001) <> 0 /\ ovf dev =
  true.
Proof. meets. Qed.
Theorem C99_recip : forall b L P x m, valid b L P -> in_range L x -> x <> 0 -> ovf b = true ->
  rounded_or_panic L P m (1 / dec P x) (recip b L P x m).
Proof. exact recip_checked. Qed.
Print Assumptions C99_recip.
Example C99_recip_case : valid dev L64 9 /\ in_range L64 1500000000 /\ 1500000000 <> 0 /\ ovf dev = true.
Proof. meets. Qed.
Theorem C99_rdiv_int : forall b L P x n m, 0 <= P -> in_range L x -> in_range L n -> n <> 0 -> ovf b = true ->
  rounded_or_panic L P m (dec P x / Zq n) (rdiv_int b L x n m).
Proof. exact rdiv_int_checked. Qed.
Print Assumptions C99_rdiv_int.
Example C99_rdiv_int_case : 0 <= 9 /\ in_range L64 1500000000 /\ in_range L64 7 /\ 7 <> 0 /\ ovf dev = true.
Proof. meets. Qed.
Theorem C99_int_rdiv : forall b t x y m, is_signed t = true -> fits t x -> fits t y -> y <> 0 -> ovf b = true ->
  int_rdiv b t x y m = Panic \/
  exists r, rounds m (Zq x / Zq y) r /\
    ((fits t r /\ int_rdiv b t x y m = Ret (Ok r)) \/ (~ fits t r /\ int_rdiv b t x y m = Ret (Err Overflow))).
Proof. exact int_rdiv_checked. Qed.
Print Assumptions C99_int_rdiv.
Example C99_int_rdiv_case : is_signed I32 = true /\ fits I32 1500000000 /\ fits I32 (-700000001) /\ (-700000001) <> 0 /\ ovf dev =
  true.
Proof. meets. Qed.
Theorem C99_int_rdiv_fp : forall b L P n x m r, valid b L P -> in_range L x -> x <> 0 -> ovf b = true ->
  int_rdiv_fp b L P n x m = Ret (Ok r) -> in_range L r /\ rounds_to m P (Zq n / dec P x) r.
Proof. exact int_rdiv_fp_checked. Qed.
Print Assumptions C99_int_rdiv_fp.
Example C99_int_rdiv_fp_case : valid dev L64 9 /\ in_range L64 1500000000 /\ 1500000000 <> 0 /\ ovf dev = true /\ int_rdiv_fp dev
  L64 9 7 1500000000 Nearest = Ret (Ok 4666666667).
Proof. meets. Qed.
Theorem C99_integral : forall b L P x m, valid b L P -> in_range L x -> ovf b = true ->
  integral b L P x m = Panic \/ exists i, integral b L P x m = Ret i /\ in_range L i /\ rounds m (dec P x) i.
Proof. exact integral_checked. Qed.
Print Assumptions C99_integral.
Example C99_integral_case : valid dev L64 9 /\ in_range L64 1500000000 /\ ovf dev = true.
Proof. meets. Qed.
Theorem C99_int_part : forall b L P x m, valid b L P -> in_range L x -> ovf b = true ->
  int_part b L P x m = Panic \/ exists r i, int_part b L P x m = Ret r /\ rounds m (dec P x) i /\ represents L P (Zq i) r.
Proof. exact int_part_checked. Qed.
Print Assumptions C99_int_part.
Example C99_int_part_case : valid dev L64 9 /\ in_range L64 1500000000 /\ ovf dev = true.
Proof. meets. Qed.
Theorem C99_from_decimal : forall b L P m e, valid b L P -> - P <= e <= 10 -> ovf b = true ->
  from_decimal b L P m e = Panic \/ exact_or L P (Zq m * q10 e) ConvertError (from_decimal b L P m e).
Proof. exact from_decimal_checked. Qed.
Print Assumptions C99_from_decimal.
Example C99_from_decimal_case : valid dev L64 9 /\ - 9 <= (-1) <= 10 /\ ovf dev = true.
Proof. meets. Qed.
Theorem C99_to_string : forall b L P x, valid b L P -> in_range L x -> ovf b = true -> dbg b = true ->
  to_string b L P x = Panic \/ exists s, to_string b L P x = Ret s /\ canonical s (dec P x) /\ Z.of_nat (length s) <= buffer b.
Proof. exact to_string_checked. Qed.
Print Assumptions C99_to_string.
Example C99_to_string_case : valid dev L64 9 /\ in_range L64 1500000000 /\ ovf dev = true /\ dbg dev = true.
Proof. meets. Qed.
Example C99_example : valid dev L16 4 /\ ovf dev = true /\ dbg dev = true /\
  rdiv dev L16 4 1 30000 Nearest = Ret (Ok 0) /\ rdiv dev L16 4 20000 30000 Nearest = Panic /\ rdiv dev L16 4 32767 1 Nearest = Ret (Err Overflow) /\
  integral dev L16 4 15000 Nearest = Ret 2 /\ integral dev L16 4 (lo L16) Nearest = Panic.
Proof. example. Qed.

(** ** C100 *)
Theorem C100_rmul : forall b L P x y m, valid b L P -> in_range L x -> in_range L y ->
  truthful L P m (dec P x * dec P y) (rmul b L P x y m).
Proof. exact rmul_truthful. Qed.
Print Assumptions C100_rmul.
Example C100_rmul_case : valid dev L64 9 /\ in_range L64 1500000000 /\ in_range L64 (-700000001).
Proof. meets. Qed.
Theorem C100_rdiv : forall b L P x y m, valid b L P -> in_range L x -> in_range L y -> y <> 0 ->
  truthful L P m (dec P x / dec P y) (rdiv b L P x y m).
Proof. exact rdiv_truthful. Qed.
Print Assumptions C100_rdiv.
Example C100_rdiv_case : valid dev L64 9 /\ in_range L64 1500000000 /\ in_range L64 (-700000001) /\ (-700000001) <> 0.
Proof. meets. Qed.
Theorem C100_recip : forall b L P x m, valid b L P -> in_range L x -> x <> 0 -> truthful L P m (1 / dec P x) (recip b L P x m).
Proof. exact recip_truthful. Qed.
Print Assumptions C100_recip.
Example C100_recip_case : valid dev L64 9 /\ in_range L64 1500000000 /\ 1500000000 <> 0.
Proof. meets. Qed.
Theorem C100_rdiv_int : forall b L P x n m, 0 <= P -> in_range L x -> in_range L n -> n <> 0 ->
  truthful L P m (dec P x / Zq n) (rdiv_int b L x n m).
Proof. exact rdiv_int_truthful. Qed.
Print Assumptions C100_rdiv_int.
Example C100_rdiv_int_case : 0 <= 9 /\ in_range L64 1500000000 /\ in_range L64 7 /\ 7 <> 0.
Proof. meets. Qed.
Theorem C100_integral : forall b L P x m i, valid b L P -> in_range L x -> integral b L P x m = Ret i ->
  rounds Floor (dec P x) i \/ rounds Ceil (dec P x) i.
Proof. exact integral_neighbour. Qed.
Print Assumptions C100_integral.
Example C100_integral_case : valid dev L64 9 /\ in_range L64 1500000000 /\ integral dev L64 9 1500000000 Nearest = Ret 2.
Proof. meets. Qed.
Theorem C100_half_sum : forall b L P x y m, 0 <= P -> in_range L x -> in_range L y ->
  exists r, half_sum b L x y m = Ret r /\ in_range L r /\
    (rounds_to Floor P ((dec P x + dec P y) / 2) r \/ rounds_to Ceil P ((dec P x + dec P y) / 2) r).
Proof. exact half_sum_neighbour. Qed.
Print Assumptions C100_half_sum.
Example C100_half_sum_case : 0 <= 9 /\ in_range L64 1500000000 /\ in_range L64 (-700000001).
Proof. meets. Qed.
Example C100_example : valid release L16 4 /\ ovf release = false /\
  rdiv release L16 4 20000 30000 Nearest = Ret (Ok 6666) /\ rounds_to Floor 4 (dec 4 20000 / dec 4 30000) 6666 /\
  rounds_to Nearest 4 (dec 4 20000 / dec 4 30000) 6667 /\ integral release L16 4 (lo L16) Floor = Ret (-3) /\ rounds Ceil (dec 4 (lo L16)) (-3).
Proof. example. Qed.

(** ** C101 *)
Theorem C101_rmul : forall b b' L P m, valid b L P -> valid b' L P -> ovf b = true -> ovf b' = true ->
  forall x y x' y' r r', in_range L x -> in_range L y -> in_range L x' -> in_range L y' ->
  (dec P x * dec P y <= dec P x' * dec P y')%Q -> rmul b L P x y m = Ret (Ok r) -> rmul b' L P x' y' m = Ret (Ok r') -> r <= r'.
Proof. exact rmul_order. Qed.
Print Assumptions C101_rmul.
Example C101_rmul_case : valid dev L64 9 /\ valid no_std L64 9 /\ ovf dev = true /\ ovf no_std = true /\ in_range L64 1500000000
  /\ in_range L64 700000001 /\ in_range L64 1600000001 /\ in_range L64 700000002 /\ (dec 9 1500000000 * dec 9 700000001 <= dec 9
  1600000001 * dec 9 700000002)%Q /\ rmul dev L64 9 1500000000 700000001 Nearest = Ret (Ok 1050000002) /\ rmul no_std L64 9
  1600000001 700000002 Nearest = Ret (Ok 1120000004).
Proof. meets. Qed.
Theorem C101_rmul_overflow : forall b b' L P m, valid b L P -> valid b' L P -> ovf b = true -> ovf b' = true ->
  forall x y x' y' e r', in_range L x -> in_range L y -> in_range L x' -> in_range L y' ->
  (0 <= dec P x * dec P y <= dec P x' * dec P y' \/ dec P x' * dec P y' <= dec P x * dec P y <= 0)%Q ->
  rmul b L P x y m = Ret (Err e) -> rmul b' L P x' y' m <> Ret (Ok r').
Proof. exact rmul_closed. Qed.
Print Assumptions C101_rmul_overflow.
Example C101_rmul_overflow_case : valid dev L64 9 /\ valid no_std L64 9 /\ ovf dev = true /\ ovf no_std = true /\ in_range L64
  9000000000000000000 /\ in_range L64 1200000000 /\ in_range L64 9000000000000000001 /\ in_range L64 1200000001 /\ (0 <= dec 9
  9000000000000000000 * dec 9 1200000000 <= dec 9 9000000000000000001 * dec 9 1200000001 \/ dec 9 9000000000000000001 * dec 9
  1200000001 <= dec 9 9000000000000000000 * dec 9 1200000000 <= 0)%Q /\ rmul dev L64 9 9000000000000000000 1200000000 Nearest =
  Ret (Err Overflow).
Proof. do 8 (split; [meets|]); split; [left; meets|meets]. Qed.
Theorem C101_rdiv : forall b b' L P m, valid b L P -> valid b' L P -> ovf b = true -> ovf b' = true ->
  forall x y x' y' r r', in_range L x -> in_range L y -> in_range L x' -> in_range L y' -> y <> 0 -> y' <> 0 ->
  (dec P x / dec P y <= dec P x' / dec P y')%Q -> rdiv b L P x y m = Ret (Ok r) -> rdiv b' L P x' y' m = Ret (Ok r') -> r <= r'.
Proof. exact rdiv_order. Qed.
Print Assumptions C101_rdiv.
Example C101_rdiv_case : valid dev L64 9 /\ valid no_std L64 9 /\ ovf dev = true /\ ovf no_std = true /\ in_range L64 1500000000
  /\ in_range L64 700000001 /\ in_range L64 1600000001 /\ in_range L64 600000000 /\ 700000001 <> 0 /\ 600000000 <> 0 /\ (dec 9
  1500000000 / dec 9 700000001 <= dec 9 1600000001 / dec 9 600000000)%Q /\ rdiv dev L64 9 1500000000 700000001 Nearest = Ret (Ok
  2142857140) /\ rdiv no_std L64 9 1600000001 600000000 Nearest = Ret (Ok 2666666668).
Proof. meets. Qed.
Theorem C101_rdiv_overflow : forall b b' L P m, valid b L P -> valid b' L P -> ovf b = true -> ovf b' = true ->
  forall x y x' y' e r', in_range L x -> in_range L y -> in_range L x' -> in_range L y' -> y <> 0 -> y' <> 0 ->
  (0 <= dec P x / dec P y <= dec P x' / dec P y' \/ dec P x' / dec P y' <= dec P x / dec P y <= 0)%Q ->
  rdiv b L P x y m = Ret (Err e) -> rdiv b' L P x' y' m <> Ret (Ok r').
Proof. exact rdiv_closed. Qed.
Print Assumptions C101_rdiv_overflow.
Example C101_rdiv_overflow_case : valid dev L64 9 /\ valid no_std L64 9 /\ ovf dev = true /\ ovf no_std = true /\ in_range L64
  9000000000000000000 /\ in_range L64 120000000 /\ in_range L64 9000000000000000001 /\ in_range L64 110000001 /\ 120000000 <> 0 /\
  110000001 <> 0 /\ (0 <= dec 9 9000000000000000000 / dec 9 120000000 <= dec 9 9000000000000000001 / dec 9 110000001 \/ dec 9
  9000000000000000001 / dec 9 110000001 <= dec 9 9000000000000000000 / dec 9 120000000 <= 0)%Q /\ rdiv dev L64 9
  9000000000000000000 120000000 Nearest = Ret (Err Overflow).
Proof. do 10 (split; [meets|]); split; [left; meets|meets]. Qed.
Theorem C101_rdiv_int : forall b b' L P m, valid b L P -> valid b' L P -> ovf b = true -> ovf b' = true ->
  forall x n x' n' r r', in_range L x -> in_range L n -> in_range L x' -> in_range L n' -> n <> 0 -> n' <> 0 ->
  (dec P x / Zq n <= dec P x' / Zq n')%Q -> rdiv_int b L x n m = Ret (Ok r) -> rdiv_int b' L x' n' m = Ret (Ok r') -> r <= r'.
Proof. exact rdiv_int_order. Qed.
Print Assumptions C101_rdiv_int.
Example C101_rdiv_int_case : valid dev L64 9 /\ valid no_std L64 9 /\ ovf dev = true /\ ovf no_std = true /\ in_range L64
  1500000000 /\ in_range L64 8 /\ in_range L64 1600000001 /\ in_range L64 7 /\ 8 <> 0 /\ 7 <> 0 /\ (dec 9 1500000000 / Zq 8 <= dec
  9 1600000001 / Zq 7)%Q /\ rdiv_int dev L64 1500000000 8 Nearest = Ret (Ok 187500000) /\ rdiv_int no_std L64 1600000001 7 Nearest
  = Ret (Ok 228571429).
Proof. meets. Qed.
Theorem C101_recip : forall b b' L P m, valid b L P -> valid b' L P -> ovf b = true -> ovf b' = true ->
  forall x x' r r', in_range L x -> in_range L x' -> x <= x' -> 0 < x * x' ->
  recip b L P x m = Ret (Ok r) -> recip b' L P x' m = Ret (Ok r') -> r' <= r.
Proof. exact recip_order. Qed.
Print Assumptions C101_recip.
Example C101_recip_case : valid dev L64 9 /\ valid no_std L64 9 /\ ovf dev = true /\ ovf no_std = true /\ in_range L64
  (-1500000000) /\ in_range L64 (-1400000000) /\ (-1500000000) <= (-1400000000) /\ 0 < (-1500000000) * (-1400000000) /\ recip dev
  L64 9 (-1500000000) Nearest = Ret (Ok (-666666667)) /\ recip no_std L64 9 (-1400000000) Nearest = Ret (Ok (-714285714)).
Proof. meets. Qed.
Theorem C101_saturating_rmul : forall b b' L P m, valid b L P -> valid b' L P -> ovf b = true -> ovf b' = true ->
  forall x y x' y' r r', in_range L x -> in_range L y -> in_range L x' -> in_range L y' ->
  (dec P x * dec P y <= dec P x' * dec P y')%Q -> saturating_rmul b L P x y m = Ret r -> saturating_rmul b' L P x' y' m = Ret r' -> r <= r'.
Proof. exact saturating_order. Qed.
Print Assumptions C101_saturating_rmul.
Example C101_saturating_rmul_case : valid dev L64 9 /\ valid no_std L64 9 /\ ovf dev = true /\ ovf no_std = true /\ in_range L64
  1500000000 /\ in_range L64 700000001 /\ in_range L64 1600000001 /\ in_range L64 700000002 /\ (dec 9 1500000000 * dec 9 700000001
  <= dec 9 1600000001 * dec 9 700000002)%Q /\ saturating_rmul dev L64 9 1500000000 700000001 Nearest = Ret 1050000002 /\
  saturating_rmul no_std L64 9 1600000001 700000002 Nearest = Ret 1120000004.
Proof. meets. Qed.
(** Not without overflow checks: 1.6 units give 2 but 1.66... units give 1. *)
Theorem C101_unchecked : exists x y x' y' r r', valid release L16 4 /\ in_range L16 x /\ in_range L16 y /\ in_range L16 x' /\ in_range L16 y' /\
  (dec 4 x / dec 4 y <= dec 4 x' / dec 4 y')%Q /\ rdiv release L16 4 x y Nearest = Ret (Ok r) /\ rdiv release L16 4 x' y' Nearest = Ret (Ok r') /\ r' < r.
Proof. exact order_unchecked. Qed.
Print Assumptions C101_unchecked.
Example C101_example : valid dev L16 4 /\ valid no_std L16 4 /\ (dec 4 4 / dec 4 25000 <= dec 4 7 / dec 4 10000)%Q /\
  rdiv dev L16 4 4 25000 Nearest = Ret (Ok 2) /\ rdiv no_std L16 4 7 10000 Nearest = Ret (Ok 7) /\
  (0 <= dec 4 30000 * dec 4 30000 <= dec 4 (-32768) * dec 4 (-30000))%Q /\
  rmul dev L16 4 30000 30000 Ceil = Ret (Err Overflow) /\ rmul dev L16 4 (-32768) (-30000) Ceil = Ret (Err Overflow) /\
  recip dev L16 4 10000 Floor = Ret (Ok 10000) /\ recip dev L16 4 15000 Floor = Ret (Ok 6666).
Proof. example. Qed.
