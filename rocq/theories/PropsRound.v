(** * PropsRound: C16-C18, C20, C22-C24 and the exact forms C55-C57. *)
From Verif Require Import Base Promo Ops Fixed Spec MulDiv DecProofs OrderFacts Refute.
From Verif Require Import Fixed.
From Verif Require Import Meets.
Open Scope Z_scope.

(** ** C16 *)
Theorem C16_half_sum_total : forall b L x y m, in_range L x -> in_range L y ->
  exists r, half_sum b L x y m = Ret r /\ in_range L r.
Proof. exact half_sum_total. Qed.
Print Assumptions C16_half_sum_total.
Example C16_half_sum_total_case : in_range L64 1500000000 /\ in_range L64 (-700000001).
Proof. meets. Qed.
(** Missing: [Nearest] on two negative numbers whose mean is a tie, where the property is false;
    see C55. *)
Theorem C16_half_sum_partial : forall b L P x y m, 0 <= P -> in_range L x -> in_range L y ->
  (m = Nearest -> ~ (x < 0 /\ y < 0 /\ Z.odd (x + y) = true)) ->
  exists r, half_sum b L x y m = Ret r /\ in_range L r /\ rounds_to m P ((dec P x + dec P y) / 2) r.
Proof. exact half_sum_rounded. Qed.
Print Assumptions C16_half_sum_partial.
Example C16_half_sum_partial_case : 0 <= 9 /\ in_range L64 1500000000 /\ in_range L64 (-700000001) /\ (Nearest = Nearest -> ~
  (1500000000 < 0 /\ (-700000001) < 0 /\ Z.odd (1500000000 + (-700000001)) = true)).
Proof. meets. Qed.
Theorem C16_half_sum_refuted :
  exists x y r s, valid dev L16 4 /\ in_range L16 x /\ in_range L16 y /\ rounds_to Nearest 4 ((dec 4 x + dec 4 y) / 2) r /\
    half_sum dev L16 x y Nearest = Ret s /\ s <> r.
Proof. exact half_sum_refuted. Qed.
Print Assumptions C16_half_sum_refuted.
Example C16_example : in_range L16 32767 /\ in_range L16 32766 /\ half_sum dev L16 32767 32766 Nearest = Ret 32767 /\
  half_sum dev L16 (-32768) 32767 Floor = Ret (-1).
Proof. example. Qed.

(** ** C17 *)
(** Missing: MIN, and [Nearest] on the 128-bit layout at precision 38; see C56. *)
Theorem C17_integral_partial : forall b L P x m, valid b L P -> in_range L x -> x <> lo L ->
  (m = Nearest -> ~ (L = L128 /\ P = 38)) ->
  exists i, integral b L P x m = Ret i /\ in_range L i /\ rounds m (dec P x) i.
Proof. exact integral_rounded. Qed.
Print Assumptions C17_integral_partial.
Example C17_integral_partial_case : valid dev L64 9 /\ in_range L64 1500000000 /\ 1500000000 <> lo L64 /\ (Nearest = Nearest -> ~
  (L64 = L128 /\ 9 = 38)).
Proof. meets. Qed.
Theorem C17_integral_refuted :
  exists x i j, valid dev L16 1 /\ valid release L16 1 /\ in_range L16 x /\ rounds Floor (dec 1 x) i /\
    integral dev L16 1 x Floor = Panic /\ integral release L16 1 x Floor = Ret j /\ j <> i.
Proof. exact integral_refuted. Qed.
Print Assumptions C17_integral_refuted.
Example C17_example : valid dev L64 9 /\ in_range L64 (-1500000000) /\ integral dev L64 9 (-1500000000) Nearest = Ret (-2) /\
  integral dev L64 9 (-1500000000) Floor = Ret (-2) /\ integral dev L64 9 (-1500000000) Ceil = Ret (-1).
Proof. example. Qed.

(** ** C18 *)
(** Missing: MIN, and rounding to nearest on the 128-bit layout at precision 38; see C56. *)
Theorem C18_int_part_partial : forall b L P x m, valid b L P -> in_range L x -> x <> lo L ->
  (m = Nearest -> ~ (L = L128 /\ P = 38)) ->
  exists i, rounds m (dec P x) i /\
    ((exists r, represents L P (Zq i) r /\
        (match m with Floor => floor b L P x | Nearest => round b L P x | Ceil => ceil b L P x end) = Ret r) \/
     ((forall r, ~ represents L P (Zq i) r) /\
        (match m with Floor => floor b L P x | Nearest => round b L P x | Ceil => ceil b L P x end) = Panic)).
Proof. exact floor_ceil_round_spec. Qed.
Print Assumptions C18_int_part_partial.
Example C18_int_part_partial_case : valid dev L64 9 /\ in_range L64 1500000000 /\ 1500000000 <> lo L64 /\ (Nearest = Nearest -> ~
  (L64 = L128 /\ 9 = 38)).
Proof. meets. Qed.
Theorem C18_floor_refuted :
  (exists x i j, valid release L16 1 /\ in_range L16 x /\ rounds Floor (dec 1 x) i /\
     (forall r, in_range L16 r -> ~ (dec 1 r == Zq i)%Q) /\ floor release L16 1 x = Ret j) /\
  (exists x i r, valid dev L16 0 /\ in_range L16 x /\ rounds Floor (dec 0 x) i /\ represents L16 0 (Zq i) r /\
     floor dev L16 0 x = Panic).
Proof. exact floor_refuted. Qed.
Print Assumptions C18_floor_refuted.
Example C18_example : valid dev L16 1 /\ in_range L16 32767 /\ floor dev L16 1 32767 = Ret 32760 /\
  ceil dev L16 1 32767 = Panic /\ round release L16 1 (-32765) = Panic /\ round dev L16 1 (-25) = Ret (-30).
Proof. example. Qed.

(** ** C20 *)
Theorem C20_next_power_of_ten_positive : forall b L x, in_range L x -> 0 < x ->
  exists k, 0 <= k /\ x <= 10 ^ k /\ (forall j, 0 <= j -> x <= 10 ^ j -> k <= j) /\
    exact_or_overflow L (10 ^ k) (next_power_of_ten b L x).
Proof. exact npt_pos_spec. Qed.
Print Assumptions C20_next_power_of_ten_positive.
Example C20_next_power_of_ten_positive_case : in_range L64 1500000000 /\ 0 < 1500000000.
Proof. meets. Qed.
Theorem C20_next_power_of_ten_zero : forall b L, next_power_of_ten b L 0 = Ret (Ok EPSILON).
Proof. exact npt_zero. Qed.
Print Assumptions C20_next_power_of_ten_zero.
Theorem C20_next_power_of_ten_negative : forall b L x, in_range L x -> x < 0 -> x <> lo L ->
  (exists v, next_power_of_ten b L (- x) = Ret (Ok v) /\ next_power_of_ten b L x = Ret (Ok (- v))) \/
  (next_power_of_ten b L (- x) = Ret (Err Overflow) /\ next_power_of_ten b L x = Ret (Err Overflow)).
Proof. exact npt_neg_spec. Qed.
Print Assumptions C20_next_power_of_ten_negative.
Example C20_next_power_of_ten_negative_case : in_range L64 (-1500000000) /\ (-1500000000) < 0 /\ (-1500000000) <> lo L64.
Proof. meets. Qed.
Theorem C20_next_power_of_ten_min : forall b L, next_power_of_ten b L (lo L) = Ret (Err Overflow).
Proof. exact npt_min. Qed.
Print Assumptions C20_next_power_of_ten_min.
Example C20_example : in_range L128 10000000000000000000000000000000000001 /\
  next_power_of_ten dev L128 10000000000000000000000000000000000001 = Ret (Ok 100000000000000000000000000000000000000) /\
  next_power_of_ten dev L128 100000000000000000000000000000000000001 = Ret (Err Overflow) /\
  next_power_of_ten dev L16 (-1000) = Ret (Ok (-1000)).
Proof. example. Qed.

(** ** C22 *)
Theorem C22_from_decimal_exponent : forall b L P m e, valid b L P -> ~ (- P <= e <= 10) ->
  from_decimal b L P m e = Ret (Err ConvertError).
Proof. exact from_decimal_bad. Qed.
Print Assumptions C22_from_decimal_exponent.
Example C22_from_decimal_exponent_case : valid dev L64 9 /\ ~ (- 9 <= 11 <= 10).
Proof. meets. Qed.
(** Missing: exponents for which 10^(e+P) itself overflows, where the property is false; see C57. *)
Theorem C22_from_decimal_partial : forall b L P m e, valid b L P -> - P <= e <= 10 -> 10 ^ (e + P) <= hi L ->
  exact_or L P (Zq m * q10 e) ConvertError (from_decimal b L P m e).
Proof. exact from_decimal_spec. Qed.
Print Assumptions C22_from_decimal_partial.
Example C22_from_decimal_partial_case : valid dev L64 9 /\ - 9 <= (-1) <= 10 /\ 10 ^ ((-1) + 9) <= hi L64.
Proof. meets. Qed.
Theorem C22_from_decimal_refuted :
  (exists m e r, valid release L64 9 /\ in_range L64 m /\ -9 <= e <= 10 /\ from_decimal release L64 9 m e = Ret (Ok r) /\
     ~ (dec 9 r == Zq m * q10 e)%Q) /\
  (exists m e r, valid dev L64 9 /\ in_range L64 m /\ -9 <= e <= 10 /\ represents L64 9 (Zq m * q10 e) r /\
     from_decimal dev L64 9 m e = Panic).
Proof. exact from_decimal_refuted. Qed.
Print Assumptions C22_from_decimal_refuted.
Example C22_example : valid dev L64 9 /\ from_decimal dev L64 9 (-5) (-9) = Ret (Ok (-5)) /\
  from_decimal dev L64 9 12 3 = Ret (Ok 12000000000000) /\ from_decimal dev L64 9 10 9 = Ret (Err ConvertError) /\
  10 ^ (9 + 9) <= hi L64.
Proof. example. Qed.

(** ** C23 *)
Theorem C23_to_decimal : forall b L P x k, valid b L P -> in_range L x -> fits I32 k -> - P <= k ->
  exists m e, to_decimal b L P x k = Ret (m, e) /\ (Zq m * q10 e == dec P x)%Q /\ - P <= e <= k /\
    in_range L m /\ (x <> 0 -> e = k \/ m mod 10 <> 0) /\ (x = 0 -> m = 0 /\ e = Z.min 0 k).
Proof. exact to_decimal_spec. Qed.
Print Assumptions C23_to_decimal.
Example C23_to_decimal_case : valid dev L64 9 /\ in_range L64 1500000000 /\ fits I32 (-3) /\ - 9 <= (-3).
Proof. meets. Qed.
Theorem C23_to_decimal_panic : forall b L P x k, valid b L P -> k < - P -> to_decimal b L P x k = Panic.
Proof. exact to_decimal_panic. Qed.
Print Assumptions C23_to_decimal_panic.
Example C23_to_decimal_panic_case : valid dev L64 9 /\ (-10) < - 9.
Proof. meets. Qed.
Example C23_example : valid dev L64 9 /\ fits I32 2147483647 /\ to_decimal dev L64 9 (-12000000000000) 2147483647 = Ret (-12, 3) /\
  to_decimal dev L64 9 (-12000000000000) 0 = Ret (-12000, 0) /\ to_decimal dev L64 9 0 (-3) = Ret (0, -3).
Proof. example. Qed.

(** ** C24 *)
Theorem C24_round_trip : forall b b' L P x k, valid b L P -> valid b' L P -> in_range L x -> - P <= k <= 10 ->
  exists m e, to_decimal b L P x k = Ret (m, e) /\ from_decimal b' L P m e = Ret (Ok x).
Proof. exact decimal_round_trip. Qed.
Print Assumptions C24_round_trip.
Example C24_round_trip_case : valid dev L64 9 /\ valid release L64 9 /\ in_range L64 1500000000 /\ - 9 <= (-3) <= 10.
Proof. meets. Qed.
Example C24_example : valid dev L64 9 /\ in_range L64 9000000000000000000 /\
  to_decimal dev L64 9 9000000000000000000 10 = Ret (9, 9) /\ from_decimal dev L64 9 9 9 = Ret (Ok 9000000000000000000).
Proof. example. Qed.

(** ** C55: the mean of two negative numbers whose sum is odd is rounded up *)
Theorem C55_half_sum_tie : forall b L P x y, 0 <= P -> in_range L x -> in_range L y -> x < 0 -> y < 0 ->
  Z.odd (x + y) = true ->
  exists r, half_sum b L x y Nearest = Ret r /\ rounds_to Ceil P ((dec P x + dec P y) / 2) r /\
    ~ rounds_to Nearest P ((dec P x + dec P y) / 2) r.
Proof. exact half_sum_neg_tie. Qed.
Print Assumptions C55_half_sum_tie.
Example C55_half_sum_tie_case : 0 <= 9 /\ in_range L64 (-1500000000) /\ in_range L64 (-700000001) /\ (-1500000000) < 0 /\
  (-700000001) < 0 /\ Z.odd ((-1500000000) + (-700000001)) = true.
Proof. meets. Qed.
Example C55_example : in_range L16 (-1) /\ in_range L16 (-32768) /\ Z.odd (-1 + -32768) = true /\
  half_sum dev L16 (-1) (-32768) Nearest = Ret (-16384).
Proof. example. Qed.

(** ** C56: rounding MIN, and rounding to nearest at precision 38 *)
Theorem C56_integral_min : forall b L P m, valid b L P -> ovf b = true -> integral b L P (lo L) m = Panic.
Proof. exact integral_min_panic. Qed.
Print Assumptions C56_integral_min.
Example C56_integral_min_case : valid dev L64 9 /\ ovf dev = true.
Proof. meets. Qed.
Theorem C56_integral_min_release : forall b L P m, valid b L P -> ovf b = false ->
  exists i, integral b L P (lo L) m = Ret i /\ rounds Ceil (dec P (lo L)) i.
Proof. exact integral_min_ceil. Qed.
Print Assumptions C56_integral_min_release.
Example C56_integral_min_release_case : valid release L64 9 /\ ovf release = false.
Proof. meets. Qed.
Theorem C56_int_part_min : forall b L P m, valid b L P -> ovf b = true -> int_part b L P (lo L) m = Panic.
Proof. exact int_part_min_panic. Qed.
Print Assumptions C56_int_part_min.
Example C56_int_part_min_case : valid dev L64 9 /\ ovf dev = true.
Proof. meets. Qed.
Theorem C56_int_part_min_release : forall b L P m, valid b L P -> ovf b = false ->
  exists r, int_part b L P (lo L) m = Ret r /\
    (exists i, rounds Ceil (dec P (lo L)) i /\ represents L P (Zq i) r).
Proof. exact int_part_min_wrap. Qed.
Print Assumptions C56_int_part_min_release.
Example C56_int_part_min_release_case : valid release L64 9 /\ ovf release = false.
Proof. meets. Qed.
Theorem C56_integral38 : forall b x, valid b L128 38 -> in_range L128 x -> x <> lo L128 -> ovf b = true ->
  hi L128 < 2 * Z.abs (Z.rem x (10 ^ 38)) -> integral b L128 38 x Nearest = Panic.
Proof. exact integral38_panic. Qed.
Print Assumptions C56_integral38.
Example C56_integral38_case : valid dev L128 38 /\ in_range L128 (-99999999999999999999999999999999999999) /\
  (-99999999999999999999999999999999999999) <> lo L128 /\ ovf dev = true /\ hi L128 < 2 * Z.abs (Z.rem
  (-99999999999999999999999999999999999999) (10 ^ 38)).
Proof. meets. Qed.
Example C56_example : valid release L16 1 /\ integral release L16 1 (lo L16) Floor = Ret (-3276) /\
  integral dev L16 1 (lo L16) Floor = Panic /\ valid dev L128 38 /\
  hi L128 < 2 * Z.abs (Z.rem 99999999999999999999999999999999999999 (10 ^ 38)) /\
  integral dev L128 38 99999999999999999999999999999999999999 Nearest = Panic.
Proof. example. Qed.

(** ** C57: [from_decimal] when the power of ten overflows *)
Theorem C57_from_decimal_panic : forall b L P m e, valid b L P -> - P <= e <= 10 -> hi L < 10 ^ (e + P) -> ovf b = true ->
  from_decimal b L P m e = Panic.
Proof. exact from_decimal_panic. Qed.
Print Assumptions C57_from_decimal_panic.
Example C57_from_decimal_panic_case : valid dev L64 9 /\ - 9 <= 10 <= 10 /\ hi L64 < 10 ^ (10 + 9) /\ ovf dev = true.
Proof. meets. Qed.
Theorem C57_from_decimal_release : forall b L P m e, valid b L P -> - P <= e <= 10 -> hi L < 10 ^ (e + P) -> ovf b = false ->
  exists k, lo L <= 10 ^ (e + P) + k * 2 ^ bits L <= hi L /\
    ((in_range L (m * (10 ^ (e + P) + k * 2 ^ bits L)) /\
      from_decimal b L P m e = Ret (Ok (m * (10 ^ (e + P) + k * 2 ^ bits L)))) \/
     (~ in_range L (m * (10 ^ (e + P) + k * 2 ^ bits L)) /\ from_decimal b L P m e = Ret (Err ConvertError))).
Proof. exact from_decimal_wrap. Qed.
Print Assumptions C57_from_decimal_release.
Example C57_from_decimal_release_case : valid release L64 9 /\ - 9 <= 10 <= 10 /\ hi L64 < 10 ^ (10 + 9) /\ ovf release = false.
Proof. meets. Qed.
Example C57_example : valid release L64 9 /\ hi L64 < 10 ^ (10 + 9) /\
  from_decimal release L64 9 1 10 = Ret (Ok (-8446744073709551616)) /\ from_decimal dev L64 9 1 10 = Panic.
Proof. example. Qed.
