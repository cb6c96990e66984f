(** * PropsFloat: C32-C36, C48, C65, C66, and C43 for the conversion from f64. *)
From Coq Require Import SpecFloat QArith Qabs Qpower.
From Verif Require Import Base Promo Ops Fixed Float Codec Spec SpecF64 SpecBuild F64Proofs ToF64 FloatProps.
From Verif Require Import Fixed.
From Verif Require Import Meets.
Open Scope Z_scope.

(** ** C32 *)
Theorem C32_total : forall b L P raw, valid b L P -> is_f64 raw ->
  try_from_f64 b L P raw = Ret (Err ConvertError) \/ exists x, try_from_f64 b L P raw = Ret (Ok x) /\ in_range L x.
Proof. exact total. Qed.
Print Assumptions C32_total.
Example C32_total_case : valid dev L64 9 /\ is_f64 4591870180066957722.
Proof. meets. Qed.
Theorem C32_not_finite : forall b L P raw, f64_exponent raw = 2047 -> try_from_f64 b L P raw = Ret (Err ConvertError).
Proof. exact conv_nonfinite. Qed.
Print Assumptions C32_not_finite.
Example C32_not_finite_case : f64_exponent 9218868437227405312 = 2047.
Proof. meets. Qed.
Theorem C32_zero : forall b L P raw, valid b L P -> f64_finite raw -> (f64_val raw == 0)%Q -> try_from_f64 b L P raw = Ret (Ok 0).
Proof. exact conv_zero. Qed.
Print Assumptions C32_zero.
Example C32_zero_case : valid dev L64 9 /\ f64_finite 9223372036854775808 /\ (f64_val 9223372036854775808 == 0)%Q.
Proof. meets. Qed.
Theorem C32_negate : forall b L P raw, valid b L P -> is_f64 raw ->
  (forall x, try_from_f64 b L P raw = Ret (Ok x) -> try_from_f64 b L P (f64_negate raw) = Ret (Ok (- x))) /\
  (forall e, try_from_f64 b L P raw = Ret (Err e) -> try_from_f64 b L P (f64_negate raw) = Ret (Err e)).
Proof. exact negated. Qed.
Print Assumptions C32_negate.
Example C32_negate_case : valid dev L64 9 /\ is_f64 4591870180066957722.
Proof. meets. Qed.
(** Flipping the sign bit negates the value. *)
Theorem C32_negate_value : forall raw, is_f64 raw -> is_f64 (f64_negate raw) /\ (f64_val (f64_negate raw) == - f64_val raw)%Q.
Proof. exact negate_val. Qed.
Print Assumptions C32_negate_value.
Example C32_negate_value_case : is_f64 4591870180066957722.
Proof. meets. Qed.
Theorem C32_sign : forall b L P raw x, valid b L P -> is_f64 raw -> try_from_f64 b L P raw = Ret (Ok x) ->
  (f64_sign raw = false -> 0 <= x) /\ (f64_sign raw = true -> x <= 0).
Proof. exact signs. Qed.
Print Assumptions C32_sign.
Example C32_sign_case : valid dev L64 9 /\ is_f64 4591870180066957722 /\ try_from_f64 dev L64 9 4591870180066957722 = Ret (Ok
  100000000).
Proof. meets. Qed.
(** In particular the smallest number is never the result. *)
Theorem C32_never_min : forall b L P raw x, valid b L P -> is_f64 raw -> try_from_f64 b L P raw = Ret (Ok x) -> - hi L <= x <= hi L.
Proof. exact never_min. Qed.
Print Assumptions C32_never_min.
Example C32_never_min_case : valid dev L64 9 /\ is_f64 4591870180066957722 /\ try_from_f64 dev L64 9 4591870180066957722 = Ret (Ok
  100000000).
Proof. meets. Qed.
(** 1.5, -1.5, -0.0, an infinity, and 1e30, which does not fit. *)
Example C32_example : valid dev L32 3 /\ is_f64 4609434218613702656 /\ (f64_val 4609434218613702656 == 3 # 2)%Q /\
  f64_negate 4609434218613702656 = 13832806255468478464 /\
  try_from_f64 dev L32 3 4609434218613702656 = Ret (Ok 1500) /\
  try_from_f64 dev L32 3 13832806255468478464 = Ret (Ok (-1500)) /\
  (f64_val 9223372036854775808 == 0)%Q /\ try_from_f64 dev L32 3 9223372036854775808 = Ret (Ok 0) /\
  f64_exponent 9218868437227405312 = 2047 /\ try_from_f64 dev L32 3 5055640609639927018 = Ret (Err ConvertError).
Proof. unfold is_f64. example. Qed.

(** ** C33 *)
Theorem C33_error : forall b L P raw x, valid b L P -> f64_finite raw -> try_from_f64 b L P raw = Ret (Ok x) ->
  (Qabs (dec P x - f64_val raw) <= (5 # 9) * q10 (- P) + Qabs (f64_val raw) * Qpower (2 # 1) (-49))%Q.
Proof. exact conv_error. Qed.
Print Assumptions C33_error.
Example C33_error_case : valid dev L64 9 /\ f64_finite 4591870180066957722 /\ try_from_f64 dev L64 9 4591870180066957722 = Ret (Ok
  100000000).
Proof. meets. Qed.
Theorem C33_overflow : forall b L P raw e, valid b L P -> f64_finite raw -> try_from_f64 b L P raw = Ret (Err e) ->
  ((1 - Qpower (2 # 1) (-49)) * dec P (hi L) <= Qabs (f64_val raw))%Q.
Proof. exact conv_overflow. Qed.
Print Assumptions C33_overflow.
Example C33_overflow_case : valid dev L64 9 /\ f64_finite 4906019910204099648 /\ try_from_f64 dev L64 9 4906019910204099648 = Ret
  (Err ConvertError).
Proof. meets. Qed.
(** 0.45, and 1e30. *)
Example C33_example : valid dev L32 1 /\ f64_finite 4601778099247172813 /\ try_from_f64 dev L32 1 4601778099247172813 = Ret (Ok 5) /\
  f64_finite 5055640609639927018 /\ try_from_f64 dev L32 1 5055640609639927018 = Ret (Err ConvertError).
Proof. unfold f64_finite, is_f64. example. Qed.

(** ** C34 *)
(** For integers of any size. *)
Theorem C34_integer : forall b L P raw n, valid b L P -> f64_finite raw -> (f64_val raw == Zq n)%Q ->
  (- hi L <= n * 10 ^ P <= hi L -> try_from_f64 b L P raw = Ret (Ok (n * 10 ^ P))) /\
  (~ - hi L <= n * 10 ^ P <= hi L -> try_from_f64 b L P raw = Ret (Err ConvertError)).
Proof. exact int_exact. Qed.
Print Assumptions C34_integer.
Example C34_integer_case : valid dev L64 9 /\ f64_finite 4619567317775286272 /\ (f64_val 4619567317775286272 == Zq 7)%Q.
Proof. meets. Qed.
(** 2^55 + 8, an integer of 56 bits. *)
Example C34_example : valid dev L128 18 /\ f64_finite 4854880398305394689 /\ (f64_val 4854880398305394689 == Zq 36028797018963976)%Q /\
  try_from_f64 dev L128 18 4854880398305394689 = Ret (Ok 36028797018963976000000000000000000).
Proof. unfold f64_finite, is_f64. example. Qed.

(** ** C35 *)
Theorem C35_error : forall b L P x, valid b L P -> in_range L x -> exists f, to_f64 b L P x = Ret f /\
  f64_finite (f64_to_bits f) /\ (Qabs (f64_val (f64_to_bits f) - dec P x) <= Qabs (dec P x) * Qpower (2 # 1) (-51))%Q.
Proof. exact to_f64_error. Qed.
Print Assumptions C35_error.
Example C35_error_case : valid dev L64 9 /\ in_range L64 1500000000.
Proof. meets. Qed.
Theorem C35_sign : forall b L P x f, valid b L P -> in_range L x -> to_f64 b L P x = Ret f ->
  (x = 0 -> f64_to_bits f = 0) /\ (0 < x -> (0 < f64_val (f64_to_bits f))%Q) /\ (x < 0 -> (f64_val (f64_to_bits f) < 0)%Q).
Proof. exact to_sign. Qed.
Print Assumptions C35_sign.
Example C35_sign_case : valid dev L64 9 /\ in_range L64 1500000000 /\ to_f64 dev L64 9 1500000000 = Ret (S754_finite false
  6755399441055744 (-52)).
Proof. meets. Qed.
Theorem C35_integer : forall b L P n f, valid b L P -> in_range L (n * 10 ^ P) -> Z.abs n <= 2 ^ 53 ->
  to_f64 b L P (n * 10 ^ P) = Ret f -> (f64_val (f64_to_bits f) == Zq n)%Q.
Proof. exact to_f64_int. Qed.
Print Assumptions C35_integer.
Example C35_integer_case : valid dev L64 9 /\ in_range L64 (7 * 10 ^ 9) /\ Z.abs 7 <= 2 ^ 53 /\ to_f64 dev L64 9 (7 * 10 ^ 9) =
  Ret (S754_finite false 7881299347898368 (-50)).
Proof. meets. Qed.
(** -123.456789012345, which no f64 equals, and -7. *)
Example C35_example : valid dev L64 12 /\ in_range L64 (-123456789012345) /\
  to_f64 dev L64 12 (-123456789012345) = Ret (S754_finite true 8687499203005545 (-46)) /\
  f64_to_bits (S754_finite true 8687499203005545 (-46)) = 13861759952994651241 /\
  ~ (f64_val 13861759952994651241 == dec 12 (-123456789012345))%Q /\
  in_range L64 (-7 * 10 ^ 12) /\ to_f64 dev L64 12 (-7 * 10 ^ 12) = Ret (S754_finite true 7881299347898368 (-50)).
Proof. example. Qed.

(** ** C36 *)
(** Missing: numbers of more than fifteen digits and MIN, where the property is false. *)
Theorem C36_round_trip_partial : forall b b' L P x, valid b L P -> valid b' L P -> in_range L x -> x <> lo L -> Z.abs x <= 10 ^ 15 ->
  exists f, to_f64 b L P x = Ret f /\ try_from_f64 b' L P (f64_to_bits f) = Ret (Ok x).
Proof. exact trip15. Qed.
Print Assumptions C36_round_trip_partial.
Example C36_round_trip_partial_case : valid dev L64 9 /\ valid release L64 9 /\ in_range L64 1500000000 /\ 1500000000 <> lo L64 /\
  Z.abs 1500000000 <= 10 ^ 15.
Proof. meets. Qed.
Theorem C36_round_trip_refuted : exists x f, valid dev L64 12 /\ in_range L64 x /\ to_f64 dev L64 12 x = Ret f /\
  try_from_f64 dev L64 12 (f64_to_bits f) = Ret (Ok (x + 1)).
Proof. exact trip_wrong. Qed.
Print Assumptions C36_round_trip_refuted.
Theorem C36_min_refuted : exists f, to_f64 dev L16 2 (lo L16) = Ret f /\
  try_from_f64 dev L16 2 (f64_to_bits f) = Ret (Err ConvertError).
Proof. exact trip_min. Qed.
Print Assumptions C36_min_refuted.

(** ** C48 *)
Theorem C48_monotone : forall b L P raw raw' x x', valid b L P -> f64_finite raw -> f64_finite raw' ->
  (f64_val raw <= f64_val raw')%Q -> try_from_f64 b L P raw = Ret (Ok x) -> try_from_f64 b L P raw' = Ret (Ok x') -> x <= x'.
Proof. exact conv_mono. Qed.
Print Assumptions C48_monotone.
Example C48_monotone_case : valid dev L64 9 /\ f64_finite 4591870180066957722 /\ f64_finite 4596373779694328218 /\ (f64_val
  4591870180066957722 <= f64_val 4596373779694328218)%Q /\ try_from_f64 dev L64 9 4591870180066957722 = Ret (Ok 100000000) /\
  try_from_f64 dev L64 9 4596373779694328218 = Ret (Ok 200000000).
Proof. meets. Qed.
(** -1.5 and 0.45. *)
Example C48_example : valid dev L32 1 /\ f64_finite 13832806255468478464 /\ f64_finite 4601778099247172813 /\
  (f64_val 13832806255468478464 <= f64_val 4601778099247172813)%Q /\
  try_from_f64 dev L32 1 13832806255468478464 = Ret (Ok (-15)) /\ try_from_f64 dev L32 1 4601778099247172813 = Ret (Ok 5).
Proof. unfold f64_finite, is_f64. example. Qed.

(** ** C43 *)
Theorem C43_try_from_f64 : forall b b' L P raw, valid b L P -> valid b' L P -> is_f64 raw ->
  try_from_f64 b L P raw = try_from_f64 b' L P raw.
Proof. exact all_try_from_f64. Qed.
Print Assumptions C43_try_from_f64.
Example C43_try_from_f64_case : valid dev L64 9 /\ valid release L64 9 /\ is_f64 4591870180066957722.
Proof. meets. Qed.
Example C43_float_example : valid dev L64 12 /\ valid no_std L64 12 /\ is_f64 13861759952994651241 /\
  try_from_f64 no_std L64 12 13861759952994651241 = Ret (Ok (-123456789012345)).
Proof. unfold is_f64. example. Qed.

(** ** C65 *)
Theorem C65_float_modules : forall b b' L P x, valid b L P -> valid b' L P -> in_range L x -> x <> lo L -> Z.abs x <= 10 ^ 15 ->
  (exists tok, float_serialize b L P x = Ret tok /\ float_deserialize b' L P tok = Ret (Ok x)) /\
  (exists tok, float_option_serialize b L P (Some x) = Ret tok /\ float_option_deserialize b' L P tok = Ret (Ok (Some x))).
Proof. exact trip15_serde. Qed.
Print Assumptions C65_float_modules.
Example C65_float_modules_case : valid dev L64 9 /\ valid release L64 9 /\ in_range L64 1500000000 /\ 1500000000 <> lo L64 /\
  Z.abs 1500000000 <= 10 ^ 15.
Proof. meets. Qed.
Theorem C65_round_trip : forall b b' L P x, valid b L P -> valid b' L P -> in_range L x -> x <> lo L -> Z.abs x <= 10 ^ 15 ->
  exists f, to_f64 b L P x = Ret f /\ try_from_f64 b' L P (f64_to_bits f) = Ret (Ok x).
Proof. exact trip15. Qed.
Print Assumptions C65_round_trip.
Example C65_round_trip_case : valid dev L64 9 /\ valid release L64 9 /\ in_range L64 1500000000 /\ 1500000000 <> lo L64 /\ Z.abs
  1500000000 <= 10 ^ 15.
Proof. meets. Qed.
Example C65_example : valid dev L64 12 /\ valid release L64 12 /\ in_range L64 (-999999999999999) /\ -999999999999999 <> lo L64 /\
  Z.abs (-999999999999999) <= 10 ^ 15 /\ float_serialize dev L64 12 (-999999999999999) = Ret (TF64 13875379345695965175) /\
  float_deserialize release L64 12 (TF64 13875379345695965175) = Ret (Ok (-999999999999999)).
Proof. example. Qed.

(** ** C66 *)
(** Missing: a fraction between four ninths and one half of a unit is rounded away from zero, so
    the property is false. *)
Theorem C66_threshold_partial : forall b L P raw x, valid b L P -> f64_finite raw -> try_from_f64 b L P raw = Ret (Ok x) ->
  (Qabs (dec P x) <= Qabs (f64_val raw) + (5 # 9) * q10 (- P) + Qabs (f64_val raw) * Qpower (2 # 1) (-49))%Q /\
  (Qabs (f64_val raw) <= Qabs (dec P x) + (4 # 9) * q10 (- P) + Qabs (f64_val raw) * Qpower (2 # 1) (-49))%Q.
Proof. exact conv_threshold. Qed.
Print Assumptions C66_threshold_partial.
Example C66_threshold_partial_case : valid dev L64 9 /\ f64_finite 4591870180066957722 /\ try_from_f64 dev L64 9
  4591870180066957722 = Ret (Ok 100000000).
Proof. meets. Qed.
Theorem C66_nearest_refuted : exists raw x, valid dev L32 0 /\ f64_finite raw /\ try_from_f64 dev L32 0 raw = Ret (Ok x) /\
  in_range L32 (x - 1) /\ (Qabs (f64_val raw - dec 0 (x - 1)) < Qabs (f64_val raw - dec 0 x))%Q.
Proof. exact not_nearest. Qed.
Print Assumptions C66_nearest_refuted.
