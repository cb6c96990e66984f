(** * PropsProfile: C43, C63, C64. *)
From Coq Require Import SpecFloat.
From Verif Require Import Base Promo Ops Fixed Str Float Codec Macros Spec SpecText SpecBuild StrFacts Refute ProfileFacts.
From Verif Require Import Fixed.
From Verif Require Import Meets.
Open Scope Z_scope.

(** ** C43 *)
(** Missing: [Nearest] at i128 precision 38, where the property is false. *)
Theorem C43_rmul_partial : forall b b' L P x y m, valid b L P -> valid b' L P -> in_range L x -> in_range L y ->
  (m = Nearest -> ~ (L = L128 /\ P = 38)) -> rmul b L P x y m = rmul b' L P x y m.
Proof. exact all_rmul. Qed.
Print Assumptions C43_rmul_partial.
Example C43_rmul_partial_case : valid dev L64 9 /\ valid release L64 9 /\ in_range L64 1500000000 /\ in_range L64 (-700000001) /\
  (Nearest = Nearest -> ~ (L64 = L128 /\ 9 = 38)).
Proof. meets. Qed.
(** Missing: the operands on which checked arithmetic panics, where the property is false. *)
Theorem C43_rdiv_partial : forall b b' L P x y m, valid b L P -> valid b' L P -> in_range L x -> in_range L y ->
  (m = Nearest -> y <> 0 -> Z.rem (x * 10 ^ P) y <> 0 -> 2 * Z.abs (Z.rem (x * 10 ^ P) y) <= hi L /\ y <> lo L) ->
  rdiv b L P x y m = rdiv b' L P x y m.
Proof. exact all_rdiv. Qed.
Print Assumptions C43_rdiv_partial.
Example C43_rdiv_partial_case : valid dev L64 9 /\ valid release L64 9 /\ in_range L64 1500000000 /\ in_range L64 (-700000001) /\
  (Nearest = Nearest -> (-700000001) <> 0 -> Z.rem (1500000000 * 10 ^ 9) (-700000001) <> 0 -> 2 * Z.abs (Z.rem (1500000000 * 10 ^
  9) (-700000001)) <= hi L64 /\ (-700000001) <> lo L64).
Proof. meets. Qed.
(** Missing: the operands on which checked arithmetic panics, where the property is false. *)
Theorem C43_rdiv_int_partial : forall b b' L x n m, in_range L x -> in_range L n ->
  (m = Nearest -> n <> 0 -> Z.rem x n <> 0 -> 2 * Z.abs (Z.rem x n) <= hi L /\ n <> lo L) ->
  rdiv_int b L x n m = rdiv_int b' L x n m.
Proof. exact all_rdiv_int. Qed.
Print Assumptions C43_rdiv_int_partial.
Example C43_rdiv_int_partial_case : in_range L64 1500000000 /\ in_range L64 7 /\ (Nearest = Nearest -> 7 <> 0 -> Z.rem 1500000000
  7 <> 0 -> 2 * Z.abs (Z.rem 1500000000 7) <= hi L64 /\ 7 <> lo L64).
Proof. meets. Qed.
Theorem C43_half_sum : forall b b' L x y m, in_range L x -> in_range L y -> half_sum b L x y m = half_sum b' L x y m.
Proof. exact all_half_sum. Qed.
Print Assumptions C43_half_sum.
Example C43_half_sum_case : in_range L64 1500000000 /\ in_range L64 (-700000001).
Proof. meets. Qed.
(** Missing: the smallest number, and [Nearest] at i128 precision 38; the property is false there. *)
Theorem C43_integral_partial : forall b b' L P x m, valid b L P -> valid b' L P -> in_range L x -> x <> lo L ->
  (m = Nearest -> ~ (L = L128 /\ P = 38)) -> integral b L P x m = integral b' L P x m.
Proof. exact all_integral. Qed.
Print Assumptions C43_integral_partial.
Example C43_integral_partial_case : valid dev L64 9 /\ valid release L64 9 /\ in_range L64 1500000000 /\ 1500000000 <> lo L64 /\
  (Nearest = Nearest -> ~ (L64 = L128 /\ 9 = 38)).
Proof. meets. Qed.
(** Missing: the same numbers.  [floor], [round] and [ceil] are [int_part] at the three modes. *)
Theorem C43_int_part_partial : forall b b' L P x m, valid b L P -> valid b' L P -> in_range L x -> x <> lo L ->
  (m = Nearest -> ~ (L = L128 /\ P = 38)) -> int_part b L P x m = int_part b' L P x m.
Proof. exact all_int_part. Qed.
Print Assumptions C43_int_part_partial.
Example C43_int_part_partial_case : valid dev L64 9 /\ valid release L64 9 /\ in_range L64 1500000000 /\ 1500000000 <> lo L64 /\
  (Nearest = Nearest -> ~ (L64 = L128 /\ 9 = 38)).
Proof. meets. Qed.
(** Missing: exponents for which 10^(e+P) overflows, where the property is false. *)
Theorem C43_from_decimal_partial : forall b b' L P x e, valid b L P -> valid b' L P -> 10 ^ (e + P) <= hi L ->
  from_decimal b L P x e = from_decimal b' L P x e.
Proof. exact all_from_decimal. Qed.
Print Assumptions C43_from_decimal_partial.
Example C43_from_decimal_partial_case : valid dev L64 9 /\ valid release L64 9 /\ 10 ^ ((-1) + 9) <= hi L64.
Proof. meets. Qed.
Theorem C43_to_decimal : forall b b' L P x k, valid b L P -> valid b' L P -> in_range L x -> fits I32 k ->
  to_decimal b L P x k = to_decimal b' L P x k.
Proof. exact all_to_decimal. Qed.
Print Assumptions C43_to_decimal.
Example C43_to_decimal_case : valid dev L64 9 /\ valid release L64 9 /\ in_range L64 1500000000 /\ fits I32 (-3).
Proof. meets. Qed.
Theorem C43_next_power_of_ten : forall b b' L x, in_range L x -> next_power_of_ten b L x = next_power_of_ten b' L x.
Proof. exact all_npt. Qed.
Print Assumptions C43_next_power_of_ten.
Example C43_next_power_of_ten_case : in_range L64 1500000000.
Proof. meets. Qed.
Theorem C43_rsqrt : forall b b' L P x m, valid b L P -> valid b' L P -> in_range L x -> rsqrt b L P x m = rsqrt b' L P x m.
Proof. exact all_rsqrt. Qed.
Print Assumptions C43_rsqrt.
Example C43_rsqrt_case : valid dev L64 9 /\ valid release L64 9 /\ in_range L64 1500000000.
Proof. meets. Qed.
Theorem C43_try_from_int : forall b b' L P x, valid b L P -> valid b' L P -> try_from_int b L P x = try_from_int b' L P x.
Proof. exact same_try_from_int. Qed.
Print Assumptions C43_try_from_int.
Example C43_try_from_int_case : valid dev L64 9 /\ valid release L64 9.
Proof. meets. Qed.
Theorem C43_parse : forall b b' L P exact s, valid b L P -> valid b' L P -> parse_str b L P exact s = parse_str b' L P exact s.
Proof. exact parse_profiles. Qed.
Print Assumptions C43_parse.
Example C43_parse_case : valid dev L64 9 /\ valid release L64 9.
Proof. meets. Qed.
(** Missing: the values that are not [printable], for which the property is false; see C61. *)
Theorem C43_to_string_partial : forall b b' L P x, valid b L P -> valid b' L P -> in_range L x -> printable b L P x -> printable b' L P x ->
  to_string b L P x = to_string b' L P x.
Proof. exact all_to_string. Qed.
Print Assumptions C43_to_string_partial.
Example C43_to_string_partial_case : valid dev L64 9 /\ valid release L64 9 /\ in_range L64 1500000000 /\ printable dev L64 9
  1500000000 /\ printable release L64 9 1500000000.
Proof. meets. Qed.
Theorem C43_to_f64 : forall b b' L P x, valid b L P -> valid b' L P -> to_f64 b L P x = to_f64 b' L P x.
Proof. exact same_to_f64. Qed.
Print Assumptions C43_to_f64.
Example C43_to_f64_case : valid dev L64 9 /\ valid release L64 9.
Proof. meets. Qed.
Theorem C43_profiles_refuted : exists x y r, valid dev L16 4 /\ valid release L16 4 /\ in_range L16 x /\ in_range L16 y /\
    rdiv dev L16 4 x y Nearest = Panic /\ rdiv release L16 4 x y Nearest = Ret (Ok r).
Proof. exact profiles_refuted. Qed.
Print Assumptions C43_profiles_refuted.
Example C43_example : valid dev L64 9 /\ valid release L64 9 /\ valid no_std L64 9 /\ in_range L64 (-10000000001) /\ in_range L64 3 /\
  2 * Z.abs (Z.rem (-10000000001 * 10 ^ 9) 3) <= hi L64 /\ 3 <> lo L64 /\ -10000000001 <> lo L64 /\ 10 ^ (0 + 9) <= hi L64 /\
  rdiv dev L64 9 (-10000000001) 3000000000 Nearest = Ret (Ok (-3333333334)) /\
  rdiv no_std L64 9 (-10000000001) 3000000000 Nearest = Ret (Ok (-3333333334)).
Proof. example. Qed.

(** ** C63 *)
Theorem C63_rmul : forall b b' L P x y m, strict b -> valid b L P -> valid b' L P -> unless_panic (rmul b L P x y m) (rmul b' L P x y m).
Proof. exact strict_rmul. Qed.
Print Assumptions C63_rmul.
Example C63_rmul_case : strict dev /\ valid dev L64 9 /\ valid release L64 9.
Proof. meets. Qed.
Theorem C63_rdiv : forall b b' L P x y m, strict b -> valid b L P -> valid b' L P -> unless_panic (rdiv b L P x y m) (rdiv b' L P x y m).
Proof. exact strict_rdiv. Qed.
Print Assumptions C63_rdiv.
Example C63_rdiv_case : strict dev /\ valid dev L64 9 /\ valid release L64 9.
Proof. meets. Qed.
Theorem C63_int_rdiv : forall b b' t x y m, strict b -> unless_panic (int_rdiv b t x y m) (int_rdiv b' t x y m).
Proof. exact strict_int_rdiv. Qed.
Print Assumptions C63_int_rdiv.
Example C63_int_rdiv_case : strict dev.
Proof. meets. Qed.
Theorem C63_int_rdiv_fp : forall b b' L P x y m, strict b -> valid b L P -> valid b' L P ->
  unless_panic (int_rdiv_fp b L P x y m) (int_rdiv_fp b' L P x y m).
Proof. exact strict_int_rdiv_fp. Qed.
Print Assumptions C63_int_rdiv_fp.
Example C63_int_rdiv_fp_case : strict dev /\ valid dev L64 9 /\ valid release L64 9.
Proof. meets. Qed.
Theorem C63_saturating_rmul : forall b b' L P x y m, strict b -> valid b L P -> valid b' L P ->
  unless_panic (saturating_rmul b L P x y m) (saturating_rmul b' L P x y m).
Proof. exact strict_saturating_rmul. Qed.
Print Assumptions C63_saturating_rmul.
Example C63_saturating_rmul_case : strict dev /\ valid dev L64 9 /\ valid release L64 9.
Proof. meets. Qed.
Theorem C63_recip : forall b b' L P x m, strict b -> valid b L P -> valid b' L P -> unless_panic (recip b L P x m) (recip b' L P x m).
Proof. exact strict_recip. Qed.
Print Assumptions C63_recip.
Example C63_recip_case : strict dev /\ valid dev L64 9 /\ valid release L64 9.
Proof. meets. Qed.
Theorem C63_half_sum : forall b b' L x y m, strict b -> unless_panic (half_sum b L x y m) (half_sum b' L x y m).
Proof. exact strict_half_sum. Qed.
Print Assumptions C63_half_sum.
Example C63_half_sum_case : strict dev.
Proof. meets. Qed.
Theorem C63_integral : forall b b' L P x m, strict b -> valid b L P -> valid b' L P -> unless_panic (integral b L P x m) (integral b' L P x m).
Proof. exact strict_integral. Qed.
Print Assumptions C63_integral.
Example C63_integral_case : strict dev /\ valid dev L64 9 /\ valid release L64 9.
Proof. meets. Qed.
Theorem C63_int_part : forall b b' L P x m, strict b -> valid b L P -> valid b' L P -> unless_panic (int_part b L P x m) (int_part b' L P x m).
Proof. exact strict_int_part. Qed.
Print Assumptions C63_int_part.
Example C63_int_part_case : strict dev /\ valid dev L64 9 /\ valid release L64 9.
Proof. meets. Qed.
Theorem C63_from_decimal : forall b b' L P x e, strict b -> unless_panic (from_decimal b L P x e) (from_decimal b' L P x e).
Proof. exact strict_from_decimal. Qed.
Print Assumptions C63_from_decimal.
Example C63_from_decimal_case : strict dev.
Proof. meets. Qed.
Theorem C63_to_decimal : forall b b' L P x e, strict b -> unless_panic (to_decimal b L P x e) (to_decimal b' L P x e).
Proof. exact strict_to_decimal. Qed.
Print Assumptions C63_to_decimal.
Example C63_to_decimal_case : strict dev.
Proof. meets. Qed.
Theorem C63_next_power_of_ten : forall b b' L x, strict b -> unless_panic (next_power_of_ten b L x) (next_power_of_ten b' L x).
Proof. exact strict_npt. Qed.
Print Assumptions C63_next_power_of_ten.
Example C63_next_power_of_ten_case : strict dev.
Proof. meets. Qed.
Theorem C63_to_string : forall b b' L P x, strict b -> f128 b = f128 b' -> valid b L P -> valid b' L P ->
  unless_panic (to_string b L P x) (to_string b' L P x).
Proof. exact strict_to_string. Qed.
Print Assumptions C63_to_string.
Example C63_to_string_case : strict dev /\ f128 dev = f128 release /\ valid dev L64 9 /\ valid release L64 9.
Proof. meets. Qed.
Theorem C63_try_from_f64 : forall b b' L P raw, strict b -> unless_panic (try_from_f64 b L P raw) (try_from_f64 b' L P raw).
Proof. exact strict_try_from_f64. Qed.
Print Assumptions C63_try_from_f64.
Example C63_try_from_f64_case : strict dev.
Proof. meets. Qed.
Theorem C63_fixnum_const : forall b b' L P s, strict b -> f128 b = f128 b' -> unless_panic (fixnum_const b L P s) (fixnum_const b' L P s).
Proof. exact strict_fixnum_const. Qed.
Print Assumptions C63_fixnum_const.
Example C63_fixnum_const_case : strict dev /\ f128 dev = f128 release.
Proof. meets. Qed.
Theorem C63_serialize : forall b b' L P x h w, strict b -> f128 b = f128 b' -> valid b L P -> valid b' L P ->
  unless_panic (serialize b L P x h w) (serialize b' L P x h w).
Proof. exact strict_serialize. Qed.
Print Assumptions C63_serialize.
Example C63_serialize_case : strict dev /\ f128 dev = f128 release /\ valid dev L64 9 /\ valid release L64 9.
Proof. meets. Qed.
Theorem C63_deserialize : forall b b' L P q h tok, strict b -> valid b L P -> valid b' L P ->
  unless_panic (deserialize b L P q h tok) (deserialize b' L P q h tok).
Proof. exact strict_deserialize. Qed.
Print Assumptions C63_deserialize.
Example C63_deserialize_case : strict dev /\ valid dev L64 9 /\ valid release L64 9.
Proof. meets. Qed.
(** Without the checks the wrong result is returned silently. *)
Example C63_example : strict dev /\ strict no_std /\ valid dev L16 4 /\ valid release L16 4 /\
  rdiv dev L16 4 10000 32767 Nearest = Panic /\ rdiv release L16 4 10000 32767 Nearest = Ret (Ok 3051) /\
  unless_panic (rdiv dev L16 4 10000 32767 Nearest) (rdiv release L16 4 10000 32767 Nearest) /\
  unless_panic (rdiv dev L16 4 10000 3 Ceil) (rdiv release L16 4 10000 3 Ceil).
Proof. repeat apply conj; try (vm_compute; reflexivity); try (vm_compute; discriminate); try (left; vm_compute; reflexivity); now right. Qed.

(** ** C64 *)
Theorem C64_rmul : forall b b' L P x y m, same_profile b b' -> valid b L P -> valid b' L P -> rmul b L P x y m = rmul b' L P x y m.
Proof. exact same_rmul. Qed.
Print Assumptions C64_rmul.
Example C64_rmul_case : same_profile dev64 no_std /\ valid dev64 L64 9 /\ valid no_std L64 9.
Proof. meets. Qed.
Theorem C64_rdiv : forall b b' L P x y m, same_profile b b' -> valid b L P -> valid b' L P -> rdiv b L P x y m = rdiv b' L P x y m.
Proof. exact same_rdiv. Qed.
Print Assumptions C64_rdiv.
Example C64_rdiv_case : same_profile dev64 no_std /\ valid dev64 L64 9 /\ valid no_std L64 9.
Proof. meets. Qed.
Theorem C64_int_rdiv : forall b b' t x y m, same_profile b b' -> int_rdiv b t x y m = int_rdiv b' t x y m.
Proof. exact same_int_rdiv. Qed.
Print Assumptions C64_int_rdiv.
Example C64_int_rdiv_case : same_profile dev64 no_std.
Proof. meets. Qed.
Theorem C64_int_rdiv_fp : forall b b' L P x y m, same_profile b b' -> valid b L P -> valid b' L P ->
  int_rdiv_fp b L P x y m = int_rdiv_fp b' L P x y m.
Proof. exact same_int_rdiv_fp. Qed.
Print Assumptions C64_int_rdiv_fp.
Example C64_int_rdiv_fp_case : same_profile dev64 no_std /\ valid dev64 L64 9 /\ valid no_std L64 9.
Proof. meets. Qed.
Theorem C64_saturating_rmul : forall b b' L P x y m, same_profile b b' -> valid b L P -> valid b' L P ->
  saturating_rmul b L P x y m = saturating_rmul b' L P x y m.
Proof. exact same_saturating_rmul. Qed.
Print Assumptions C64_saturating_rmul.
Example C64_saturating_rmul_case : same_profile dev64 no_std /\ valid dev64 L64 9 /\ valid no_std L64 9.
Proof. meets. Qed.
Theorem C64_recip : forall b b' L P x m, same_profile b b' -> valid b L P -> valid b' L P -> recip b L P x m = recip b' L P x m.
Proof. exact same_recip. Qed.
Print Assumptions C64_recip.
Example C64_recip_case : same_profile dev64 no_std /\ valid dev64 L64 9 /\ valid no_std L64 9.
Proof. meets. Qed.
Theorem C64_integral : forall b b' L P x m, same_profile b b' -> valid b L P -> valid b' L P -> integral b L P x m = integral b' L P x m.
Proof. exact same_integral. Qed.
Print Assumptions C64_integral.
Example C64_integral_case : same_profile dev64 no_std /\ valid dev64 L64 9 /\ valid no_std L64 9.
Proof. meets. Qed.
Theorem C64_int_part : forall b b' L P x m, same_profile b b' -> valid b L P -> valid b' L P -> int_part b L P x m = int_part b' L P x m.
Proof. exact same_int_part. Qed.
Print Assumptions C64_int_part.
Example C64_int_part_case : same_profile dev64 no_std /\ valid dev64 L64 9 /\ valid no_std L64 9.
Proof. meets. Qed.
Theorem C64_from_decimal : forall b b' L P x e, same_profile b b' -> from_decimal b L P x e = from_decimal b' L P x e.
Proof. exact same_from_decimal. Qed.
Print Assumptions C64_from_decimal.
Example C64_from_decimal_case : same_profile dev64 no_std.
Proof. meets. Qed.
Theorem C64_to_string : forall b b' L P x, same_profile b b' -> f128 b = f128 b' -> valid b L P -> valid b' L P ->
  to_string b L P x = to_string b' L P x.
Proof. exact same_to_string. Qed.
Print Assumptions C64_to_string.
Example C64_to_string_case : same_profile dev64 no_std /\ f128 dev64 = f128 no_std /\ valid dev64 L64 9 /\ valid no_std L64 9.
Proof. meets. Qed.
Theorem C64_try_from_f64 : forall b b' L P raw, same_profile b b' -> try_from_f64 b L P raw = try_from_f64 b' L P raw.
Proof. exact same_try_from_f64. Qed.
Print Assumptions C64_try_from_f64.
Example C64_try_from_f64_case : same_profile dev64 no_std.
Proof. meets. Qed.
Theorem C64_fixnum_const : forall b b' L P s, same_profile b b' -> f128 b = f128 b' -> fixnum_const b L P s = fixnum_const b' L P s.
Proof. exact same_fixnum_const. Qed.
Print Assumptions C64_fixnum_const.
Example C64_fixnum_const_case : same_profile dev64 no_std /\ f128 dev64 = f128 no_std.
Proof. meets. Qed.
Theorem C64_serialize : forall b b' L P x h w, same_profile b b' -> f128 b = f128 b' -> valid b L P -> valid b' L P ->
  serialize b L P x h w = serialize b' L P x h w.
Proof. exact same_serialize. Qed.
Print Assumptions C64_serialize.
Example C64_serialize_case : same_profile dev64 no_std /\ f128 dev64 = f128 no_std /\ valid dev64 L64 9 /\ valid no_std L64 9.
Proof. meets. Qed.
Theorem C64_deserialize : forall b b' L P q h tok, same_profile b b' -> valid b L P -> valid b' L P ->
  deserialize b L P q h tok = deserialize b' L P q h tok.
Proof. exact same_deserialize. Qed.
Print Assumptions C64_deserialize.
Example C64_deserialize_case : same_profile dev64 no_std /\ valid dev64 L64 9 /\ valid no_std L64 9.
Proof. meets. Qed.
Example C64_example : same_profile dev no_std /\ same_profile dev64 no_std /\ f128 dev64 = f128 no_std /\
  valid dev L64 9 /\ valid no_std L64 9 /\
  rmul dev L64 9 (-10000000001) 1500000000 Nearest = rmul no_std L64 9 (-10000000001) 1500000000 Nearest.
Proof. repeat apply conj; try (vm_compute; reflexivity); try (vm_compute; discriminate); intros E; discriminate E. Qed.
