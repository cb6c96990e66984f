(** * PropsSqrt: C21, C44, C58, C59 and the square-root parts of C47 and C50. *)
From Verif Require Import Base Sqrt U256 I256 Promo Ops Fixed Spec MulDiv Refute Sqrt256 Wide.
From Verif Require Import Fixed.
From Verif Require Import Meets.
Open Scope Z_scope.

(** ** C21 *)
Theorem C21_rsqrt : forall b L P x m, valid b L P -> in_range L x -> 0 <= x ->
  exists r, rsqrt b L P x m = Ret (Ok r) /\ in_range L r /\ sqrt_rounds m P (dec P x) r.
Proof. exact rsqrt_spec. Qed.
Print Assumptions C21_rsqrt.
Example C21_rsqrt_case : valid dev L64 9 /\ in_range L64 1500000000 /\ 0 <= 1500000000.
Proof. meets. Qed.
Theorem C21_rsqrt_domain : forall b L P x m, valid b L P -> in_range L x ->
  (rsqrt b L P x m = Ret (Err DomainViolation) <-> x < 0).
Proof. exact rsqrt_domain. Qed.
Print Assumptions C21_rsqrt_domain.
Example C21_rsqrt_domain_case : valid dev L64 9 /\ in_range L64 1500000000.
Proof. meets. Qed.
(** The specification leaves one answer. *)
Theorem C21_unique : forall m P x r r', 0 <= P ->
  sqrt_rounds m P (dec P x) r -> sqrt_rounds m P (dec P x) r' -> r = r'.
Proof. exact sqrt_rounds_unique. Qed.
Print Assumptions C21_unique.
Example C21_unique_case : 0 <= 2 /\ sqrt_rounds Floor 2 (dec 2 200) 141 /\ sqrt_rounds Floor 2 (dec 2 200) 141.
Proof. meets. Qed.
Theorem C21_rsqrt_exact : forall b L P x r m, valid b L P -> in_range L x -> 0 <= r ->
  (dec P r * dec P r == dec P x)%Q -> rsqrt b L P x m = Ret (Ok r).
Proof. exact rsqrt_exact. Qed.
Print Assumptions C21_rsqrt_exact.
Example C21_rsqrt_exact_case : valid dev L64 9 /\ in_range L64 2250000000 /\ 0 <= 1500000000 /\ (dec 9 1500000000 * dec 9
  1500000000 == dec 9 2250000000)%Q.
Proof. meets. Qed.
Theorem C21_rsqrt_mono : forall b L P x x' m, valid b L P -> in_range L x -> in_range L x' -> 0 <= x <= x' ->
  exists r r', rsqrt b L P x m = Ret (Ok r) /\ rsqrt b L P x' m = Ret (Ok r') /\ r <= r'.
Proof. exact rsqrt_mono. Qed.
Print Assumptions C21_rsqrt_mono.
Example C21_rsqrt_mono_case : valid dev L64 9 /\ in_range L64 1500000000 /\ in_range L64 1600000001 /\ 0 <= 1500000000 <=
  1600000001.
Proof. meets. Qed.
Example C21_example : valid dev L128 38 /\ in_range L128 (hi L128) /\ 0 <= hi L128 /\ valid no_std L64 9 /\
  rsqrt dev L128 38 (hi L128) Nearest = Ret (Ok 130438178253327822123495718062525083688) /\
  sqrt_rounds Nearest 38 (dec 38 (hi L128)) 130438178253327822123495718062525083688 /\
  rsqrt no_std L64 9 2000000000 Floor = Ret (Ok 1414213562) /\ rsqrt no_std L64 9 2000000000 Ceil = Ret (Ok 1414213563) /\
  sqrt_rounds Floor 9 (dec 9 2000000000) 1414213562 /\ sqrt_rounds Ceil 9 (dec 9 2000000000) 1414213563 /\
  rsqrt dev L16 4 (-1) Floor = Ret (Err DomainViolation).
Proof. example. Qed.

(** ** C44 *)
Theorem C44_rmul_directed : forall b P, valid b L128 P -> forall x y, in_range L128 x -> in_range L128 y ->
  forall m, m <> Nearest -> rounded_or_overflow L128 P m (dec P x * dec P y) (rmul b L128 P x y m).
Proof. exact (fun b P => rmul_directed b L128 P). Qed.
Print Assumptions C44_rmul_directed.
Example C44_rmul_directed_case : valid dev L128 9 /\ in_range L128 1500000000 /\ in_range L128 (-700000001) /\ Ceil <> Nearest.
Proof. meets. Qed.
(** Missing: precision 38, where the property is false; see C51. *)
Theorem C44_rmul_nearest_partial : forall b P, valid b L128 P -> forall x y, in_range L128 x -> in_range L128 y -> P <> 38 ->
  rounded_or_overflow L128 P Nearest (dec P x * dec P y) (rmul b L128 P x y Nearest).
Proof. exact (fun b P Hv x y Hx Hy H => rmul_nearest b L128 P Hv x y Hx Hy (fun K => H (proj2 K))). Qed.
Print Assumptions C44_rmul_nearest_partial.
Example C44_rmul_nearest_partial_case : valid dev L128 9 /\ in_range L128 1500000000 /\ in_range L128 (-700000001) /\ 9 <> 38.
Proof. meets. Qed.
Theorem C44_rmul_refuted :
  exists x y r, valid dev L128 38 /\ valid release L128 38 /\ in_range L128 x /\ in_range L128 y /\ in_range L128 r /\
    rounds_to Nearest 38 (dec 38 x * dec 38 y) r /\
    rmul dev L128 38 x y Nearest = Panic /\
    (exists s, rmul release L128 38 x y Nearest = Ret (Ok s) /\ s <> r).
Proof. exact mul38_refuted. Qed.
Print Assumptions C44_rmul_refuted.
Theorem C44_rdiv_directed : forall b P x y m, valid b L128 P -> in_range L128 x -> in_range L128 y -> y <> 0 -> m <> Nearest ->
  rounded_or_overflow L128 P m (dec P x / dec P y) (rdiv b L128 P x y m).
Proof. exact (fun b => rdiv_directed b L128). Qed.
Print Assumptions C44_rdiv_directed.
Example C44_rdiv_directed_case : valid dev L128 9 /\ in_range L128 1500000000 /\ in_range L128 (-700000001) /\ (-700000001) <> 0
  /\ Ceil <> Nearest.
Proof. meets. Qed.
(** Missing: divisors for which twice the remainder does not fit, as on every layout; see C52. *)
Theorem C44_rdiv_nearest_partial : forall b P x y, valid b L128 P -> in_range L128 x -> in_range L128 y -> y <> 0 ->
  (Z.rem (x * 10 ^ P) y <> 0 -> 2 * Z.abs (Z.rem (x * 10 ^ P) y) <= hi L128 /\ y <> lo L128) ->
  rounded_or_overflow L128 P Nearest (dec P x / dec P y) (rdiv b L128 P x y Nearest).
Proof. exact (fun b => rdiv_nearest_ok b L128). Qed.
Print Assumptions C44_rdiv_nearest_partial.
Example C44_rdiv_nearest_partial_case : valid dev L128 9 /\ in_range L128 1500000000 /\ in_range L128 (-700000001) /\ (-700000001)
  <> 0 /\ (Z.rem (1500000000 * 10 ^ 9) (-700000001) <> 0 -> 2 * Z.abs (Z.rem (1500000000 * 10 ^ 9) (-700000001)) <= hi L128 /\
  (-700000001) <> lo L128).
Proof. meets. Qed.
Theorem C44_rsqrt : forall b P x m, valid b L128 P -> in_range L128 x -> 0 <= x ->
  exists r, rsqrt b L128 P x m = Ret (Ok r) /\ in_range L128 r /\ sqrt_rounds m P (dec P x) r.
Proof. exact (fun b => rsqrt_spec b L128). Qed.
Print Assumptions C44_rsqrt.
Example C44_rsqrt_case : valid dev L128 9 /\ in_range L128 1500000000 /\ 0 <= 1500000000.
Proof. meets. Qed.
Example C44_example : valid dev L128 18 /\ in_range L128 (lo L128) /\ in_range L128 1000000000000000001 /\
  rmul dev L128 18 (lo L128 + 1000) 999999999999999999 Nearest = Ret (Ok (-170141183460469231561546120255414872996)) /\
  rdiv dev L128 18 (lo L128) 1000000000000000001 Nearest = Ret (Ok (-170141183460469231561546120255414874166)) /\
  rsqrt dev L128 18 (hi L128) Floor = Ret (Ok 13043817825332782212349571806).
Proof. example. Qed.

(** ** C47, square root *)
Theorem C47_rsqrt : forall b b' L L' P x m, valid b L P -> valid b' L' P -> in_range L x -> in_range L' x ->
  rsqrt b L P x m = rsqrt b' L' P x m.
Proof. exact rsqrt_wider. Qed.
Print Assumptions C47_rsqrt.
Example C47_rsqrt_case : valid dev L64 9 /\ valid release L128 9 /\ in_range L64 1500000000 /\ in_range L128 1500000000.
Proof. meets. Qed.
Example C47_rsqrt_example : valid dev L16 4 /\ valid no_std L32 4 /\ in_range L16 32767 /\ in_range L32 32767 /\
  rsqrt dev L16 4 32767 Nearest = Ret (Ok 18102) /\ rsqrt no_std L32 4 32767 Nearest = Ret (Ok 18102).
Proof. example. Qed.

(** ** C50, square root *)
Theorem C50_rsqrt : forall b L P x, valid b L P -> in_range L x -> 0 <= x ->
  exists f n c, rsqrt b L P x Floor = Ret (Ok f) /\ rsqrt b L P x Nearest = Ret (Ok n) /\ rsqrt b L P x Ceil = Ret (Ok c) /\
    f <= n <= c /\ (c = f \/ c = f + 1) /\ (n = f \/ n = c) /\
    (f = c <-> exists r, 0 <= r /\ (dec P r * dec P r == dec P x)%Q).
Proof. exact rsqrt_brackets. Qed.
Print Assumptions C50_rsqrt.
Example C50_rsqrt_case : valid dev L64 9 /\ in_range L64 1500000000 /\ 0 <= 1500000000.
Proof. meets. Qed.
Example C50_rsqrt_example : valid dev L16 4 /\ in_range L16 30000 /\
  rsqrt dev L16 4 30000 Floor = Ret (Ok 17320) /\ rsqrt dev L16 4 30000 Nearest = Ret (Ok 17321) /\
  rsqrt dev L16 4 30000 Ceil = Ret (Ok 17321).
Proof. example. Qed.

(** ** C58 *)
(** Missing: i128, where the property is false near the maximum. *)
Theorem C58_sqrt_partial : forall b t n, t <> I128 -> 0 <= n <= imax t ->
  exists s, sqrt_prim b t n = Ret s /\ 0 <= s /\ s * s <= n < (s + 1) * (s + 1).
Proof. exact sqrt_types. Qed.
Print Assumptions C58_sqrt_partial.
Example C58_sqrt_partial_case : I32 <> I128 /\ 0 <= 7 <= imax I32.
Proof. meets. Qed.
(** Missing: the top of the range. *)
Theorem C58_sqrt_i128_partial : forall b n, 0 <= n < 2 ^ 126 ->
  exists s, sqrt_prim b I128 n = Ret s /\ 0 <= s /\ s * s <= n < (s + 1) * (s + 1).
Proof. exact sqrt_i128_ok. Qed.
Print Assumptions C58_sqrt_i128_partial.
Example C58_sqrt_i128_partial_case : 0 <= 7 < 2 ^ 126.
Proof. meets. Qed.
(** What happens on all of i128, [r] being the floor root of a quarter of [n]. *)
Theorem C58_sqrt_i128_cases : forall b n r, 0 <= n <= imax I128 -> 0 <= r -> r * r <= n / 4 < (r + 1) * (r + 1) ->
  ((2 * r + 1) * (2 * r + 1) <= imax I128 ->
    exists s, sqrt_prim b I128 n = Ret s /\ 0 <= s /\ s * s <= n < (s + 1) * (s + 1)) /\
  (imax I128 < (2 * r + 1) * (2 * r + 1) ->
    (ovf b = true -> sqrt_prim b I128 n = Panic) /\
    (ovf b = false -> sqrt_prim b I128 n = Ret (2 * r + 1) /\ n < (2 * r + 1) * (2 * r + 1))).
Proof. exact sqrt_i128_cases. Qed.
Print Assumptions C58_sqrt_i128_cases.
Example C58_sqrt_i128_cases_case : 0 <= 160000000000 <= imax I128 /\ 0 <= 200000 /\ 200000 * 200000 <= 160000000000 / 4 < (200000
  + 1) * (200000 + 1).
Proof. meets. Qed.
Theorem C58_sqrt_refuted : exists n, 0 <= n <= imax I128 /\ sqrt_prim dev I128 n = Panic /\
  exists s, sqrt_prim release I128 n = Ret s /\ n < s * s.
Proof. exact sqrt_i128_refuted. Qed.
Print Assumptions C58_sqrt_refuted.
Example C58_example : sqrt_prim no_std U64 18446744073709551615 = Ret 4294967295 /\
  sqrt_prim dev I64 9223372036854775807 = Ret 3037000499 /\
  sqrt_prim dev U128 340282366920938463463374607431768211455 = Ret 18446744073709551615.
Proof. example. Qed.

(** ** C59 *)
Theorem C59_mul : forall b x y a c, unsigned4 x a -> unsigned4 y c ->
  (a * c < 2 ^ 256 -> exists z, u256_mul b x y = Ret z /\ unsigned4 z (a * c)) /\
  (2 ^ 256 <= a * c -> u256_mul b x y = Panic).
Proof. exact wide_mul. Qed.
Print Assumptions C59_mul.
Example C59_mul_case : unsigned4 [5; 0; 7; 9] 56493915618480126876904081377315566989164821252198688096261 /\ unsigned4 [3; 1; 0;
  0] 18446744073709551619.
Proof. meets. Qed.
Theorem C59_div_mod : forall b x y a c, unsigned4 x a -> unsigned4 y c ->
  (c <> 0 -> exists q r, div_mod b x y = Ret (q, r) /\ unsigned4 q (a / c) /\ unsigned4 r (a mod c)) /\
  (c = 0 -> div_mod b x y = Panic).
Proof. exact wide_div_mod. Qed.
Print Assumptions C59_div_mod.
Example C59_div_mod_case : unsigned4 [5; 0; 7; 9] 56493915618480126876904081377315566989164821252198688096261 /\ unsigned4 [3; 1;
  0; 0] 18446744073709551619.
Proof. meets. Qed.
Theorem C59_shift : forall b x a s, unsigned4 x a ->
  (0 <= s < 64 -> exists z, u256_shl b x s = Ret z /\ unsigned4 z ((a * 2 ^ s) mod 2 ^ 256)) /\
  (0 <= s <= 64 -> exists z, u256_shr b x s = Ret z /\ unsigned4 z (a / 2 ^ s)).
Proof. exact wide_shift. Qed.
Print Assumptions C59_shift.
Example C59_shift_case : unsigned4 [5; 0; 7; 9] 56493915618480126876904081377315566989164821252198688096261.
Proof. meets. Qed.
Theorem C59_sqrt : forall b x a, unsigned4 x a ->
  exists z s, u256_sqrt b sqrt_fuel x = Ret z /\ unsigned4 z s /\ 0 <= s /\ s * s <= a < (s + 1) * (s + 1).
Proof. exact wide_sqrt. Qed.
Print Assumptions C59_sqrt.
Example C59_sqrt_case : unsigned4 [5; 0; 7; 9] 56493915618480126876904081377315566989164821252198688096261.
Proof. meets. Qed.
Theorem C59_cmp : forall b x y a c, unsigned4 x a -> unsigned4 y c ->
  u256_cmp x y = (a ?= c) /\
  u128_of_u256 b x = Ret (if a <? 2 ^ 128 then Some a else None).
Proof. exact wide_cmp. Qed.
Print Assumptions C59_cmp.
Example C59_cmp_case : unsigned4 [5; 0; 7; 9] 56493915618480126876904081377315566989164821252198688096261 /\ unsigned4 [3; 1; 0;
  0] 18446744073709551619.
Proof. meets. Qed.
Theorem C59_signed_of_i128 : forall x, - 2 ^ 127 <= x < 2 ^ 127 -> signed4 (from_i128 x) x.
Proof. exact signed_of_i128. Qed.
Print Assumptions C59_signed_of_i128.
Example C59_signed_of_i128_case : - 2 ^ 127 <= 1500000000 < 2 ^ 127.
Proof. meets. Qed.
Theorem C59_signed_add_sub : forall x y a c, signed4 x a -> signed4 y c -> Z.abs a < 2 ^ 255 -> Z.abs c < 2 ^ 255 ->
  (Z.abs (a + c) < 2 ^ 255 -> signed4 (i256_add x y) (a + c)) /\
  (Z.abs (a - c) < 2 ^ 255 -> signed4 (i256_sub x y) (a - c)).
Proof. exact signed_add_sub. Qed.
Print Assumptions C59_signed_add_sub.
Example C59_signed_add_sub_case : signed4 [18446744073709551609; 18446744004990074879; 18446744073709551615; 18446744073709551615]
  (-1267650600228229401496703205383) /\ signed4 [3; 1; 0; 0] 18446744073709551619 /\ Z.abs (-1267650600228229401496703205383) < 2
  ^ 255 /\ Z.abs 18446744073709551619 < 2 ^ 255.
Proof. meets. Qed.
Theorem C59_signed_mul : forall b x y a c, signed4 x a -> signed4 y c -> Z.abs a < 2 ^ 255 -> Z.abs c < 2 ^ 255 ->
  Z.abs (a * c) < 2 ^ 255 -> exists z, i256_mul b x y = Ret z /\ signed4 z (a * c).
Proof. exact signed_mul. Qed.
Print Assumptions C59_signed_mul.
Example C59_signed_mul_case : signed4 [18446744073709551609; 18446744004990074879; 18446744073709551615; 18446744073709551615]
  (-1267650600228229401496703205383) /\ signed4 [3; 1; 0; 0] 18446744073709551619 /\ Z.abs (-1267650600228229401496703205383) < 2
  ^ 255 /\ Z.abs 18446744073709551619 < 2 ^ 255 /\ Z.abs ((-1267650600228229401496703205383) * 18446744073709551619) < 2 ^ 255.
Proof. meets. Qed.
Theorem C59_signed_div : forall b x y a c, signed4 x a -> signed4 y c -> Z.abs a < 2 ^ 255 -> Z.abs c < 2 ^ 255 -> c <> 0 ->
  exists z, i256_div b x y = Ret z /\ signed4 z (Z.quot a c).
Proof. exact signed_div. Qed.
Print Assumptions C59_signed_div.
Example C59_signed_div_case : signed4 [18446744073709551609; 18446744004990074879; 18446744073709551615; 18446744073709551615]
  (-1267650600228229401496703205383) /\ signed4 [3; 1; 0; 0] 18446744073709551619 /\ Z.abs (-1267650600228229401496703205383) < 2
  ^ 255 /\ Z.abs 18446744073709551619 < 2 ^ 255 /\ 18446744073709551619 <> 0.
Proof. meets. Qed.
Theorem C59_signed_neg : forall b x a, signed4 x a -> a <> - 2 ^ 255 ->
  exists z, i256_neg b x = Ret z /\ signed4 z (- a).
Proof. exact signed_neg. Qed.
Print Assumptions C59_signed_neg.
Example C59_signed_neg_case : signed4 [18446744073709551609; 18446744004990074879; 18446744073709551615; 18446744073709551615]
  (-1267650600228229401496703205383) /\ (-1267650600228229401496703205383) <> - 2 ^ 255.
Proof. meets. Qed.
Theorem C59_signed_cmp : forall b x y a c, signed4 x a -> signed4 y c ->
  i256_cmp x y = Ret (a ?= c) /\
  (Z.abs a < 2 ^ 255 -> i128_of_i256 b x = Ret (if (- 2 ^ 127 <=? a) && (a <=? 2 ^ 127 - 1) then Some a else None)).
Proof. exact signed_cmp. Qed.
Print Assumptions C59_signed_cmp.
Example C59_signed_cmp_case : signed4 [18446744073709551609; 18446744004990074879; 18446744073709551615; 18446744073709551615]
  (-1267650600228229401496703205383) /\ signed4 [3; 1; 0; 0] 18446744073709551619.
Proof. meets. Qed.
Theorem C59_signed_sqrt : forall b x a, signed4 x a -> 0 <= a < 2 ^ 255 ->
  exists z s, i256_sqrt b x = Ret z /\ signed4 z s /\ 0 <= s /\ s * s <= a < (s + 1) * (s + 1).
Proof. exact signed_sqrt. Qed.
Print Assumptions C59_signed_sqrt.
Example C59_signed_sqrt_case : signed4 [5; 0; 7; 9] 56493915618480126876904081377315566989164821252198688096261 /\ 0 <=
  56493915618480126876904081377315566989164821252198688096261 < 2 ^ 255.
Proof. meets. Qed.
Example C59_example : unsigned4 [0; 0; 1; 0] (2 ^ 128) /\ signed4 [18446744073709551613; 18446744073709551615; 18446744073709551615; 18446744073709551615] (-3) /\
  div_mod dev [0; 0; 1; 7] [5; 9; 0; 0] = Ret ([2277375811569080446; 14347467612885206812; 0; 0], [7059865015864149386; 5; 0; 0]).
Proof.
  split; [exists 0, 0, 1, 0|split; [eexists; split;
    [exists 18446744073709551613, 18446744073709551615, 18446744073709551615, 18446744073709551615|]|]].
  all: repeat split; vm_compute; congruence.
Qed.
