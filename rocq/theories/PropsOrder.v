(** * PropsOrder: C47, C49, C50. *)
From Verif Require Import Base Promo Ops Fixed Spec MulDiv DecProofs OrderFacts Refute.
From Verif Require Import Fixed.
From Verif Require Import Meets.
Open Scope Z_scope.

(** ** C47 *)
(** Addition, subtraction, multiplication by an integer. *)
Theorem C47_integer_operations : forall L L' x y r, wider L L' ->
  (cadd L x y = Ok r -> cadd L' x y = Ok r) /\ (csub L x y = Ok r -> csub L' x y = Ok r) /\
  (cmul L x y = Ok r -> cmul L' x y = Ok r).
Proof. exact add_sub_wider. Qed.
Print Assumptions C47_integer_operations.
Example C47_integer_operations_case : wider L64 L128.
Proof. meets. Qed.
Theorem C47_rmul : forall b L L' P x y m r, valid b L P -> valid b L' P -> wider L L' -> in_range L x -> in_range L y ->
  rmul b L P x y m = Ret (Ok r) -> rmul b L' P x y m = Ret (Ok r).
Proof. exact rmul_wider. Qed.
Print Assumptions C47_rmul.
Example C47_rmul_case : valid dev L64 9 /\ valid dev L128 9 /\ wider L64 L128 /\ in_range L64 1500000000 /\ in_range L64
  (-700000001) /\ rmul dev L64 9 1500000000 (-700000001) Nearest = Ret (Ok (-1050000002)).
Proof. meets. Qed.
(** Missing: [Nearest] without overflow checks, where the property is false. *)
Theorem C47_rdiv_partial : forall b L L' P x y m r, valid b L P -> valid b L' P -> wider L L' -> in_range L x -> in_range L y ->
  (m = Nearest -> ovf b = true) ->
  rdiv b L P x y m = Ret (Ok r) -> rdiv b L' P x y m = Ret (Ok r).
Proof. exact rdiv_wider. Qed.
Print Assumptions C47_rdiv_partial.
Example C47_rdiv_partial_case : valid dev L64 9 /\ valid dev L128 9 /\ wider L64 L128 /\ in_range L64 1500000000 /\ in_range L64
  (-700000001) /\ (Nearest = Nearest -> ovf dev = true) /\ rdiv dev L64 9 1500000000 (-700000001) Nearest = Ret (Ok
  (-2142857140)).
Proof. meets. Qed.
Theorem C47_rdiv_refuted :
  exists x y r r', valid release L16 4 /\ valid release L32 4 /\ in_range L16 x /\ in_range L16 y /\
    rdiv release L16 4 x y Nearest = Ret (Ok r) /\ rdiv release L32 4 x y Nearest = Ret (Ok r') /\ r <> r'.
Proof. exact layouts_refuted. Qed.
Print Assumptions C47_rdiv_refuted.
Theorem C47_half_sum : forall b L L' x y m, wider L L' -> in_range L x -> in_range L y ->
  half_sum b L x y m = half_sum b L' x y m.
Proof. exact half_sum_wider. Qed.
Print Assumptions C47_half_sum.
Example C47_half_sum_case : wider L64 L128 /\ in_range L64 1500000000 /\ in_range L64 (-700000001).
Proof. meets. Qed.
Theorem C47_to_decimal : forall b L L' P x k, valid b L P -> valid b L' P -> wider L L' -> in_range L x -> fits I32 k ->
  to_decimal b L P x k = to_decimal b L' P x k.
Proof. exact to_decimal_wider. Qed.
Print Assumptions C47_to_decimal.
Example C47_to_decimal_case : valid dev L64 9 /\ valid dev L128 9 /\ wider L64 L128 /\ in_range L64 1500000000 /\ fits I32 (-3).
Proof. meets. Qed.
(** Missing: builds without overflow checks, where an overflowing power of ten wraps. *)
Theorem C47_from_decimal_partial : forall b L L' P m e r, valid b L P -> valid b L' P -> wider L L' -> ovf b = true ->
  from_decimal b L P m e = Ret (Ok r) -> from_decimal b L' P m e = Ret (Ok r).
Proof. exact from_decimal_wider. Qed.
Print Assumptions C47_from_decimal_partial.
Example C47_from_decimal_partial_case : valid dev L64 9 /\ valid dev L128 9 /\ wider L64 L128 /\ ovf dev = true /\ from_decimal
  dev L64 9 15 (-1) = Ret (Ok 1500000000).
Proof. meets. Qed.
Example C47_example : valid dev L16 4 /\ valid dev L128 4 /\ wider L16 L128 /\
  rmul dev L16 4 (-32768) 9999 Nearest = Ret (Ok (-32765)) /\ rmul dev L128 4 (-32768) 9999 Nearest = Ret (Ok (-32765)) /\
  rdiv dev L16 4 10000 (-30000) Nearest = Ret (Ok (-3333)) /\ rdiv dev L128 4 10000 (-30000) Nearest = Ret (Ok (-3333)).
Proof. example. Qed.

(** ** C49 *)
Theorem C49_rmul_mono : forall b L P x x' y m r r', valid b L P -> in_range L x -> in_range L x' -> in_range L y ->
  m <> Nearest -> x <= x' -> 0 < y -> rmul b L P x y m = Ret (Ok r) -> rmul b L P x' y m = Ret (Ok r') -> r <= r'.
Proof. exact rmul_mono. Qed.
Print Assumptions C49_rmul_mono.
Example C49_rmul_mono_case : valid dev L64 9 /\ in_range L64 1500000000 /\ in_range L64 1600000001 /\ in_range L64 700000001 /\
  Ceil <> Nearest /\ 1500000000 <= 1600000001 /\ 0 < 700000001 /\ rmul dev L64 9 1500000000 700000001 Ceil = Ret (Ok 1050000002)
  /\ rmul dev L64 9 1600000001 700000001 Ceil = Ret (Ok 1120000003).
Proof. meets. Qed.
Theorem C49_rdiv_mono : forall b L P x x' y m r r', valid b L P -> in_range L x -> in_range L x' -> in_range L y ->
  m <> Nearest -> x <= x' -> 0 < y -> rdiv b L P x y m = Ret (Ok r) -> rdiv b L P x' y m = Ret (Ok r') -> r <= r'.
Proof. exact rdiv_mono. Qed.
Print Assumptions C49_rdiv_mono.
Example C49_rdiv_mono_case : valid dev L64 9 /\ in_range L64 1500000000 /\ in_range L64 1600000001 /\ in_range L64 700000001 /\
  Ceil <> Nearest /\ 1500000000 <= 1600000001 /\ 0 < 700000001 /\ rdiv dev L64 9 1500000000 700000001 Ceil = Ret (Ok 2142857140)
  /\ rdiv dev L64 9 1600000001 700000001 Ceil = Ret (Ok 2285714284).
Proof. meets. Qed.
Theorem C49_rdiv_rmul : forall b L P x y r s, valid b L P -> in_range L x -> in_range L y -> 0 < y ->
  rmul b L P x y Floor = Ret (Ok r) -> rdiv b L P r y Floor = Ret (Ok s) -> s <= x.
Proof. exact rdiv_rmul. Qed.
Print Assumptions C49_rdiv_rmul.
Example C49_rdiv_rmul_case : valid dev L64 9 /\ in_range L64 1500000000 /\ in_range L64 700000001 /\ 0 < 700000001 /\ rmul dev L64
  9 1500000000 700000001 Floor = Ret (Ok 1050000001) /\ rdiv dev L64 9 1050000001 700000001 Floor = Ret (Ok 1499999999).
Proof. meets. Qed.
Example C49_example : valid dev L16 1 /\ in_range L16 7 /\ in_range L16 3 /\
  rmul dev L16 1 7 3 Floor = Ret (Ok 2) /\ rdiv dev L16 1 2 3 Floor = Ret (Ok 6).
Proof. example. Qed.

(** ** C50 *)
Theorem C50_rmul : forall b L P x y f n c, valid b L P -> in_range L x -> in_range L y ->
  rmul b L P x y Floor = Ret (Ok f) -> rmul b L P x y Nearest = Ret (Ok n) -> rmul b L P x y Ceil = Ret (Ok c) ->
  brackets P (dec P x * dec P y) f n c.
Proof. exact rmul_brackets. Qed.
Print Assumptions C50_rmul.
Example C50_rmul_case : valid dev L64 9 /\ in_range L64 1500000000 /\ in_range L64 (-700000001) /\ rmul dev L64 9 1500000000
  (-700000001) Floor = Ret (Ok (-1050000002)) /\ rmul dev L64 9 1500000000 (-700000001) Nearest = Ret (Ok (-1050000002)) /\ rmul
  dev L64 9 1500000000 (-700000001) Ceil = Ret (Ok (-1050000001)).
Proof. meets. Qed.
Theorem C50_rdiv : forall b L P x y f n c, valid b L P -> in_range L x -> in_range L y -> y <> 0 ->
  rdiv b L P x y Floor = Ret (Ok f) -> rdiv b L P x y Nearest = Ret (Ok n) -> rdiv b L P x y Ceil = Ret (Ok c) ->
  brackets P (dec P x / dec P y) f n c.
Proof. exact rdiv_brackets. Qed.
Print Assumptions C50_rdiv.
Example C50_rdiv_case : valid dev L64 9 /\ in_range L64 1500000000 /\ in_range L64 (-700000001) /\ (-700000001) <> 0 /\ rdiv dev
  L64 9 1500000000 (-700000001) Floor = Ret (Ok (-2142857140)) /\ rdiv dev L64 9 1500000000 (-700000001) Nearest = Ret (Ok
  (-2142857140)) /\ rdiv dev L64 9 1500000000 (-700000001) Ceil = Ret (Ok (-2142857139)).
Proof. meets. Qed.
(** Missing: MIN without overflow checks, where the property is false. *)
Theorem C50_integral_partial : forall b L P x f n c, valid b L P -> in_range L x -> x <> lo L ->
  integral b L P x Floor = Ret f -> integral b L P x Nearest = Ret n -> integral b L P x Ceil = Ret c ->
  f <= n <= c /\ (c = f \/ c = f + 1) /\ (f = c <-> exists z, (dec P x == Zq z)%Q) /\ (n = f \/ n = c).
Proof. exact integral_brackets. Qed.
Print Assumptions C50_integral_partial.
Example C50_integral_partial_case : valid dev L64 9 /\ in_range L64 1500000000 /\ 1500000000 <> lo L64 /\ integral dev L64 9
  1500000000 Floor = Ret 1 /\ integral dev L64 9 1500000000 Nearest = Ret 2 /\ integral dev L64 9 1500000000 Ceil = Ret 2.
Proof. meets. Qed.
Theorem C50_integral_refuted :
  exists x f c, valid release L16 1 /\ in_range L16 x /\ integral release L16 1 x Floor = Ret f /\
    integral release L16 1 x Ceil = Ret c /\ f = c /\ (forall z, ~ (dec 1 x == Zq z)%Q).
Proof. exact integral_brackets_refuted. Qed.
Print Assumptions C50_integral_refuted.
Example C50_example : valid dev L16 1 /\ rmul dev L16 1 (-7) 5 Floor = Ret (Ok (-4)) /\
  rmul dev L16 1 (-7) 5 Nearest = Ret (Ok (-4)) /\ rmul dev L16 1 (-7) 5 Ceil = Ret (Ok (-3)) /\
  rdiv dev L16 1 2 3 Floor = Ret (Ok 6) /\ rdiv dev L16 1 2 3 Nearest = Ret (Ok 7) /\ rdiv dev L16 1 2 3 Ceil = Ret (Ok 7).
Proof. example. Qed.
