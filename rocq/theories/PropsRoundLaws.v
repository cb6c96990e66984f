(** * PropsRoundLaws: C95, laws of rounding to whole numbers and to multiples. *)
From Coq Require Import QArith.
From Verif Require Import Base Promo Ops Spec.
From Verif Require Import SpecRound RoundLaws.
From Verif Require Import Fixed.
From Verif Require Import Meets.
Open Scope Z_scope.

(** A rounded number stays as it is, whatever the mode of the second rounding. *)
Theorem C95_again : forall m m' b b' L P x r, valid b L P -> valid b' L P -> in_range L x -> x <> lo L -> tame m L P -> tame m' L P ->
  rounder m b L P x = Ret r -> r <> lo L -> rounder m' b' L P r = Ret r.
Proof. exact again. Qed.
Print Assumptions C95_again.
Example C95_again_case : valid dev L64 9 /\ valid release L64 9 /\ in_range L64 1500000000 /\ 1500000000 <> lo L64 /\ tame Nearest
  L64 9 /\ tame Floor L64 9 /\ rounder Nearest dev L64 9 1500000000 = Ret 2000000000 /\ 2000000000 <> lo L64.
Proof. meets. Qed.
Theorem C95_fixed : forall m b L P x, valid b L P -> in_range L x -> x <> lo L -> tame m L P ->
  (rounder m b L P x = Ret x <-> exists n, (dec P x == Zq n)%Q).
Proof. exact fixed_point. Qed.
Print Assumptions C95_fixed.
Example C95_fixed_case : valid dev L64 9 /\ in_range L64 1500000000 /\ 1500000000 <> lo L64 /\ tame Nearest L64 9.
Proof. meets. Qed.
Theorem C95_monotone : forall m b b' L P x x' r r', valid b L P -> valid b' L P -> in_range L x -> in_range L x' -> x <> lo L -> x' <> lo L -> tame m L P ->
  x <= x' -> rounder m b L P x = Ret r -> rounder m b' L P x' = Ret r' -> r <= r'.
Proof. exact rounder_mono. Qed.
Print Assumptions C95_monotone.
Example C95_monotone_case : valid dev L64 9 /\ valid release L64 9 /\ in_range L64 1500000000 /\ in_range L64 1600000001 /\
  1500000000 <> lo L64 /\ 1600000001 <> lo L64 /\ tame Nearest L64 9 /\ 1500000000 <= 1600000001 /\ rounder Nearest dev L64 9
  1500000000 = Ret 2000000000 /\ rounder Nearest release L64 9 1600000001 = Ret 2000000000.
Proof. meets. Qed.
Theorem C95_bracket : forall b L P x f n c one, valid b L P -> in_range L x -> x <> lo L -> ONE b L P = Ret one ->
  rounder Floor b L P x = Ret f -> rounder Ceil b L P x = Ret c ->
  f <= x <= c /\ (f = c \/ c = f + one) /\ (tame Nearest L P -> rounder Nearest b L P x = Ret n -> (n = f \/ n = c) /\ 2 * Z.abs (x - n) <= one).
Proof. exact bracket. Qed.
Print Assumptions C95_bracket.
Example C95_bracket_case : valid dev L64 9 /\ in_range L64 1500000000 /\ 1500000000 <> lo L64 /\ ONE dev L64 9 = Ret 1000000000 /\
  rounder Floor dev L64 9 1500000000 = Ret 1000000000 /\ rounder Ceil dev L64 9 1500000000 = Ret 2000000000.
Proof. meets. Qed.
Theorem C95_mirror : forall m b b' L P x r, valid b L P -> valid b' L P -> in_range L x -> x <> lo L -> tame m L P ->
  (rounder m b L P x = Ret r <-> rounder (mirror m) b' L P (- x) = Ret (- r)).
Proof. exact mirrored. Qed.
Print Assumptions C95_mirror.
Example C95_mirror_case : valid dev L64 9 /\ valid release L64 9 /\ in_range L64 1500000000 /\ 1500000000 <> lo L64 /\ tame
  Nearest L64 9.
Proof. meets. Qed.
(** Adding a whole number before or after a directed rounding is the same. *)
Theorem C95_shift : forall m b b' L P x y k r s, valid b L P -> valid b' L P -> in_range L x -> in_range L y -> x <> lo L -> y <> lo L -> m <> Nearest ->
  y = x + k * 10 ^ P -> rounder m b L P x = Ret r -> rounder m b' L P y = Ret s -> s = r + k * 10 ^ P.
Proof. exact shifted. Qed.
Print Assumptions C95_shift.
Example C95_shift_case : valid dev L64 9 /\ valid release L64 9 /\ in_range L64 1500000000 /\ in_range L64 (-1500000000) /\
  1500000000 <> lo L64 /\ (-1500000000) <> lo L64 /\ Ceil <> Nearest /\ (-1500000000) = 1500000000 + (-3) * 10 ^ 9 /\ rounder Ceil
  dev L64 9 1500000000 = Ret 2000000000 /\ rounder Ceil release L64 9 (-1500000000) = Ret (-1000000000).
Proof. meets. Qed.
(** Rounding to multiples of [p] and then of a multiple of [p] is the second rounding alone. *)
Theorem C95_multiples : forall L x p q k, in_range L x -> in_range L p -> in_range L q -> p <> 0 -> q <> 0 -> q = k * p ->
  round_towards_zero_by L (round_towards_zero_by L x p) q = round_towards_zero_by L x q.
Proof. exact rtz_again. Qed.
Print Assumptions C95_multiples.
Example C95_multiples_case : in_range L64 1500000000 /\ in_range L64 (-4000) /\ in_range L64 12000 /\ (-4000) <> 0 /\ 12000 <> 0
  /\ 12000 = (-3) * (-4000).
Proof. meets. Qed.
Theorem C95_multiples_monotone : forall L x y p, in_range L x -> in_range L y -> in_range L p -> x <= y ->
  round_towards_zero_by L x p <= round_towards_zero_by L y p.
Proof. exact rtz_mono. Qed.
Print Assumptions C95_multiples_monotone.
Example C95_multiples_monotone_case : in_range L64 (-700000001) /\ in_range L64 1500000000 /\ in_range L64 (-4000) /\ (-700000001)
  <= 1500000000.
Proof. meets. Qed.
Theorem C95_multiples_odd : forall L x p, in_range L x -> in_range L p -> x <> lo L ->
  round_towards_zero_by L (- x) p = - round_towards_zero_by L x p.
Proof. exact rtz_odd. Qed.
Print Assumptions C95_multiples_odd.
Example C95_multiples_odd_case : in_range L64 1500000000 /\ in_range L64 (-4000) /\ 1500000000 <> lo L64.
Proof. meets. Qed.
Theorem C95_multiples_sign : forall L x p, in_range L x -> in_range L p -> p <> lo L ->
  round_towards_zero_by L x (- p) = round_towards_zero_by L x p.
Proof. exact rtz_sign. Qed.
Print Assumptions C95_multiples_sign.
Example C95_multiples_sign_case : in_range L64 1500000000 /\ in_range L64 (-4000) /\ (-4000) <> lo L64.
Proof. meets. Qed.
(** Multiples of one: the floor of a number that is not negative, the ceiling of a negative one. *)
Theorem C95_multiples_one : forall b L P x one m, valid b L P -> in_range L x -> x <> lo L -> ONE b L P = Ret one -> m = (if 0 <=? x then Floor else Ceil) ->
  rounder m b L P x = Ret (round_towards_zero_by L x one).
Proof. exact rtz_one. Qed.
Print Assumptions C95_multiples_one.
Example C95_multiples_one_case : valid dev L64 9 /\ in_range L64 1500000000 /\ 1500000000 <> lo L64 /\ ONE dev L64 9 = Ret
  1000000000 /\ Floor = (if 0 <=? 1500000000 then Floor else Ceil).
Proof. meets. Qed.
(** -12.5 and the number after it, and -12.5 in steps of 0.2 and of 1.4. *)
Example C95_example : valid dev L16 1 /\ in_range L16 (-125) /\ -125 <> lo L16 /\ tame Nearest L16 1 /\
  rounder Floor dev L16 1 (-125) = Ret (-130) /\ rounder Nearest dev L16 1 (-125) = Ret (-130) /\ rounder Ceil dev L16 1 (-125) = Ret (-120) /\
  rounder Nearest dev L16 1 (-124) = Ret (-120) /\ rounder Nearest dev L16 1 125 = Ret 130 /\ rounder Nearest dev L16 1 (-130) = Ret (-130) /\
  rounder Floor dev L16 1 (-105) = Ret (-110) /\
  round_towards_zero_by L16 (-125) 2 = -124 /\ round_towards_zero_by L16 (-124) 14 = -112 /\ round_towards_zero_by L16 (-125) 14 = -112 /\
  round_towards_zero_by L16 (-125) 10 = -120.
Proof. repeat split; try (vm_compute; congruence); intros _ [A _]; discriminate A. Qed.
