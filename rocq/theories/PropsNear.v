(** * PropsNear: C79 to C81, conversion to f64. *)
From Coq Require Import SpecFloat QArith Qabs.
From Verif Require Import Base Promo Ops Fixed Float Spec SpecF64.
From Verif Require Import F64Near F64Mono F64Faith.
From Verif Require Import Fixed.
From Verif Require Import Meets.
Open Scope Z_scope.

(** ** C79 *)
Theorem C79_monotone : forall b b' L P x y f g, valid b L P -> valid b' L P -> in_range L x -> in_range L y -> x <= y ->
  to_f64 b L P x = Ret f -> to_f64 b' L P y = Ret g -> (f64_val (f64_to_bits f) <= f64_val (f64_to_bits g))%Q.
Proof. exact to_mono. Qed.
Print Assumptions C79_monotone.
Example C79_monotone_case : valid dev L64 9 /\ valid release L64 9 /\ in_range L64 (-700000001) /\ in_range L64 1500000000 /\
  (-700000001) <= 1500000000 /\ to_f64 dev L64 9 (-700000001) = Ret (S754_finite true 6305039487325894 (-53)) /\ to_f64 release
  L64 9 1500000000 = Ret (S754_finite false 6755399441055744 (-52)).
Proof. meets. Qed.
(** 9007199254740993 lies between two floats, both neighbours give the same. *)
Example C79_example : valid dev L128 19 /\ in_range L128 (9007199254740993 * 10 ^ 19 - 1) /\ in_range L128 (9007199254740993 * 10 ^ 19) /\
  to_f64 dev L128 19 (9007199254740993 * 10 ^ 19 - 1) = Ret (S754_finite false 4503599627370496 1) /\
  to_f64 release L128 19 (9007199254740993 * 10 ^ 19) = Ret (S754_finite false 4503599627370496 1) /\
  to_f64 release L128 19 (9007199254740994 * 10 ^ 19) = Ret (S754_finite false 4503599627370497 1).
Proof. example. Qed.

(** ** C80 *)
(** Missing: numbers with both an integral and a fractional part, where it is false, and
    fractions beyond [10 ^ 22] or [2 ^ 53]. *)
Theorem C80_nearest_partial : forall b L P x f, valid b L P -> in_range L x -> to_f64 b L P x = Ret f ->
  (10 ^ P | x) \/ (P <= 22 /\ Z.abs x < 10 ^ P /\ Z.abs x <= 2 ^ 53) -> f64_nearest (dec P x) (f64_to_bits f).
Proof. exact to_nearest. Qed.
Print Assumptions C80_nearest_partial.
Example C80_nearest_partial_case : valid dev L64 9 /\ in_range L64 (-300000000) /\ to_f64 dev L64 9 (-300000000) = Ret
  (S754_finite true 5404319552844595 (-54)) /\ ((10 ^ 9 | (-300000000)) \/ (9 <= 22 /\ Z.abs (-300000000) < 10 ^ 9 /\ Z.abs
  (-300000000) <= 2 ^ 53)).
Proof. do 3 (split; [meets|]); right; meets. Qed.
(** 1.14, which becomes the float after the nearest one. *)
Theorem C80_nearest_refuted : exists f, valid dev L16 2 /\ in_range L16 114 /\ to_f64 dev L16 2 114 = Ret f /\
  ~ f64_nearest (dec 2 114) (f64_to_bits f).
Proof. exact not_nearest. Qed.
Print Assumptions C80_nearest_refuted.
(** 0.1 and 2^53 + 1. *)
Example C80_example : valid dev L16 2 /\ in_range L16 10 /\ to_f64 dev L16 2 10 = Ret (S754_finite false 7205759403792794 (-56)) /\
  valid dev L64 0 /\ in_range L64 9007199254740993 /\ to_f64 dev L64 0 9007199254740993 = Ret (S754_finite false 4503599627370496 1).
Proof. example. Qed.

(** ** C81 *)
Theorem C81_faithful : forall b L P x f, valid b L P -> P <= 15 -> in_range L x -> to_f64 b L P x = Ret f ->
  f64_faithful (dec P x) (f64_to_bits f).
Proof. exact to_faithful. Qed.
Print Assumptions C81_faithful.
Example C81_faithful_case : valid dev L64 9 /\ 9 <= 15 /\ in_range L64 1500000000 /\ to_f64 dev L64 9 1500000000 = Ret
  (S754_finite false 6755399441055744 (-52)).
Proof. meets. Qed.
(** The bound on the precision cannot be improved. *)
Theorem C81_sharp : exists x f, valid dev L64 16 /\ in_range L64 x /\ to_f64 dev L64 16 x = Ret f /\ ~ f64_faithful (dec 16 x) (f64_to_bits f).
Proof. exact sixteen_not_faithful. Qed.
Print Assumptions C81_sharp.
(** 1.14 again, and a number of eighteen digits. *)
Example C81_example : valid dev L16 2 /\ in_range L16 114 /\ to_f64 dev L16 2 114 = Ret (S754_finite false 5134103575202366 (-52)) /\
  valid dev L64 15 /\ in_range L64 (-123456789012345678) /\ to_f64 dev L64 15 (-123456789012345678) = Ret (S754_finite true 8687499203005593 (-46)).
Proof. example. Qed.
