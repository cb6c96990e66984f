(** * PropsBack: C88 and C89, conversion from f64. *)
From Coq Require Import QArith Qabs Qpower.
From Verif Require Import Base Promo Ops Fixed Str Float Spec SpecText SpecF64.
From Verif Require Import F64Back F64Steps TextLaws.
From Verif Require Import Fixed.
From Coq Require Import SpecFloat.
From Verif Require Import F64Mono.
From Verif Require Import Meets.
Open Scope Z_scope.

(** ** C88 *)
Theorem C88_close : forall b L P raw x, valid b L P -> f64_finite raw -> in_range L x -> x <> lo L -> Z.abs x <= 10 ^ 15 ->
  (Qabs (f64_val raw - dec P x) <= Qabs (dec P x) * Qpower (2 # 1) (-51))%Q -> try_from_f64 b L P raw = Ret (Ok x).
Proof. exact reads_back. Qed.
Print Assumptions C88_close.
Example C88_close_case : valid dev L64 9 /\ f64_finite 4591870180066957723 /\ in_range L64 100000000 /\ 100000000 <> lo L64 /\
  Z.abs 100000000 <= 10 ^ 15 /\ (Qabs (f64_val 4591870180066957723 - dec 9 100000000) <= Qabs (dec 9 100000000) * Qpower (2 # 1)
  (-51))%Q.
Proof. meets. Qed.
Theorem C88_nearest : forall b L P raw x, valid b L P -> in_range L x -> x <> lo L -> Z.abs x <= 10 ^ 15 ->
  f64_nearest (dec P x) raw -> try_from_f64 b L P raw = Ret (Ok x).
Proof. exact nearest_back. Qed.
Print Assumptions C88_nearest.
Example C88_nearest_case : valid dev L64 9 /\ in_range L64 100000000 /\ 100000000 <> lo L64 /\ Z.abs 100000000 <= 10 ^ 15 /\
  f64_nearest (dec 9 100000000) 4591870180066957722.
Proof. do 4 (split; [meets|]); apply (to_nearest dev L64 9 100000000 (S754_finite false 7205759403792794 (-56)));
  [meets|meets|reflexivity|right; meets]. Qed.
Theorem C88_text : forall b b' L P s neg i f x raw, valid b L P -> valid b' L P -> spells s neg i f ->
  from_str_exact b L P s = Ret (Ok x) -> x <> lo L -> Z.abs x <= 10 ^ 15 -> f64_nearest (spelled neg i f) raw ->
  try_from_f64 b' L P raw = Ret (Ok x).
Proof. exact text_float. Qed.
Print Assumptions C88_text.
Example C88_text_case : valid dev L64 9 /\ valid release L64 9 /\ spells [48; 46; 49] false [48] (Some [49]) /\ from_str_exact dev
  L64 9 [48; 46; 49] = Ret (Ok 100000000) /\ 100000000 <> lo L64 /\ Z.abs 100000000 <= 10 ^ 15 /\ f64_nearest (spelled false [48]
  (Some [49])) 4591870180066957722.
Proof. do 2 (split; [meets|]); split; [meets|]; do 3 (split; [meets|]); apply (f64_nearest_eq (dec 9 100000000)); [reflexivity|];
  apply (to_nearest dev L64 9 100000000 (S754_finite false 7205759403792794 (-56))); [meets|meets|reflexivity|right; meets]. Qed.
(** [10 ^ 15] cannot be replaced by a number a thousandth larger. *)
Theorem C88_sharp : exists raw x, valid dev L64 9 /\ f64_finite raw /\ in_range L64 x /\ x <= 1000894849684565 /\
  (Qabs (f64_val raw - dec 9 x) <= Qabs (dec 9 x) * Qpower (2 # 1) (-51))%Q /\ try_from_f64 dev L64 9 raw = Ret (Ok (x + 1)).
Proof. exact back_sharp. Qed.
Print Assumptions C88_sharp.
(** -0.1: the nearest float and the one after it. *)
Example C88_example : valid dev L64 9 /\ f64_finite 13815242216921733530 /\ in_range L64 (-100000000) /\ -100000000 <> lo L64 /\
  Z.abs (-100000000) <= 10 ^ 15 /\
  Qle_bool (Qabs (f64_val 13815242216921733530 - dec 9 (-100000000))) (Qabs (dec 9 (-100000000)) * Qpower (2 # 1) (-51)) = true /\
  Qle_bool (Qabs (f64_val 13815242216921733531 - dec 9 (-100000000))) (Qabs (dec 9 (-100000000)) * Qpower (2 # 1) (-51)) = true /\
  try_from_f64 dev L64 9 13815242216921733530 = Ret (Ok (-100000000)) /\ try_from_f64 dev L64 9 13815242216921733531 = Ret (Ok (-100000000)).
Proof. unfold f64_finite, is_f64. example. Qed.

(** ** C89 *)
Theorem C89_two_steps : forall b L P raw N E, valid b L P -> f64_finite raw -> 0 <= E -> 0 < N < 2 ^ 128 ->
  (Qabs (f64_val raw) == dec E N)%Q -> (Qabs (f64_val raw) < Zq (2 ^ 52))%Q ->
  exists k y z, 0 <= k /\ (Qabs (f64_val raw) * q10 k < Zq (2 ^ 52))%Q /\ (Zq (2 ^ 52) <= Qabs (f64_val raw) * q10 (k + 1))%Q /\
    cuts (Qabs (f64_val raw) * q10 k) y /\ cuts (dec k y * q10 P) z /\ 0 <= z /\
    try_from_f64 b L P raw = Ret (if z <=? hi L then Ok (if f64_sign raw then - z else z) else Err ConvertError).
Proof. exact two_steps. Qed.
Print Assumptions C89_two_steps.
Example C89_two_steps_case : valid dev L32 2 /\ f64_finite 4653144495922085888 /\ 0 <= 8 /\ 0 < 123456640625 < 2 ^ 128 /\ (Qabs
  (f64_val 4653144495922085888) == dec 8 123456640625)%Q /\ (Qabs (f64_val 4653144495922085888) < Zq (2 ^ 52))%Q.
Proof. meets. Qed.
Theorem C89_unique : forall q z z', cuts q z -> cuts q z' -> z = z'.
Proof. exact cuts_unique. Qed.
Print Assumptions C89_unique.
Example C89_unique_case : cuts (23 # 10) 2 /\ cuts (23 # 10) 2.
Proof. unfold cuts; meets. Qed.
(** 1234.56640625, and 1.44921875 and 1.4375, on either side of four ninths. *)
Example C89_example : valid dev L32 2 /\ f64_finite 4653144495922085888 /\ 0 < 123456640625 < 2 ^ 128 /\
  Qeq_bool (Qabs (f64_val 4653144495922085888)) (dec 8 123456640625) = true /\
  try_from_f64 dev L32 2 4653144495922085888 = Ret (Ok 123457) /\
  Qeq_bool (Qabs (f64_val 4609205520195125248)) (dec 8 144921875) = true /\ try_from_f64 dev L32 0 4609205520195125248 = Ret (Ok 2) /\
  Qeq_bool (Qabs (f64_val 4609152743636992000)) (dec 4 14375) = true /\ try_from_f64 dev L32 0 4609152743636992000 = Ret (Ok 1).
Proof. unfold f64_finite, is_f64. example. Qed.
