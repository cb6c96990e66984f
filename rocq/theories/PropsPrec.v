(** * PropsPrec: C77 and C78, precisions too large for the layout. *)
From Coq Require Import QArith.
From Verif Require Import Base Promo Ops Spec.
From Verif Require Import PrecFacts.
From Verif Require Import Fixed.
From Verif Require Import Meets.
Open Scope Z_scope.

(** ** C77 *)
(** Missing: precisions with [10 ^ P > hi L], where it is false. *)
Theorem C77_one_partial : forall b L P o, valid b L P -> ONE b L P = Ret o -> (dec P o == 1)%Q.
Proof. exact one_valid. Qed.
Print Assumptions C77_one_partial.
Example C77_one_partial_case : valid dev L64 9 /\ ONE dev L64 9 = Ret 1000000000.
Proof. meets. Qed.
Theorem C77_refuted : exists b L P o, supported b L /\ ONE b L P = Ret o /\ ~ (dec P o == 1)%Q.
Proof. exact one_refuted. Qed.
Print Assumptions C77_refuted.
Example C77_example : valid dev L16 4 /\ ONE dev L16 4 = Ret 10000 /\ ONE dev L16 5 = Ret (-31072) /\
  ONE dev L32 10 = Ret 1410065408 /\ ONE dev L64 19 = Ret (-8446744073709551616) /\ ONE dev L64 39 = Panic.
Proof. example. Qed.

(** ** C78 *)
Theorem C78_coefficient : forall b L P, supported b L -> 0 <= P < 2 ^ 31 ->
  (ovf b = true /\ (if f128 b then 38 else 18) < P /\ COEF b L P = Panic) \/
  (~ (ovf b = true /\ (if f128 b then 38 else 18) < P) /\
   exists r, COEF b L P = Ret r /\ ONE b L P = Ret r /\ in_range L r /\ (2 * (hi L + 1) | r - 10 ^ P)).
Proof. exact coefficient_all. Qed.
Print Assumptions C78_coefficient.
Example C78_coefficient_case : supported dev L64 /\ 0 <= 9 < 2 ^ 31.
Proof. meets. Qed.
Theorem C78_right_iff_valid : forall b L P, supported b L -> 0 <= P < 2 ^ 31 ->
  (COEF b L P = Ret (10 ^ P) <-> valid_prec L P).
Proof. exact COEF_right. Qed.
Print Assumptions C78_right_iff_valid.
Example C78_right_iff_valid_case : supported dev L64 /\ 0 <= 9 < 2 ^ 31.
Proof. meets. Qed.
Theorem C78_one_wrong : forall b L P r, supported b L -> 0 <= P < 2 ^ 31 -> ~ valid_prec L P ->
  ONE b L P = Ret r -> ~ (dec P r == 1)%Q.
Proof. exact ONE_wrong. Qed.
Print Assumptions C78_one_wrong.
Example C78_one_wrong_case : supported dev L64 /\ 0 <= 20 < 2 ^ 31 /\ ~ valid_prec L64 20 /\ ONE dev L64 20 = Ret
  7766279631452241920.
Proof. meets. Qed.
Theorem C78_zero : forall b L P, supported b L -> width (lty L) <= P < 2 ^ 31 ->
  COEF b L P = Panic \/ COEF b L P = Ret 0.
Proof. exact COEF_zero. Qed.
Print Assumptions C78_zero.
Example C78_zero_case : supported dev L64 /\ width (lty L64) <= 64 < 2 ^ 31.
Proof. meets. Qed.
Theorem C78_rmul_zero : forall b L P x y m, supported b L -> width (lty L) <= P < 2 ^ 31 -> L <> L128 ->
  in_range L x -> in_range L y -> rmul b L P x y m = Panic.
Proof. exact rmul_zero_coef. Qed.
Print Assumptions C78_rmul_zero.
Example C78_rmul_zero_case : supported dev L64 /\ width (lty L64) <= 64 < 2 ^ 31 /\ L64 <> L128 /\ in_range L64 1500000000 /\
  in_range L64 (-700000001).
Proof. meets. Qed.
Theorem C78_negated : forall b L P, supported b L -> P = width (lty L) - 1 -> P < 39 -> NEG_COEF b L P = Panic.
Proof. exact NEG_COEF_min. Qed.
Print Assumptions C78_negated.
Example C78_negated_case : supported dev L32 /\ 31 = width (lty L32) - 1 /\ 31 < 39.
Proof. meets. Qed.
Example C78_example : supported dev L16 /\ ~ valid_prec L16 5 /\ COEF dev L16 5 = Ret (-31072) /\
  COEF dev L16 16 = Ret 0 /\ rmul dev L16 16 1 1 Floor = Panic /\ NEG_COEF dev L32 31 = Panic.
Proof. repeat split; try discriminate; try reflexivity. intros [_ H]. vm_compute in H. now apply H. Qed.
