(** * PropsWrap: C83, saturating methods that wrapper types inherit. *)
From Coq Require Import QArith.
From Verif Require Import Base Promo ConstFn Ops Macros Spec SpecMacro.
From Verif Require Import SatWrap.
From Verif Require Import Fixed.
From Verif Require Import Meets.
Open Scope Z_scope.

(** ** C83 *)
Theorem C83_mul : forall r x y o, typed x -> typed y -> op_saturating_mul r x y = Some o ->
  exists z, o = Ret z /\ saturates r (value x * value y) z.
Proof. exact op_smul_ok. Qed.
Print Assumptions C83_mul.
Example C83_mul_case : typed {| okind := KFp L64 9; oval := 1500000000 |} /\ typed {| okind := KInt I8; oval := -2 |} /\
  op_saturating_mul (KFp L64 9) {| okind := KFp L64 9; oval := 1500000000 |} {| okind := KInt I8; oval := -2 |} = Some (Ret
  (-3000000000)).
Proof. meets. Qed.
Theorem C83_mul_types : forall r x y, op_saturating_mul r x y <> None <-> op_cmul r x y <> None.
Proof. exact smul_types. Qed.
Print Assumptions C83_mul_types.
(** The rounded product is clamped; the one exception is that of C06. *)
Theorem C83_rmul : forall b r x y m o, typed x -> typed y -> (forall L P, r = KFp L P -> supported b L) ->
  op_saturating_rmul b r x y m = Some o ->
  exists L P, r = KFp L P /\ ((m = Nearest -> ~ (L = L128 /\ P = 38)) ->
    exists z e, o = Ret z /\ rounds_to m P (value x * value y) e /\ clamped L e z).
Proof. exact op_srmul_clamps. Qed.
Print Assumptions C83_rmul.
Example C83_rmul_case : typed {| okind := KFp L64 9; oval := 1500000000 |} /\ typed {| okind := KFp L64 9; oval := -700000001 |}
  /\ (forall L P, (KFp L64 9) = KFp L P -> supported dev L) /\ op_saturating_rmul dev (KFp L64 9) {| okind := KFp L64 9; oval :=
  1500000000 |} {| okind := KFp L64 9; oval := -700000001 |} Nearest = Some (Ret (-1050000002)).
Proof. split; [meets|]; split; [meets|]; split; [intros L P e; injection e as <- <-; meets|meets]. Qed.
(** It is the method of the wrapped type. *)
Theorem C83_rmul_same : forall b r x y m o, op_saturating_rmul b r x y m = Some o ->
  exists L P, r = KFp L P /\ okind x = r /\ okind y = r /\ o = saturating_rmul b L P (oval x) (oval y) m.
Proof. exact op_srmul_ok. Qed.
Print Assumptions C83_rmul_same.
Example C83_rmul_same_case : op_saturating_rmul dev (KFp L64 9) {| okind := KFp L64 9; oval := 1500000000 |} {| okind := KFp L64
  9; oval := -700000001 |} Nearest = Some (Ret (-1050000002)).
Proof. meets. Qed.
Theorem C83_fixed : forall b L P x y m, valid b L P -> in_range L x -> in_range L y -> (m = Nearest -> ~ (L = L128 /\ P = 38)) ->
  exists z e, saturating_rmul b L P x y m = Ret z /\ rounds_to m P (dec P x * dec P y) e /\ clamped L e z.
Proof. exact srmul_clamps. Qed.
Print Assumptions C83_fixed.
Example C83_fixed_case : valid dev L64 9 /\ in_range L64 1500000000 /\ in_range L64 (-700000001) /\ (Nearest = Nearest -> ~ (L64 =
  L128 /\ 9 = 38)).
Proof. meets. Qed.
(** A price of -9000000000 times a size of 3, and squared. *)
Example C83_example :
  let x := {| okind := KFp L64 9; oval := -9000000000000000000 |} in
  let n := {| okind := KInt I64; oval := 3 |} in
  typed x /\ typed n /\ op_saturating_mul (KFp L64 9) x n = Some (Ret (lo L64)) /\
  op_saturating_mul (KFp L64 9) n x = Some (Ret (lo L64)) /\
  op_saturating_rmul dev (KFp L64 9) x x Floor = Some (Ret (hi L64)) /\
  op_saturating_mul (KInt I64) n n = Some (Ret 9) /\ op_saturating_mul (KFp L64 9) x x = None.
Proof. cbv zeta. unfold typed. cbn [okind]. example. Qed.
