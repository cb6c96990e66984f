(** * SpecTypes: which operands the operations of [impl_op!] take. *)
From Verif Require Import Base Promo Fixed Spec Macros.
Open Scope Z_scope.

(** i8, i16, i32, i64 or i128. *)
Definition sized (t : ity) : Prop := In t [I8; I16; I32; I64; I128].
(** A value of kind [k] is used unchanged, or widened, for a result of kind [r]. *)
Definition widens (k r : kind) : Prop :=
  match k, r with
  | KFp L P, KFp L' P' => L = L' /\ P = P'
  | KInt t, KFp L _ => sized t /\ width t <= bits L
  | KInt t, KInt t' => sized t /\ sized t' /\ width t <= width t'
  | KFp _ _, KInt _ => False
  end.
Definition fixed (k : kind) : Prop := exists L P, k = KFp L P.
