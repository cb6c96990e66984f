(** * DocTests: the examples in the crate's documentation, evaluated on the model.

    src/lib.rs:37-47, 79-108, 485-495, 598-606; src/ops/mod.rs:41-369; examples/usage.rs (through
    its [impl_op!] declarations).  Tests of the model, not proofs; [Amount] is
    [FixedPoint<i64, U9>], ["x".parse()?] is [from_str]. *)
From Coq Require Import String Ascii List.
From Verif Require Import Base Promo Ops Fixed Str Macros Reason RepoTests.
From Verif Require Import Fixed.
Import ListNotations.
Open Scope string_scope.
Open Scope Z_scope.

Definition amount (s : string) : Z := match from_str dev L64 9 (str_of s) with Ret (Ok x) => x | _ => 0 end.
Definition lit (s : string) : Z := match fixnum dev L64 9 (str_of s) with Ret x => x | _ => 0 end.
Local Notation "'A' s" := (amount s) (at level 0, s at level 0).

(** Every text above and below is accepted. *)
Example doc_texts : forallb (fun s => match from_str dev L64 9 (str_of s) with Ret (Ok _) => true | _ => false end)
  ["0.1"; "0.2"; "0.3"; "0.000000001"; "8273.519"; "-8273.519"; "81"; "9"; "2"; "1.414213562"; "1.414213563"; "-100";
   "1000.00002"; "9222000000"; "9222001000.00002"; "-9222000000"; "0.000000012"; "-1.000000001"; "0.000000002"; "1000000000"] = true.
Proof. reflexivity. Qed.
Example doc_intro : cadd L64 (A"0.1") (A"0.2") = Ok (A"0.3") /\ A"0.3" = 300000000 /\
  rmul dev L64 9 (A"0.000000001") (A"0.000000001") Floor = Ret (Ok ZERO) /\
  rmul dev L64 9 (A"0.000000001") (A"0.000000001") Ceil = Ret (Ok (A"0.000000001")).
Proof. vm_compute. repeat split. Qed.
(** [Size(4).cmul(Price)], [Price.rmul(Ratio)]. *)
Definition of_fp (z : Z) : operand := {| okind := KFp L64 9; oval := z |}.
Example doc_wrapper :
  op_cmul (KFp L64 9) {| okind := KInt I32; oval := 4 |} (of_fp (lit "4.25")) = Some (Ret (Ok (lit "17"))) /\
  op_rmul dev (KFp L64 9) (of_fp (lit "4.25")) (of_fp (lit "0.5")) Ceil = Some (Ret (Ok (lit "2.125"))) /\ lit "17" = 17000000000.
Proof. vm_compute. repeat split. Qed.
Example doc_integral :
  integral dev L64 9 (A"8273.519") Floor = Ret 8273 /\ integral dev L64 9 (A"8273.519") Nearest = Ret 8274 /\
  integral dev L64 9 (A"8273.519") Ceil = Ret 8274 /\ integral dev L64 9 (A"-8273.519") Floor = Ret (-8274) /\
  integral dev L64 9 (A"-8273.519") Nearest = Ret (-8274) /\ integral dev L64 9 (A"-8273.519") Ceil = Ret (-8273).
Proof. vm_compute. repeat split. Qed.
Example doc_rsqrt :
  rsqrt dev L64 9 (A"81") Floor = Ret (Ok (A"9")) /\ rsqrt dev L64 9 (A"2") Floor = Ret (Ok (A"1.414213562")) /\
  rsqrt dev L64 9 (A"2") Ceil = Ret (Ok (A"1.414213563")) /\ rsqrt dev L64 9 (A"-100") Floor = Ret (Err DomainViolation).
Proof. vm_compute. repeat split. Qed.
Example doc_saturating :
  fp_saturating_add L64 (A"1000.00002") (A"9222000000") = A"9222001000.00002" /\
  fp_saturating_add L64 (A"9222001000.00002") (A"9222001000.00002") = MAX L64 /\
  fp_saturating_add L64 (A"-9222000000") (A"-9222000000") = MIN L64 /\
  csub L64 (A"0.3") (A"0.1") = Ok (A"0.2") /\
  fp_saturating_sub L64 (A"9222001000.00002") (A"9222000000") = A"1000.00002" /\
  fp_saturating_sub L64 (A"9222000000") (A"-9222000000") = MAX L64 /\
  fp_saturating_sub L64 (A"-9222000000") (A"9222000000") = MIN L64 /\
  cmul L64 (A"0.000000001") 12 = Ok (A"0.000000012") /\ int_cmul_fp L64 12 (A"0.000000001") = Ok (A"0.000000012") /\
  fp_saturating_mul L64 (A"0.000000001") 12 = A"0.000000012" /\ int_saturating_mul_fp L64 12 (A"0.000000001") = A"0.000000012" /\
  fp_saturating_mul L64 (A"0.000000001") (imax I64) = MAX L64 /\ fp_saturating_mul L64 (A"-1.000000001") (imax I64) = MIN L64.
Proof. vm_compute. repeat split. Qed.
Example doc_rmul_rdiv :
  rmul dev L64 9 (A"0.000000001") (A"0.000000002") Ceil = Ret (Ok (A"0.000000001")) /\
  rmul dev L64 9 (A"0.000000002") (A"0.000000001") Ceil = Ret (Ok (A"0.000000001")) /\
  rmul dev L64 9 (A"0.000000001") (A"0.000000002") Floor = Ret (Ok ZERO) /\
  rmul dev L64 9 (A"0.000000002") (A"0.000000001") Floor = Ret (Ok ZERO) /\
  saturating_rmul dev L64 9 (A"0.000000001") (A"0.000000002") Ceil = Ret (A"0.000000001") /\
  saturating_rmul dev L64 9 (A"0.000000001") (A"0.000000002") Floor = Ret ZERO /\
  saturating_rmul dev L64 9 (MIN L64) (MIN L64) Floor = Ret (MAX L64) /\
  saturating_rmul dev L64 9 (A"-1.000000001") (MAX L64) Ceil = Ret (MIN L64) /\
  rdiv dev L64 9 (A"0.000000001") (A"1000000000") Ceil = Ret (Ok (A"0.000000001")) /\
  rdiv dev L64 9 (A"0.000000001") (A"1000000000") Floor = Ret (Ok ZERO).
Proof. vm_compute. repeat split. Qed.
