(** * Account: an account with interest and cash flows, written against the API.

    A client program, not code of the crate; it calls [rmul] (src/lib.rs:275-310) and [cadd]
    (src/lib.rs:376-387), and stops at the first error. *)
From Verif Require Import Base Promo Ops Spec.
From Verif Require Import Fixed.
Open Scope Z_scope.

(** In each period interest at the rate [r], rounded by [m], is added to the balance [x], and then
    the cash flow of the period. *)
Fixpoint account (b : build) (L : layout) (P : Z) (m : mode) (r x : Z) (l : list Z) : outcome (result Z aerr) :=
  match l with
  | [] => Ret (Ok x)
  | f :: l =>
      try_ (rmul b L P x r m) (fun i =>
      try_ (Ret (cadd L x i)) (fun x =>
      try_ (Ret (cadd L x f)) (fun x => account b L P m r x l)))
  end.
