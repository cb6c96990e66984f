(** * Schedule: instalments, written against the API.

    A client program, not code of the crate; it calls [cmul] (src/lib.rs:405-419), [rdiv] by an
    integer (src/lib.rs:350-359) and [csub] (src/lib.rs:389-403), and stops at the first error. *)
From Verif Require Import Base Promo Ops Spec.
From Verif Require Import Fixed.
Open Scope Z_scope.

(** [k] further instalments of [x] in [n] parts: each is the difference of two rounded running
    totals, [x * i / n] and the one before, [prev]. *)
Fixpoint instalments (b : build) (L : layout) (m : mode) (x n : Z) (k : nat) (i prev : Z) : outcome (result (list Z) aerr) :=
  match k with
  | O => Ret (Ok [])
  | S k =>
      try_ (Ret (cmul L x i)) (fun t =>
      try_ (rdiv_int b L t n m) (fun c =>
      try_ (Ret (csub L c prev)) (fun s =>
      try_ (instalments b L m x n k (i + 1) c) (fun l => Ret (Ok (s :: l))))))
  end.
Definition schedule (b : build) (L : layout) (m : mode) (x n : Z) : outcome (result (list Z) aerr) :=
  instalments b L m x n (Z.to_nat n) 1 0.

(** Specification side. *)
Fixpoint total (l : list Z) : Z := match l with [] => 0 | x :: l => x + total l end.
