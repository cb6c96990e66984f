(** * Split: a fee split, tax contained in a price, and bisection, written against the API.

    Client programs, not code of the crate; they call [rmul] (src/lib.rs:275-310), [rdiv]
    (src/lib.rs:312-348), [csub] (src/lib.rs:389-403) and [half_sum] (src/lib.rs:466-476), and stop
    at the first error. *)
From Verif Require Import Base Promo Ops Spec.
From Verif Require Import Fixed.
Open Scope Z_scope.

(** The part [x * r] and the part [x * (1 - r)], rounded by [m] and [m']. *)
Definition split (b : build) (L : layout) (P : Z) (m m' : mode) (x r : Z) : outcome (result (Z * Z) aerr) :=
  one <- ONE b L P ;;
  try_ (Ret (csub L one r)) (fun r' =>
  try_ (rmul b L P x r m) (fun a =>
  try_ (rmul b L P x r' m') (fun c => Ret (Ok (a, c))))).
(** Net price and tax, from a price that contains tax at the rate [t]. *)
Definition untax (b : build) (L : layout) (P : Z) (m : mode) (g t : Z) : outcome (result (Z * Z) aerr) :=
  one <- ONE b L P ;;
  try_ (Ret (cadd L one t)) (fun f =>
  try_ (rdiv b L P g f m) (fun n =>
  try_ (Ret (csub L g n)) (fun tax => Ret (Ok (n, tax))))).
(** Bisection between [l], where [p] holds, and [h], where it does not; [k] bounds the number of
    steps. The client compares raw values ([as_bits], src/lib.rs:220-224). *)
Fixpoint bisect (b : build) (L : layout) (p : Z -> bool) (k : nat) (l h : Z) : outcome Z :=
  match k with
  | O => NoFuel
  | S k =>
      mid <- half_sum b L l h Floor ;;
      if mid =? l then Ret l
      else if p mid then bisect b L p k mid h else bisect b L p k l mid
  end.
(** The question asked of each [z]: is the answer of a call at most [x]? *)
Definition at_most (o : outcome (result Z aerr)) (x : Z) : bool := match o with Ret (Ok s) => s <=? x | _ => false end.
