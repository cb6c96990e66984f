(** * Series: sums of products and polynomials, written against the API.

    Client programs, not code of the crate; they call [rmul] (src/lib.rs:275-305) and [cadd]
    (src/lib.rs:373-387) and stop at the first error. *)
From Coq Require Import QArith Qabs.
From Verif Require Import Base Promo Ops Spec Programs.
From Verif Require Import Fixed.
Open Scope Z_scope.

(** [acc] plus the products of the pairs, each rounded by [m]. *)
Fixpoint dot (b : build) (L : layout) (P : Z) (m : mode) (acc : Z) (l : list (Z * Z)) : outcome (result Z aerr) :=
  match l with
  | [] => Ret (Ok acc)
  | (x, y) :: l => try_ (rmul b L P x y m) (fun p => try_ (Ret (cadd L acc p)) (fun acc => dot b L P m acc l))
  end.
(** Horner's scheme: the polynomial with the coefficients [acc :: l], highest first, at [x]. *)
Fixpoint horner (b : build) (L : layout) (P : Z) (m : mode) (x acc : Z) (l : list Z) : outcome (result Z aerr) :=
  match l with
  | [] => Ret (Ok acc)
  | a :: l => try_ (rmul b L P acc x m) (fun p => try_ (Ret (cadd L p a)) (fun acc => horner b L P m x acc l))
  end.

(** Specification side. *)
Fixpoint qdot (P : Z) (l : list (Z * Z)) : Q :=
  match l with [] => 0%Q | (x, y) :: l => (dec P x * dec P y + qdot P l)%Q end.
Fixpoint qpow (a : Q) (n : nat) : Q := match n with O => 1%Q | S n => (a * qpow a n)%Q end.
(** The value of the polynomial as a sum of monomials. *)
Fixpoint qpoly (P : Z) (x : Q) (l : list Z) : Q :=
  match l with [] => 0%Q | a :: l => (dec P a * qpow x (length l) + qpoly P x l)%Q end.
(** 1 + a + ... + a^(n-1). *)
Fixpoint geom (a : Q) (n : nat) : Q := match n with O => 0%Q | S n => (qpow a n + geom a n)%Q end.
(** Both members of the pair are numbers of the type. *)
Definition pair_in (L : layout) (p : Z * Z) : Prop := in_range L (fst p) /\ in_range L (snd p).
