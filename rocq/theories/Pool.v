(** * Pool: an exchange pool, a blend of two numbers and the length of a vector, written against
    the API.

    Client programs, not code of the crate; they call [cadd], [csub] (src/lib.rs:374-403), [rmul],
    [rdiv] (src/lib.rs:275-349) and [rsqrt] (src/lib.rs:611-648), and stop at the first error. *)
From Coq Require Import QArith.
From Verif Require Import Base Promo Ops Spec.
From Verif Require Import Fixed.
Open Scope Z_scope.

(** Paying [d] of the first good into a pool holding [x] and [y] buys the part [d / (x + d)] of
    the second, rounded in favour of the pool.  Returns the new reserves. *)
Definition buy (b : build) (L : layout) (P : Z) (x y d : Z) : outcome (result (Z * Z) aerr) :=
  try_ (Ret (cadd L x d)) (fun n =>
  try_ (rdiv b L P d n Floor) (fun f =>
  try_ (rmul b L P y f Floor) (fun o =>
  try_ (Ret (csub L y o)) (fun y => Ret (Ok (n, y)))))).
(** Trades either way, one after the other. *)
Definition swap (b : build) (L : layout) (P : Z) (p : Z * Z) (t : bool * Z) : outcome (result (Z * Z) aerr) :=
  if fst t then try_ (buy b L P (snd p) (fst p) (snd t)) (fun q => Ret (Ok (snd q, fst q)))
  else buy b L P (fst p) (snd p) (snd t).
Fixpoint trade (b : build) (L : layout) (P : Z) (p : Z * Z) (l : list (bool * Z)) : outcome (result (Z * Z) aerr) :=
  match l with
  | [] => Ret (Ok p)
  | t :: l => try_ (swap b L P p t) (fun p => trade b L P p l)
  end.
(** The point [t] of the way from [x] to [y]. *)
Definition blend (b : build) (L : layout) (P : Z) (m : mode) (x y t : Z) : outcome (result Z aerr) :=
  try_ (Ret (csub L y x)) (fun d => try_ (rmul b L P d t m) (fun p => Ret (cadd L x p))).
(** The length of the vector [(x, y)]. *)
Definition norm (b : build) (L : layout) (P : Z) (m : mode) (x y : Z) : outcome (result Z aerr) :=
  try_ (rmul b L P x x m) (fun s => try_ (rmul b L P y y m) (fun t =>
  try_ (Ret (cadd L s t)) (fun s => rsqrt b L P s m))).
