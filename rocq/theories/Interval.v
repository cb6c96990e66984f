(** * Interval: interval arithmetic written against the API.

    A client program, not code of the crate. It keeps a lower and an upper bound, computed with
    [cadd], [csub], [cneg] (src/lib.rs:373-403, 454-463), [rmul] and [rdiv] with Floor and Ceil
    (src/lib.rs:275-348) and [Ord::min]/[max] (src/lib.rs:197). It stops at the first error, and
    answers [DivisionByZero] itself if a divisor may be zero. *)
From Coq Require Import QArith.
From Verif Require Import Base Promo Ops Spec.
From Verif Require Import Fixed.
Open Scope Z_scope.

(** A leaf is a quantity known to lie between two numbers. *)
Inductive expr : Type :=
  | Leaf (l h : Z)
  | Neg (e : expr)
  | Add (e e' : expr)
  | Sub (e e' : expr)
  | Mul (e e' : expr)
  | Div (e e' : expr).

(** The least of four results rounded down and the greatest of four rounded up. *)
Definition least (op : Z -> Z -> outcome (result Z aerr)) (l h l' h' : Z) : outcome (result Z aerr) :=
  try_ (op l l') (fun a => try_ (op l h') (fun b => try_ (op h l') (fun c => try_ (op h h') (fun d =>
  Ret (Ok (fp_min (fp_min a b) (fp_min c d))))))).
Definition greatest (op : Z -> Z -> outcome (result Z aerr)) (l h l' h' : Z) : outcome (result Z aerr) :=
  try_ (op l l') (fun a => try_ (op l h') (fun b => try_ (op h l') (fun c => try_ (op h h') (fun d =>
  Ret (Ok (fp_max (fp_max a b) (fp_max c d))))))).

Fixpoint enclose (b : build) (L : layout) (P : Z) (e : expr) : outcome (result (Z * Z) aerr) :=
  match e with
  | Leaf l h => Ret (Ok (l, h))
  | Neg e =>
      try_ (enclose b L P e) (fun '(l, h) =>
      try_ (Ret (cneg L h)) (fun l1 => try_ (Ret (cneg L l)) (fun h1 => Ret (Ok (l1, h1)))))
  | Add e e' =>
      try_ (enclose b L P e) (fun '(l, h) => try_ (enclose b L P e') (fun '(l', h') =>
      try_ (Ret (cadd L l l')) (fun l1 => try_ (Ret (cadd L h h')) (fun h1 => Ret (Ok (l1, h1))))))
  | Sub e e' =>
      try_ (enclose b L P e) (fun '(l, h) => try_ (enclose b L P e') (fun '(l', h') =>
      try_ (Ret (csub L l h')) (fun l1 => try_ (Ret (csub L h l')) (fun h1 => Ret (Ok (l1, h1))))))
  | Mul e e' =>
      try_ (enclose b L P e) (fun '(l, h) => try_ (enclose b L P e') (fun '(l', h') =>
      try_ (least (fun x y => rmul b L P x y Floor) l h l' h') (fun l1 =>
      try_ (greatest (fun x y => rmul b L P x y Ceil) l h l' h') (fun h1 => Ret (Ok (l1, h1))))))
  | Div e e' =>
      try_ (enclose b L P e) (fun '(l, h) => try_ (enclose b L P e') (fun '(l', h') =>
      if fp_le l' ZERO && fp_le ZERO h' then Ret (Err DivisionByZero) else
      try_ (least (fun x y => rdiv b L P x y Floor) l h l' h') (fun l1 =>
      try_ (greatest (fun x y => rdiv b L P x y Ceil) l h l' h') (fun h1 => Ret (Ok (l1, h1))))))
  end.

(** Specification side: the values an expression can have. *)
Inductive may_be (P : Z) : expr -> Q -> Prop :=
  | VLeaf l h q : (dec P l <= q <= dec P h)%Q -> may_be P (Leaf l h) q
  | VNeg e q r : may_be P e q -> (r == - q)%Q -> may_be P (Neg e) r
  | VAdd e e' q q' r : may_be P e q -> may_be P e' q' -> (r == q + q')%Q -> may_be P (Add e e') r
  | VSub e e' q q' r : may_be P e q -> may_be P e' q' -> (r == q - q')%Q -> may_be P (Sub e e') r
  | VMul e e' q q' r : may_be P e q -> may_be P e' q' -> (r == q * q')%Q -> may_be P (Mul e e') r
  | VDiv e e' q q' r : may_be P e q -> may_be P e' q' -> ~ (q' == 0)%Q -> (r == q / q')%Q -> may_be P (Div e e') r.
(** The leaves are intervals of numbers of the type. *)
Fixpoint leaves (L : layout) (e : expr) : Prop :=
  match e with
  | Leaf l h => in_range L l /\ in_range L h /\ l <= h
  | Neg e => leaves L e
  | Add e e' | Sub e e' | Mul e e' | Div e e' => leaves L e /\ leaves L e'
  end.
