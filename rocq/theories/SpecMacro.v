(** * SpecMacro: vocabulary for the macros: operands of wrapper types, literals.

    Uses only the plain data types [kind] and [operand] of the model. *)
From Verif Require Import Base Promo Macros Spec SpecText.
Open Scope Z_scope.

(** The number held by an operand. *)
Definition value (o : operand) : Q :=
  match okind o with KFp _ P => dec P (oval o) | KInt _ => Zq (oval o) end.
(** The operand is a value of its type. *)
Definition typed (o : operand) : Prop :=
  match okind o with KFp L P => valid_prec L P /\ in_range L (oval o) | KInt t => fits t (oval o) end.
(** [z] is the inner value, of kind [k], of the number [d]. *)
Definition denotes (k : kind) (d : Q) (z : Z) : Prop :=
  typed {| okind := k; oval := z |} /\ (value {| okind := k; oval := z |} == d)%Q.
(** The operation returns the number [d] if it is one of kind [k], else [Overflow]. *)
Definition computes (k : kind) (d : Q) (o : outcome (result Z aerr)) : Prop :=
  (exists z, denotes k d z /\ o = Ret (Ok z)) \/
  ((forall z, ~ denotes k d z) /\ o = Ret (Err Overflow)).
(** Smallest and largest inner value of a kind. *)
Definition low (k : kind) : Z :=
  match k with KFp L _ => lo L | KInt t => if is_signed t then - 2 ^ (width t - 1) else 0 end.
Definition high (k : kind) : Z :=
  match k with KFp L _ => hi L | KInt t => if is_signed t then 2 ^ (width t - 1) - 1 else 2 ^ width t - 1 end.
(** [z] is the number [d] clamped into kind [k]. *)
Definition saturates (k : kind) (d : Q) (z : Z) : Prop :=
  let v r := value {| okind := k; oval := r |} in
  low k <= z <= high k /\ ((v (low k) <= d <= v (high k))%Q -> (v z == d)%Q) /\
  ((d < v (low k))%Q -> z = low k) /\ ((v (high k) < d)%Q -> z = high k).

(** ** Literals *)
(** [s] is the text of a literal: a sign, digits and possibly a point followed by digits; either
    run of digits may be empty (not all of these are Rust literals). *)
Definition literal (s : list Z) (neg : bool) (i : list Z) (f : option (list Z)) : Prop :=
  s <> [] /\ Forall digit i /\ Forall digit (fraction f) /\
  exists sg, (if neg then sg = [45] else sg = [] \/ sg = [43]) /\
    s = sg ++ i ++ match f with None => [] | Some f => 46 :: f end.
(** Bits of the integer type in which constants are computed, and the number of digits of its
    largest value. *)
Definition const_bits (b : build) : Z := if f128 b then 128 else 64.
Definition const_digits (b : build) : Z := if f128 b then 39 else 19.
(** [z] fits this type, symmetrically. *)
Definition const_fits (b : build) (z : Z) : Prop := Z.abs z < 2 ^ (const_bits b - 1).
(** [r] is [z] truncated to the layout. *)
Definition truncated (L : layout) (z r : Z) : Prop := in_range L r /\ r mod 2 ^ bits L = z mod 2 ^ bits L.
