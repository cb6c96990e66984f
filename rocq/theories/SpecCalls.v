(** * SpecCalls: the calls of the public interface that return an outcome, and exactly which of
    them panic or are undefined, in terms of integers. *)
From Verif Require Import Base Promo Spec SpecText SpecF64.
Open Scope Z_scope.

(** The numbers [x], [y] are raw values, [n] an integer, [s] a string, [raw] the bits of a float. *)
Inductive call : Type :=
| Rmul (x y : Z) (m : mode) | SaturatingRmul (x y : Z) (m : mode)
| Rdiv (x y : Z) (m : mode) | RdivInt (x n : Z) (m : mode) | IntRdiv (t : ity) (n d : Z) (m : mode) | IntRdivFp (n x : Z) (m : mode)
| Recip (x : Z) (m : mode) | HalfSum (x y : Z) (m : mode) | Rsqrt (x : Z) (m : mode) | NextPowerOfTen (x : Z)
| Integral (x : Z) (m : mode) | IntPart (x : Z) (m : mode)
| FromDecimal (n e : Z) | ToDecimal (x k : Z) | TryFromInt (n : Z)
| FromStr (s : list Z) | FromStrExact (s : list Z) | ToString (x : Z) | Serialize (x : Z)
| TryFromF64 (raw : Z) | ToF64 (x : Z).

(** The arguments are values of their types. *)
Definition proper (L : layout) (c : call) : Prop :=
  match c with
  | Rmul x y _ | SaturatingRmul x y _ | Rdiv x y _ | RdivInt x y _ | HalfSum x y _ => in_range L x /\ in_range L y
  | IntRdiv t n d _ => is_signed t = true /\ fits t n /\ fits t d
  | IntRdivFp n x _ => in_range L n /\ in_range L x
  | Recip x _ | Rsqrt x _ | NextPowerOfTen x | Integral x _ | IntPart x _ | ToString x | Serialize x | ToF64 x => in_range L x
  | FromDecimal n e => in_range L n /\ fits I32 e
  | ToDecimal x k => in_range L x /\ fits I32 k
  | TryFromInt n => exists t, fits t n
  | FromStr _ | FromStrExact _ => True
  | TryFromF64 raw => is_f64 raw
  end.

(** With [Nearest], twice the rest of a division is computed in a type with bounds [mn], [mx]. *)
Definition doubling (mn mx n d : Z) : Prop :=
  d <> 0 /\ mn <= Z.quot n d <= mx /\ Z.rem n d <> 0 /\ (mx < 2 * Z.abs (Z.rem n d) \/ d = mn).
(** The two cases in which 10^38 is more than half of the largest number. *)
Definition doubling_product (L : layout) (P x y : Z) : Prop :=
  L = L128 /\ P = 38 /\ in_range L (Z.quot (x * y) (10 ^ 38)) /\ ~ in_range L (2 * Z.rem (x * y) (10 ^ 38)).
Definition doubling_fraction (L : layout) (P x : Z) : Prop := L = L128 /\ P = 38 /\ hi L < 2 * Z.abs (Z.rem x (10 ^ 38)).
(** The number rounded to an integer is not a number of the type. *)
Definition no_integer (L : layout) (P x : Z) (m : mode) : Prop := exists i, rounds m (dec P x) i /\ ~ in_range L (i * 10 ^ P).
(** The text is longer than the buffer; at precision 38 a fraction that overflows is printed with
    39 digits. *)
Definition long_fraction (L : layout) (P x : Z) : Prop := L = L128 /\ P = 38 /\ hi L < Z.abs x mod 10 ^ 38 + 10 ^ 38.
Definition overrun (b : build) (L : layout) (P x : Z) : Prop :=
  (P = 0 /\ x <> lo L /\ x <= - 10 ^ (buffer b - 3)) \/
  (P = 0 /\ x = lo L /\ ovf b = false /\ x <= - 10 ^ (buffer b - 4)) \/
  (long_fraction L P x /\ ovf b = false /\ x < 0 /\ (2 ^ 128 - Z.abs x mod 10 ^ 38) mod 10 <> 0).

Definition panics (b : build) (L : layout) (P : Z) (c : call) : Prop :=
  match c with
  | Rmul x y m | SaturatingRmul x y m => ovf b = true /\ m = Nearest /\ doubling_product L P x y
  | Rdiv x y m => ovf b = true /\ m = Nearest /\ doubling (lo L) (hi L) (x * 10 ^ P) y
  | RdivInt x n m => (x = lo L /\ n = -1) \/ (ovf b = true /\ m = Nearest /\ doubling (lo L) (hi L) x n)
  | IntRdiv t n d m => (n = imin t /\ d = -1) \/ (ovf b = true /\ m = Nearest /\ doubling (imin t) (imax t) n d)
  | IntRdivFp n x m => in_range L (n * 10 ^ P) /\ ovf b = true /\ m = Nearest /\ doubling (lo L) (hi L) (n * 10 ^ P * 10 ^ P) x
  | Recip x m => ovf b = true /\ m = Nearest /\ doubling (lo L) (hi L) (10 ^ P * 10 ^ P) x
  | Integral x m => ovf b = true /\ (x = lo L \/ (m = Nearest /\ doubling_fraction L P x))
  | IntPart x m =>
      (ovf b = true /\ (x = lo L \/ (m = Nearest /\ doubling_fraction L P x))) \/
      (x <> lo L /\ ~ (m = Nearest /\ doubling_fraction L P x) /\ no_integer L P x m)
  | FromDecimal n e => ovf b = true /\ - P <= e <= 10 /\ hi L < 10 ^ (e + P)
  | ToDecimal x k => k < - P
  | ToString x | Serialize x =>
      (ovf b = true /\ ((P = 0 /\ x = lo L) \/ long_fraction L P x)) \/ (dbg b = true /\ overrun b L P x)
  | HalfSum _ _ _ | Rsqrt _ _ | NextPowerOfTen _ | TryFromInt _ | FromStr _ | FromStrExact _ | TryFromF64 _ | ToF64 _ => False
  end.
(** Only formatting writes memory without checks. *)
Definition undefined (b : build) (L : layout) (P : Z) (c : call) : Prop :=
  match c with ToString x | Serialize x => dbg b = false /\ overrun b L P x | _ => False end.
