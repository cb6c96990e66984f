(** * SpecText: more vocabulary for the statements: decimal strings.

    Like [Spec], independent of the model's own functions. *)
From Verif Require Import Base Promo Spec.
Open Scope Z_scope.

(** ** Decimal strings: lists of character codes *)
(** Unicode White_Space. *)
Definition space (c : Z) : Prop :=
  9 <= c <= 13 \/ c = 32 \/ c = 133 \/ c = 160 \/ c = 5760 \/ 8192 <= c <= 8202 \/ c = 8232 \/ c = 8233 \/
  c = 8239 \/ c = 8287 \/ c = 12288.
Definition digit (c : Z) : Prop := 48 <= c <= 57.
(** A non-empty run of digits, and the number it denotes. *)
Definition digits (s : list Z) : Prop := s <> [] /\ Forall digit s.
Fixpoint numval (s : list Z) : Z :=
  match s with [] => 0 | c :: t => (c - 48) * 10 ^ Z.of_nat (length t) + numval t end.
(** [s] is, up to surrounding white space, a sign, integer digits [i] and possibly a point (46)
    followed by fraction digits [f].  '+' is 43 and '-' is 45. *)
Definition spells (s : list Z) (neg : bool) (i : list Z) (f : option (list Z)) : Prop :=
  exists pre sg post, Forall space pre /\ Forall space post /\ digits i /\
    (if neg then sg = [45] else sg = [] \/ sg = [43]) /\
    match f with
    | None => s = pre ++ (sg ++ i) ++ post
    | Some f => digits f /\ s = pre ++ (sg ++ i ++ 46 :: f) ++ post
    end.
Definition fraction (f : option (list Z)) : list Z := match f with None => [] | Some f => f end.
Definition places (f : option (list Z)) : Z := Z.of_nat (length (fraction f)).
(** The decimal spelled. *)
Definition spelled (neg : bool) (i : list Z) (f : option (list Z)) : Q :=
  let v := (Zq (numval i) + Zq (numval (fraction f)) * q10 (- places f))%Q in
  if neg then (- v)%Q else v.
(** The one way of writing a decimal: '-' for negative numbers only, no superfluous zeros, at
    least one digit on each side of the point. *)
Definition canonical (s : list Z) (d : Q) : Prop :=
  exists i f, digits i /\ digits f /\
    s = (if Qlt_le_dec d 0 then [45] else []) ++ i ++ 46 :: f /\
    (hd 0 i = 48 -> i = [48]) /\ (last f 0 = 48 -> f = [48]) /\
    (spelled (if Qlt_le_dec d 0 then true else false) i (Some f) == d)%Q.

(** ** Formatting *)
(** Bytes in the formatting buffer, as documented: enough for the longest text with one point. *)
Definition buffer (b : build) : Z := if f128 b then 41 else 21.
(** The values that formatting handles: with precision 0, all but the smallest and those whose
    text with its ".0" is longer than the buffer; on i128 with precision 38, those for which
    adding one to the magnitude of the fraction does not overflow; all others. *)
Definition printable (b : build) (L : layout) (P x : Z) : Prop :=
  (P = 0 -> lo L < x /\ - 10 ^ (buffer b - 3) < x) /\
  (L = L128 -> P = 38 -> Z.abs x mod 10 ^ 38 + 10 ^ 38 <= hi L128).

(** ** Bytes *)
(** The number denoted by bytes, least significant first. *)
Fixpoint leval (l : list Z) : Z := match l with [] => 0 | c :: t => c + 256 * leval t end.
Definition byte (c : Z) : Prop := 0 <= c < 256.
(** [l] is the little-endian two's complement representation of [x] in the layout. *)
Definition twos (L : layout) (l : list Z) (x : Z) : Prop :=
  8 * Z.of_nat (length l) = bits L /\ Forall byte l /\ in_range L x /\ leval l = x mod 2 ^ bits L.
