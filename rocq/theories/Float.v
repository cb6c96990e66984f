(** * Float: src/float.rs and the conversion to f64 of src/lib.rs. *)
From Coq Require Import SpecFloat.
From Verif Require Import Base Sqrt Promo ConstFn PowerTable Ops Fixed.

(** [u128::trailing_zeros] (core library). *)
Fixpoint ctz (p : positive) : Z :=
  match p with
  | xO p => 1 + ctz p
  | _ => 0
  end.
Definition trailing_zeros (x : Z) : Z :=
  match x with Zpos p => ctz p | _ => 128 end.

(** The first loop, src/float.rs:92-109: state (bits, exponent5, exponent10). *)
Fixpoint scale_down (b : build) (fuel : nat) (bits e5 e10 : Z) : outcome (Z * Z * Z) :=
  match fuel with
  | O => NoFuel
  | S fuel =>
      if 0 <? e5 then
        if Z.land bits 1 =? 0 then
          e10 <- add b I32 e10 1 ;;
          e5 <- sub b I32 e5 1 ;;
          bits <- shr b U128 bits 1 ;;
          scale_down b fuel bits e5 e10
        else
          match checked_mul U128 bits 5 with
          | Some bits5 =>
              e5 <- sub b I32 e5 1 ;;
              scale_down b fuel bits5 e5 e10
          | None =>
              e10 <- add b I32 e10 1 ;;
              e5 <- sub b I32 e5 1 ;;
              bits <- shr b U128 bits 1 ;;
              scale_down b fuel bits e5 e10
          end
      else Ret (bits, e5, e10)
  end.

(** The second loop, src/float.rs:113-129.  [MOST_SIGNIFICANT_BIT] is 2^127. *)
Fixpoint scale_up (b : build) (fuel : nat) (bits e5 e10 : Z) : outcome (Z * Z * Z) :=
  match fuel with
  | O => NoFuel
  | S fuel =>
      if e5 <? 0 then
        if Z.land bits (2 ^ 127) =? 0 then
          e10 <- sub b I32 e10 1 ;;
          e5 <- add b I32 e5 1 ;;
          bits <- shl b U128 bits 1 ;;
          scale_up b fuel bits e5 e10
        else
          e5 <- add b I32 e5 1 ;;
          bits <- div U128 bits 5 ;;
          scale_up b fuel bits e5 e10
      else Ret (bits, e5, e10)
  end.

(** At most 1074 (resp. 971) iterations are needed (proved). *)
Definition float_fuel : nat := 1200.

(** Absorbing the factor 5^exponent5, src/float.rs:56-111, for [exponent5 > 0]. *)
Definition absorb5 (b : build) (bits e5 e10 : Z) : outcome (Z * Z * Z) :=
  if 0 <? e5 then
    let excess := wrap I32 (Z.min (trailing_zeros bits) (wrap U32 e5)) in
    e10 <- add b I32 e10 excess ;;
    e5 <- sub b I32 e5 excess ;;
    bits <- shr b U128 bits excess ;;
    if 0 <? e5 then
      let lz := leading_zeros U128 bits in
      '(bits, reduced) <-
        (if lz =? 0 then Ret (bits, 0)
         else
           m5 <- (l1 <- sub b USize lz 1 ;; idx MAX_EXPONENT_5 l1) ;;
           let mult := Z.min e5 m5 in
           p5 <- idx POWERS_OF_5 (wrap USize mult) ;;
           bits <- mul b U128 bits p5 ;;
           match (mult <? e5), checked_mul U128 bits 5 with
           | true, Some b5 => m1 <- add b I32 mult 1 ;; Ret (b5, m1)
           | _, _ => Ret (bits, mult)
           end) ;;
      '(bits, e5, e10) <-
        (if reduced =? 0 then
           e10 <- add b I32 e10 1 ;;
           e5 <- sub b I32 e5 1 ;;
           bits <- shr b U128 bits 1 ;;
           Ret (bits, e5, e10)
         else
           e5 <- sub b I32 e5 reduced ;;
           Ret (bits, e5, e10)) ;;
      scale_down b float_fuel bits e5 e10
    else Ret (bits, e5, e10)
  else Ret (bits, e5, e10).

(** Dropping the digits beyond the precision of the float, src/float.rs:133-154. *)
Definition cut_digits (b : build) (bits e10 : Z) : outcome (Z * Z) :=
  prefix <- shr b U128 bits 52 ;;
  if (e10 <? 0) && (0 <? prefix) then
    lz <- add b U32 (leading_zeros U128 bits) 52 ;;
    d10 <- idx NEXT_EXPONENT_10 lz ;;
    divisor <- unwrap_opt (power_of_10 (wrap U32 d10)) ;;
    d10 <- (if divisor <=? prefix then
              l1 <- sub b USize lz 1 ;; idx NEXT_EXPONENT_10 l1
            else Ret d10) ;;
    ne <- neg b I32 e10 ;;
    let d10 := Z.min d10 ne in
    '(divisor, remainder) <- idx POWERS_OF_10 (wrap USize d10) ;;
    res <- div U128 bits divisor ;;
    r <- rem U128 bits divisor ;;
    bits <- (if remainder <? r then add b U128 res 1 else Ret res) ;;
    e10 <- add b I32 e10 d10 ;;
    Ret (bits, e10)
  else Ret (bits, e10).

(** Rescaling to the precision, src/float.rs:156-169. *)
Definition rescale (b : build) (P bits e10 : Z) : outcome (result Z cerr) :=
  np <- neg b I32 P ;;
  if np <? e10 then
    s <- add b I32 e10 P ;;
    Ret (match power_of_10 (wrap U32 s) with
         | Some m => ok_or (checked_mul U128 bits m) ConvertError
         | None => Err ConvertError
         end)
  else if e10 <? np then
    d <- sub b I32 np e10 ;;
    r <- rdiv_by_exponent_10 b bits (wrap U32 d) ;;
    Ret (Ok r)
  else Ret (Ok bits).

(** [TryFrom<f64>], src/float.rs:18-182, on the bit pattern [raw] of the argument
    ([value.to_bits()], line 27; [is_finite] is "exponent field is not all ones"). *)
Definition try_from_f64 (b : build) (L : layout) (P : Z) (raw : Z) : outcome (result Z cerr) :=
  let biased := Z.land (raw / 2 ^ 52) 2047 in
  if biased =? 2047 then Ret (Err ConvertError)
  else
    let positive := raw / 2 ^ 63 =? 0 in
    let bits := Z.land raw 4503599627370495 in
    if (biased =? 0) && (bits =? 0) then Ret (Ok 0)
    else
      '(bits, e2) <-
        (if biased =? 0 then Ret (bits, -1022)
         else
           e <- sub b I32 biased 1023 ;;
           Ret (Z.lor bits 4503599627370496, e)) ;;
      e2 <- sub b I32 e2 52 ;;
      e5 <- neg b I32 e2 ;;
      '(bits, e5, e10) <- absorb5 b bits e5 e2 ;;
      '(bits, e5, e10) <- scale_up b float_fuel bits e5 e10 ;;
      '(bits, e10) <- cut_digits b bits e10 ;;
      bits <-? rescale b P bits e10 ;;
      match try_from (lty L) bits with
      | None => Ret (Err ConvertError)
      | Some bits =>
          if positive then Ret (Ok bits)
          else Ret (ok_or (checked_neg (lty L) bits) ConvertError)
      end.

(** [From<FixedPoint> for f64], src/lib.rs:714-721. *)
Definition to_f64 (b : build) (L : layout) (P : Z) (self : Z) : outcome spec_float :=
  coef <- COEF b L P ;;
  q <- div (lty L) self coef ;;
  r <- rem (lty L) self coef ;;
  let integral := int_to_f64 q in
  let fractional := SFdiv f64prec f64emax (int_to_f64 r) (int_to_f64 coef) in
  Ret (SFadd f64prec f64emax integral fractional).

(** [f64::to_bits] (core library): the IEEE 754 binary64 encoding. *)
Definition f64_to_bits (f : spec_float) : Z :=
  let sg (s : bool) := if s then 2 ^ 63 else 0 in
  match f with
  | S754_zero s => sg s
  | S754_infinity s => sg s + 2047 * 2 ^ 52
  | S754_nan => 2047 * 2 ^ 52 + 2 ^ 51
  | S754_finite s m e =>
      if Zpos m <? 2 ^ 52 then sg s + Zpos m
      else sg s + (e + 1075) * 2 ^ 52 + (Zpos m - 2 ^ 52)
  end.
