(** * Reason: the texts of errors (src/errors.rs), and the failing conversions with the reason they
    report.

    The other model files have one [ConvertError]; the functions below repeat them with the
    argument of [ConvertError::new]. *)
From Coq Require Import String.
From Verif Require Import Base PowerTable Promo ConstFn Ops U256 I256 Str Float.
From Verif Require Import Fixed.
Open Scope Z_scope.

(** The arguments of [ConvertError::new], in the order of src/lib.rs, src/string.rs, src/float.rs
    and src/i256/mod.rs. *)
Inductive reason : Type :=
| UnsupportedExponent | TooBigMantissa | TooBigNumber
| IntegerSyntax | IntegralSyntax | DigitsOnly | PrecisionTooHigh | FractionalSyntax | TooBigIntegral
| NotFinite
| TooBigInteger.

(** [ConvertError::as_str], src/errors.rs:49-51, and its [Display], 54-58: the reason itself. *)
Definition convert_as_str (r : reason) : string :=
  match r with
  | UnsupportedExponent => "unsupported exponent"       (* src/lib.rs:670 *)
  | TooBigMantissa => "too big mantissa"                (* src/lib.rs:679 *)
  | TooBigNumber => "too big number"                    (* src/lib.rs:730, 733; src/string.rs:98; src/float.rs:163, 173, 180 *)
  | IntegerSyntax => "can't parse integer"              (* src/string.rs:41 *)
  | IntegralSyntax => "can't parse integral part"       (* src/string.rs:47 *)
  | DigitsOnly => "can't parse fractional part: must contain digits only"  (* src/string.rs:50-52 *)
  | PrecisionTooHigh => "requested precision is too high"  (* src/string.rs:60, 76 *)
  | FractionalSyntax => "can't parse fractional part"   (* src/string.rs:83 *)
  | TooBigIntegral => "too big integral"                (* src/string.rs:87 *)
  | NotFinite => "not finite"                           (* src/float.rs:20 *)
  | TooBigInteger => "too big integer"                  (* src/i256/mod.rs:169, src/i256/u256.rs:638 *)
  end%string.

(** [ArithmeticError::as_str], src/errors.rs:22-28, and its [Display], 31-35. *)
Definition arith_as_str (e : aerr) : string :=
  match e with
  | Overflow => "overflow"
  | DivisionByZero => "division by zero"
  | DomainViolation => "domain violation"
  end%string.

(** [from_decimal], src/lib.rs:668-680. *)
Definition from_decimal_r (b : build) (L : layout) (P mantissa exponent : Z)
  : outcome (result Z reason) :=
  let t := lty L in
  np <- neg b I32 P ;;
  if (exponent <? np) || (10 <? exponent) then Ret (Err UnsupportedExponent)
  else
    e <- add b I32 exponent P ;;
    multiplier <- ipow b t 10 (wrap U32 e) ;;
    Ret (ok_or (checked_mul t mantissa multiplier) TooBigMantissa).

(** [TryFrom] integers, src/lib.rs:723-738. *)
Definition try_from_int_r (b : build) (L : layout) (P v : Z) : outcome (result Z reason) :=
  match try_from (lty L) v with
  | None => Ret (Err TooBigNumber)
  | Some v => coef <- COEF b L P ;; Ret (ok_or (checked_mul (lty L) v coef) TooBigNumber)
  end.

(** [parse_str], src/string.rs:33-99. *)
Definition parse_str_r (b : build) (L : layout) (P : Z) (exact : bool) (s : str)
  : outcome (result Z reason) :=
  let t := lty L in
  let s := trim s in
  match split_once s 46 with
  | None =>
      match parse_int_str t s with
      | None => Ret (Err IntegerSyntax)
      | Some v => try_from_int_r b L P v
      end
  | Some (integral_str, fractional_str) =>
      match parse_int_str t integral_str with
      | None => Ret (Err IntegralSyntax)
      | Some integral =>
          if negb (forallb is_digit fractional_str) then Ret (Err DigitsOnly)
          else
            c0 <- idx s 0 ;;
            let signum := if c0 =? 45 then -1 else 1 in
            let prec := wrap USize P in
            let flen := Z.of_nat (List.length fractional_str) in
            ap <- iabs b I32 P ;;
            if exact && (wrap USize ap <? flen) then Ret (Err PrecisionTooHigh)
            else
              '(fractional_str, round) <-
                (if negb exact && (prec <? flen) then
                   extra <- idx fractional_str prec ;;
                   Ret (firstn (Z.to_nat prec) fractional_str,
                        if 53 <=? extra then Some signum else None)
                 else Ret (fractional_str, None)) ;;
              exp <- ipow b t 10 (wrap U32 (Z.of_nat (List.length fractional_str))) ;;
              coef <- COEF b L P ;;
              if exact && (coef <? exp) then Ret (Err PrecisionTooHigh)
              else
                _ <- dassert b (exp <=? coef) ;;
                match parse_int_str t fractional_str with
                | None => Ret (Err FractionalSyntax)
                | Some fractional =>
                    match checked_mul t integral coef with
                    | None => Ret (Err TooBigIntegral)
                    | Some final_integral =>
                        sc <- mul b t signum coef ;;
                        q <- div t sc exp ;;
                        final_fractional <- mul b t q fractional ;;
                        final_fractional <-
                          match (round : option Z) with
                          | Some r => _ <- dassert b (negb exact) ;; add b t final_fractional r
                          | None => Ret final_fractional
                          end ;;
                        Ret (ok_or (checked_add t final_integral final_fractional) TooBigNumber)
                    end
                end
      end
  end.

(** The rescaling step of [TryFrom<f64>], src/float.rs:156-169. *)
Definition rescale_r (b : build) (P bits e10 : Z) : outcome (result Z reason) :=
  np <- neg b I32 P ;;
  if np <? e10 then
    s <- add b I32 e10 P ;;
    Ret (match power_of_10 (wrap U32 s) with
         | Some m => ok_or (checked_mul U128 bits m) TooBigNumber
         | None => Err TooBigNumber
         end)
  else if e10 <? np then
    d <- sub b I32 np e10 ;;
    r <- rdiv_by_exponent_10 b bits (wrap U32 d) ;;
    Ret (Ok r)
  else Ret (Ok bits).

(** [TryFrom<f64>], src/float.rs:18-182. *)
Definition try_from_f64_r (b : build) (L : layout) (P : Z) (raw : Z) : outcome (result Z reason) :=
  let biased := Z.land (raw / 2 ^ 52) 2047 in
  if biased =? 2047 then Ret (Err NotFinite)
  else
    let positive := raw / 2 ^ 63 =? 0 in
    let bits := Z.land raw 4503599627370495 in
    if (biased =? 0) && (bits =? 0) then Ret (Ok 0)
    else
      '(bits, e2) <-
        (if biased =? 0 then Ret (bits, -1022)
         else
           e <- sub b I32 biased 1023 ;;
           Ret (Z.lor bits 4503599627370496, e)) ;;
      e2 <- sub b I32 e2 52 ;;
      e5 <- neg b I32 e2 ;;
      '(bits, e5, e10) <- absorb5 b bits e5 e2 ;;
      '(bits, e5, e10) <- scale_up b float_fuel bits e5 e10 ;;
      '(bits, e10) <- cut_digits b bits e10 ;;
      bits <-? rescale_r b P bits e10 ;;
      match try_from (lty L) bits with
      | None => Ret (Err TooBigNumber)
      | Some bits =>
          if positive then Ret (Ok bits)
          else Ret (ok_or (checked_neg (lty L) bits) TooBigNumber)
      end.

(** [From<u128> for U256], src/i256/u256.rs:646-653; [From<u128> for I256], src/i256/mod.rs:158-162. *)
Definition i256_of_u128 (x : Z) : i256 := [wrap U64 x; wrap U64 (x / 2 ^ 64); 0; 0].
(** [I256::U128_MAX], src/i256/mod.rs:26. *)
Definition I256_U128_MAX : i256 := [18446744073709551615; 18446744073709551615; 0; 0].
(** [TryFrom<I256> for u128], src/i256/mod.rs:164-173. *)
Definition u128_of_i256 (b : build) (x : i256) : outcome (result Z reason) :=
  c1 <- i256_cmp x I256_U128_MAX ;;
  if match c1 with Gt => true | _ => false end then Ret (Err TooBigInteger)
  else
    c2 <- i256_cmp x I256_ZERO ;;
    if match c2 with Lt => true | _ => false end then Ret (Err TooBigInteger)
    else
      w0 <- idx x 0 ;;
      w1 <- idx x 1 ;;
      h <- shl b U128 w1 64 ;;
      Ret (Ok (Z.lor w0 h)).
