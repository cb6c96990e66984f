(** * PropsReason: C67 to C69, the reasons of failed conversions. *)
From Coq Require Import String.
From Verif Require Import Base Promo ConstFn Ops U256 I256 Str Float Spec SpecText SpecF64.
From Verif Require Import Reason SpecReason ReasonFacts U128Facts.
From Verif Require Import Fixed.
From Verif Require Import Meets.
Open Scope Z_scope.

(** ** C67 *)
Theorem C67_parse_cause : forall b L P exact s r, valid b L P ->
  (parse_str_r b L P exact s = Ret (Err r) <-> cause L P exact s r).
Proof. exact parse_cause. Qed.
Print Assumptions C67_parse_cause.
Example C67_parse_cause_case : valid dev L64 9.
Proof. meets. Qed.
(** Without its reason the result is that of [from_str] and [from_str_exact]. *)
Theorem C67_parse : forall b L P s,
  forget (parse_str_r b L P false s) = from_str b L P s /\ forget (parse_str_r b L P true s) = from_str_exact b L P s.
Proof. exact (fun b L P s => conj (forget_parse b L P false s) (forget_parse b L P true s)). Qed.
Print Assumptions C67_parse.
Theorem C67_core : forall s, (exists t, core s t) /\ forall t t', core s t -> core s t' -> t = t'.
Proof. exact (fun s => conj (ex_intro _ _ (trim_core s)) (core_unique s)). Qed.
Print Assumptions C67_core.
(** "1.+5", "1.50", "1.", "x", "-.5", "4", "4.0" and "3.27675" for i16 with precision 4 or 1. *)
Example C67_example : valid dev L16 4 /\ valid dev L16 1 /\
  parse_str_r dev L16 4 false [49; 46; 43; 53] = Ret (Err DigitsOnly) /\
  parse_str_r dev L16 1 true [49; 46; 53; 48] = Ret (Err PrecisionTooHigh) /\
  parse_str_r dev L16 1 false [49; 46] = Ret (Err FractionalSyntax) /\
  parse_str_r dev L16 1 false [120] = Ret (Err IntegerSyntax) /\
  parse_str_r dev L16 1 false [45; 46; 53] = Ret (Err IntegralSyntax) /\
  parse_str_r dev L16 4 false [52] = Ret (Err TooBigNumber) /\
  parse_str_r dev L16 4 false [52; 46; 48] = Ret (Err TooBigIntegral) /\
  parse_str_r dev L16 4 false [51; 46; 50; 55; 54; 55; 53] = Ret (Err TooBigNumber).
Proof. example. Qed.
(** "1.+5" fails because of the '+'. *)
Example C67_cause_example : cause L16 4 false [49; 46; 43; 53] DigitsOnly.
Proof. apply (parse_cause dev); [example|vm_compute; reflexivity]. Qed.

(** The texts of the causes. *)
Theorem C67_words :
  (convert_as_str IntegerSyntax = "can't parse integer" /\ convert_as_str IntegralSyntax = "can't parse integral part" /\
   convert_as_str DigitsOnly = "can't parse fractional part: must contain digits only" /\
   convert_as_str PrecisionTooHigh = "requested precision is too high" /\
   convert_as_str FractionalSyntax = "can't parse fractional part" /\ convert_as_str TooBigIntegral = "too big integral" /\
   convert_as_str TooBigNumber = "too big number")%string.
Proof. exact parse_words. Qed.
Print Assumptions C67_words.

(** ** C68 *)
Theorem C68_texts : (forall r r', convert_as_str r = convert_as_str r' -> r = r') /\
  (forall e e', arith_as_str e = arith_as_str e' -> e = e').
Proof. exact (conj texts_differ arith_texts_differ). Qed.
Print Assumptions C68_texts.
Theorem C68_from_decimal : forall b L P m e r, valid b L P -> from_decimal_r b L P m e = Ret (Err r) ->
  (r = UnsupportedExponent /\ ~ (- P <= e <= 10)) \/ (r = TooBigMantissa /\ - P <= e <= 10).
Proof. exact decimal_reason. Qed.
Print Assumptions C68_from_decimal.
Example C68_from_decimal_case : valid dev L64 9 /\ from_decimal_r dev L64 9 15 11 = Ret (Err UnsupportedExponent).
Proof. meets. Qed.
Theorem C68_exponent : forall b L P m e, valid b L P ->
  (from_decimal_r b L P m e = Ret (Err UnsupportedExponent) <-> ~ (- P <= e <= 10)).
Proof. exact decimal_exponent. Qed.
Print Assumptions C68_exponent.
Example C68_exponent_case : valid dev L64 9.
Proof. meets. Qed.
Theorem C68_try_from_int : forall b L P v r, try_from_int_r b L P v = Ret (Err r) -> r = TooBigNumber.
Proof. exact integer_reason. Qed.
Print Assumptions C68_try_from_int.
Example C68_try_from_int_case : try_from_int_r dev L64 9 (-9223372037) = Ret (Err TooBigNumber).
Proof. meets. Qed.
Theorem C68_not_finite : forall b L P raw, is_f64 raw ->
  (try_from_f64_r b L P raw = Ret (Err NotFinite) <-> f64_exponent raw = 2047).
Proof. exact float_not_finite. Qed.
Print Assumptions C68_not_finite.
Example C68_not_finite_case : is_f64 4591870180066957722.
Proof. meets. Qed.
Theorem C68_try_from_f64 : forall b L P raw r, is_f64 raw -> try_from_f64_r b L P raw = Ret (Err r) ->
  (r = NotFinite <-> f64_exponent raw = 2047) /\ (r = TooBigNumber <-> f64_exponent raw <> 2047).
Proof. exact float_reason. Qed.
Print Assumptions C68_try_from_f64.
Example C68_try_from_f64_case : is_f64 4906019910204099648 /\ try_from_f64_r dev L64 9 4906019910204099648 = Ret (Err
  TooBigNumber).
Proof. meets. Qed.
(** What the caller reads after a failure. *)
Theorem C68_decimal_text : forall b L P m e r, valid b L P -> from_decimal_r b L P m e = Ret (Err r) ->
  (convert_as_str r = "unsupported exponent"%string /\ ~ (- P <= e <= 10)) \/
  (convert_as_str r = "too big mantissa"%string /\ - P <= e <= 10).
Proof. exact decimal_text. Qed.
Print Assumptions C68_decimal_text.
Example C68_decimal_text_case : valid dev L64 9 /\ from_decimal_r dev L64 9 9223372036854775807 9 = Ret (Err TooBigMantissa).
Proof. meets. Qed.
Theorem C68_integer_text : forall b L P v r, try_from_int_r b L P v = Ret (Err r) -> convert_as_str r = "too big number"%string.
Proof. exact integer_text. Qed.
Print Assumptions C68_integer_text.
Example C68_integer_text_case : try_from_int_r dev L64 9 (-9223372037) = Ret (Err TooBigNumber).
Proof. meets. Qed.
Theorem C68_float_text : forall b L P raw r, is_f64 raw -> try_from_f64_r b L P raw = Ret (Err r) ->
  (convert_as_str r = "not finite"%string /\ f64_exponent raw = 2047) \/
  (convert_as_str r = "too big number"%string /\ f64_exponent raw <> 2047).
Proof. exact float_text. Qed.
Print Assumptions C68_float_text.
Example C68_float_text_case : is_f64 4906019910204099648 /\ try_from_f64_r dev L64 9 4906019910204099648 = Ret (Err
  TooBigNumber).
Proof. meets. Qed.
Theorem C68_arith_words : arith_as_str Overflow = "overflow"%string /\ arith_as_str DivisionByZero = "division by zero"%string /\
  arith_as_str DomainViolation = "domain violation"%string.
Proof. exact arith_words. Qed.
Print Assumptions C68_arith_words.
(** Without the reasons the results are those of the other model. *)
Theorem C68_forget : forall b L P m e v raw,
  forget (from_decimal_r b L P m e) = from_decimal b L P m e /\
  forget (try_from_int_r b L P v) = try_from_int b L P v /\
  forget (try_from_f64_r b L P raw) = try_from_f64 b L P raw.
Proof.
  exact (fun b L P m e v raw => conj (forget_from_decimal b L P m e)
    (conj (forget_try_from_int b L P v) (forget_try_from_f64 b L P raw))).
Qed.
Print Assumptions C68_forget.
(** Exponents 11 and 10, the integer 4, infinity and 1e300, for i16 with precision 4. *)
Example C68_example : valid dev L16 4 /\ is_f64 9218868437227405312 /\ is_f64 9097236120110692300 /\
  from_decimal_r release L16 4 1 11 = Ret (Err UnsupportedExponent) /\
  from_decimal_r dev L16 4 4 0 = Ret (Err TooBigMantissa) /\
  try_from_int_r dev L16 4 4 = Ret (Err TooBigNumber) /\
  try_from_f64_r dev L16 4 9218868437227405312 = Ret (Err NotFinite) /\
  try_from_f64_r dev L16 4 9097236120110692300 = Ret (Err TooBigNumber).
Proof. unfold is_f64. example. Qed.

(** ** C69 *)
Theorem C69_from_u128 : forall x, 0 <= x < 2 ^ 128 -> signed4 (i256_of_u128 x) x.
Proof. exact signed_of_u128. Qed.
Print Assumptions C69_from_u128.
Example C69_from_u128_case : 0 <= 1500000000 < 2 ^ 128.
Proof. meets. Qed.
Theorem C69_to_u128 : forall b x a, signed4 x a ->
  u128_of_i256 b x = Ret (if (0 <=? a) && (a <? 2 ^ 128) then Ok a else Err TooBigInteger).
Proof. exact u128_of_signed. Qed.
Print Assumptions C69_to_u128.
Example C69_to_u128_case : signed4 [18446744073709551609; 18446744004990074879; 18446744073709551615; 18446744073709551615]
  (-1267650600228229401496703205383).
Proof. meets. Qed.
Example C69_example : signed4 [18446744073709551615; 18446744073709551615; 0; 0] (2 ^ 128 - 1) /\
  signed4 [5; 0; 0; 9223372036854775808] (5 - 2 ^ 255) /\
  u128_of_i256 dev [18446744073709551615; 18446744073709551615; 0; 0] = Ret (Ok (2 ^ 128 - 1)) /\
  u128_of_i256 dev [5; 0; 0; 9223372036854775808] = Ret (Err TooBigInteger).
Proof.
  split; [exact (signed_of_u128 (2 ^ 128 - 1) ltac:(split; [discriminate|reflexivity]))|].
  split; [|split; vm_compute; reflexivity].
  eexists. split; [exists 5, 0, 0, 9223372036854775808; repeat split; vm_compute; congruence|vm_compute; reflexivity].
Qed.
