(** * Fixed: src/lib.rs, the body of [impl_fixed_point!].

    A fixed-point number is its raw integer ([FixedPoint { inner, _marker }] is
    [repr(transparent)], src/lib.rs:197-205); the layout [L] and the precision [P] are
    parameters.  [from_bits], [as_bits], [into_bits] (src/lib.rs:211-230) are therefore the
    identity. *)
From Verif Require Import Base Sqrt Promo ConstFn PowerTable Ops.

(** [ConvertError], src/errors.rs:37-59; the message text is not modelled. *)
Inductive cerr : Type := ConvertError.

(** [from_bits], [into_bits], [as_bits], src/lib.rs:211-230. *)
Definition from_bits (x : Z) : Z := x.
Definition into_bits (x : Z) : Z := x.
Definition as_bits (x : Z) : Z := x.

(** Derived [Ord], [PartialEq] and [PartialOrd] on the raw value ([PhantomData] fields are all
    equal), src/lib.rs:197. *)
Definition fp_cmp (x y : Z) : comparison := x ?= y.
Definition fp_eq (x y : Z) : bool := x =? y.
Definition fp_lt (x y : Z) : bool := x <? y.
Definition fp_le (x y : Z) : bool := x <=? y.
(** [Ord::min] and [Ord::max], provided methods of the derived [Ord], src/lib.rs:197. *)
Definition fp_min (x y : Z) : Z := match fp_cmp x y with Gt => y | _ => x end.
Definition fp_max (x y : Z) : Z := match fp_cmp x y with Gt => x | _ => y end.
(** [Default] (derived) is the zero of the raw type, src/lib.rs:197. *)
Definition fp_default : Z := 0.

(** [EPSILON], [ZERO], [MIN], [MAX], src/lib.rs:246, 255, 265-266. *)
Definition EPSILON : Z := 1.
Definition ZERO : Z := 0.
Definition MIN (L : layout) : Z := imin (lty L).
Definition MAX (L : layout) : Z := imax (lty L).

(** [COEF], src/lib.rs:248: [pow10(PRECISION) as $layout]. *)
Definition COEF (b : build) (L : layout) (P : Z) : outcome Z :=
  c <- pow10 b P ;; Ret (wrap (lty L) c).
(** [NEG_COEF], src/lib.rs:249: the body of a [const] item, overflow is always an error. *)
Definition NEG_COEF (b : build) (L : layout) (P : Z) : outcome Z :=
  c <- COEF b L P ;;
  if fitsb (lty L) (- c) then Ret (- c) else Panic.
(** [ONE], src/lib.rs:260. *)
Definition ONE (b : build) (L : layout) (P : Z) : outcome Z := COEF b L P.

(** [rmul], src/lib.rs:275-305.  [COEF_PROMOTED] (line 250) is [p_from COEF]. *)
Definition rmul (b : build) (L : layout) (P : Z) (self rhs : Z) (m : mode)
  : outcome (result Z aerr) :=
  let t := lty L in
  let D := promo_of b L in
  coef <- COEF b L P ;;
  neg_coef <- NEG_COEF b L P ;;
  let coef_promoted := p_from D coef in
  value <- p_mul D (p_from D self) (p_from D rhs) ;;
  result <- p_div D value coef_promoted ;;
  prod <- p_mul D result coef_promoted ;;
  loss <- p_sub D value prod ;;
  result <- p_try D result ;;
  match result with
  | None => Ret (Err Overflow)
  | Some result =>
      loss <- p_try D loss ;;
      loss <- unwrap_opt loss ;;
      sign <- mul b t (Z.sgn self) (Z.sgn rhs) ;;
      add_signed_one <-
        (if mode_eqb m Nearest then
           a <- (if 0 <=? wrap I32 sign
                 then s <- add b t loss loss ;; Ret (coef <=? s)
                 else Ret false) ;;
           if (a : bool) then Ret true
           else s <- add b t loss loss ;; Ret (s <=? neg_coef)
         else Ret (negb (loss =? 0) && (mode_i32 m =? wrap I32 sign))) ;;
      if (add_signed_one : bool) then Ret (ok_or (checked_add t result sign) Overflow)
      else Ret (Ok result)
  end.

(** [rdiv] of two fixed-point numbers, src/lib.rs:312-348. *)
Definition rdiv (b : build) (L : layout) (P : Z) (self rhs : Z) (m : mode)
  : outcome (result Z aerr) :=
  let t := lty L in
  let D := promo_of b L in
  if rhs =? 0 then Ret (Err DivisionByZero)
  else
    coef <- COEF b L P ;;
    numerator <- p_mul D (p_from D self) (p_from D coef) ;;
    let denominator := p_from D rhs in
    result <- p_div D numerator denominator ;;
    prod <- p_mul D result denominator ;;
    loss <- p_sub D numerator prod ;;
    result <- p_try D result ;;
    match result with
    | None => Ret (Err Overflow)
    | Some result =>
        loss <- p_try D loss ;;
        loss <- unwrap_opt loss ;;
        if loss =? 0 then Ret (Ok result)
        else
          sign <- mul b t (Z.sgn self) (Z.sgn rhs) ;;
          add_signed_one <-
            (if mode_eqb m Nearest then
               loss_abs <- iabs b t loss ;;
               s <- add b t loss_abs loss_abs ;;
               r <- iabs b t rhs ;;
               Ret (r <=? s)
             else Ret (mode_i32 m =? wrap I32 sign)) ;;
          if (add_signed_one : bool) then Ret (ok_or (checked_add t result sign) Overflow)
          else Ret (Ok result)
    end.

(** [rdiv] by an integer of the layout type, src/lib.rs:350-359. *)
Definition rdiv_int (b : build) (L : layout) (self rhs : Z) (m : mode) : outcome (result Z aerr) :=
  int_rdiv b (lty L) self rhs m.

(** [TryFrom<integer>], src/lib.rs:723-736: [value] is a value of one of the twelve integer types. *)
Definition try_from_int (b : build) (L : layout) (P : Z) (value : Z) : outcome (result Z cerr) :=
  match try_from (lty L) value with
  | None => Ret (Err ConvertError)
  | Some v => coef <- COEF b L P ;; Ret (ok_or (checked_mul (lty L) v coef) ConvertError)
  end.

(** [rdiv] of an integer by a fixed-point number, src/lib.rs:361-371. *)
Definition int_rdiv_fp (b : build) (L : layout) (P : Z) (self rhs : Z) (m : mode)
  : outcome (result Z aerr) :=
  lhs <- try_from_int b L P self ;;
  match lhs with
  | Err _ => Ret (Err Overflow)
  | Ok lhs => rdiv b L P lhs rhs m
  end.

(** [cadd], [saturating_add], src/lib.rs:373-387; [csub], [saturating_sub], 389-403. *)
Definition cadd (L : layout) (self rhs : Z) : result Z aerr := int_cadd (lty L) self rhs.
Definition fp_saturating_add (L : layout) (self rhs : Z) : Z := saturating_add (lty L) self rhs.
Definition csub (L : layout) (self rhs : Z) : result Z aerr := int_csub (lty L) self rhs.
Definition fp_saturating_sub (L : layout) (self rhs : Z) : Z := saturating_sub (lty L) self rhs.

(** [cmul], [saturating_mul] by an integer, src/lib.rs:405-419, and integer by fixed-point,
    421-435. *)
Definition cmul (L : layout) (self rhs : Z) : result Z aerr := int_cmul (lty L) self rhs.
Definition fp_saturating_mul (L : layout) (self rhs : Z) : Z := saturating_mul (lty L) self rhs.
Definition int_cmul_fp (L : layout) (self rhs : Z) : result Z aerr := cmul L rhs self.
Definition int_saturating_mul_fp (L : layout) (self rhs : Z) : Z := saturating_mul (lty L) self rhs.

(** [saturating_rmul]: the default method of [RoundingMul] at [Self = Rhs = Output = FixedPoint],
    src/ops/mod.rs:328-343. *)
Definition saturating_rmul (b : build) (L : layout) (P : Z) (self rhs : Z) (m : mode) : outcome Z :=
  default_saturating_mul (fun x y => rmul b L P x y m)
    (fun x => x <? 0) (fun y => y <? 0) (MIN L) (MAX L) self rhs.

(** [signum], src/lib.rs:443-446. *)
Definition signum (self : Z) : Z := Z.sgn self.

(** [recip], src/lib.rs:448-452. *)
Definition recip (b : build) (L : layout) (P : Z) (self : Z) (m : mode) : outcome (result Z aerr) :=
  one <- ONE b L P ;; rdiv b L P one self m.

(** [cneg], src/lib.rs:457-463. *)
Definition cneg (L : layout) (self : Z) : result Z aerr :=
  ok_or (checked_neg (lty L) self) Overflow.

(** [half_sum], src/lib.rs:465-477. *)
Definition half_sum (b : build) (L : layout) (x y : Z) (m : mode) : outcome Z :=
  let t := lty L in
  if negb (Z.sgn x =? Z.sgn y) then
    s <- add b t x y ;;
    r <- rdiv_int b L s 2 m ;;
    unwrap_res r
  else
    let mn := Z.min x y in
    let mx := Z.max x y in
    d <- sub b t mx mn ;;
    h <- int_rdiv b t d 2 m ;;
    half_diff <- unwrap_res h ;;
    add b t mn half_diff.

(** [integral], src/lib.rs:500-516. *)
Definition integral (b : build) (L : layout) (P : Z) (self : Z) (m : mode) : outcome Z :=
  let t := lty L in
  let sign := Z.sgn self in
  coef <- COEF b L P ;;
  int <- div t self coef ;;
  a <- iabs b t self ;;
  frac <- rem t a coef ;;
  add_signed_one <-
    (if mode_eqb m Nearest then s <- add b t frac frac ;; Ret (coef <=? s)
     else Ret ((mode_i32 m =? wrap I32 sign) && (0 <? frac))) ;;
  if (add_signed_one : bool) then add b t int sign else Ret int.

(** [from_decimal], src/lib.rs:667-680. *)
Definition from_decimal (b : build) (L : layout) (P : Z) (mantissa exponent : Z)
  : outcome (result Z cerr) :=
  np <- neg b I32 P ;;
  if (exponent <? np) || (10 <? exponent) then Ret (Err ConvertError)
  else
    e <- add b I32 exponent P ;;
    multiplier <- ipow b (lty L) 10 (wrap U32 e) ;;
    Ret (ok_or (checked_mul (lty L) mantissa multiplier) ConvertError).

(** [floor], [ceil], [round], src/lib.rs:518-534. *)
Definition int_part (b : build) (L : layout) (P : Z) (self : Z) (m : mode) : outcome Z :=
  i <- integral b L P self m ;;
  r <- from_decimal b L P i 0 ;;
  unwrap_res r.
Definition floor (b : build) (L : layout) (P self : Z) : outcome Z := int_part b L P self Floor.
Definition ceil (b : build) (L : layout) (P self : Z) : outcome Z := int_part b L P self Ceil.
Definition round (b : build) (L : layout) (P self : Z) : outcome Z := int_part b L P self Nearest.

(** [round_towards_zero_by], src/lib.rs:536-543. *)
Definition round_towards_zero_by (L : layout) (self precision : Z) : Z :=
  match checked_div (lty L) self precision with
  | Some v =>
      match checked_mul (lty L) v precision with Some r => r | None => self end
  | None => self
  end.

(** [power_table::$layout], src/lib.rs:557-560. *)
Definition pt_of (L : layout) : list Z :=
  match L with L16 => pt_i16 | L32 => pt_i32 | L64 => pt_i64 | L128 => pt_i128 end.

(** [next_power_of_ten] on a non-negative number, src/lib.rs:554-569. *)
Definition npt_nonneg (b : build) (L : layout) (self : Z) : outcome (result Z aerr) :=
  let lz := leading_zeros (lty L) self in
  _ <- assert_ (0 <? lz) ;;
  value <- idx (pt_of L) lz ;;
  value <- (if value <? self then
              l1 <- sub b USize lz 1 ;; idx (pt_of L) l1
            else Ret value) ;;
  if value =? 0 then Ret (Err Overflow) else Ret (Ok value).
(** [next_power_of_ten], src/lib.rs:545-569.  The recursive call is on a non-negative number
    ([cneg] of a negative one), so one unfolding is enough. *)
Definition next_power_of_ten (b : build) (L : layout) (self : Z) : outcome (result Z aerr) :=
  if self <? 0 then
    x <-? Ret (cneg L self) ;;
    y <-? npt_nonneg b L x ;;
    Ret (cneg L y)
  else npt_nonneg b L self.

(** [abs], src/lib.rs:571-580. *)
Definition abs (L : layout) (self : Z) : result Z aerr :=
  if self <? 0 then cneg L self else Ok self.

(** [rsqrt], src/lib.rs:611-648. *)
Definition rsqrt (b : build) (L : layout) (P : Z) (self : Z) (m : mode) : outcome (result Z aerr) :=
  let t := lty L in
  let D := promo_of b L in
  if self <? 0 then Ret (Err DomainViolation)
  else
    coef <- COEF b L P ;;
    squared <- p_mul D (p_from D self) (p_from D coef) ;;
    lo <- p_sqrt D squared ;;
    add_one <-
      match m with
      | Floor => Ret false
      | Nearest =>
          lo2 <- p_mul D lo lo ;;
          h <- p_add D lo2 lo ;;
          h <- p_add D h lo ;;
          hi2 <- p_add D h (p_one D) ;;
          l <- p_sub D squared lo2 ;;
          r <- p_sub D hi2 squared ;;
          p_ge D l r
      | Ceil =>
          ll <- p_mul D lo lo ;;
          Ret (negb (p_eq D ll squared))
      end ;;
    lo <- p_try D lo ;;
    lo <- unwrap_opt lo ;;
    inner <- (if (add_one : bool) then add b t lo 1 else Ret lo) ;;
    Ret (Ok inner).

(** The loop of [to_decimal], src/lib.rs:705-708. *)
Fixpoint to_decimal_loop (b : build) (L : layout) (fuel : nat) (max_exponent mantissa exponent : Z)
  : outcome (Z * Z) :=
  match fuel with
  | O => NoFuel
  | S fuel =>
      if exponent <? max_exponent then
        r <- rem (lty L) mantissa 10 ;;
        if r =? 0 then
          exponent <- add b I32 exponent 1 ;;
          mantissa <- div (lty L) mantissa 10 ;;
          to_decimal_loop b L fuel max_exponent mantissa exponent
        else Ret (mantissa, exponent)
      else Ret (mantissa, exponent)
  end.
(** [to_decimal], src/lib.rs:694-711.  Fuel 100 is enough for every input (proved). *)
Definition to_decimal (b : build) (L : layout) (P : Z) (self max_exponent : Z) : outcome (Z * Z) :=
  np <- neg b I32 P ;;
  _ <- assert_ (np <=? max_exponent) ;;
  if self =? 0 then Ret (0, Z.min 0 max_exponent)
  else to_decimal_loop b L 100 max_exponent self np.
