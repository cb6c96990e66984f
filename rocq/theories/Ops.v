(** * Ops: src/ops/mod.rs, checked and rounding operations on primitive integers, and the
    default methods of the operation traits. *)
From Verif Require Import Base.

(** [cadd], [csub], [cmul] on primitive integers, src/ops/mod.rs:400-446. *)
Definition int_cadd (t : ity) (x y : Z) : result Z aerr := ok_or (checked_add t x y) Overflow.
Definition int_csub (t : ity) (x y : Z) : result Z aerr := ok_or (checked_sub t x y) Overflow.
Definition int_cmul (t : ity) (x y : Z) : result Z aerr := ok_or (checked_mul t x y) Overflow.

(** [rdiv] on primitive integers, src/ops/mod.rs:448-475. *)
Definition int_rdiv (b : build) (t : ity) (self rhs : Z) (m : mode) : outcome (result Z aerr) :=
  if rhs =? 0 then Ret (Err DivisionByZero)
  else
    result <- div t self rhs ;;
    rr <- mul b t result rhs ;;
    loss <- sub b t self rr ;;
    if loss =? 0 then Ret (Ok result)
    else
      sign <- mul b t (Z.sgn self) (Z.sgn rhs) ;;
      add_signed_one <-
        (if mode_eqb m Nearest then
           loss_abs <- iabs b t loss ;;
           s <- add b t loss_abs loss_abs ;;
           r <- iabs b t rhs ;;
           Ret (r <=? s)
         else Ret (mode_i32 m =? wrap I32 sign)) ;;
      if (add_signed_one : bool) then Ret (ok_or (checked_add t result sign) Overflow)
      else Ret (Ok result).

(** The default trait methods, generic in the checked method: [A] is [Self], [R] is [Rhs],
    [O] is [Output]; [neg_*] is the comparison [_ < ZERO]; [omin]/[omax] are [Output::MIN/MAX].
    [saturating_add] src/ops/mod.rs:82-96, [saturating_sub] 154-168, [saturating_mul] 229-244,
    [saturating_rmul] 328-343 (the same shape with a mode). *)
Definition default_saturating_add {A R O E : Type} (cadd : A -> R -> outcome (result O E))
    (neg_rhs : R -> bool) (omin omax : O) (x : A) (y : R) : outcome O :=
  let n := neg_rhs y in
  r <- cadd x y ;;
  Ret (match r with Ok v => v | Err _ => if n then omin else omax end).
Definition default_saturating_sub {A R O E : Type} (csub : A -> R -> outcome (result O E))
    (neg_rhs : R -> bool) (omin omax : O) (x : A) (y : R) : outcome O :=
  let n := neg_rhs y in
  r <- csub x y ;;
  Ret (match r with Ok v => v | Err _ => if n then omax else omin end).
Definition default_saturating_mul {A R O E : Type} (cmul : A -> R -> outcome (result O E))
    (neg_lhs : A -> bool) (neg_rhs : R -> bool) (omin omax : O) (x : A) (y : R) : outcome O :=
  let nl := neg_lhs x in
  let nr := neg_rhs y in
  r <- cmul x y ;;
  Ret (match r with Ok v => v | Err _ => if Bool.eqb nl nr then omax else omin end).
