(** * Base: outcomes, results, build configurations and Rust primitive integers.

    This file models the part of the Rust language and of its [core] library that
    the crate relies on.  It is the only place where language semantics
    (overflow, wrap-around, division panics, shifts, [as] casts) is written down. *)
From Coq Require Export ZArith List Bool Lia.
Export ListNotations.
Open Scope Z_scope.

(** Observable outcome of running a piece of Rust code.
    - [Ret a]  : normal return (a Rust [Result] is returned as data, see [result]);
    - [Panic]  : the thread panics (or, inside a [const], compilation fails);
    - [Undef]  : undefined behaviour (an unchecked write or read out of bounds);
    - [NoFuel] : the model's loop fuel ran out; no theorem ever accepts it. *)
Inductive outcome (A : Type) : Type :=
| Ret (a : A)
| Panic
| Undef
| NoFuel.
Arguments Ret {A} a.
Arguments Panic {A}.
Arguments Undef {A}.
Arguments NoFuel {A}.

(** Sequencing: everything but a normal return stops the program; Rust's evaluation order
    (no code of the crate). *)
Definition bind {A B : Type} (x : outcome A) (f : A -> outcome B) : outcome B :=
  match x with
  | Ret a => f a
  | Panic => Panic
  | Undef => Undef
  | NoFuel => NoFuel
  end.

Declare Scope outcome_scope.
Delimit Scope outcome_scope with outcome.
Notation "x <- e ;; k" := (bind e (fun x => k))
  (at level 61, e at next level, right associativity) : outcome_scope.
Notation "' p <- e ;; k" := (bind e (fun p => k))
  (at level 61, p pattern, e at next level, right associativity) : outcome_scope.
Open Scope outcome_scope.

(** [core::result::Result]. *)
Inductive result (A E : Type) : Type :=
| Ok (a : A)
| Err (e : E).
Arguments Ok {A E} a.
Arguments Err {A E} e.

(** The [?] operator. *)
Definition try_ {A B E : Type} (x : outcome (result A E))
    (f : A -> outcome (result B E)) : outcome (result B E) :=
  r <- x ;; match r with Ok a => f a | Err e => Ret (Err e) end.
Notation "x <-? e ;; k" := (try_ e (fun x => k))
  (at level 61, e at next level, right associativity) : outcome_scope.

(** [Result::map]. *)
Definition rmap {A B E : Type} (f : A -> B) (r : result A E) : result B E :=
  match r with Ok a => Ok (f a) | Err e => Err e end.

(** [Option::ok_or] / [Option::ok_or_else]. *)
Definition ok_or {A E : Type} (o : option A) (e : E) : result A E :=
  match o with Some a => Ok a | None => Err e end.

(** [Option::unwrap] / [Result::unwrap]. *)
Definition unwrap_opt {A : Type} (o : option A) : outcome A :=
  match o with Some a => Ret a | None => Panic end.
Definition unwrap_res {A E : Type} (r : result A E) : outcome A :=
  match r with Ok a => Ret a | Err _ => Panic end.

(** [ArithmeticError], src/errors.rs:8-20. *)
Inductive aerr : Type := Overflow | DivisionByZero | DomainViolation.

(** [RoundMode], src/ops/mod.rs:247-257. *)
Inductive mode : Type := Ceil | Nearest | Floor.

(** The discriminants of [RoundMode] ([mode as i32]), src/ops/mod.rs:251-256. *)
Definition mode_i32 (m : mode) : Z :=
  match m with Ceil => 1 | Nearest => 0 | Floor => -1 end.

(** The derived [PartialEq] of [RoundMode], src/ops/mod.rs:247-257. *)
Definition mode_eqb (a b : mode) : bool :=
  match a, b with
  | Ceil, Ceil | Nearest, Nearest | Floor, Floor => true
  | _, _ => false
  end.

(** Build configuration: which rustc profile flags and which cargo features the
    crate is compiled with (Cargo.toml:35-45).
    - [ovf]  : [-C overflow-checks]  (on in dev, off in release);
    - [dbg]  : [-C debug-assertions] (on in dev, off in release);
    - [std]  : feature [std];
    - [f128] : feature [i128]. *)
Record build : Type := { ovf : bool; dbg : bool; std : bool; f128 : bool }.

(** [debug_assert!(c)]. *)
Definition dassert (b : build) (c : bool) : outcome unit :=
  if dbg b then (if c then Ret tt else Panic) else Ret tt.
(** [assert!(c)]. *)
Definition assert_ (c : bool) : outcome unit := if c then Ret tt else Panic.

(** ** Primitive integers *)

(** Primitive integer types.  [isize]/[usize] are 64 bits wide: the model is of a
    64-bit target. *)
Inductive ity : Type :=
| I8 | I16 | I32 | I64 | I128 | ISize
| U8 | U16 | U32 | U64 | U128 | USize.

(** [<t>::BITS] and the signedness of the primitive types (core library). *)
Definition width (t : ity) : Z :=
  match t with
  | I8 | U8 => 8 | I16 | U16 => 16 | I32 | U32 => 32
  | I64 | U64 | ISize | USize => 64 | I128 | U128 => 128
  end.
Definition is_signed (t : ity) : bool :=
  match t with
  | I8 | I16 | I32 | I64 | I128 | ISize => true
  | _ => false
  end.

(** [<t>::MIN] and [<t>::MAX]. *)
Definition imin (t : ity) : Z :=
  if is_signed t then - 2 ^ (width t - 1) else 0.
Definition imax (t : ity) : Z :=
  if is_signed t then 2 ^ (width t - 1) - 1 else 2 ^ width t - 1.

(** The mathematical integer [z] is a value of type [t]. *)
Definition fits (t : ity) (z : Z) : Prop := imin t <= z <= imax t.
Definition fitsb (t : ity) (z : Z) : bool := (imin t <=? z) && (z <=? imax t).

(** Two's complement truncation: [z as t], and what wrapping arithmetic does. *)
Definition wrap (t : ity) (z : Z) : Z :=
  if is_signed t
  then (z + 2 ^ (width t - 1)) mod 2 ^ width t - 2 ^ (width t - 1)
  else z mod 2 ^ width t.

(** Result of a built-in [+], [-], [*], unary [-], [abs] or [pow] whose exact value
    is [z]: if it does not fit, panic when overflow checks are on, else wrap. *)
Definition fit (b : build) (t : ity) (z : Z) : outcome Z :=
  if fitsb t z then Ret z else if ovf b then Panic else Ret (wrap t z).

(** The built-in operators and [abs] (core library). *)
Definition add (b : build) (t : ity) (x y : Z) : outcome Z := fit b t (x + y).
Definition sub (b : build) (t : ity) (x y : Z) : outcome Z := fit b t (x - y).
Definition mul (b : build) (t : ity) (x y : Z) : outcome Z := fit b t (x * y).
Definition neg (b : build) (t : ity) (x : Z) : outcome Z := fit b t (- x).
Definition iabs (b : build) (t : ity) (x : Z) : outcome Z := fit b t (Z.abs x).
(** [x.pow(n)]: square-and-multiply multiplies only factors of the final power, so
    for |x| >= 2 it overflows iff [x ^ n] does, and it wraps to [x ^ n] modulo
    2^width otherwise. *)
Definition ipow (b : build) (t : ity) (x n : Z) : outcome Z := fit b t (x ^ n).

(** Built-in [/] and [%]: truncate towards zero, panic in every profile on a zero
    divisor and on [MIN / -1]. *)
Definition div (t : ity) (x y : Z) : outcome Z :=
  if y =? 0 then Panic
  else if fitsb t (Z.quot x y) then Ret (Z.quot x y) else Panic.
Definition rem (t : ity) (x y : Z) : outcome Z :=
  if y =? 0 then Panic
  else if fitsb t (Z.quot x y) then Ret (Z.rem x y) else Panic.

(** [checked_add], [checked_sub], [checked_mul], [checked_neg], [checked_div]. *)
Definition chk (t : ity) (z : Z) : option Z := if fitsb t z then Some z else None.
Definition checked_add (t : ity) (x y : Z) : option Z := chk t (x + y).
Definition checked_sub (t : ity) (x y : Z) : option Z := chk t (x - y).
Definition checked_mul (t : ity) (x y : Z) : option Z := chk t (x * y).
Definition checked_neg (t : ity) (x : Z) : option Z := chk t (- x).
Definition checked_div (t : ity) (x y : Z) : option Z :=
  if y =? 0 then None else chk t (Z.quot x y).

(** [saturating_add], [saturating_sub], [saturating_mul] of primitive integers,
    documented as "saturating at the numeric bounds instead of overflowing". *)
Definition sat (t : ity) (z : Z) : Z :=
  if z <? imin t then imin t else if imax t <? z then imax t else z.
Definition saturating_add (t : ity) (x y : Z) : Z := sat t (x + y).
Definition saturating_sub (t : ity) (x y : Z) : Z := sat t (x - y).
Definition saturating_mul (t : ity) (x y : Z) : Z := sat t (x * y).

(** [<t>::try_from(z)] between integer types. *)
Definition try_from (t : ity) (z : Z) : option Z := chk t z.

(** [x.leading_zeros()], for a value [x] of type [t]. *)
Definition leading_zeros (t : ity) (x : Z) : Z :=
  if x <? 0 then 0
  else if x =? 0 then width t
  else width t - 1 - Z.log2 x.

(** [x << s] and [x >> s] for a value [x] of type [t]: a shift amount outside
    [0, width) panics with overflow checks and is masked without them; bits shifted
    out are lost silently.  [>>] is arithmetic on signed types. *)
Definition shl (b : build) (t : ity) (x s : Z) : outcome Z :=
  if (0 <=? s) && (s <? width t) then Ret (wrap t (x * 2 ^ s))
  else if ovf b then Panic else Ret (wrap t (x * 2 ^ (s mod width t))).
Definition shr (b : build) (t : ity) (x s : Z) : outcome Z :=
  if (0 <=? s) && (s <? width t) then Ret (x / 2 ^ s)
  else if ovf b then Panic else Ret (x / 2 ^ (s mod width t)).

(** [u64::overflowing_add] and [u64::overflowing_sub]. *)
Definition ovadd64 (x y : Z) : Z * bool := (wrap U64 (x + y), negb (fitsb U64 (x + y))).
Definition ovsub64 (x y : Z) : Z * bool := (wrap U64 (x - y), negb (fitsb U64 (x - y))).

(** Slice and array indexing [a[i]]: out of bounds panics. *)
Definition idx {A : Type} (l : list A) (i : Z) : outcome A :=
  if (0 <=? i) && (i <? Z.of_nat (length l)) then
    match nth_error l (Z.to_nat i) with Some x => Ret x | None => Panic end
  else Panic.

(** Array element update at an in-bounds index (model helper for [a[i] = v]). *)
Fixpoint upd {A : Type} (l : list A) (n : nat) (v : A) : list A :=
  match l, n with
  | [], _ => []
  | _ :: t, O => v :: t
  | x :: t, S n => x :: upd t n v
  end.
(** [a[i] = v] with the bounds check. *)
Definition set_idx {A : Type} (l : list A) (i : Z) (v : A) : outcome (list A) :=
  if (0 <=? i) && (i <? Z.of_nat (length l)) then Ret (upd l (Z.to_nat i) v) else Panic.
