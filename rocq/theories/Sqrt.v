(** * Sqrt: src/ops/sqrt.rs, integer square roots of the primitive types. *)
From Coq Require Import SpecFloat.
From Verif Require Import Base.

(** IEEE binary64 parameters. *)
Definition f64prec : Z := 53.
Definition f64emax : Z := 1024.

(** [x as f64] for an integer: nearest float, ties to even. *)
Definition int_to_f64 (x : Z) : spec_float := binary_normalize f64prec f64emax x 0 false.

(** [f as t] for a float: truncation towards zero, saturating, NaN gives 0. *)
Definition f64_to_int (t : ity) (f : spec_float) : Z :=
  match f with
  | S754_zero _ => 0
  | S754_infinity s => if s then imin t else imax t
  | S754_nan => 0
  | S754_finite s m e =>
      let a := if 0 <=? e then Zpos m * 2 ^ e else Zpos m / 2 ^ (- e) in
      sat t (if s then - a else a)
  end.

(** [guess] with feature [std]: [(x as f64).sqrt() as $int], src/ops/sqrt.rs:34-38. *)
Definition guess_std (t : ity) (x : Z) : Z :=
  f64_to_int t (SFsqrt f64prec f64emax (int_to_f64 x)).

(** [guess] without [std], src/ops/sqrt.rs:40-50 ([bits] is [width t]). *)
Definition guess_nostd (b : build) (t : ity) (x : Z) : outcome Z :=
  _ <- dassert b (0 <? x) ;;
  w1 <- sub b U32 (width t) 1 ;;
  log2 <- sub b U32 w1 (leading_zeros t x) ;;
  l1 <- add b U32 log2 1 ;;
  h <- div U32 l1 2 ;;
  shl b t 1 h.

(** [guess], chosen by the feature, src/ops/sqrt.rs:34-50. *)
Definition guess (b : build) (t : ity) (x : Z) : outcome Z :=
  if std b then Ret (guess_std t x) else guess_nostd b t x.

(** The [next] closure, src/ops/sqrt.rs:85. *)
Definition next (b : build) (t : ity) (self x : Z) : outcome Z :=
  q <- div t self x ;;
  s <- add b t q x ;;
  shr b t s 1.

(** The two loops of [fixpoint], src/ops/sqrt.rs:52-64. *)
Fixpoint fix_up (b : build) (t : ity) (self : Z) (fuel : nat) (x xn : Z) : outcome (Z * Z) :=
  match fuel with
  | O => NoFuel
  | S fuel =>
      if x <? xn then
        xn' <- next b t self xn ;; fix_up b t self fuel xn xn'
      else Ret (x, xn)
  end.
Fixpoint fix_down (b : build) (t : ity) (self : Z) (fuel : nat) (x xn : Z) : outcome Z :=
  match fuel with
  | O => NoFuel
  | S fuel =>
      if xn <? x then
        xn' <- next b t self xn ;; fix_down b t self fuel xn xn'
      else Ret x
  end.
(** Fuel 100 is enough for every reachable input (proved). *)
Definition sqrt_fuel : nat := 100.
Definition fixpoint (b : build) (t : ity) (self x : Z) : outcome Z :=
  xn <- next b t self x ;;
  '(x, xn) <- fix_up b t self sqrt_fuel x xn ;;
  fix_down b t self sqrt_fuel x xn.

(** [sqrt] for types of at most 64 bits, src/ops/sqrt.rs:66-67,81-86.
    The Rust function returns [Result] but has no error path, so the model returns the value. *)
Definition sqrt_small (b : build) (t : ity) (self : Z) : outcome Z :=
  _ <- dassert b (0 <=? self) ;;
  if self <? 4 then Ret (Z.b2z (0 <? self))
  else
    g <- guess b t self ;;
    fixpoint b t self g.

(** [sqrt] for 128-bit types, src/ops/sqrt.rs:66-80; recursion depth bounded by [fuel]. *)
Fixpoint sqrt_big (b : build) (t : ity) (fuel : nat) (self : Z) : outcome Z :=
  match fuel with
  | O => NoFuel
  | S fuel =>
      _ <- dassert b (0 <=? self) ;;
      match try_from U64 self with
      | Some x => r <- sqrt_small b U64 x ;; Ret (wrap t r)
      | None =>
          s2 <- shr b t self 2 ;;
          r <- sqrt_big b t fuel s2 ;;
          lo <- shl b t r 1 ;;
          hi <- add b t lo 1 ;;
          hh <- mul b t hi hi ;;
          Ret (if hh <=? self then hi else lo)
      end
  end.

(** [<t as Sqrt>::sqrt], src/ops/sqrt.rs:28-87. *)
Definition sqrt_prim (b : build) (t : ity) (self : Z) : outcome Z :=
  if 64 <? width t then sqrt_big b t sqrt_fuel self else sqrt_small b t self.
