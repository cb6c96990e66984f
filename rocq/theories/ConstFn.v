(** * ConstFn: src/const_fn.rs. *)
From Verif Require Import Base.

(** [Int]: i128 with feature [i128], else i64.  src/const_fn.rs:3-6. *)
Definition Int (b : build) : ity := if f128 b then I128 else I64.

(** [const_assert!]: a failed assertion is an endless loop in a [const fn], i.e. the constant
    cannot be evaluated and the program does not compile; modelled as [Panic].
    src/const_fn.rs:8-14. *)
Definition const_assert (c : bool) : outcome unit := if c then Ret tt else Panic.

(** The table inside [pow10], src/const_fn.rs:17-37. *)
Definition POW_10 : list Z :=
  [ 1; 10; 100; 1000; 10000; 100000; 1000000; 10000000; 100000000; 1000000000;
    10000000000; 100000000000; 1000000000000; 10000000000000; 100000000000000;
    1000000000000000; 10000000000000000; 100000000000000000; 1000000000000000000 ].

(** [while i > 0 { result *= 10; i -= 1 }], src/const_fn.rs:46-49; [n] is the loop counter. *)
Fixpoint pow10_loop (b : build) (n : nat) (result : Z) : outcome Z :=
  match n with
  | O => Ret result
  | S n => r <- mul b (Int b) result 10 ;; pow10_loop b n r
  end.

(** [pow10], src/const_fn.rs:16-52.  [POW_10.len()] is 19.  Inside a [const fn] the arithmetic
    is checked or wraps according to the crate's own overflow-check flag. *)
Definition pow10 (b : build) (power : Z) : outcome Z :=
  if power <? 19 then idx POW_10 (wrap USize power)
  else
    r <- idx POW_10 18 ;;
    d <- sub b I32 power 19 ;;
    i <- add b I32 d 1 ;;
    pow10_loop b (Z.to_nat i) r.

(** [find], src/const_fn.rs:54-65.  [i] counts from 0; bytes are [Z] in [0,256). *)
Fixpoint find_from (bytes : list Z) (pattern i : Z) : option Z :=
  match bytes with
  | [] => None
  | c :: t => if c =? pattern then Some i else find_from t pattern (i + 1)
  end.
Definition find (bytes : list Z) (pattern : Z) : option Z := find_from bytes pattern 0.

(** [parse_digit], src/const_fn.rs:67-71; [byte.wrapping_sub(48)] on u8. *)
Definition parse_digit (byte : Z) : outcome Z :=
  let digit := wrap U8 (byte - 48) in
  _ <- const_assert (digit <? 10) ;;
  Ret digit.

(** [parse_int], src/const_fn.rs:73-84.  The fuel [n] is [end - start]. *)
Fixpoint parse_int_loop (b : build) (bytes : list Z) (n : nat) (i e result : Z) : outcome Z :=
  match n with
  | O => Ret result
  | S n =>
      c <- idx bytes i ;;
      digit <- parse_digit c ;;
      i <- add b USize i 1 ;;
      d <- sub b USize e i ;;
      p <- pow10 b (wrap I32 d) ;;
      dp <- mul b (Int b) digit p ;;
      result <- add b (Int b) result dp ;;
      parse_int_loop b bytes n i e result
  end.
Definition parse_int (b : build) (bytes : list Z) (start e : Z) : outcome Z :=
  parse_int_loop b bytes (Z.to_nat (e - start)) start e 0.

(** [parse_fixed], src/const_fn.rs:87-114.  ASCII: '-' = 45, '+' = 43, '.' = 46. *)
Definition parse_fixed (b : build) (bytes : list Z) (coef : Z) : outcome Z :=
  let I := Int b in
  let len := Z.of_nat (length bytes) in
  c0 <- idx bytes 0 ;;
  let signum := if c0 =? 45 then -1 else 1 in
  let start := if (c0 =? 45) || (c0 =? 43) then 1 else 0 in
  match find bytes 46 with
  | None =>
      integral <- parse_int b bytes start len ;;
      si <- mul b I signum integral ;;
      mul b I si coef
  | Some point =>
      integral <- parse_int b bytes start point ;;
      l1 <- sub b USize len point ;;
      l2 <- sub b USize l1 1 ;;
      exp <- pow10 b (wrap I32 l2) ;;
      _ <- const_assert (exp <=? coef) ;;
      p1 <- add b USize point 1 ;;
      fractional <- parse_int b bytes p1 len ;;
      final_integral <- mul b I integral coef ;;
      ce <- div I coef exp ;;
      final_fractional <- mul b I ce fractional ;;
      s <- add b I final_integral final_fractional ;;
      mul b I signum s
  end.
