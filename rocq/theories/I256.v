(** * I256: src/i256/mod.rs, signed 256-bit integers in two's complement over [U256]. *)
From Verif Require Import Base Sqrt U256.

(** [struct I256 { inner: U256 }], src/i256/mod.rs:16-20. *)
Definition i256 : Type := u256.

(** [SIGN_MASK], src/i256/mod.rs:11. *)
Definition SIGN_MASK : Z := 9223372036854775808.

(** [I256::from_i128], src/i256/mod.rs:34-37; also [From<i128>], 141-145. *)
Definition from_i128 (x : Z) : i256 :=
  let msb := if x <? 0 then 18446744073709551615 else 0 in
  [wrap U64 x; wrap U64 (x / 2 ^ 64); msb; msb].

(** Constants [MIN], [I128_MAX], [I128_MIN], [ONE], [ZERO],
    src/i256/mod.rs:24-28, 175-181. *)
Definition I256_MIN : i256 := [0; 0; 0; SIGN_MASK].
Definition I256_I128_MAX : i256 := from_i128 (imax I128).
Definition I256_I128_MIN : i256 := from_i128 (imin I128).
Definition I256_ONE : i256 := from_i128 1.
Definition I256_ZERO : i256 := from_i128 0.

(** [is_negative], src/i256/mod.rs:39-42. *)
Definition is_negative (x : i256) : outcome bool :=
  w <- idx x 3 ;; Ret (negb (Z.land w SIGN_MASK =? 0)).

(** Derived [PartialEq] on the words, src/i256/mod.rs:18. *)
Fixpoint words_eqb (x y : list Z) : bool :=
  match x, y with
  | [], [] => true
  | a :: x, c :: y => (a =? c) && words_eqb x y
  | _, _ => false
  end.

(** [Neg], src/i256/mod.rs:110-121. *)
Definition i256_neg (b : build) (x : i256) : outcome i256 :=
  _ <- dassert b (negb (words_eqb x I256_MIN)) ;;
  Ret (fst (overflowing_add (u256_not x) I256_ONE)).

(** [Mul], src/i256/mod.rs:49-68. *)
Definition i256_mul (b : build) (x y : i256) : outcome i256 :=
  nx <- is_negative x ;;
  ny <- is_negative y ;;
  x <- (if (nx : bool) then i256_neg b x else Ret x) ;;
  y <- (if (ny : bool) then i256_neg b y else Ret y) ;;
  r <- u256_mul b x y ;;
  if Bool.eqb nx ny then Ret r else i256_neg b r.

(** [Div], src/i256/mod.rs:70-88. *)
Definition i256_div (b : build) (x y : i256) : outcome i256 :=
  nx <- is_negative x ;;
  ny <- is_negative y ;;
  x <- (if (nx : bool) then i256_neg b x else Ret x) ;;
  y <- (if (ny : bool) then i256_neg b y else Ret y) ;;
  r <- u256_div b x y ;;
  if Bool.eqb nx ny then Ret r else i256_neg b r.

(** [Add], [Sub], src/i256/mod.rs:90-108. *)
Definition i256_add (x y : i256) : i256 := fst (overflowing_add x y).
Definition i256_sub (x y : i256) : i256 := fst (overflowing_sub x y).

(** [Ord::cmp], src/i256/mod.rs:123-132. *)
Definition i256_cmp (x y : i256) : outcome comparison :=
  nx <- is_negative x ;;
  ny <- is_negative y ;;
  Ret (match nx, ny with
       | true, false => Lt
       | false, true => Gt
       | _, _ => u256_cmp x y
       end).

(** [TryFrom<I256> for i128], src/i256/mod.rs:147-156; [None] is the [Err]. *)
Definition i128_of_i256 (b : build) (x : i256) : outcome (option Z) :=
  c1 <- i256_cmp x I256_I128_MAX ;;
  if match c1 with Gt => true | _ => false end then Ret None
  else
    c2 <- i256_cmp x I256_I128_MIN ;;
    if match c2 with Lt => true | _ => false end then Ret None
    else
      w0 <- idx x 0 ;;
      w1 <- idx x 1 ;;
      h <- shl b I128 w1 64 ;;
      Ret (Some (Z.lor w0 h)).

(** [Sqrt for I256], src/i256/mod.rs:183-191. *)
Definition i256_sqrt (b : build) (x : i256) : outcome i256 :=
  c <- i256_cmp x I256_ZERO ;;
  _ <- dassert b (match c with Lt => false | _ => true end) ;;
  u256_sqrt b sqrt_fuel x.
