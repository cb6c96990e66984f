(** * U256Ops: the operators of src/i256/u256.rs that [I256] does not use: conversions from and to
    machine integers, shifts by any amount, and products with machine integers. *)
From Verif Require Import Base Sqrt U256.

(** [low_u64], src/i256/u256.rs:278-283. *)
Definition low_u64 (x : u256) : outcome Z := idx x 0.
(** [as_usize], src/i256/u256.rs:285-297; [usize] has 64 bits. *)
Definition as_usize (x : u256) : outcome Z :=
  w <- idx x 0 ;;
  if negb (fits_word x) || (imax USize <? w) then Panic else Ret (wrap USize w).
(** [From<u64>], src/i256/u256.rs:625-631. *)
Definition u256_of_u64 (value : Z) : u256 := [value; 0; 0; 0].
(** [impl_map_from!] for [u32], src/i256/u256.rs:11-19, 654. *)
Definition u256_of_u32 (value : Z) : u256 := u256_of_u64 (wrap U64 value).
(** [From<i64>], src/i256/u256.rs:656-663. *)
Definition u256_of_i64 (value : Z) : outcome u256 := if 0 <=? value then Ret (u256_of_u64 (wrap U64 value)) else Panic.
(** [impl_mul_for_primitive!] for [u64] and [usize], src/i256/u256.rs:201-250, 667-668; [MulAssign] is
    the same product. *)
Definition u256_mul_u64 (b : build) (x : u256) (other : Z) : outcome u256 :=
  '(result, carry) <- ov_mul_u64 b x (wrap U64 other) 0 ;;
  if 0 <? carry then Panic else Ret result.
(** [Shl], [Shr] by a converted operand, src/i256/u256.rs:707-768; [ShlAssign], [ShrAssign] are the same. *)
Definition u256_shl_by (b : build) (x shift : u256) : outcome u256 := s <- as_usize shift ;; u256_shl b x s.
Definition u256_shr_by (b : build) (x shift : u256) : outcome u256 := s <- as_usize shift ;; u256_shr b x s.
