(** * Statements: all operators of 256-bit integers, for all operands (C93 unsigned, C94 signed). *)
From Verif Require Import Base Sqrt U256 I256 Promo Spec.
From Verif Require Import SpecWide U256Ops U256OpsFacts I256Limits.
From Verif Require Import Meets.
Open Scope Z_scope.

(** ** C93 *)
Theorem C93_from : (forall v, 0 <= v < 2 ^ 64 -> unsigned4 (u256_of_u64 v) v) /\ (forall v, 0 <= v < 2 ^ 32 -> unsigned4 (u256_of_u32 v) v) /\
  (forall v, - 2 ^ 63 <= v < 2 ^ 63 -> (0 <= v -> exists z, u256_of_i64 v = Ret z /\ unsigned4 z v) /\ (v < 0 -> u256_of_i64 v = Panic)).
Proof. exact (conj of_u64 (conj of_u32 of_i64)). Qed.
Print Assumptions C93_from.
Theorem C93_from_u128 : forall b v, 0 <= v < 2 ^ 128 -> exists z, u256_of_u128 b v = Ret z /\ unsigned4 z v /\ u128_of_u256 b z = Ret (Some v).
Proof. exact of_u128. Qed.
Print Assumptions C93_from_u128.
Example C93_from_u128_case : 0 <= 7 < 2 ^ 128.
Proof. meets. Qed.
Theorem C93_to : forall x a, unsigned4 x a -> as_usize x = (if a <? 2 ^ 64 then Ret a else Panic) /\ low_u64 x = Ret (a mod 2 ^ 64).
Proof. exact (fun x a H => conj (to_usize x a H) (low_word x a H)). Qed.
Print Assumptions C93_to.
Example C93_to_case : unsigned4 [5; 0; 7; 9] 56493915618480126876904081377315566989164821252198688096261.
Proof. meets. Qed.
Theorem C93_shift : forall b x y a s, unsigned4 x a -> unsigned4 y s ->
  (s < 2 ^ 64 -> (exists z, u256_shl_by b x y = Ret z /\ unsigned4 z ((a * 2 ^ s) mod 2 ^ 256)) /\
                 (exists z, u256_shr_by b x y = Ret z /\ unsigned4 z (a / 2 ^ s))) /\
  (2 ^ 64 <= s -> u256_shl_by b x y = Panic /\ u256_shr_by b x y = Panic).
Proof. exact shift_by. Qed.
Print Assumptions C93_shift.
Example C93_shift_case : unsigned4 [5; 0; 7; 9] 56493915618480126876904081377315566989164821252198688096261 /\ unsigned4 [70; 0;
  0; 0] 70.
Proof. meets. Qed.
Theorem C93_mul_machine : forall b x a c, unsigned4 x a -> 0 <= c < 2 ^ 64 ->
  (a * c < 2 ^ 256 -> exists z, u256_mul_u64 b x c = Ret z /\ unsigned4 z (a * c)) /\ (2 ^ 256 <= a * c -> u256_mul_u64 b x c = Panic).
Proof. exact mul_machine. Qed.
Print Assumptions C93_mul_machine.
Example C93_mul_machine_case : unsigned4 [5; 0; 7; 9] 56493915618480126876904081377315566989164821252198688096261 /\ 0 <=
  9223372036854775809 < 2 ^ 64.
Proof. meets. Qed.
Theorem C93_add_sub : forall x y a c, unsigned4 x a -> unsigned4 y c ->
  (exists z, overflowing_add x y = (z, 2 ^ 256 <=? a + c) /\ unsigned4 z ((a + c) mod 2 ^ 256)) /\
  (exists z, overflowing_sub x y = (z, a <? c) /\ unsigned4 z ((a - c) mod 2 ^ 256)).
Proof. exact (fun x y a c Hx Hy => conj (add_flag x y a c Hx Hy) (sub_flag x y a c Hx Hy)). Qed.
Print Assumptions C93_add_sub.
Example C93_add_sub_case : unsigned4 [5; 0; 7; 9] 56493915618480126876904081377315566989164821252198688096261 /\ unsigned4 [3; 1;
  0; 0] 18446744073709551619.
Proof. meets. Qed.
Theorem C93_bits : forall x a, unsigned4 x a ->
  exists n, U256.bits x = Ret n /\ 0 <= n <= 256 /\ 0 <= a < 2 ^ n /\ (0 < n -> 2 ^ (n - 1) <= a).
Proof. exact bit_length. Qed.
Print Assumptions C93_bits.
Example C93_bits_case : unsigned4 [5; 0; 7; 9] 56493915618480126876904081377315566989164821252198688096261.
Proof. meets. Qed.
(** Shifts across words, and amounts of 256 and of 2^64. *)
Example C93_example : unsigned4 [5; 7; 0; 2 ^ 63] (5 + 7 * 2 ^ 64 + 2 ^ 255) /\ unsigned4 [130; 0; 0; 0] 130 /\ unsigned4 [0; 1; 0; 0] (2 ^ 64) /\
  u256_shl_by dev [5; 7; 0; 2 ^ 63] [130; 0; 0; 0] = Ret [0; 0; 20; 28] /\ u256_shr_by dev [5; 7; 0; 2 ^ 63] [130; 0; 0; 0] = Ret [0; 2 ^ 61; 0; 0] /\
  u256_shl_by dev [5; 7; 0; 2 ^ 63] [0; 1; 0; 0] = Panic /\ u256_shr_by dev [5; 7; 0; 2 ^ 63] [256; 0; 0; 0] = Ret [0; 0; 0; 0] /\
  u256_mul_u64 dev [5; 7; 0; 2 ^ 63] 2 = Panic /\ u256_mul_u64 dev [5; 7; 0; 2 ^ 62] 2 = Ret [10; 14; 0; 2 ^ 63] /\
  u256_of_i64 (-1) = Panic /\ U256.bits [5; 7; 0; 0] = Ret 67.
Proof.
  repeat match goal with |- _ /\ _ => split end; try match goal with |- _ = _ => vm_compute; reflexivity end.
  - exists 5, 7, 0, (2 ^ 63). repeat split; try reflexivity; vm_compute; discriminate.
  - exists 130, 0, 0, 0. repeat split; try reflexivity; vm_compute; discriminate.
  - exists 0, 1, 0, 0. repeat split; try reflexivity; vm_compute; discriminate.
Qed.

(** ** C94 *)
Theorem C94_neg : forall b x a, signed4 x a ->
  (dbg b = true /\ a = - 2 ^ 255 -> i256_neg b x = Panic) /\
  (~ (dbg b = true /\ a = - 2 ^ 255) -> exists z r, i256_neg b x = Ret z /\ signed4 z r /\ wraps256 (- a) r).
Proof. exact neg_at_limits. Qed.
Print Assumptions C94_neg.
Example C94_neg_case : signed4 [18446744073709551609; 18446744004990074879; 18446744073709551615; 18446744073709551615]
  (-1267650600228229401496703205383).
Proof. meets. Qed.
Theorem C94_add_sub : forall x y a c, signed4 x a -> signed4 y c ->
  (exists r, signed4 (i256_add x y) r /\ wraps256 (a + c) r) /\ (exists r, signed4 (i256_sub x y) r /\ wraps256 (a - c) r).
Proof. exact add_at_limits. Qed.
Print Assumptions C94_add_sub.
Example C94_add_sub_case : signed4 [18446744073709551609; 18446744004990074879; 18446744073709551615; 18446744073709551615]
  (-1267650600228229401496703205383) /\ signed4 [3; 1; 0; 0] 18446744073709551619.
Proof. meets. Qed.
Theorem C94_mul : forall b x y a c, signed4 x a -> signed4 y c ->
  let bad := 2 ^ 256 <= Z.abs (a * c) \/ (dbg b = true /\ (a = - 2 ^ 255 \/ c = - 2 ^ 255 \/ a * c = - 2 ^ 255)) in
  (bad -> i256_mul b x y = Panic) /\
  (~ bad -> exists z r, i256_mul b x y = Ret z /\ signed4 z r /\ wraps256 (a * c) r).
Proof. exact mul_at_limits. Qed.
Print Assumptions C94_mul.
Example C94_mul_case : signed4 [18446744073709551609; 18446744004990074879; 18446744073709551615; 18446744073709551615]
  (-1267650600228229401496703205383) /\ signed4 [3; 1; 0; 0] 18446744073709551619.
Proof. meets. Qed.
Theorem C94_div : forall b x y a c, signed4 x a -> signed4 y c ->
  let bad := c = 0 \/ (dbg b = true /\ (a = - 2 ^ 255 \/ c = - 2 ^ 255)) in
  (bad -> i256_div b x y = Panic) /\
  (~ bad -> exists z r, i256_div b x y = Ret z /\ signed4 z r /\ wraps256 (Z.quot a c) r).
Proof. exact div_at_limits. Qed.
Print Assumptions C94_div.
Example C94_div_case : signed4 [18446744073709551609; 18446744004990074879; 18446744073709551615; 18446744073709551615]
  (-1267650600228229401496703205383) /\ signed4 [3; 1; 0; 0] 18446744073709551619.
Proof. meets. Qed.
Theorem C94_to_i128 : forall b x a, signed4 x a ->
  i128_of_i256 b x = Ret (if (- 2 ^ 127 <=? a) && (a <? 2 ^ 127) then Some a else None).
Proof. exact i128_at_limits. Qed.
Print Assumptions C94_to_i128.
Example C94_to_i128_case : signed4 [18446744073709551609; 18446744004990074879; 18446744073709551615; 18446744073709551615]
  (-1267650600228229401496703205383).
Proof. meets. Qed.
Theorem C94_sqrt_negative : forall b x a, signed4 x a -> a < 0 ->
  (dbg b = true -> i256_sqrt b x = Panic) /\
  (dbg b = false -> exists z s, i256_sqrt b x = Ret z /\ unsigned4 z s /\ 0 <= s /\ s * s <= a + 2 ^ 256 < (s + 1) * (s + 1)).
Proof. exact sqrt_negative. Qed.
Print Assumptions C94_sqrt_negative.
Example C94_sqrt_negative_case : signed4 [18446744073709551609; 18446744004990074879; 18446744073709551615; 18446744073709551615]
  (-1267650600228229401496703205383) /\ (-1267650600228229401496703205383) < 0.
Proof. meets. Qed.
(** The least number, and a product that wraps without a panic in every build. *)
Example C94_example : signed4 [0; 0; 0; 2 ^ 63] (- 2 ^ 255) /\ signed4 [0; 0; 1; 0] (2 ^ 128) /\ signed4 [0; 2 ^ 63; 0; 0] (2 ^ 127) /\
  i256_neg dev [0; 0; 0; 2 ^ 63] = Panic /\ i256_neg release [0; 0; 0; 2 ^ 63] = Ret [0; 0; 0; 2 ^ 63] /\
  i256_mul dev [0; 0; 1; 0] [0; 2 ^ 63; 0; 0] = Ret [0; 0; 0; 2 ^ 63] /\ wraps256 (2 ^ 128 * 2 ^ 127) (- 2 ^ 255) /\
  i256_mul release [0; 0; 1; 0] [0; 0; 1; 0] = Panic /\ i256_div dev [0; 0; 0; 2 ^ 63] [1; 0; 0; 0] = Panic /\
  i256_div release [0; 0; 0; 2 ^ 63] [2; 0; 0; 0] = Ret [0; 0; 0; 3 * 2 ^ 62] /\
  i256_sqrt dev [0; 0; 0; 2 ^ 63] = Panic.
Proof.
  repeat match goal with |- _ /\ _ => split end; try match goal with |- _ = _ => vm_compute; reflexivity end.
  - exists (2 ^ 255). split; [|reflexivity]. exists 0, 0, 0, (2 ^ 63). repeat split; try reflexivity; vm_compute; discriminate.
  - exists (2 ^ 128). split; [|reflexivity]. exists 0, 0, 1, 0. repeat split; try reflexivity; vm_compute; discriminate.
  - exists (2 ^ 127). split; [|reflexivity]. exists 0, (2 ^ 63), 0, 0. repeat split; try reflexivity; vm_compute; discriminate.
  - split; [split; [vm_compute; discriminate|reflexivity]|]. exists (-1). reflexivity.
Qed.
