(** * PropsF64Order: C96, comparing floats made from numbers. *)
From Coq Require Import SpecFloat QArith.
From Verif Require Import Base Promo Ops Fixed Float Spec SpecF64.
From Verif Require Import F64Order.
From Verif Require Import Fixed.
From Verif Require Import Meets.
Open Scope Z_scope.

Theorem C96_reflects : forall b b' L P x y f g, valid b L P -> valid b' L P -> in_range L x -> in_range L y ->
  to_f64 b L P x = Ret f -> to_f64 b' L P y = Ret g -> (f64_val (f64_to_bits f) < f64_val (f64_to_bits g))%Q -> x < y.
Proof. exact reflects. Qed.
Print Assumptions C96_reflects.
Example C96_reflects_case : valid dev L64 9 /\ valid release L64 9 /\ in_range L64 (-700000001) /\ in_range L64 1500000000 /\
  to_f64 dev L64 9 (-700000001) = Ret (S754_finite true 6305039487325894 (-53)) /\ to_f64 release L64 9 1500000000 = Ret
  (S754_finite false 6755399441055744 (-52)) /\ (f64_val (f64_to_bits (S754_finite true 6305039487325894 (-53))) < f64_val
  (f64_to_bits (S754_finite false 6755399441055744 (-52))))%Q.
Proof. meets. Qed.
Theorem C96_same_order : forall b b' L P x y f g, valid b L P -> valid b' L P -> in_range L x -> in_range L y -> Z.abs x <= 2 ^ 50 -> Z.abs y <= 2 ^ 50 ->
  to_f64 b L P x = Ret f -> to_f64 b' L P y = Ret g ->
  (fp_lt x y = true <-> (f64_val (f64_to_bits f) < f64_val (f64_to_bits g))%Q) /\
  (fp_eq x y = true <-> (f64_val (f64_to_bits f) == f64_val (f64_to_bits g))%Q) /\
  (fp_le x y = true <-> (f64_val (f64_to_bits f) <= f64_val (f64_to_bits g))%Q).
Proof. exact same_order. Qed.
Print Assumptions C96_same_order.
Example C96_same_order_case : valid dev L64 9 /\ valid release L64 9 /\ in_range L64 1500000000 /\ in_range L64 (-700000001) /\
  Z.abs 1500000000 <= 2 ^ 50 /\ Z.abs (-700000001) <= 2 ^ 50 /\ to_f64 dev L64 9 1500000000 = Ret (S754_finite false
  6755399441055744 (-52)) /\ to_f64 release L64 9 (-700000001) = Ret (S754_finite true 6305039487325894 (-53)).
Proof. meets. Qed.
(** Without the bound different numbers may become the same float. *)
Theorem C96_bound_needed : exists x y f, valid dev L64 0 /\ in_range L64 x /\ in_range L64 y /\ x < y /\ to_f64 dev L64 0 x = Ret f /\ to_f64 dev L64 0 y = Ret f.
Proof. exact not_strict. Qed.
Print Assumptions C96_bound_needed.
(** 1125.899906842623 and the next number, 2^50 units in the last place. *)
Example C96_example : valid dev L64 12 /\ in_range L64 (2 ^ 50) /\ Z.abs (2 ^ 50) <= 2 ^ 50 /\
  exists f g, to_f64 dev L64 12 (2 ^ 50 - 1) = Ret f /\ to_f64 dev L64 12 (2 ^ 50) = Ret g /\ (f64_val (f64_to_bits f) < f64_val (f64_to_bits g))%Q.
Proof.
  split; [repeat split; vm_compute; congruence|]. split; [split; vm_compute; congruence|]. split; [vm_compute; congruence|].
  do 2 eexists. split; [vm_compute; reflexivity|]. split; [vm_compute; reflexivity|]. vm_compute. reflexivity.
Qed.
