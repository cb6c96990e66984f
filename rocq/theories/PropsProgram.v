(** * PropsProgram: properties C72 to C76, about programs that call several operations.

    Every theorem is followed by its assumptions. Examples show that the hypotheses can be met. *)
From Coq Require Import QArith Qabs.
From Verif Require Import Base Promo ConstFn Ops Str Spec SpecText.
From Verif Require Import Programs ProgramFacts.
From Verif Require Import Fixed.
From Verif Require Import RoundFacts.
From Verif Require Import Meets.
Open Scope Z_scope.

(** ** C72: a chain of multiplications *)
Theorem C72_chain : forall b L P x l, valid b L P -> in_range L x -> x <> lo L -> Forall (factor L P) l ->
  exists r, run_mul b L P x l = Ret (Ok r) /\ Z.abs r <= Z.abs x /\
    (Qabs (dec P r - dec P x * qproduct P l) <= slacks l * q10 (- P))%Q.
Proof. exact run_mul_error. Qed.
Print Assumptions C72_chain.
Example C72_chain_case : valid dev L64 9 /\ in_range L64 1500000000 /\ 1500000000 <> lo L64 /\ Forall (factor L64 9) [(333333333,
  Nearest); (-1000000000, Floor)].
Proof. do 3 (split; [meets|]); repeat constructor; cbn; try (intros; discriminate); meets. Qed.
Example C72_example : valid dev L64 9 /\ in_range L64 (-5000000007) /\ -5000000007 <> lo L64 /\
  Forall (factor L64 9) [(333333333, Nearest); (-1000000000, Floor); (999999999, Ceil)] /\
  run_mul dev L64 9 (-5000000007) [(333333333, Nearest); (-1000000000, Floor); (999999999, Ceil)] = Ret (Ok 1666666666) /\
  run_mul dev L64 9 (lo L64) [(-1000000000, Floor)] = Ret (Err Overflow).
Proof.
  split; [vm_compute; intuition congruence|]. split; [vm_compute; intuition congruence|]. split; [vm_compute; congruence|].
  split; [|now vm_compute]. apply Forall_forall. intros f [<-|[<-|[<-|[]]]]; (split; [vm_compute; intuition congruence|]);
    (split; [vm_compute; congruence|]); intuition congruence.
Qed.

(** ** C73: equal shares and the rest *)
Theorem C73_split : forall b L P x n, 0 <= P -> in_range L x -> 0 <= x -> in_range L n -> 0 < n ->
  exists q r, split b L x n = Ret (Ok (q, r)) /\ in_range L q /\ in_range L r /\ 0 <= q /\ 0 <= r < n /\
    (dec P q * Zq n + dec P r == dec P x)%Q.
Proof. exact split_shares. Qed.
Print Assumptions C73_split.
Example C73_split_case : 0 <= 9 /\ in_range L64 1500000000 /\ 0 <= 1500000000 /\ in_range L64 7 /\ 0 < 7.
Proof. meets. Qed.
Example C73_example : in_range L64 10000000000 /\ in_range L64 3 /\
  split dev L64 10000000000 3 = Ret (Ok (3333333333, 1)).
Proof. vm_compute. intuition congruence. Qed.

(** ** C74: shares by weight *)
Theorem C74_floor : forall b L P x ws, valid b L P -> in_range L x -> 0 <= x ->
  Forall (fun w => in_range L w /\ 0 <= w) ws -> (dec P (total ws) <= 1)%Q ->
  exists r, distribute b L P Floor x 0 ws = Ret (Ok r) /\ 0 <= r <= x /\
    (- (Zq (Z.of_nat (length ws)) * q10 (- P)) <= dec P r - dec P x * dec P (total ws) <= 0)%Q.
Proof. exact distribute_floor. Qed.
Print Assumptions C74_floor.
Example C74_floor_case : valid dev L64 9 /\ in_range L64 1500000000 /\ 0 <= 1500000000 /\ Forall (fun w => in_range L64 w /\ 0 <=
  w) [333000000; 333000000; 334000000] /\ (dec 9 (total [333000000; 333000000; 334000000]%Z) <= 1)%Q.
Proof. meets. Qed.
Theorem C74_distribute : forall b L P m x ws, valid b L P -> in_range L x -> 0 <= x ->
  (m = Nearest -> ~ (L = L128 /\ P = 38)) -> Forall (fun w => in_range L w /\ 0 <= w) ws ->
  (dec P x * dec P (total ws) + Zq (room m (Z.of_nat (length ws))) * q10 (- P) <= dec P (hi L))%Q ->
  exists r, distribute b L P m x 0 ws = Ret (Ok r) /\ in_range L r /\
    off_q m (Z.of_nat (length ws)) (dec P r - dec P x * dec P (total ws)) (q10 (- P)).
Proof. exact distribute_error. Qed.
Print Assumptions C74_distribute.
Example C74_distribute_case : valid dev L64 9 /\ in_range L64 1500000000 /\ 0 <= 1500000000 /\ (Nearest = Nearest -> ~ (L64 = L128
  /\ 9 = 38)) /\ Forall (fun w => in_range L64 w /\ 0 <= w) [333000000; 333000000; 335000000] /\ (dec 9 1500000000 * dec 9 (total
  [333000000; 333000000; 335000000]%Z) + Zq (room Nearest (Z.of_nat (length [333000000; 333000000; 335000000]%Z))) * q10 (- 9) <=
  dec 9 (hi L64))%Q.
Proof. meets. Qed.
Example C74_example : Forall (fun w => in_range L32 w /\ 0 <= w) [333; 333; 334] /\ (dec 3 (total [333; 333; 334]%Z) <= 1)%Q /\
  distribute dev L32 3 Floor 10001 0 [333; 333; 334] = Ret (Ok 10000) /\
  distribute dev L32 3 Ceil 10001 0 [333; 333; 334] = Ret (Ok 10003) /\
  distribute dev L32 3 Nearest 10001 0 [333; 333; 334] = Ret (Ok 10000) /\
  distribute dev L32 3 Ceil (hi L32) 0 [333; 333; 334] = Ret (Err Overflow).
Proof.
  split; [repeat (constructor; [vm_compute; intuition congruence|]); constructor|]. vm_compute. intuition congruence.
Qed.

(** ** C75: conversion through mantissa and exponent *)
Theorem C75_convert : forall b b' L P L' P' x k, valid b L P -> valid b' L' P' -> in_range L x ->
  - P <= k <= 10 -> - P' <= k -> 10 ^ (k + P') <= hi L' ->
  exact_or L' P' (dec P x) ConvertError (convert b b' L P L' P' x k).
Proof. exact convert_exact. Qed.
Print Assumptions C75_convert.
Example C75_convert_case : valid dev L64 9 /\ valid release L128 18 /\ in_range L64 1500000000 /\ - 9 <= (-3) <= 10 /\ - 18 <=
  (-3) /\ 10 ^ ((-3) + 18) <= hi L128.
Proof. meets. Qed.
Theorem C75_convert_zero : forall b b' L P L' P' x, valid b L P -> valid b' L' P' -> in_range L x ->
  exact_or L' P' (dec P x) ConvertError (convert b b' L P L' P' x 0).
Proof. exact convert_zero. Qed.
Print Assumptions C75_convert_zero.
Example C75_convert_zero_case : valid dev L64 9 /\ valid release L128 18 /\ in_range L64 1500000000.
Proof. meets. Qed.
Example C75_example : convert dev release L64 9 L16 2 1230000000 0 = Ret (Ok 123) /\
  convert dev release L64 9 L16 2 1234000000 0 = Ret (Err ConvertError) /\
  convert dev release L64 9 L128 18 1230000001 5 = Ret (Ok 1230000001000000000).
Proof. now vm_compute. Qed.

(** ** C76: conversion through text *)
Theorem C76_convert_text : forall b b' L P L' P' x y,
  valid b L P -> valid b' L' P' -> in_range L x -> printable b L P x -> 0 < P' ->
  (convert_text b b' L P L' P' x = Ret (Ok y) <-> in_range L' y /\ rounds_to Nearest P' (dec P x) y).
Proof. exact convert_text_rounds. Qed.
Print Assumptions C76_convert_text.
Example C76_convert_text_case : valid dev L64 9 /\ valid release L128 18 /\ in_range L64 1500000000 /\ printable dev L64 9
  1500000000 /\ 0 < 18.
Proof. meets. Qed.
Theorem C76_convert_text_err : forall b b' L P L' P' x,
  valid b L P -> valid b' L' P' -> in_range L x -> printable b L P x -> 0 < P' ->
  (forall y, rounds_to Nearest P' (dec P x) y -> ~ in_range L' y) ->
  convert_text b b' L P L' P' x = Ret (Err ConvertError).
Proof. exact convert_text_fails. Qed.
Print Assumptions C76_convert_text_err.
Example C76_convert_text_err_case : valid dev L64 9 /\ valid release L16 2 /\ in_range L64 400000000000 /\ printable dev L64 9
  400000000000 /\ 0 < 2 /\ (forall y, rounds_to Nearest 2 (dec 9 400000000000) y -> ~ in_range L16 y).
Proof. do 5 (split; [meets|]); intros y h; rewrite (rounds_unique _ _ _ 40000 h); meets. Qed.
Example C76_example : printable dev L64 9 (-1235000000) /\
  convert_text dev dev L64 9 L16 2 (-1235000000) = Ret (Ok (-124)) /\
  convert_text dev dev L64 9 L16 2 400000000000 = Ret (Err ConvertError).
Proof. split; [vm_compute; intuition congruence|]. now vm_compute. Qed.
