(** * PropsAdjoint: C117 and C118, rounded operations that answer each other, and nested directed rounding. *)
From Coq Require Import QArith.
From Verif Require Import Base Promo Ops Fixed Spec.
From Verif Require Import AdjointFacts.
From Verif Require Import Fixed.
From Verif Require Import Meets.
Open Scope Z_scope.

(** ** C117 *)
(** Cost rounded up against quantity rounded down: [z] items at price [y] cost no more than [x]
    exactly when [z] is at most what [x] buys. *)
Theorem C117_afford : forall b b' L P, valid b L P -> valid b' L P -> forall x y z p q,
  in_range L x -> in_range L y -> in_range L z -> 0 < y ->
  rmul b L P z y Ceil = Ret (Ok p) -> rdiv b' L P x y Floor = Ret (Ok q) -> (p <= x <-> z <= q).
Proof. exact afford. Qed.
Print Assumptions C117_afford.
Example C117_afford_case : valid dev L64 9 /\ valid release L64 9 /\ in_range L64 10000000000 /\ in_range L64 3000000000 /\
  in_range L64 3333333334 /\ 0 < 3000000000 /\ rmul dev L64 9 3333333334 3000000000 Ceil = Ret (Ok 10000000002) /\
  rdiv release L64 9 10000000000 3000000000 Floor = Ret (Ok 3333333333).
Proof. do 7 (split; [meets|]). meets. Qed.
(** The other way round. *)
Theorem C117_cover : forall b b' L P, valid b L P -> valid b' L P -> forall x y z p q,
  in_range L x -> in_range L y -> in_range L z -> 0 < y ->
  rmul b L P z y Floor = Ret (Ok p) -> rdiv b' L P x y Ceil = Ret (Ok q) -> (x <= p <-> q <= z).
Proof. exact cover. Qed.
Print Assumptions C117_cover.
Example C117_cover_case : valid dev L64 9 /\ valid release L64 9 /\ in_range L64 (-10000000000) /\ in_range L64 3000000000 /\
  in_range L64 (-3333333333) /\ 0 < 3000000000 /\ rmul dev L64 9 (-3333333333) 3000000000 Floor = Ret (Ok (-9999999999)) /\
  rdiv release L64 9 (-10000000000) 3000000000 Ceil = Ret (Ok (-3333333333)).
Proof. do 7 (split; [meets|]). meets. Qed.
(** When the cost does not fit, it is too high; when the quantity does not fit, anything is cheap enough. *)
Theorem C117_overflow : forall b b' L P, valid b L P -> valid b' L P -> forall x y z q,
  in_range L x -> in_range L y -> in_range L z -> 0 < y -> 0 < z ->
  rmul b L P z y Ceil = Ret (Err Overflow) -> rdiv b' L P x y Floor = Ret (Ok q) -> q < z.
Proof. exact afford_over. Qed.
Print Assumptions C117_overflow.
Example C117_overflow_case : valid dev L16 2 /\ valid release L16 2 /\ in_range L16 30000 /\ in_range L16 20000 /\ in_range L16 200 /\
  0 < 20000 /\ 0 < 200 /\ rmul dev L16 2 200 20000 Ceil = Ret (Err Overflow) /\ rdiv release L16 2 30000 20000 Floor = Ret (Ok 150).
Proof. do 8 (split; [meets|]). meets. Qed.
Theorem C117_cheap : forall b b' L P, valid b L P -> valid b' L P -> forall x y z p,
  in_range L x -> in_range L y -> in_range L z -> 0 < y -> 0 < x ->
  rmul b L P z y Ceil = Ret (Ok p) -> rdiv b' L P x y Floor = Ret (Err Overflow) -> p <= x.
Proof. exact afford_any. Qed.
Print Assumptions C117_cheap.
Example C117_cheap_case : valid dev L16 2 /\ valid release L16 2 /\ in_range L16 30000 /\ in_range L16 50 /\ in_range L16 32000 /\
  0 < 50 /\ 0 < 30000 /\ rmul dev L16 2 32000 50 Ceil = Ret (Ok 16000) /\ rdiv release L16 2 30000 50 Floor = Ret (Err Overflow).
Proof. do 8 (split; [meets|]). meets. Qed.
(** Squares against roots. *)
Theorem C117_root_floor : forall b b' L P, valid b L P -> valid b' L P -> forall x z p r, in_range L x -> in_range L z -> 0 <= z ->
  rmul b L P z z Ceil = Ret (Ok p) -> rsqrt b' L P x Floor = Ret (Ok r) -> (p <= x <-> z <= r).
Proof. exact root_below. Qed.
Print Assumptions C117_root_floor.
Example C117_root_floor_case : valid dev L64 9 /\ valid release L64 9 /\ in_range L64 2000000000 /\ in_range L64 1414213563 /\
  0 <= 1414213563 /\ rmul dev L64 9 1414213563 1414213563 Ceil = Ret (Ok 2000000002) /\
  rsqrt release L64 9 2000000000 Floor = Ret (Ok 1414213562).
Proof. do 6 (split; [meets|]). meets. Qed.
Theorem C117_root_ceil : forall b b' L P, valid b L P -> valid b' L P -> forall x z p r, in_range L x -> in_range L z -> 0 <= z ->
  rmul b L P z z Floor = Ret (Ok p) -> rsqrt b' L P x Ceil = Ret (Ok r) -> (x <= p <-> r <= z).
Proof. exact root_above. Qed.
Print Assumptions C117_root_ceil.
Example C117_root_ceil_case : valid dev L64 9 /\ valid release L64 9 /\ in_range L64 2000000000 /\ in_range L64 1414213562 /\
  0 <= 1414213562 /\ rmul dev L64 9 1414213562 1414213562 Floor = Ret (Ok 1999999998) /\
  rsqrt release L64 9 2000000000 Ceil = Ret (Ok 1414213563).
Proof. do 6 (split; [meets|]). meets. Qed.
(** Integers against integral parts. *)
Theorem C117_whole_floor : forall b b' L P, valid b L P -> valid b' L P -> forall x n v i, in_range L x -> x <> lo L ->
  try_from_int b L P n = Ret (Ok v) -> integral b' L P x Floor = Ret i -> (v <= x <-> n <= i).
Proof. exact whole_below. Qed.
Print Assumptions C117_whole_floor.
Example C117_whole_floor_case : valid dev L64 9 /\ valid release L64 9 /\ in_range L64 (-1500000000) /\ -1500000000 <> lo L64 /\
  try_from_int dev L64 9 (-1) = Ret (Ok (-1000000000)) /\ integral release L64 9 (-1500000000) Floor = Ret (-2).
Proof. do 5 (split; [meets|]). meets. Qed.
Theorem C117_whole_ceil : forall b b' L P, valid b L P -> valid b' L P -> forall x n v i, in_range L x -> x <> lo L ->
  try_from_int b L P n = Ret (Ok v) -> integral b' L P x Ceil = Ret i -> (x <= v <-> i <= n).
Proof. exact whole_above. Qed.
Print Assumptions C117_whole_ceil.
Example C117_whole_ceil_case : valid dev L64 9 /\ valid release L64 9 /\ in_range L64 (-1500000000) /\ -1500000000 <> lo L64 /\
  try_from_int dev L64 9 (-1) = Ret (Ok (-1000000000)) /\ integral release L64 9 (-1500000000) Ceil = Ret (-1).
Proof. do 5 (split; [meets|]). meets. Qed.

(** ** C118 *)
(** Dividing by [y] and then by the integer [n] is dividing by [y * n], if both round the same way. *)
Theorem C118_rdiv : forall b b' L P, valid b L P -> valid b' L P -> forall x y n q m,
  in_range L x -> in_range L y -> in_range L n -> in_range L (y * n) -> 0 < y -> 0 < n -> m <> Nearest ->
  rdiv b L P x y m = Ret (Ok q) -> rdiv_int b' L q n m = rdiv b' L P x (y * n) m.
Proof. exact nested_div. Qed.
Print Assumptions C118_rdiv.
Example C118_rdiv_case : valid dev L64 9 /\ valid release L64 9 /\ in_range L64 (-10000000001) /\ in_range L64 3000000000 /\
  in_range L64 7 /\ in_range L64 (3000000000 * 7) /\ 0 < 3000000000 /\ 0 < 7 /\ Ceil <> Nearest /\
  rdiv dev L64 9 (-10000000001) 3000000000 Ceil = Ret (Ok (-3333333333)).
Proof. do 9 (split; [meets|]). meets. Qed.
Theorem C118_rdiv_int : forall b b' L x k n q m,
  in_range L x -> in_range L k -> in_range L n -> in_range L (k * n) -> 0 < k -> 0 < n -> m <> Nearest ->
  rdiv_int b L x k m = Ret (Ok q) -> rdiv_int b' L q n m = rdiv_int b' L x (k * n) m.
Proof. exact nested_int. Qed.
Print Assumptions C118_rdiv_int.
Example C118_rdiv_int_case : in_range L64 (-10000000001) /\ in_range L64 3 /\ in_range L64 7 /\ in_range L64 (3 * 7) /\ 0 < 3 /\ 0 < 7 /\
  Floor <> Nearest /\ rdiv_int dev L64 (-10000000001) 3 Floor = Ret (Ok (-3333333334)).
Proof. do 7 (split; [meets|]). meets. Qed.
(** The integral part of a quotient is the quotient rounded to an integer. *)
Theorem C118_whole : forall b b' L P, valid b L P -> valid b' L P -> forall x y q i m, in_range L x -> in_range L y -> 0 < y ->
  m <> Nearest -> rdiv b L P x y m = Ret (Ok q) -> q <> lo L -> integral b' L P q m = Ret i -> rounds m (dec P x / dec P y) i.
Proof. exact nested_whole. Qed.
Print Assumptions C118_whole.
Example C118_whole_case : valid dev L64 9 /\ valid release L64 9 /\ in_range L64 10000000001 /\ in_range L64 3000000000 /\
  0 < 3000000000 /\ Ceil <> Nearest /\ rdiv dev L64 9 10000000001 3000000000 Ceil = Ret (Ok 3333333334) /\ 3333333334 <> lo L64 /\
  integral release L64 9 3333333334 Ceil = Ret 4.
Proof. do 8 (split; [meets|]). meets. Qed.
(** The integral part of a root is the integer root. *)
Theorem C118_root : forall b L P, valid b L P -> forall x r i, in_range L x ->
  rsqrt b L P x Floor = Ret (Ok r) -> integral b L P r Floor = Ret i ->
  0 <= i /\ (Zq (i * i) <= dec P x)%Q /\ (dec P x < Zq ((i + 1) * (i + 1)))%Q.
Proof. exact (fun b L P Hv => nested_root b b L P Hv Hv). Qed.
Print Assumptions C118_root.
Example C118_root_case : valid release L64 9 /\ in_range L64 8999999999 /\
  rsqrt release L64 9 8999999999 Floor = Ret (Ok 2999999999) /\ integral release L64 9 2999999999 Floor = Ret 2.
Proof. do 3 (split; [meets|]). meets. Qed.
(** Not so for [Nearest], which rounds twice. *)
Example C118_example : rdiv_int dev L64 5 2 Nearest = Ret (Ok 3) /\ rdiv_int dev L64 3 2 Nearest = Ret (Ok 2) /\
  rdiv_int dev L64 5 (2 * 2) Nearest = Ret (Ok 1).
Proof. do 2 (split; [meets|]). meets. Qed.
