(** * PropsLaws: C82 and C84 to C86, what programs built from the operations can rely on. *)
From Coq Require Import QArith.
From Verif Require Import Base Promo Ops Spec.
From Verif Require Import Interval IntervalFacts LawFacts.
From Verif Require Import Fixed.
From Verif Require Import Meets.
Open Scope Z_scope.

(** ** C82 *)
Theorem C82_sound : forall b L P e l h q, valid b L P -> leaves L e -> enclose b L P e = Ret (Ok (l, h)) -> may_be P e q ->
  in_range L l /\ in_range L h /\ (dec P l <= q <= dec P h)%Q.
Proof. exact enclose_sound. Qed.
Print Assumptions C82_sound.
Example C82_sound_case : valid dev L32 4 /\ leaves L32 (Sub (Div (Leaf 10000 10000) (Leaf 30000 30000)) (Leaf 1000 2000)) /\
  enclose dev L32 4 (Sub (Div (Leaf 10000 10000) (Leaf 30000 30000)) (Leaf 1000 2000)) = Ret (Ok (1333, 2334)) /\ may_be 4 (Sub
  (Div (Leaf 10000 10000) (Leaf 30000 30000)) (Leaf 1000 2000)) ((1 # 3) - (2 # 10)).
Proof. split; [meets|]; split; [cbn [leaves]; meets|]; split; [meets|]; apply (VSub 4 _ _ (1 # 3) (2 # 10)); [apply (VDiv 4 _ _ 1
  3); [constructor; split; discriminate|constructor; split; discriminate|discriminate|reflexivity]|constructor; split;
  discriminate|reflexivity]. Qed.
Theorem C82_total : forall b L P e, valid b L P -> leaves L e -> exists r, enclose b L P e = Ret r.
Proof. exact enclose_total. Qed.
Print Assumptions C82_total.
Example C82_total_case : valid dev L32 4 /\ leaves L32 (Sub (Div (Leaf 10000 10000) (Leaf 30000 30000)) (Leaf 1000 2000)).
Proof. split; [meets|]; cbn [leaves]; meets. Qed.
(** An answer is never about an expression without values. *)
Theorem C82_defined : forall b L P e l h, valid b L P -> leaves L e -> enclose b L P e = Ret (Ok (l, h)) -> exists q, may_be P e q.
Proof. exact enclose_defined. Qed.
Print Assumptions C82_defined.
Example C82_defined_case : valid dev L32 4 /\ leaves L32 (Sub (Div (Leaf 10000 10000) (Leaf 30000 30000)) (Leaf 1000 2000)) /\
  enclose dev L32 4 (Sub (Div (Leaf 10000 10000) (Leaf 30000 30000)) (Leaf 1000 2000)) = Ret (Ok (1333, 2334)).
Proof. split; [meets|]; cbn [leaves]; meets. Qed.
(** (1/3 - [0.1, 0.2]) * -3 and a divisor that may be zero. *)
Example C82_example :
  let e := Mul (Sub (Div (Leaf 10000 10000) (Leaf 30000 30000)) (Leaf 1000 2000)) (Neg (Leaf 30000 30000)) in
  valid dev L32 4 /\ leaves L32 e /\ enclose dev L32 4 e = Ret (Ok (-7002, -3999)) /\
  enclose dev L32 4 (Div e (Leaf (-1) 1)) = Ret (Err DivisionByZero) /\
  may_be 4 e (- (4 # 10)) /\ (dec 4 (-7002) <= - (4 # 10) <= dec 4 (-3999))%Q.
Proof.
  cbv zeta. split; [example|]. split; [cbn [leaves]; example|]. split; [reflexivity|]. split; [reflexivity|]. split; [|split; discriminate].
  apply (VMul 4 _ _ (4 # 30) (- 3) (- (4 # 10))); [|apply (VNeg 4 _ 3); [constructor; split; discriminate|reflexivity]|reflexivity].
  apply (VSub 4 _ _ (1 # 3) (2 # 10)); [|constructor; split; discriminate|reflexivity].
  apply (VDiv 4 _ _ 1 3); [constructor; split; discriminate|constructor; split; discriminate|discriminate|reflexivity].
Qed.

(** ** C84 *)
Theorem C84_add_comm : forall L x y, cadd L x y = cadd L y x.
Proof. exact add_comm. Qed.
Print Assumptions C84_add_comm.
Theorem C84_add_assoc : forall L x y z s t, cadd L x y = Ok s -> cadd L y z = Ok t -> cadd L s z = cadd L x t.
Proof. exact add_assoc. Qed.
Print Assumptions C84_add_assoc.
Example C84_add_assoc_case : cadd L64 1500000000 (-700000001) = Ok 799999999 /\ cadd L64 (-700000001) 2250000000 = Ok 1549999999.
Proof. meets. Qed.
Theorem C84_add_sub : forall L x y z, in_range L x -> in_range L z -> (cadd L x y = Ok z <-> csub L z y = Ok x).
Proof. exact add_sub. Qed.
Print Assumptions C84_add_sub.
Example C84_add_sub_case : in_range L64 1500000000 /\ in_range L64 2250000000.
Proof. meets. Qed.
Theorem C84_sub_neg : forall L x y y', cneg L y = Ok y' -> csub L x y = cadd L x y'.
Proof. exact sub_neg. Qed.
Print Assumptions C84_sub_neg.
Example C84_sub_neg_case : cneg L64 (-700000001) = Ok 700000001.
Proof. meets. Qed.
Theorem C84_zero_sub : forall L y, csub L ZERO y = cneg L y.
Proof. exact zero_sub. Qed.
Print Assumptions C84_zero_sub.
Theorem C84_mul_succ : forall L x n z, cmul L x n = Ok z -> cmul L x (n + 1) = cadd L z x.
Proof. exact mul_succ. Qed.
Print Assumptions C84_mul_succ.
Example C84_mul_succ_case : cmul L64 1500000000 7 = Ok 10500000000.
Proof. meets. Qed.
Theorem C84_mul_distr : forall L x y n s u v, cadd L x y = Ok s -> cmul L x n = Ok u -> cmul L y n = Ok v ->
  cmul L s n = cadd L u v.
Proof. exact mul_distr. Qed.
Print Assumptions C84_mul_distr.
Example C84_mul_distr_case : cadd L64 1500000000 (-700000001) = Ok 799999999 /\ cmul L64 1500000000 7 = Ok 10500000000 /\ cmul L64
  (-700000001) 7 = Ok (-4900000007).
Proof. meets. Qed.
Theorem C84_abs : forall L x, in_range L x -> cmul L x (signum x) = abs L x.
Proof. exact abs_sign. Qed.
Print Assumptions C84_abs.
Example C84_abs_case : in_range L64 1500000000.
Proof. meets. Qed.
Theorem C84_sign_abs : forall L x a, in_range L x -> abs L x = Ok a -> 0 <= a /\ cmul L a (signum x) = Ok x.
Proof. exact sign_abs. Qed.
Print Assumptions C84_sign_abs.
Example C84_sign_abs_case : in_range L64 1500000000 /\ abs L64 1500000000 = Ok 1500000000.
Proof. meets. Qed.
(** Multiplying by a whole number, as a fixed-point number or as an integer. *)
Theorem C84_rmul_whole : forall b L P x y n m, valid b L P -> in_range L x -> represents L P (Zq n) y ->
  rmul b L P x y m = Ret (cmul L x n).
Proof. exact rmul_whole. Qed.
Print Assumptions C84_rmul_whole.
Example C84_rmul_whole_case : valid dev L64 9 /\ in_range L64 1500000000 /\ represents L64 9 (Zq (-7)) (-7000000000).
Proof. meets. Qed.
(** Dividing by a whole number; [Nearest] has the guard of C10. *)
Theorem C84_rdiv_whole : forall b L P x y n m, valid b L P -> in_range L x -> represents L P (Zq n) y -> n <> 0 ->
  ~ (x = lo L /\ n = -1) -> (m = Nearest -> 2 * Z.abs y <= hi L + 1) -> rdiv b L P x y m = rdiv_int b L x n m.
Proof. exact rdiv_whole. Qed.
Print Assumptions C84_rdiv_whole.
Example C84_rdiv_whole_case : valid dev L64 9 /\ in_range L64 1500000000 /\ represents L64 9 (Zq (-7)) (-7000000000) /\ (-7) <> 0
  /\ ~ (1500000000 = lo L64 /\ (-7) = -1) /\ (Nearest = Nearest -> 2 * Z.abs (-7000000000) <= hi L64 + 1).
Proof. meets. Qed.
Theorem C84_rdiv_min : forall b L P y m, valid b L P -> represents L P (Zq (-1)) y ->
  rdiv b L P (lo L) y m = Ret (Err Overflow) /\ rdiv_int b L (lo L) (-1) m = Panic.
Proof. exact rdiv_min_whole. Qed.
Print Assumptions C84_rdiv_min.
Example C84_rdiv_min_case : valid dev L64 9 /\ represents L64 9 (Zq (-1)) (-1000000000).
Proof. meets. Qed.
Theorem C84_rdiv_units : forall b L P x m, valid b L P -> in_range L x ->
  exists one, ONE b L P = Ret one /\ rdiv b L P x one m = Ret (Ok x) /\
    (x <> 0 -> rdiv b L P x x m = Ret (Ok one) /\ rdiv b L P ZERO x m = Ret (Ok ZERO)).
Proof. exact rdiv_units. Qed.
Print Assumptions C84_rdiv_units.
Example C84_rdiv_units_case : valid dev L64 9 /\ in_range L64 1500000000.
Proof. meets. Qed.
(** An exact product can be taken apart again. *)
Theorem C84_mul_div : forall b L P x y z m, valid b L P -> in_range L x -> in_range L y -> in_range L z -> y <> 0 ->
  (dec P z == dec P x * dec P y)%Q -> rmul b L P x y m = Ret (Ok z) /\ rdiv b L P z y m = Ret (Ok x).
Proof. exact mul_div. Qed.
Print Assumptions C84_mul_div.
Example C84_mul_div_case : valid dev L64 9 /\ in_range L64 1500000000 /\ in_range L64 (-700000000) /\ in_range L64 (-1050000000)
  /\ (-700000000) <> 0 /\ (dec 9 (-1050000000) == dec 9 1500000000 * dec 9 (-700000000))%Q.
Proof. meets. Qed.
Theorem C84_next_power_of_ten : forall b b' L x y, in_range L x -> next_power_of_ten b L x = Ret (Ok y) ->
  next_power_of_ten b' L y = Ret (Ok y).
Proof. exact npt_fix. Qed.
Print Assumptions C84_next_power_of_ten.
Example C84_next_power_of_ten_case : in_range L64 1500000000 /\ next_power_of_ten dev L64 1500000000 = Ret (Ok 10000000000).
Proof. meets. Qed.
Example C84_example : valid dev L64 9 /\ in_range L64 (-1500000001) /\ represents L64 9 (Zq (-7)) (-7000000000) /\
  2 * Z.abs (-7000000000) <= hi L64 + 1 /\
  cadd L64 (-1500000001) 1 = Ok (-1500000000) /\ csub L64 (-1500000000) 1 = Ok (-1500000001) /\
  cneg L64 1 = Ok (-1) /\ cmul L64 (-1500000001) 3 = Ok (-4500000003) /\ abs L64 (-1500000001) = Ok 1500000001 /\
  abs L64 (lo L64) = Err Overflow /\ cmul L64 (lo L64) (signum (lo L64)) = Err Overflow /\
  rmul dev L64 9 (-1500000001) (-7000000000) Nearest = Ret (Ok 10500000007) /\ cmul L64 (-1500000001) (-7) = Ok 10500000007 /\
  rdiv dev L64 9 (-1500000001) (-7000000000) Nearest = Ret (Ok 214285714) /\
  rdiv_int dev L64 (-1500000001) (-7) Nearest = Ret (Ok 214285714) /\
  (dec 9 3750000000 == dec 9 (-1500000000) * dec 9 (-2500000000))%Q /\
  next_power_of_ten dev L64 (-1500000001) = Ret (Ok (-10000000000)).
Proof. example. Qed.

(** ** C85 *)
Theorem C85_comm : forall b L x y m, in_range L x -> in_range L y -> half_sum b L x y m = half_sum b L y x m.
Proof. exact half_comm. Qed.
Print Assumptions C85_comm.
Example C85_comm_case : in_range L64 1500000000 /\ in_range L64 (-700000001).
Proof. meets. Qed.
Theorem C85_same : forall b L x m, in_range L x -> half_sum b L x x m = Ret x.
Proof. exact half_same. Qed.
Print Assumptions C85_same.
Example C85_same_case : in_range L64 1500000000.
Proof. meets. Qed.
Theorem C85_between : forall b L x y m r, in_range L x -> in_range L y -> half_sum b L x y m = Ret r ->
  Z.min x y <= r <= Z.max x y.
Proof. exact half_between. Qed.
Print Assumptions C85_between.
Example C85_between_case : in_range L64 1500000000 /\ in_range L64 (-700000001) /\ half_sum dev L64 1500000000 (-700000001)
  Nearest = Ret 400000000.
Proof. meets. Qed.
(** Also for the negative ties of C16, which go the wrong way. *)
Theorem C85_mono : forall b b' L x x' y m r r', in_range L x -> in_range L x' -> in_range L y -> x <= x' ->
  half_sum b L x y m = Ret r -> half_sum b' L x' y m = Ret r' -> r <= r'.
Proof. exact half_mono. Qed.
Print Assumptions C85_mono.
Example C85_mono_case : in_range L64 1500000000 /\ in_range L64 1600000001 /\ in_range L64 (-700000001) /\ 1500000000 <=
  1600000001 /\ half_sum dev L64 1500000000 (-700000001) Nearest = Ret 400000000 /\ half_sum release L64 1600000001 (-700000001)
  Nearest = Ret 450000000.
Proof. meets. Qed.
Example C85_example : in_range L16 (-4) /\ in_range L16 (-3) /\ in_range L16 0 /\
  half_sum dev L16 (-4) (-3) Nearest = Ret (-3) /\ half_sum dev L16 (-3) (-4) Nearest = Ret (-3) /\
  half_sum dev L16 (-3) (-3) Nearest = Ret (-3) /\ half_sum dev L16 0 (-3) Nearest = Ret (-2).
Proof. example. Qed.

(** ** C86 *)
Theorem C86_square_floor : forall b L P x r m, valid b L P -> in_range L x -> rsqrt b L P x Floor = Ret (Ok r) -> m <> Nearest ->
  exists s, rmul b L P r r m = Ret (Ok s) /\ 0 <= s <= x.
Proof. exact root_square_floor. Qed.
Print Assumptions C86_square_floor.
Example C86_square_floor_case : valid dev L64 9 /\ in_range L64 1500000000 /\ rsqrt dev L64 9 1500000000 Floor = Ret (Ok
  1224744871) /\ Ceil <> Nearest.
Proof. meets. Qed.
Theorem C86_square_ceil : forall b L P x r s m, valid b L P -> in_range L x -> rsqrt b L P x Ceil = Ret (Ok r) -> m <> Nearest ->
  rmul b L P r r m = Ret (Ok s) -> x <= s.
Proof. exact root_square_ceil. Qed.
Print Assumptions C86_square_ceil.
Example C86_square_ceil_case : valid dev L64 9 /\ in_range L64 1500000000 /\ rsqrt dev L64 9 1500000000 Ceil = Ret (Ok 1224744872)
  /\ Ceil <> Nearest /\ rmul dev L64 9 1224744872 1224744872 Ceil = Ret (Ok 1500000002).
Proof. meets. Qed.
Theorem C86_between : forall b L P x r m, valid b L P -> in_range L x -> rsqrt b L P x m = Ret (Ok r) ->
  exists one, ONE b L P = Ret one /\ Z.min x one <= r <= Z.max x one.
Proof. exact root_between. Qed.
Print Assumptions C86_between.
Example C86_between_case : valid dev L64 9 /\ in_range L64 1500000000 /\ rsqrt dev L64 9 1500000000 Nearest = Ret (Ok 1224744871).
Proof. meets. Qed.
Theorem C86_root_of_square : forall b L P x s r, valid b L P -> in_range L x -> 0 <= x ->
  rmul b L P x x Floor = Ret (Ok s) -> rsqrt b L P s Floor = Ret (Ok r) -> r <= x.
Proof. exact square_root. Qed.
Print Assumptions C86_root_of_square.
Example C86_root_of_square_case : valid dev L64 9 /\ in_range L64 1500000000 /\ 0 <= 1500000000 /\ rmul dev L64 9 1500000000
  1500000000 Floor = Ret (Ok 2250000000) /\ rsqrt dev L64 9 2250000000 Floor = Ret (Ok 1500000000).
Proof. meets. Qed.
Theorem C86_root_of_square_up : forall b L P x s r, valid b L P -> in_range L x -> 0 <= x ->
  rmul b L P x x Ceil = Ret (Ok s) -> rsqrt b L P s Ceil = Ret (Ok r) -> x <= r.
Proof. exact square_root_up. Qed.
Print Assumptions C86_root_of_square_up.
Example C86_root_of_square_up_case : valid dev L64 9 /\ in_range L64 1500000000 /\ 0 <= 1500000000 /\ rmul dev L64 9 1500000000
  1500000000 Ceil = Ret (Ok 2250000000) /\ rsqrt dev L64 9 2250000000 Ceil = Ret (Ok 1500000000).
Proof. meets. Qed.
Example C86_example : valid dev L64 9 /\ in_range L64 2000000000 /\ rsqrt dev L64 9 2000000000 Floor = Ret (Ok 1414213562) /\
  rmul dev L64 9 1414213562 1414213562 Ceil = Ret (Ok 1999999999) /\ rsqrt dev L64 9 2000000000 Ceil = Ret (Ok 1414213563) /\
  rmul dev L64 9 1414213563 1414213563 Floor = Ret (Ok 2000000001) /\ rsqrt dev L64 9 2 Ceil = Ret (Ok 44722) /\
  rmul dev L64 9 333333333 333333333 Floor = Ret (Ok 111111110) /\ rsqrt dev L64 9 111111110 Floor = Ret (Ok 333333331).
Proof. example. Qed.
