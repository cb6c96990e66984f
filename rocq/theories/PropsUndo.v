(** * PropsUndo: C103 to C106, laws of algebra that rounding keeps, and how far it misses the others. *)
From Coq Require Import QArith Qabs.
From Verif Require Import Base Promo Ops Fixed Spec SpecRound Programs.
From Verif Require Import Fixed.
From Verif Require Import SpecUndo Undo Powers.
From Verif Require Import Meets.
Open Scope Z_scope.

(** ** C103: distributive and associative law *)
Theorem C103_distributes : forall b L P, valid b L P -> forall m x y z s r u v, tame m L P -> in_range L x -> in_range L y -> in_range L z ->
  cadd L x y = Ok s -> rmul b L P s z m = Ret (Ok r) -> rmul b L P x z m = Ret (Ok u) -> rmul b L P y z m = Ret (Ok v) ->
  drift m (r - (u + v)).
Proof. exact distributes. Qed.
Print Assumptions C103_distributes.
Example C103_distributes_case : valid dev L64 9 /\ tame Nearest L64 9 /\ in_range L64 1500000001 /\ in_range L64 (-700000001) /\
  in_range L64 2250000000 /\ cadd L64 1500000001 (-700000001) = Ok 800000000 /\ rmul dev L64 9 800000000 2250000000 Nearest = Ret (Ok
  1800000000) /\ rmul dev L64 9 1500000001 2250000000 Nearest = Ret (Ok 3375000002) /\ rmul dev L64 9 (-700000001) 2250000000 Nearest =
  Ret (Ok (-1575000002)).
Proof. unfold roomy. meets. Qed.
Theorem C103_associates : forall b L P, valid b L P -> forall m x y z u r v s, tame m L P -> in_range L x -> in_range L y -> in_range L z ->
  rmul b L P x y m = Ret (Ok u) -> rmul b L P u z m = Ret (Ok r) -> rmul b L P y z m = Ret (Ok v) -> rmul b L P x v m = Ret (Ok s) ->
  (Qabs (dec P r - dec P s) <= slack m * q10 (- P) * (2 + Qabs (dec P x) + Qabs (dec P z)))%Q.
Proof. exact associates. Qed.
Print Assumptions C103_associates.
Example C103_associates_case : valid dev L64 9 /\ tame Nearest L64 9 /\ in_range L64 1500000001 /\ in_range L64 (-700000001) /\
  in_range L64 2250000000 /\ rmul dev L64 9 1500000001 (-700000001) Nearest = Ret (Ok (-1050000002)) /\ rmul dev L64 9 (-1050000002)
  2250000000 Nearest = Ret (Ok (-2362500005)) /\ rmul dev L64 9 (-700000001) 2250000000 Nearest = Ret (Ok (-1575000002)) /\ rmul dev
  L64 9 1500000001 (-1575000002) Nearest = Ret (Ok (-2362500005)).
Proof. unfold roomy. meets. Qed.
(** The differences do occur. *)
Example C103_example :
  cadd L64 1 1 = Ok 2 /\ rmul dev L64 9 2 500000000 Floor = Ret (Ok 1) /\ rmul dev L64 9 1 500000000 Floor = Ret (Ok 0) /\ drift Floor (1 - (0 + 0)) /\
  rmul dev L64 9 3000000000 1 Nearest = Ret (Ok 3) /\ rmul dev L64 9 3 400000000 Nearest = Ret (Ok 1) /\
  rmul dev L64 9 1 400000000 Nearest = Ret (Ok 0) /\ rmul dev L64 9 3000000000 0 Nearest = Ret (Ok 0).
Proof. vm_compute. intuition congruence. Qed.

(** ** C104: multiplication and division undo each other *)
Theorem C104_mul_div : forall b L P, valid b L P -> forall m x y p, tame m L P -> roomy m L y -> in_range L x -> in_range L y -> (1 <= dec P y)%Q ->
  rmul b L P x y m = Ret (Ok p) -> rdiv b L P p y (flip m) = Ret (Ok x).
Proof. exact mul_div_back. Qed.
Print Assumptions C104_mul_div.
Example C104_mul_div_case : valid dev L64 9 /\ tame Floor L64 9 /\ roomy Floor L64 2300000001 /\ in_range L64 1500000001 /\ in_range
  L64 2300000001 /\ (1 <= dec 9 2300000001)%Q /\ rmul dev L64 9 1500000001 2300000001 Floor = Ret (Ok 3450000003).
Proof. unfold roomy. meets. Qed.
Theorem C104_mul_div_negative : forall b L P, valid b L P -> forall m x y p, tame m L P -> roomy m L y -> in_range L x -> in_range L y ->
  (dec P y <= -1 # 1)%Q -> rmul b L P x y m = Ret (Ok p) -> rdiv b L P p y m = Ret (Ok x).
Proof. exact mul_div_back_neg. Qed.
Print Assumptions C104_mul_div_negative.
Example C104_mul_div_negative_case : valid dev L64 9 /\ tame Nearest L64 9 /\ roomy Nearest L64 (-2300000001) /\ in_range L64
  1500000001 /\ in_range L64 (-2300000001) /\ (dec 9 (-2300000001) <= -1 # 1)%Q /\ rmul dev L64 9 1500000001 (-2300000001) Nearest =
  Ret (Ok (-3450000004)).
Proof. unfold roomy. meets. Qed.
Theorem C104_div_mul : forall b L P, valid b L P -> forall m x y q, tame m L P -> in_range L x -> in_range L y -> (0 < dec P y <= 1)%Q ->
  rdiv b L P x y m = Ret (Ok q) -> rmul b L P q y (flip m) = Ret (Ok x).
Proof. exact div_mul_back. Qed.
Print Assumptions C104_div_mul.
Example C104_div_mul_case : valid dev L64 9 /\ tame Nearest L64 9 /\ in_range L64 1500000001 /\ in_range L64 300000001 /\ (0 < dec 9
  300000001)%Q /\ (dec 9 300000001 <= 1)%Q /\ rdiv dev L64 9 1500000001 300000001 Nearest = Ret (Ok 4999999987).
Proof. unfold roomy. meets. Qed.
Theorem C104_div_mul_negative : forall b L P, valid b L P -> forall m x y q, tame m L P -> in_range L x -> in_range L y -> (-1 # 1 <= dec P y < 0)%Q ->
  rdiv b L P x y m = Ret (Ok q) -> rmul b L P q y m = Ret (Ok x).
Proof. exact div_mul_back_neg. Qed.
Print Assumptions C104_div_mul_negative.
Example C104_div_mul_negative_case : valid dev L64 9 /\ tame Nearest L64 9 /\ in_range L64 1500000001 /\ in_range L64 (-300000001) /\
  (-1 # 1 <= dec 9 (-300000001))%Q /\ (dec 9 (-300000001) < 0)%Q /\ rdiv dev L64 9 1500000001 (-300000001) Nearest = Ret (Ok
  (-4999999987)).
Proof. unfold roomy. meets. Qed.
Theorem C104_recip : forall b L P, valid b L P -> forall m x r, tame m L P -> in_range L x -> (0 < Qabs (dec P x) <= 1)%Q -> roomy m L r ->
  recip b L P x m = Ret (Ok r) -> recip b L P r m = Ret (Ok x).
Proof. exact recip_back. Qed.
Print Assumptions C104_recip.
Example C104_recip_case : valid dev L64 9 /\ tame Nearest L64 9 /\ in_range L64 (-300000001) /\ (0 < Qabs (dec 9 (-300000001)))%Q /\
  (Qabs (dec 9 (-300000001)) <= 1)%Q /\ roomy Nearest L64 (-3333333322) /\ recip dev L64 9 (-300000001) Nearest = Ret (Ok
  (-3333333322)).
Proof. unfold roomy. meets. Qed.
(** In all other cases the number is missed by little. *)
Theorem C104_mul_div_error : forall b L P, valid b L P -> forall m m' x y p r, tame m L P -> roomy m' L y -> in_range L x -> in_range L y -> y <> 0 ->
  rmul b L P x y m = Ret (Ok p) -> rdiv b L P p y m' = Ret (Ok r) ->
  (Qabs (dec P r - dec P x) <= q10 (- P) * (slack m / Qabs (dec P y) + slack m'))%Q.
Proof. exact mul_div_error. Qed.
Print Assumptions C104_mul_div_error.
Example C104_mul_div_error_case : valid dev L64 9 /\ tame Nearest L64 9 /\ roomy Floor L64 (-300000001) /\ in_range L64 1500000001 /\
  in_range L64 (-300000001) /\ (-300000001) <> 0 /\ rmul dev L64 9 1500000001 (-300000001) Nearest = Ret (Ok (-450000002)) /\ rdiv dev
  L64 9 (-450000002) (-300000001) Floor = Ret (Ok 1500000001).
Proof. unfold roomy. meets. Qed.
Theorem C104_div_mul_error : forall b L P, valid b L P -> forall m m' x y q r, tame m' L P -> roomy m L y -> in_range L x -> in_range L y -> y <> 0 ->
  rdiv b L P x y m = Ret (Ok q) -> rmul b L P q y m' = Ret (Ok r) ->
  (Qabs (dec P r - dec P x) <= q10 (- P) * (slack m * Qabs (dec P y) + slack m'))%Q.
Proof. exact div_mul_error. Qed.
Print Assumptions C104_div_mul_error.
Example C104_div_mul_error_case : valid dev L64 9 /\ tame Floor L64 9 /\ roomy Nearest L64 (-3700000001) /\ in_range L64 1500000001 /\
  in_range L64 (-3700000001) /\ (-3700000001) <> 0 /\ rdiv dev L64 9 1500000001 (-3700000001) Nearest = Ret (Ok (-405405406)) /\ rmul
  dev L64 9 (-405405406) (-3700000001) Floor = Ret (Ok 1500000002).
Proof. unfold roomy. meets. Qed.
(** The mode and the size of the operand matter. *)
Example C104_example :
  rmul dev L64 9 1 1500000000 Floor = Ret (Ok 1) /\ rdiv dev L64 9 1 1500000000 Ceil = Ret (Ok 1) /\ rdiv dev L64 9 1 1500000000 Floor = Ret (Ok 0) /\
  rmul dev L64 9 1 100000000 Nearest = Ret (Ok 0) /\ rdiv dev L64 9 0 100000000 Nearest = Ret (Ok 0) /\
  rdiv dev L64 9 1000000000 3000000000 Nearest = Ret (Ok 333333333) /\ rmul dev L64 9 333333333 3000000000 Nearest = Ret (Ok 999999999) /\
  recip dev L64 9 3000000000 Nearest = Ret (Ok 333333333) /\ recip dev L64 9 333333333 Nearest = Ret (Ok 3000000003).
Proof. vm_compute. intuition congruence. Qed.

(** ** C105: square and root undo each other *)
Theorem C105_root_of_square : forall b L P, valid b L P -> forall m x s, tame m L P -> in_range L x -> (1 # 2 < Qabs (dec P x))%Q ->
  rmul b L P x x m = Ret (Ok s) -> rsqrt b L P s (flip m) = Ret (Ok (Z.abs x)).
Proof. exact root_back. Qed.
Print Assumptions C105_root_of_square.
Example C105_root_of_square_case : valid dev L64 9 /\ tame Nearest L64 9 /\ in_range L64 (-3700000001) /\ (1 # 2 < Qabs (dec 9
  (-3700000001)))%Q /\ rmul dev L64 9 (-3700000001) (-3700000001) Nearest = Ret (Ok 13690000007).
Proof. unfold roomy. meets. Qed.
Theorem C105_square_of_root : forall b L P, valid b L P -> forall m x r, tame m L P -> in_range L x -> (dec P r < 1 # 2)%Q ->
  rsqrt b L P x m = Ret (Ok r) -> rmul b L P r r (flip m) = Ret (Ok x).
Proof. exact square_back. Qed.
Print Assumptions C105_square_of_root.
Example C105_square_of_root_case : valid dev L64 9 /\ tame Nearest L64 9 /\ in_range L64 123456789 /\ (dec 9 351364183 < 1 # 2)%Q /\
  rsqrt dev L64 9 123456789 Nearest = Ret (Ok 351364183).
Proof. unfold roomy. meets. Qed.
(** On the other side of one half it may fail. *)
Example C105_example :
  rmul dev L64 9 3 3 Nearest = Ret (Ok 0) /\ rsqrt dev L64 9 0 Nearest = Ret (Ok 0) /\
  rmul dev L64 9 500000000 500000000 Floor = Ret (Ok 250000000) /\ rsqrt dev L64 9 250000000 Ceil = Ret (Ok 500000000) /\
  rsqrt dev L64 9 2000000000 Nearest = Ret (Ok 1414213562) /\ rmul dev L64 9 1414213562 1414213562 Nearest = Ret (Ok 1999999999) /\
  rsqrt dev L64 9 2 Nearest = Ret (Ok 44721) /\ rmul dev L64 9 44721 44721 Nearest = Ret (Ok 2).
Proof. vm_compute. intuition congruence. Qed.

(** ** C106: the next power of ten *)
Theorem C106_close : forall b L P x y, in_range L x -> 0 < x -> next_power_of_ten b L x = Ret (Ok y) -> (dec P x <= dec P y < 10 * dec P x)%Q.
Proof. exact npt_dec. Qed.
Print Assumptions C106_close.
Example C106_close_case : in_range L64 1500000000 /\ 0 < 1500000000 /\ next_power_of_ten dev L64 1500000000 = Ret (Ok 10000000000).
Proof. unfold roomy. meets. Qed.
Theorem C106_odd : forall b L x y, in_range L x -> x <> 0 -> x <> lo L -> next_power_of_ten b L x = Ret (Ok y) -> next_power_of_ten b L (- x) = Ret (Ok (- y)).
Proof. exact npt_opp. Qed.
Print Assumptions C106_odd.
Example C106_odd_case : in_range L64 (-1500000000) /\ (-1500000000) <> 0 /\ (-1500000000) <> lo L64 /\ next_power_of_ten dev L64
  (-1500000000) = Ret (Ok (-10000000000)).
Proof. unfold roomy. meets. Qed.
Theorem C106_monotone : forall b b' L x x' y y', in_range L x -> in_range L x' -> x <= x' ->
  next_power_of_ten b L x = Ret (Ok y) -> next_power_of_ten b' L x' = Ret (Ok y') -> y <= y'.
Proof. exact npt_mono. Qed.
Print Assumptions C106_monotone.
Example C106_monotone_case : in_range L64 (-1500000000) /\ in_range L64 700000001 /\ -1500000000 <= 700000001 /\ next_power_of_ten dev
  L64 (-1500000000) = Ret (Ok (-10000000000)) /\ next_power_of_ten no_std L64 700000001 = Ret (Ok 1000000000).
Proof. unfold roomy. meets. Qed.
Theorem C106_scale : forall b L x y x10 y10, x <> 0 -> in_range L x -> next_power_of_ten b L x = Ret (Ok y) -> cmul L x 10 = Ok x10 -> cmul L y 10 = Ok y10 ->
  next_power_of_ten b L x10 = Ret (Ok y10).
Proof. exact npt_scale. Qed.
Print Assumptions C106_scale.
Example C106_scale_case : (-1500000000) <> 0 /\ in_range L64 (-1500000000) /\ next_power_of_ten dev L64 (-1500000000) = Ret (Ok
  (-10000000000)) /\ cmul L64 (-1500000000) 10 = Ok (-15000000000) /\ cmul L64 (-10000000000) 10 = Ok (-100000000000).
Proof. unfold roomy. meets. Qed.
Theorem C106_fixed : forall b L x, in_range L x -> 0 < x -> (next_power_of_ten b L x = Ret (Ok x) <-> exists k, 0 <= k /\ x = 10 ^ k).
Proof. exact npt_fixed. Qed.
Print Assumptions C106_fixed.
Example C106_fixed_case : in_range L64 100000 /\ 0 < 100000.
Proof. unfold roomy. meets. Qed.
Example C106_example : next_power_of_ten dev L16 10001 = Ret (Err Overflow) /\ next_power_of_ten dev L16 0 = Ret (Ok 1) /\
  next_power_of_ten release L32 (-1000) = Ret (Ok (-1000)) /\ next_power_of_ten release L32 (-1001) = Ret (Ok (-10000)).
Proof. vm_compute. intuition congruence. Qed.
