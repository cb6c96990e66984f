(** * PropsTextLaws: C90, laws of parsing and printing. *)
From Coq Require Import QArith.
From Verif Require Import Base Promo Ops Fixed Str Spec SpecText SpecBuild.
From Verif Require Import TextLaws.
From Verif Require Import Fixed.
From Verif Require Import Meets.
Open Scope Z_scope.

(** Proves [spells] for a concrete string whose white space, sign and digits are given. *)
Ltac spell pre sg post :=
  exists pre, sg, post; repeat split;
  try (repeat constructor; unfold space, digit; lia); try discriminate; auto.

(** ** C90 *)
Theorem C90_same_number : forall b b' L P s neg i f s' neg' i' f', valid b L P -> valid b' L P ->
  spells s neg i f -> spells s' neg' i' f' -> (P = 0 -> f = None) -> (P = 0 -> f' = None) ->
  (spelled neg i f == spelled neg' i' f')%Q -> from_str b L P s = from_str b' L P s'.
Proof. exact same_number. Qed.
Print Assumptions C90_same_number.
Example C90_same_number_case : valid dev L64 9 /\ valid release L64 9 /\ spells [48; 49; 50; 46; 53] false [48; 49; 50] (Some
  [53]) /\ spells [49; 50; 46; 53; 48] false [49; 50] (Some [53; 48]) /\ (9 = 0 -> (Some [53]) = None) /\ (9 = 0 -> (Some [53;
  48]) = None) /\ (spelled false [48; 49; 50]%Z (Some [53]%Z) == spelled false [49; 50]%Z (Some [53; 48]%Z))%Q.
Proof. meets. Qed.
Theorem C90_same_number_exact : forall b b' L P s neg i f s' neg' i' f', valid b L P -> valid b' L P ->
  spells s neg i f -> spells s' neg' i' f' -> places f <= P -> places f' <= P ->
  (spelled neg i f == spelled neg' i' f')%Q -> from_str_exact b L P s = from_str_exact b' L P s'.
Proof. exact same_exact. Qed.
Print Assumptions C90_same_number_exact.
Example C90_same_number_exact_case : valid dev L64 9 /\ valid release L64 9 /\ spells [48; 49; 50; 46; 53] false [48; 49; 50]
  (Some [53]) /\ spells [49; 50; 46; 53; 48] false [49; 50] (Some [53; 48]) /\ places (Some [53]) <= 9 /\ places (Some [53; 48])
  <= 9 /\ (spelled false [48; 49; 50]%Z (Some [53]%Z) == spelled false [49; 50]%Z (Some [53; 48]%Z))%Q.
Proof. meets. Qed.
Theorem C90_monotone : forall b b' L P s neg i f s' neg' i' f' x x', valid b L P -> valid b' L P ->
  spells s neg i f -> spells s' neg' i' f' -> (spelled neg i f <= spelled neg' i' f')%Q ->
  from_str b L P s = Ret (Ok x) -> from_str b' L P s' = Ret (Ok x') -> x <= x'.
Proof. exact parse_mono. Qed.
Print Assumptions C90_monotone.
Example C90_monotone_case : valid dev L64 9 /\ valid release L64 9 /\ spells [45; 49; 50; 46; 53] true [49; 50] (Some [53]) /\
  spells [49; 51; 46; 50; 53] false [49; 51] (Some [50; 53]) /\ (spelled true [49; 50]%Z (Some [53]%Z) <= spelled false [49; 51]%Z
  (Some [50; 53]%Z))%Q /\ from_str dev L64 9 [45; 49; 50; 46; 53] = Ret (Ok (-12500000000)) /\ from_str release L64 9 [49; 51; 46;
  50; 53] = Ret (Ok 13250000000).
Proof. meets. Qed.
Theorem C90_between : forall b b' L P s1 n1 i1 f1 x1 s2 n2 i2 f2 x2 s neg i f, valid b L P -> valid b' L P ->
  spells s1 n1 i1 f1 -> spells s2 n2 i2 f2 -> spells s neg i f -> (P = 0 -> f = None) ->
  (spelled n1 i1 f1 <= spelled neg i f)%Q -> (spelled neg i f <= spelled n2 i2 f2)%Q ->
  from_str b L P s1 = Ret (Ok x1) -> from_str b L P s2 = Ret (Ok x2) -> exists x, from_str b' L P s = Ret (Ok x) /\ x1 <= x <= x2.
Proof. exact parse_between. Qed.
Print Assumptions C90_between.
Example C90_between_case : valid dev L64 9 /\ valid release L64 9 /\ spells [45; 49; 51] true [49; 51] None /\ spells [49; 51; 46;
  50; 53] false [49; 51] (Some [50; 53]) /\ spells [45; 49; 50; 46; 53] true [49; 50] (Some [53]) /\ (9 = 0 -> (Some [53]) = None)
  /\ (spelled true [49; 51]%Z None <= spelled true [49; 50]%Z (Some [53]%Z))%Q /\ (spelled true [49; 50]%Z (Some [53]%Z) <=
  spelled false [49; 51]%Z (Some [50; 53]%Z))%Q /\ from_str dev L64 9 [45; 49; 51] = Ret (Ok (-13000000000)) /\ from_str dev L64 9
  [49; 51; 46; 50; 53] = Ret (Ok 13250000000).
Proof. meets. Qed.
Theorem C90_exact_order : forall b b' L P s neg i f s' neg' i' f' x x', valid b L P -> valid b' L P ->
  spells s neg i f -> spells s' neg' i' f' -> from_str_exact b L P s = Ret (Ok x) -> from_str_exact b' L P s' = Ret (Ok x') ->
  (x < x' <-> (spelled neg i f < spelled neg' i' f')%Q) /\ (x = x' <-> (spelled neg i f == spelled neg' i' f')%Q).
Proof. exact exact_order. Qed.
Print Assumptions C90_exact_order.
Example C90_exact_order_case : valid dev L64 9 /\ valid release L64 9 /\ spells [45; 49; 50; 46; 53] true [49; 50] (Some [53]) /\
  spells [49; 51; 46; 50; 53] false [49; 51] (Some [50; 53]) /\ from_str_exact dev L64 9 [45; 49; 50; 46; 53] = Ret (Ok
  (-12500000000)) /\ from_str_exact release L64 9 [49; 51; 46; 50; 53] = Ret (Ok 13250000000).
Proof. meets. Qed.
Theorem C90_print_injective : forall b b' L P x y s, valid b L P -> valid b' L P -> in_range L x -> in_range L y ->
  printable b L P x -> printable b' L P y -> to_string b L P x = Ret s -> to_string b' L P y = Ret s -> x = y.
Proof. exact print_injective. Qed.
Print Assumptions C90_print_injective.
Example C90_print_injective_case : valid dev L64 9 /\ valid release L64 9 /\ in_range L64 (-700000001) /\ in_range L64
  (-700000001) /\ printable dev L64 9 (-700000001) /\ printable release L64 9 (-700000001) /\ to_string dev L64 9 (-700000001) =
  Ret [45; 48; 46; 55; 48; 48; 48; 48; 48; 48; 48; 49] /\ to_string release L64 9 (-700000001) = Ret [45; 48; 46; 55; 48; 48; 48;
  48; 48; 48; 48; 49].
Proof. meets. Qed.
(** "-0", "+0.000" and " 0.0 "; "1.5" and "01.50"; and "1.44" between "1.4" and "1.45". *)
Example C90_example : valid dev L16 1 /\ valid release L16 1 /\
  spells [45; 48] true [48] None /\ spells [43; 48; 46; 48; 48; 48] false [48] (Some [48; 48; 48]) /\
  Qeq_bool (spelled true [48] None) (spelled false [48] (Some [48; 48; 48])) = true /\
  from_str dev L16 1 [45; 48] = Ret (Ok 0) /\ from_str release L16 1 [43; 48; 46; 48; 48; 48] = Ret (Ok 0) /\
  from_str_exact dev L16 1 [49; 46; 53] = Ret (Ok 15) /\ from_str_exact dev L16 1 [48; 49; 46; 53] = Ret (Ok 15) /\
  from_str dev L16 1 [49; 46; 52] = Ret (Ok 14) /\ from_str dev L16 1 [49; 46; 52; 52] = Ret (Ok 14) /\ from_str dev L16 1 [49; 46; 52; 53] = Ret (Ok 15) /\
  to_string dev L16 1 14 = Ret [49; 46; 52] /\ to_string dev L16 1 15 = Ret [49; 46; 53].
Proof.
  split; [example|]. split; [example|]. split; [spell (@nil Z) [45] (@nil Z)|]. split; [spell (@nil Z) [43] (@nil Z)|]. example.
Qed.
