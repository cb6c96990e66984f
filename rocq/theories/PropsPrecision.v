(** * PropsPrecision: C126, results at different precisions. *)
From Verif Require Import Base Promo Ops Fixed Str Spec SpecText SpecBuild.
From Verif Require Import PrecisionFacts.
From Verif Require Import Fixed.
From Verif Require Import Meets.
Open Scope Z_scope.

(** ** C126 *)
(** The result at precision [P] is the result at the finer [P'] rounded once more, in every layout; *)
Theorem C126_rmul : forall b b' L L' P P', valid b L P -> valid b' L' P' -> P <= P' -> forall m, m <> Nearest ->
  forall x y x' y', in_range L x -> in_range L y -> in_range L' x' -> in_range L' y' -> (dec P x == dec P' x')%Q -> (dec P y == dec P' y')%Q ->
  forall r', rmul b' L' P' x' y' m = Ret (Ok r') -> rounded_or_overflow L P m (dec P' r') (rmul b L P x y m).
Proof. exact finer_rmul. Qed.
Print Assumptions C126_rmul.
Example C126_rmul_case : valid dev L16 2 /\ valid release L64 9 /\ 2 <= 9 /\ Floor <> Nearest /\ in_range L16 150 /\ in_range L16 (-333) /\
  in_range L64 1500000000 /\ in_range L64 (-3330000000) /\ (dec 2 150 == dec 9 1500000000)%Q /\ (dec 2 (-333) == dec 9 (-3330000000))%Q /\
  rmul release L64 9 1500000000 (-3330000000) Floor = Ret (Ok (-4995000000)).
Proof. meets. Qed.
Theorem C126_rdiv : forall b b' L L' P P', valid b L P -> valid b' L' P' -> P <= P' -> forall m, m <> Nearest ->
  forall x y x' y', in_range L x -> in_range L y -> in_range L' x' -> in_range L' y' -> (dec P x == dec P' x')%Q -> (dec P y == dec P' y')%Q ->
  forall r', y <> 0 -> rdiv b' L' P' x' y' m = Ret (Ok r') -> rounded_or_overflow L P m (dec P' r') (rdiv b L P x y m).
Proof. exact finer_rdiv. Qed.
Print Assumptions C126_rdiv.
Example C126_rdiv_case : valid dev L16 2 /\ valid release L64 9 /\ 2 <= 9 /\ Ceil <> Nearest /\ in_range L16 150 /\ in_range L16 (-333) /\
  in_range L64 1500000000 /\ in_range L64 (-3330000000) /\ (dec 2 150 == dec 9 1500000000)%Q /\ (dec 2 (-333) == dec 9 (-3330000000))%Q /\
  -333 <> 0 /\ rdiv release L64 9 1500000000 (-3330000000) Ceil = Ret (Ok (-450450450)).
Proof. meets. Qed.
Theorem C126_recip : forall b b' L L' P P', valid b L P -> valid b' L' P' -> P <= P' -> forall m, m <> Nearest ->
  forall x x', in_range L x -> in_range L' x' -> (dec P x == dec P' x')%Q ->
  forall r', x <> 0 -> recip b' L' P' x' m = Ret (Ok r') -> rounded_or_overflow L P m (dec P' r') (recip b L P x m).
Proof. exact finer_recip. Qed.
Print Assumptions C126_recip.
Example C126_recip_case : valid dev L16 2 /\ valid release L64 9 /\ 2 <= 9 /\ Ceil <> Nearest /\ in_range L16 (-333) /\
  in_range L64 (-3330000000) /\ (dec 2 (-333) == dec 9 (-3330000000))%Q /\
  -333 <> 0 /\ recip release L64 9 (-3330000000) Ceil = Ret (Ok (-300300300)).
Proof. meets. Qed.
Theorem C126_rsqrt : forall b b' L L' P P', valid b L P -> valid b' L' P' -> P <= P' -> forall m, m <> Nearest ->
  forall x x', in_range L x -> in_range L' x' -> (dec P x == dec P' x')%Q -> 0 <= x ->
  exists r r', rsqrt b L P x m = Ret (Ok r) /\ rsqrt b' L' P' x' m = Ret (Ok r') /\ rounds_to m P (dec P' r') r.
Proof. exact finer_rsqrt. Qed.
Print Assumptions C126_rsqrt.
Example C126_rsqrt_case : valid dev L16 2 /\ valid release L64 9 /\ 2 <= 9 /\ Ceil <> Nearest /\ in_range L16 150 /\
  in_range L64 1500000000 /\ (dec 2 150 == dec 9 1500000000)%Q /\ 0 <= 150.
Proof. meets. Qed.
Theorem C126_half_sum : forall b b' L L' P P', valid b L P -> valid b' L' P' -> P <= P' -> forall m, m <> Nearest ->
  forall x y x' y', in_range L x -> in_range L y -> in_range L' x' -> in_range L' y' -> (dec P x == dec P' x')%Q -> (dec P y == dec P' y')%Q ->
  exists r r', half_sum b L x y m = Ret r /\ half_sum b' L' x' y' m = Ret r' /\ rounds_to m P (dec P' r') r.
Proof. exact finer_half. Qed.
Print Assumptions C126_half_sum.
Example C126_half_sum_case : valid dev L16 2 /\ valid release L64 9 /\ 2 <= 9 /\ Ceil <> Nearest /\ in_range L16 150 /\ in_range L16 (-333) /\
  in_range L64 1500000000 /\ in_range L64 (-3330000000) /\ (dec 2 150 == dec 9 1500000000)%Q /\ (dec 2 (-333) == dec 9 (-3330000000))%Q.
Proof. meets. Qed.
(** sums, differences, multiples, order and text are the same. *)
Theorem C126_cadd : forall L L' P P' x y x' y', (dec P x == dec P' x')%Q -> (dec P y == dec P' y')%Q ->
  forall r r', cadd L x y = Ok r -> cadd L' x' y' = Ok r' -> (dec P r == dec P' r')%Q.
Proof. exact same_sum. Qed.
Print Assumptions C126_cadd.
Theorem C126_csub : forall L L' P P' x y x' y', (dec P x == dec P' x')%Q -> (dec P y == dec P' y')%Q ->
  forall r r', csub L x y = Ok r -> csub L' x' y' = Ok r' -> (dec P r == dec P' r')%Q.
Proof. exact same_diff. Qed.
Print Assumptions C126_csub.
Theorem C126_cmul : forall L L' P P' x x', (dec P x == dec P' x')%Q ->
  forall n r r', cmul L x n = Ok r -> cmul L' x' n = Ok r' -> (dec P r == dec P' r')%Q.
Proof. exact same_times. Qed.
Print Assumptions C126_cmul.
Example C126_cadd_case : (dec 2 150 == dec 9 1500000000)%Q /\ (dec 2 (-333) == dec 9 (-3330000000))%Q /\
  cadd L16 150 (-333) = Ok (-183) /\ cadd L64 1500000000 (-3330000000) = Ok (-1830000000) /\
  csub L16 150 (-333) = Ok 483 /\ csub L64 1500000000 (-3330000000) = Ok 4830000000 /\
  cmul L16 150 7 = Ok 1050 /\ cmul L64 1500000000 7 = Ok 10500000000.
Proof. meets. Qed.
Theorem C126_order : forall P P' x y x' y', (dec P x == dec P' x')%Q -> (dec P y == dec P' y')%Q -> fp_cmp x y = fp_cmp x' y'.
Proof. exact same_order. Qed.
Print Assumptions C126_order.
Example C126_order_case : (dec 2 150 == dec 9 1500000000)%Q /\ (dec 2 (-333) == dec 9 (-3330000000))%Q.
Proof. meets. Qed.
Theorem C126_text : forall b b' L L' P P', valid b L P -> valid b' L' P' -> forall x x', in_range L x -> in_range L' x' -> (dec P x == dec P' x')%Q ->
  printable b L P x -> printable b' L' P' x' -> to_string b L P x = to_string b' L' P' x'.
Proof. exact same_text. Qed.
Print Assumptions C126_text.
Example C126_text_case : valid dev L16 2 /\ valid release L64 9 /\ in_range L16 (-333) /\ in_range L64 (-3330000000) /\
  (dec 2 (-333) == dec 9 (-3330000000))%Q /\ printable dev L16 2 (-333) /\ printable release L64 9 (-3330000000).
Proof. meets. Qed.
(** Rounded to nearest the two differ: 5/11 is 0 with no places, but 0.5 with one, which rounds to 1. *)
Theorem C126_nearest : exists r r' s, rdiv dev L64 0 5 11 Nearest = Ret (Ok r) /\ rdiv dev L64 1 50 110 Nearest = Ret (Ok r') /\
  rounds_to Nearest 0 (dec 1 r') s /\ s <> r.
Proof. exact finer_nearest. Qed.
Print Assumptions C126_nearest.
