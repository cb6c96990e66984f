(** * PropsSplit: C120, C121 and C122, splitting by a rate, bisection and means. *)
From Verif Require Import Base Promo Ops Fixed Spec.
From Verif Require Import Split SplitFacts.
From Verif Require Import Fixed.
From Verif Require Import Meets.
Open Scope Z_scope.

(** ** C120 *)
(** The parts at the rates [r] and [1 - r], one rounded down and the other up, add up. *)
Theorem C120_split : forall b L P m x r, valid b L P -> m <> Nearest -> in_range L x -> 0 <= r <= 10 ^ P ->
  exists a c, split b L P m (flip m) x r = Ret (Ok (a, c)) /\ cadd L a c = Ok x /\ rounds_to m P (dec P x * dec P r) a.
Proof. exact split_dir. Qed.
Print Assumptions C120_split.
Example C120_split_case : valid dev L64 9 /\ Floor <> Nearest /\ in_range L64 (-1000000001) /\ 0 <= 333333333 <= 10 ^ 9.
Proof. meets. Qed.
(** Both rounded to nearest: a unit too many if and only if there is a tie. *)
Theorem C120_nearest : forall b L P x r, valid b L P -> ~ (L = L128 /\ P = 38) -> in_range L x -> 0 <= r <= 10 ^ P ->
  exists a c, split b L P Nearest Nearest x r = Ret (Ok (a, c)) /\
    ((exists j, 2 * (x * r) = (2 * j + 1) * 10 ^ P) -> a + c = x + Z.sgn x) /\
    (~ (exists j, 2 * (x * r) = (2 * j + 1) * 10 ^ P) -> a + c = x).
Proof. exact split_near. Qed.
Print Assumptions C120_nearest.
Example C120_nearest_case : valid dev L64 9 /\ ~ (L64 = L128 /\ 9 = 38) /\ in_range L64 3 /\ 0 <= 500000000 <= 10 ^ 9 /\
  (exists j, 2 * (3 * 500000000) = (2 * j + 1) * 10 ^ 9).
Proof. split; [meets|]. split; [intros [K _]; discriminate K|]. split; [meets|]. split; [meets|]. exists 1. reflexivity. Qed.
(** The net price rounded down leaves the tax rounded up, and the other way round. *)
Theorem C120_untax : forall b L P m g t, valid b L P -> m <> Nearest -> in_range L g -> 0 <= t -> in_range L (10 ^ P + t) ->
  exists n tax, untax b L P m g t = Ret (Ok (n, tax)) /\ n + tax = g /\
    rounds_to m P (dec P g / (1 + dec P t)) n /\ rounds_to (flip m) P (dec P g * dec P t / (1 + dec P t)) tax.
Proof. exact untax_dir. Qed.
Print Assumptions C120_untax.
Example C120_untax_case : valid dev L64 9 /\ Ceil <> Nearest /\ in_range L64 99990000000 /\ 0 <= 190000000 /\ in_range L64 (10 ^ 9 + 190000000).
Proof. meets. Qed.
Example C120_example : split dev L64 9 Floor Ceil 1000000001 333333333 = Ret (Ok (333333333, 666666668)) /\
  split dev L64 9 Nearest Nearest 3 500000000 = Ret (Ok (2, 2)) /\ untax dev L64 9 Ceil 99990000000 190000000 = Ret (Ok (84025210085, 15964789915)).
Proof. example. Qed.

(** ** C121 *)
(** Bisection by [half_sum] needs one step more than the layout has bits, wherever it starts, and
    finds two neighbours between which the answer changes. *)
Theorem C121_bisect : forall b L p k l h, in_range L l -> in_range L h -> l < h -> bits L < Z.of_nat k -> p l = true -> p h = false ->
  exists a, bisect b L p k l h = Ret a /\ l <= a < h /\ p a = true /\ p (a + 1) = false.
Proof. exact bisect_range. Qed.
Print Assumptions C121_bisect.
Example C121_bisect_case : in_range L16 (-32768) /\ in_range L16 32767 /\ -32768 < 32767 /\ bits L16 < Z.of_nat 17 /\
  (fun z => z * z * z <=? -1000) (-32768) = true /\ (fun z => z * z * z <=? -1000) 32767 = false.
Proof. meets. Qed.
(** Searching for the root with [rmul] finds what [rsqrt] computes, *)
Theorem C121_root : forall b b' L P x r k, valid b L P -> valid b' L P -> in_range L x -> rsqrt b' L P x Floor = Ret (Ok r) -> r < hi L ->
  bits L < Z.of_nat k -> bisect b' L (fun z => at_most (rmul b L P z z Ceil) x) k 0 (hi L) = Ret r.
Proof. exact search_root_. Qed.
Print Assumptions C121_root.
Example C121_root_case : valid dev L64 9 /\ valid release L64 9 /\ in_range L64 2000000000 /\
  rsqrt release L64 9 2000000000 Floor = Ret (Ok 1414213562) /\ 1414213562 < hi L64 /\ bits L64 < Z.of_nat 65.
Proof. meets. Qed.
(** and searching for the quotient finds what [rdiv] computes. *)
Theorem C121_quotient : forall b b' L P x y q k, valid b L P -> valid b' L P -> in_range L x -> in_range L y -> 0 <= x -> 0 < y ->
  rdiv b' L P x y Floor = Ret (Ok q) -> q < hi L ->
  bits L < Z.of_nat k -> bisect b' L (fun z => at_most (rmul b L P z y Ceil) x) k 0 (hi L) = Ret q.
Proof. exact search_quotient_. Qed.
Print Assumptions C121_quotient.
Example C121_quotient_case : valid dev L64 9 /\ valid release L64 9 /\ in_range L64 2000000000 /\ in_range L64 3000000000 /\
  0 <= 2000000000 /\ 0 < 3000000000 /\ rdiv release L64 9 2000000000 3000000000 Floor = Ret (Ok 666666666) /\ 666666666 < hi L64 /\
  bits L64 < Z.of_nat 65.
Proof. meets. Qed.
Example C121_example : bisect dev L16 (fun z => z * z * z <=? -1000) 17 (-32768) 32767 = Ret (-10) /\
  bisect dev L64 (fun z => at_most (rmul release L64 9 z z Ceil) 2000000000) 65 0 (hi L64) = Ret 1414213562.
Proof. example. Qed.

(** ** C122 *)
(** The geometric mean is at most the arithmetic mean and so at most the larger number, *)
Theorem C122_means : forall b b' L P x y p r m h, valid b L P -> valid b' L P -> in_range L x -> in_range L y -> 0 <= x -> 0 <= y ->
  rmul b L P x y Floor = Ret (Ok p) -> rsqrt b' L P p Floor = Ret (Ok r) -> half_sum b L x y m = Ret h -> r <= h <= Z.max x y.
Proof. exact means_. Qed.
Print Assumptions C122_means.
Example C122_means_case : valid dev L64 9 /\ valid release L64 9 /\ in_range L64 2000000000 /\ in_range L64 3000000000 /\
  0 <= 2000000000 /\ 0 <= 3000000000 /\ rmul dev L64 9 2000000000 3000000000 Floor = Ret (Ok 6000000000) /\
  rsqrt release L64 9 6000000000 Floor = Ret (Ok 2449489742) /\ half_sum dev L64 2000000000 3000000000 Ceil = Ret 2500000000.
Proof. meets. Qed.
(** and with rounding up at least the smaller number. *)
Theorem C122_min : forall b b' L P x y p r, valid b L P -> valid b' L P -> in_range L x -> in_range L y -> 0 <= x -> 0 <= y ->
  rmul b L P x y Ceil = Ret (Ok p) -> rsqrt b' L P p Ceil = Ret (Ok r) -> Z.min x y <= r.
Proof. exact means_min_. Qed.
Print Assumptions C122_min.
Example C122_min_case : valid dev L64 9 /\ valid release L64 9 /\ in_range L64 2000000000 /\ in_range L64 3000000000 /\
  0 <= 2000000000 /\ 0 <= 3000000000 /\ rmul dev L64 9 2000000000 3000000000 Ceil = Ret (Ok 6000000000) /\
  rsqrt release L64 9 6000000000 Ceil = Ret (Ok 2449489743).
Proof. meets. Qed.
(** With rounding down it may fall below both: *)
Example C122_example : rmul dev L64 9 30000 30000 Floor = Ret (Ok 0) /\ rsqrt dev L64 9 0 Floor = Ret (Ok 0).
Proof. example. Qed.
