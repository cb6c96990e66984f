(** * PropsPool: C114 to C116, an exchange pool, blends of two numbers and lengths of vectors. *)
From Coq Require Import QArith.
From Verif Require Import Base Promo Ops Fixed Spec SpecRound.
From Verif Require Import Pool PoolFacts.
From Verif Require Import Fixed.
From Verif Require Import Meets.
Open Scope Z_scope.

(** ** C114: a pool that rounds in its own favour *)
(** Whatever is traded, the reserves stay positive and their product never falls; the only failure
    is a reserve that does not fit. *)
Theorem C114_product : forall b L P, valid b L P -> forall l x y, Forall (fun t => 0 <= snd t) l ->
  in_range L x -> in_range L y -> 0 < x -> 0 < y ->
  (exists x' y', trade b L P (x, y) l = Ret (Ok (x', y')) /\ in_range L x' /\ in_range L y' /\ 0 < x' /\ 0 < y' /\
    (dec P x * dec P y <= dec P x' * dec P y')%Q) \/ trade b L P (x, y) l = Ret (Err Overflow).
Proof. exact trade_product. Qed.
Print Assumptions C114_product.
Example C114_product_case : valid dev L64 9 /\ Forall (fun t => 0 <= snd t) [(true, 5000000001); (false, 3)] /\
  in_range L64 1500000000000 /\ in_range L64 700000000001 /\ 0 < 1500000000000 /\ 0 < 700000000001.
Proof. split; [meets|]. split; [repeat constructor; cbn; discriminate|]. meets. Qed.
(** Nobody gains by trading to and fro: when one reserve is back or lower, the other has not fallen. *)
Theorem C114_no_gain : forall b L P, valid b L P -> forall l x y x' y', Forall (fun t => 0 <= snd t) l ->
  in_range L x -> in_range L y -> 0 < x -> 0 < y ->
  trade b L P (x, y) l = Ret (Ok (x', y')) -> (x' <= x -> y <= y') /\ (y' <= y -> x <= x').
Proof. exact trade_no_gain. Qed.
Print Assumptions C114_no_gain.
Example C114_no_gain_case : valid release L64 2 /\ Forall (fun t => 0 <= snd t) [(false, 501); (true, 166)] /\
  in_range L64 1000 /\ in_range L64 500 /\ 0 < 1000 /\ 0 < 500 /\
  trade release L64 2 (1000, 500) [(false, 501); (true, 166)] = Ret (Ok (1006, 501)).
Proof. split; [meets|]. split; [repeat constructor; cbn; discriminate|]. meets. Qed.
(** A single trade pays what it should but for the rounding of the part and of the product. *)
Theorem C114_fair : forall b L P, valid b L P -> forall x y d, in_range L x -> in_range L y -> 0 < x -> 0 < y -> 0 <= d ->
  in_range L (x + d) ->
  exists o, buy b L P x y d = Ret (Ok (x + d, y - o)) /\ 0 <= o < y /\
    (0 <= dec P y * dec P d / dec P (x + d) - dec P o < (dec P y + 1) * q10 (- P))%Q.
Proof. exact buy_fair. Qed.
Print Assumptions C114_fair.
Example C114_fair_case : valid dev L128 18 /\ in_range L128 1000 /\ in_range L128 700 /\ 0 < 1000 /\ 0 < 700 /\ 0 <= 501 /\
  in_range L128 (1000 + 501).
Proof. meets. Qed.

(** ** C115: the point [t] of the way from [x] to [y] *)
Theorem C115_between : forall b L P, valid b L P -> forall m x y t, tame m L P -> in_range L x -> in_range L y -> in_range L (y - x) ->
  in_range L t -> 0 <= t <= 10 ^ P ->
  exists r, blend b L P m x y t = Ret (Ok r) /\ Z.min x y <= r <= Z.max x y /\
    rounds_to m P ((dec P y - dec P x) * dec P t) (r - x).
Proof. exact blend_between. Qed.
Print Assumptions C115_between.
Example C115_between_case : valid dev L64 9 /\ tame Nearest L64 9 /\ in_range L64 5000000000 /\ in_range L64 (-7) /\
  in_range L64 (-7 - 5000000000) /\ in_range L64 300000001 /\ 0 <= 300000001 <= 10 ^ 9.
Proof. split; [meets|]. split; [intros _ [K _]; discriminate K|]. meets. Qed.
(** The ends are met exactly. *)
Theorem C115_ends : forall b L P, valid b L P -> forall m x y, tame m L P -> in_range L x -> in_range L y -> in_range L (y - x) ->
  blend b L P m x y 0 = Ret (Ok x) /\ (in_range L (10 ^ P) -> blend b L P m x y (10 ^ P) = Ret (Ok y)).
Proof. exact blend_ends. Qed.
Print Assumptions C115_ends.
Example C115_ends_case : valid dev L64 9 /\ tame Nearest L64 9 /\ in_range L64 5000000000 /\ in_range L64 (-7) /\
  in_range L64 (-7 - 5000000000) /\ in_range L64 (10 ^ 9).
Proof. split; [meets|]. split; [intros _ [K _]; discriminate K|]. meets. Qed.
(** It moves one way only. *)
Theorem C115_monotone : forall b L P, valid b L P -> forall m x y t t', tame m L P -> in_range L x -> in_range L y ->
  in_range L (y - x) -> in_range L t' -> 0 <= t <= t' -> t' <= 10 ^ P ->
  exists r r', blend b L P m x y t = Ret (Ok r) /\ blend b L P m x y t' = Ret (Ok r') /\
    Z.min x y <= r <= Z.max x y /\ (x <= y -> r <= r') /\ (y <= x -> r' <= r).
Proof. exact blend_mono. Qed.
Print Assumptions C115_monotone.
Example C115_monotone_case : valid dev L64 9 /\ tame Nearest L64 9 /\ in_range L64 5000000000 /\ in_range L64 (-7) /\
  in_range L64 (-7 - 5000000000) /\ in_range L64 400000001 /\ 0 <= 300000001 <= 400000001 /\ 400000001 <= 10 ^ 9.
Proof. split; [meets|]. split; [intros _ [K _]; discriminate K|]. meets. Qed.

(** ** C116: the length of a vector, rounded down and up *)
Theorem C116_floor : forall b L P, valid b L P -> forall x y r, in_range L x -> in_range L y -> norm b L P Floor x y = Ret (Ok r) ->
  0 <= r /\ (dec P r * dec P r <= dec P x * dec P x + dec P y * dec P y)%Q /\
  (dec P x * dec P x + dec P y * dec P y < dec P (r + 1) * dec P (r + 1) + 2 * q10 (- P))%Q.
Proof. exact norm_floor. Qed.
Print Assumptions C116_floor.
Example C116_floor_case : valid dev L64 9 /\ in_range L64 3000000000 /\ in_range L64 (-4000000001) /\
  norm dev L64 9 Floor 3000000000 (-4000000001) = Ret (Ok 5000000000).
Proof. do 3 (split; [meets|]). meets. Qed.
Theorem C116_ceil : forall b L P, valid b L P -> forall x y r, in_range L x -> in_range L y -> norm b L P Ceil x y = Ret (Ok r) ->
  Z.abs x <= r /\ Z.abs y <= r /\ (dec P x * dec P x + dec P y * dec P y <= dec P r * dec P r)%Q /\
  (0 < r -> (dec P (r - 1) * dec P (r - 1) < dec P x * dec P x + dec P y * dec P y + 2 * q10 (- P))%Q).
Proof. exact norm_ceil. Qed.
Print Assumptions C116_ceil.
Example C116_ceil_case : valid dev L64 9 /\ in_range L64 3000000000 /\ in_range L64 (-4000000001) /\
  norm dev L64 9 Ceil 3000000000 (-4000000001) = Ret (Ok 5000000001).
Proof. do 3 (split; [meets|]). meets. Qed.
Theorem C116_total : forall b L P, valid b L P -> forall m x y, in_range L x -> in_range L y -> m <> Nearest ->
  (exists r, norm b L P m x y = Ret (Ok r)) \/ norm b L P m x y = Ret (Err Overflow).
Proof. exact norm_total. Qed.
Print Assumptions C116_total.
Example C116_total_case : valid dev L64 9 /\ in_range L64 3000000000 /\ in_range L64 (-4000000001) /\ Ceil <> Nearest.
Proof. meets. Qed.
