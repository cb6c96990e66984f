(** * PropsSeries: C97 and C98, errors of sums of products and of polynomials. *)
From Coq Require Import QArith Qabs.
From Verif Require Import Base Promo Ops Spec Programs.
From Verif Require Import SpecRound Series SeriesFacts.
From Verif Require Import Fixed.
From Verif Require Import Meets.
Open Scope Z_scope.

(** ** C97 *)
Theorem C97_dot : forall b L P m l, valid b L P -> tame m L P -> Forall (pair_in L) l -> forall acc, in_range L acc ->
  (exists r, dot b L P m acc l = Ret (Ok r) /\ in_range L r /\
     off_q m (Z.of_nat (length l)) (dec P r - (dec P acc + qdot P l)) (q10 (- P))) \/ dot b L P m acc l = Ret (Err Overflow).
Proof. exact dot_total. Qed.
Print Assumptions C97_dot.
Example C97_dot_case : valid dev L64 9 /\ tame Nearest L64 9 /\ Forall (pair_in L64) [(1500000000, -7); (5, 3)] /\ in_range L64
  20.
Proof. do 2 (split; [meets|]); split; [repeat constructor; cbn; meets|meets]. Qed.
(** 0.5 * 0.3 + 1.1 * -0.7 is -0.62. *)
Example C97_example : valid dev L16 1 /\ Forall (pair_in L16) [(5, 3); (11, -7)] /\ in_range L16 0 /\
  dot dev L16 1 Floor 0 [(5, 3); (11, -7)] = Ret (Ok (-7)) /\ dot dev L16 1 Ceil 0 [(5, 3); (11, -7)] = Ret (Ok (-5)) /\
  dot dev L16 1 Nearest 0 [(5, 3); (11, -7)] = Ret (Ok (-6)) /\ (qdot 1 [(5, 3); (11, -7)]%Z == - 62 # 100)%Q /\
  dot dev L16 1 Floor 0 [(32767, 20)] = Ret (Err Overflow).
Proof.
  split; [repeat split; vm_compute; congruence|]. split; [repeat constructor; vm_compute; congruence|].
  repeat split; vm_compute; congruence.
Qed.

(** ** C98 *)
Theorem C98_horner : forall b L P m x a l, valid b L P -> tame m L P -> in_range L x -> Forall (in_range L) (a :: l) ->
  (exists r, horner b L P m x a l = Ret (Ok r) /\ in_range L r /\
     (Qabs (dec P r - qpoly P (dec P x) (a :: l)) <= slack m * q10 (- P) * geom (Qabs (dec P x)) (length l))%Q) \/
  horner b L P m x a l = Ret (Err Overflow).
Proof. exact horner_exact. Qed.
Print Assumptions C98_horner.
Example C98_horner_case : valid dev L64 9 /\ tame Nearest L64 9 /\ in_range L64 700000000 /\ Forall (in_range L64) (20 ::
  [-1500000000; 3]).
Proof. meets. Qed.
Theorem C98_small : forall b L P m x a l r, valid b L P -> tame m L P -> in_range L x -> Forall (in_range L) (a :: l) -> (Qabs (dec P x) <= 1)%Q ->
  horner b L P m x a l = Ret (Ok r) -> (Qabs (dec P r - qpoly P (dec P x) (a :: l)) <= slack m * Zq (Z.of_nat (length l)) * q10 (- P))%Q.
Proof. exact horner_small. Qed.
Print Assumptions C98_small.
Example C98_small_case : valid dev L64 9 /\ tame Nearest L64 9 /\ in_range L64 700000000 /\ Forall (in_range L64) (20 ::
  [-1500000000; 3]) /\ (Qabs (dec 9 700000000) <= 1)%Q /\ horner dev L64 9 Nearest 700000000 20 [-1500000000; 3] = Ret (Ok
  (-1049999987)).
Proof. meets. Qed.
(** 2 x^2 - 1.5 x + 0.3 at 0.7 is 0.23. *)
Example C98_example : valid dev L16 1 /\ in_range L16 7 /\ Forall (in_range L16) [20; -15; 3] /\ (Qabs (dec 1 7) <= 1)%Q /\
  horner dev L16 1 Floor 7 20 [-15; 3] = Ret (Ok 2) /\ horner dev L16 1 Ceil 7 20 [-15; 3] = Ret (Ok 3) /\
  (qpoly 1 (dec 1 7) [20; -15; 3]%Z == 23 # 100)%Q /\ (geom (dec 1 7) 2 == 17 # 10)%Q.
Proof.
  split; [repeat split; vm_compute; congruence|]. split; [vm_compute; split; congruence|]. split; [repeat constructor; vm_compute; congruence|].
  repeat split; vm_compute; congruence.
Qed.
