(** * PropsAverage: C108 and C109, moving averages. *)
From Coq Require Import QArith Qabs.
From Verif Require Import Base Promo Ops Fixed Spec SpecRound Programs Series.
From Verif Require Import SpecUndo Average AverageFacts.
From Verif Require Import Fixed.
From Verif Require Import Meets.
Open Scope Z_scope.

(** ** C108: the exponential moving average *)
(** It never overflows, stays within the samples, and misses the exact average by at most one rounding
    for each step, discounted as the samples are. *)
Theorem C108_ema : forall b L P, valid b L P -> forall m a lw up, tame m L P -> in_range L a -> 0 <= a <= 10 ^ P ->
  in_range L lw -> in_range L up -> up - lw <= hi L ->
  forall l s, Forall (fun x => lw <= x <= up) (s :: l) ->
  exists r, ema b L P m a s l = Ret (Ok r) /\ lw <= r <= up /\
    (Qabs (dec P r - qema P (dec P a) (dec P s) l) <= slack m * q10 (- P) * geom (1 - dec P a) (length l))%Q.
Proof. exact ema_within. Qed.
Print Assumptions C108_ema.
Example C108_ema_case : valid dev L64 9 /\ tame Nearest L64 9 /\ in_range L64 300000000 /\ 0 <= 300000000 <= 10 ^ 9 /\
  in_range L64 (-2000000000) /\ in_range L64 5000000000 /\ 5000000000 - -2000000000 <= hi L64 /\
  Forall (fun x => -2000000000 <= x <= 5000000000) [1500000001; -2000000000; 4999999999; 7].
Proof. repeat (split; [meets|]). repeat (constructor; [meets|]). constructor. Qed.
(** The bound does not grow without end: it is at most one rounding divided by the weight. *)
Theorem C108_bounded : forall q n, (0 <= q < 1)%Q -> (geom q n <= / (1 - q))%Q.
Proof. exact geom_bounded. Qed.
Print Assumptions C108_bounded.
Example C108_bounded_case : (0 <= 7 # 10 < 1)%Q.
Proof. meets. Qed.
Example C108_example : ema dev L64 9 Nearest 300000000 1500000001 [-2000000000; 4999999999; 7] = Ret (Ok 1270500002) /\
  ema dev L16 2 Floor 50 32767 [-32768] = Ret (Err Overflow).
Proof. split; vm_compute; reflexivity. Qed.

(** ** C109: the running mean *)
Theorem C109_mean : forall b L P, forall m lw up, in_range L lw -> in_range L up -> up - lw <= hi L ->
  forall x l, let N := Z.of_nat (length (x :: l)) in in_range L N -> roomy m L N -> Forall (fun x => lw <= x <= up) (x :: l) ->
  exists r, mean b L m 1 x l = Ret (Ok r) /\ lw <= r <= up /\
    (Qabs (dec P r - qsum P (x :: l) / Zq N) <= slack m * q10 (- P) * (Zq ((N - 1) * (N + 2)) / Zq (2 * N)))%Q.
Proof. exact mean_within. Qed.
Print Assumptions C109_mean.
Example C109_mean_case : in_range L64 (-2000000000) /\ in_range L64 5000000000 /\ 5000000000 - -2000000000 <= hi L64 /\
  in_range L64 4 /\ roomy Nearest L64 4 /\ Forall (fun x => -2000000000 <= x <= 5000000000) [1500000001; -2000000000; 4999999999; 7].
Proof. do 4 (split; [meets|]). split; [unfold roomy; meets|]. repeat (constructor; [meets|]). constructor. Qed.
Example C109_example : mean dev L64 Nearest 1 1500000001 [-2000000000; 4999999999; 7] = Ret (Ok 1125000002) /\
  mean release L16 Floor 1 32767 [32767; 32766; 32766] = Ret (Ok 32766) /\ cadd L16 32767 32767 = Err Overflow.
Proof. repeat split; vm_compute; reflexivity. Qed.
