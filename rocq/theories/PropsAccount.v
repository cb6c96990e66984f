(** * PropsAccount: C123 and C124, chains of exchanges and accounts with interest. *)
From Verif Require Import Base Promo Ops Fixed Spec SpecRound Programs Series.
From Verif Require Import Account AccountFacts.
From Verif Require Import Fixed.
From Verif Require Import Meets.
Open Scope Z_scope.

(** ** C123 *)
(** Exchanges at rates of any size, each rounded down, give at most the exact value, *)
Theorem C123_down : forall b L P x l r, valid b L P -> in_range L x ->
  Forall (fun f => in_range L (fst f) /\ 0 <= fst f /\ snd f = Floor) l ->
  run_mul b L P x l = Ret (Ok r) -> (dec P r <= dec P x * qproduct P l)%Q.
Proof. exact chain_down. Qed.
Print Assumptions C123_down.
Example C123_down_case : valid dev L64 9 /\ in_range L64 100000000001 /\
  Forall (fun f => in_range L64 (fst f) /\ 0 <= fst f /\ snd f = Floor) [(1087300000, Floor); (150110000000, Floor); (6126902, Floor)] /\
  run_mul dev L64 9 100000000001 [(1087300000, Floor); (150110000000, Floor); (6126902, Floor)] = Ret (Ok 99999987755).
Proof. split; [meets|]. split; [meets|]. split; [repeat (constructor; [cbn [fst snd]; meets|]); constructor|]. meets. Qed.
(** each rounded up, at least. *)
Theorem C123_up : forall b L P x l r, valid b L P -> in_range L x ->
  Forall (fun f => in_range L (fst f) /\ 0 <= fst f /\ snd f = Ceil) l ->
  run_mul b L P x l = Ret (Ok r) -> (dec P x * qproduct P l <= dec P r)%Q.
Proof. exact chain_up. Qed.
Print Assumptions C123_up.
Example C123_up_case : valid dev L64 9 /\ in_range L64 (-100000000001) /\
  Forall (fun f => in_range L64 (fst f) /\ 0 <= fst f /\ snd f = Ceil) [(1087300000, Ceil); (150110000000, Ceil); (6126902, Ceil)] /\
  run_mul dev L64 9 (-100000000001) [(1087300000, Ceil); (150110000000, Ceil); (6126902, Ceil)] = Ret (Ok (-99999987755)).
Proof. split; [meets|]. split; [meets|]. split; [repeat (constructor; [cbn [fst snd]; meets|]); constructor|]. meets. Qed.
(** A cycle of exchanges whose rates multiply to at most one never gains, though some rates exceed one. *)
Theorem C123_cycle : forall b L P x l r, valid b L P -> in_range L x -> 0 <= x ->
  Forall (fun f => in_range L (fst f) /\ 0 <= fst f /\ snd f = Floor) l -> (qproduct P l <= 1)%Q ->
  run_mul b L P x l = Ret (Ok r) -> r <= x.
Proof. exact chain_cycle. Qed.
Print Assumptions C123_cycle.
Example C123_cycle_case : valid dev L64 9 /\ in_range L64 100000000001 /\ 0 <= 100000000001 /\
  Forall (fun f => in_range L64 (fst f) /\ 0 <= fst f /\ snd f = Floor) [(4000000000, Floor); (250000000, Floor)] /\
  (qproduct 9 [(4000000000%Z, Floor); (250000000%Z, Floor)] <= 1)%Q /\
  run_mul dev L64 9 100000000001 [(4000000000, Floor); (250000000, Floor)] = Ret (Ok 100000000001).
Proof.
  split; [meets|]. split; [meets|]. split; [meets|]. split; [repeat (constructor; [cbn [fst snd]; meets|]); constructor|].
  split; [vm_compute; discriminate|]. meets.
Qed.
(** Rounding to nearest can gain: *)
Example C123_example : run_mul dev L64 9 3 [(500000000, Nearest); (2000000000, Nearest)] = Ret (Ok 4) /\
  run_mul dev L64 9 3 [(500000000, Floor); (2000000000, Floor)] = Ret (Ok 2).
Proof. example. Qed.

(** ** C124 *)
(** Interest and cash flows: the error of the balance is at most that of one rounding for each
    period, compounded; the only failure is overflow. *)
Theorem C124_error : forall b L P m r x l, valid b L P -> tame m L P -> in_range L r -> in_range L x -> Forall (in_range L) l ->
  (exists y, account b L P m r x l = Ret (Ok y) /\ in_range L y /\
     (Qabs (dec P y - (dec P x * qpow (1 + dec P r) (length l) + qpoly P (1 + dec P r) l)) <=
      slack m * q10 (- P) * geom (Qabs (1 + dec P r)) (length l))%Q) \/
  account b L P m r x l = Ret (Err Overflow).
Proof. exact account_error. Qed.
Print Assumptions C124_error.
Example C124_error_case : valid dev L64 9 /\ tame Nearest L64 9 /\ in_range L64 10000000 /\ in_range L64 1000000000000 /\
  Forall (in_range L64) [0; -333333333333; 5; -333333333333].
Proof.
  split; [meets|]. split; [intros _ [K _]; discriminate K|]. split; [meets|]. split; [meets|]. repeat (constructor; [meets|]). constructor.
Qed.
(** Rounded down, the balance is never above the exact one; rounded up, never below. *)
Theorem C124_floor : forall b L P r x l y, valid b L P -> in_range L r -> - 10 ^ P <= r -> in_range L x -> Forall (in_range L) l ->
  account b L P Floor r x l = Ret (Ok y) -> (dec P y <= dec P x * qpow (1 + dec P r) (length l) + qpoly P (1 + dec P r) l)%Q.
Proof. exact account_floor. Qed.
Print Assumptions C124_floor.
Example C124_floor_case : valid dev L64 9 /\ in_range L64 (-10000001) /\ - 10 ^ 9 <= -10000001 /\ in_range L64 1000000000000 /\
  Forall (in_range L64) [0; -333333333333] /\ account dev L64 9 Floor (-10000001) 1000000000000 [0; -333333333333] = Ret (Ok 646766664687).
Proof.
  split; [meets|]. split; [meets|]. split; [meets|]. split; [meets|]. split; [repeat (constructor; [meets|]); constructor|]. meets.
Qed.
Theorem C124_ceil : forall b L P r x l y, valid b L P -> in_range L r -> - 10 ^ P <= r -> in_range L x -> Forall (in_range L) l ->
  account b L P Ceil r x l = Ret (Ok y) -> (dec P x * qpow (1 + dec P r) (length l) + qpoly P (1 + dec P r) l <= dec P y)%Q.
Proof. exact account_ceil. Qed.
Print Assumptions C124_ceil.
Example C124_ceil_case : valid dev L64 9 /\ in_range L64 (-10000001) /\ - 10 ^ 9 <= -10000001 /\ in_range L64 1000000000000 /\
  Forall (in_range L64) [0; -333333333333] /\ account dev L64 9 Ceil (-10000001) 1000000000000 [0; -333333333333] = Ret (Ok 646766664688).
Proof.
  split; [meets|]. split; [meets|]. split; [meets|]. split; [meets|]. split; [repeat (constructor; [meets|]); constructor|]. meets.
Qed.
(** Compound interest is at least simple interest, in every mode. *)
Theorem C124_simple : forall b L P m r x i l y, valid b L P -> tame m L P -> in_range L r -> 0 <= r -> in_range L x -> 0 <= x ->
  Forall (fun f => in_range L f /\ 0 <= f) l -> rmul b L P x r m = Ret (Ok i) -> account b L P m r x l = Ret (Ok y) ->
  x + Z.of_nat (length l) * i <= y.
Proof. exact account_first. Qed.
Print Assumptions C124_simple.
Example C124_simple_case : valid dev L64 9 /\ tame Nearest L64 9 /\ in_range L64 50 /\ 0 <= 50 /\ in_range L64 1000000000 /\ 0 <= 1000000000 /\
  Forall (fun f => in_range L64 f /\ 0 <= f) [0; 0; 7] /\ rmul dev L64 9 1000000000 50 Nearest = Ret (Ok 50) /\
  account dev L64 9 Nearest 50 1000000000 [0; 0; 7] = Ret (Ok 1000000157).
Proof.
  split; [meets|]. split; [intros _ [K _]; discriminate K|]. split; [meets|]. split; [meets|]. split; [meets|]. split; [meets|].
  split; [repeat (constructor; [meets|]); constructor|]. meets.
Qed.
Example C124_example : account dev L64 9 Nearest 10000000 1000000000000 [0; -343333333333; -343333333333; -340400000000] = Ret (Ok 3203010001).
Proof. example. Qed.
