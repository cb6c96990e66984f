(** * PropsSchedule: C119, instalments. *)
From Verif Require Import Base Promo Ops Fixed Spec SpecUndo.
From Verif Require Import Schedule ScheduleFacts.
From Verif Require Import Fixed.
From Verif Require Import Meets.
Open Scope Z_scope.

(** ** C119 *)
(** The [n] instalments add up to [x] exactly, and each differs from [x / n] by less than one unit. *)
Theorem C119_schedule : forall b L m x n, in_range L x -> in_range L n -> 0 < n -> roomy m L n -> in_range L (x * n) ->
  exists l, schedule b L m x n = Ret (Ok l) /\ Z.of_nat (length l) = n /\ total l = x /\
    Forall (fun s => Z.abs (n * s - x) < n) l.
Proof. exact schedule_spec. Qed.
Print Assumptions C119_schedule.
Example C119_schedule_case : in_range L64 (-1000000001) /\ in_range L64 7 /\ 0 < 7 /\ roomy Nearest L64 7 /\ in_range L64 (-1000000001 * 7).
Proof. unfold roomy. meets. Qed.
Example C119_example : schedule dev L64 Nearest 100 7 = Ret (Ok [14; 15; 14; 14; 14; 15; 14]).
Proof. example. Qed.
