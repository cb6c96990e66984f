(** * PropsCalc: C125, texts in and text out. *)
From Verif Require Import Base Promo Ops Fixed Str Spec SpecText.
From Verif Require Import Calc CalcFacts.
From Verif Require Import Fixed.
From Verif Require Import Meets.
Open Scope Z_scope.

(** ** C125 *)
(** The calculator answers [w] exactly when both texts are decimals of the type and [w] is the
    canonical text of the exact result, rounded (division: not to nearest, see C10); *)
Theorem C125_calc : forall b L P m o s t w, valid b L P -> 0 < P -> ~ (L = L128 /\ P = 38) -> (o = Over -> m <> Nearest) ->
  (calc b L P m o s t = Ret (Ok w) <-> exists u v, reads L P s u /\ reads L P t v /\ answer L P m o u v w).
Proof. exact calc_exact. Qed.
Print Assumptions C125_calc.
Example C125_calc_case : valid dev L128 18 /\ 0 < 18 /\ ~ (L128 = L128 /\ 18 = 38) /\ (Times = Over -> Nearest <> Nearest).
Proof. split; [meets|]. split; [meets|]. split; [intros [_ K]; discriminate K|]. discriminate. Qed.
(** otherwise it reports an error. *)
Theorem C125_total : forall b L P m o s t, valid b L P -> 0 < P -> ~ (L = L128 /\ P = 38) -> (o = Over -> m <> Nearest) ->
  (exists w, calc b L P m o s t = Ret (Ok w)) \/ (exists e, calc b L P m o s t = Ret (Err e)).
Proof. exact calc_total. Qed.
Print Assumptions C125_total.
Example C125_total_case : valid dev L128 18 /\ 0 < 18 /\ ~ (L128 = L128 /\ 18 = 38) /\ (Times = Over -> Nearest <> Nearest).
Proof. split; [meets|]. split; [meets|]. split; [intros [_ K]; discriminate K|]. discriminate. Qed.
(** The error says what went wrong: a text that is not a decimal of the type, *)
Theorem C125_unread : forall b L P m o s t, valid b L P -> 0 < P -> ~ (L = L128 /\ P = 38) -> (o = Over -> m <> Nearest) ->
  (calc b L P m o s t = Ret (Err (Unread ConvertError)) <-> ~ (exists u v, reads L P s u /\ reads L P t v)).
Proof. exact calc_unread. Qed.
Print Assumptions C125_unread.
Example C125_unread_case : valid dev L128 18 /\ 0 < 18 /\ ~ (L128 = L128 /\ 18 = 38) /\ (Times = Over -> Nearest <> Nearest) /\
  calc dev L128 18 Nearest Times [49; 46; 53] [46; 53] = Ret (Err (Unread ConvertError)).
Proof. split; [meets|]. split; [meets|]. split; [intros [_ K]; discriminate K|]. split; [discriminate|]. vm_compute; reflexivity. Qed.
(** a divisor of zero, or a rounded result out of range. *)
Theorem C125_failed : forall b L P m o s t u v, valid b L P -> 0 < P -> ~ (L = L128 /\ P = 38) -> (o = Over -> m <> Nearest) ->
  reads L P s u -> reads L P t v ->
  (calc b L P m o s t = Ret (Err (Failed DivisionByZero)) <-> o = Over /\ (v == 0)%Q) /\
  (calc b L P m o s t = Ret (Err (Failed Overflow)) <->
     (o = Over -> ~ (v == 0)%Q) /\ forall r, rounds_to m P (exactly o u v) r -> ~ in_range L r).
Proof. exact calc_failed. Qed.
Print Assumptions C125_failed.
(** "3.2" and "-0.5" read, for i16 with precision 4; their quotient is -6.4, past the end. *)
Example C125_failed_case : valid dev L16 4 /\ 0 < 4 /\ ~ (L16 = L128 /\ 4 = 38) /\ (Over = Over -> Floor <> Nearest) /\
  reads L16 4 [51; 46; 50] (32 # 10) /\ reads L16 4 [45; 48; 46; 53] (- 1 # 2) /\
  calc dev L16 4 Floor Over [51; 46; 50] [45; 48; 46; 53] = Ret (Err (Failed Overflow)).
Proof.
  split; [meets|]. split; [meets|]. split; [intros [K _]; discriminate K|]. split; [discriminate|].
  split; [|split; [|vm_compute; reflexivity]].
  - exists false, [51], (Some [50]), 32000. split.
    + exists [], [], []. repeat split; try discriminate; try (left; reflexivity); repeat constructor; unfold space, digit; lia.
    + split; [vm_compute; discriminate|]. split; [|reflexivity]. split; [split; vm_compute; discriminate|reflexivity].
  - exists true, [48], (Some [53]), (-5000). split.
    + exists [], [45], []. repeat split; try discriminate; repeat constructor; unfold space, digit; lia.
    + split; [vm_compute; discriminate|]. split; [|reflexivity]. split; [split; vm_compute; discriminate|reflexivity].
Qed.
(** " 10" / "-3" = "-3.333333334" rounded down, "1.5" * "0.1" = "0.15", "1" / "0" fails. *)
Example C125_example : calc dev L64 9 Floor Over [32; 49; 48] [45; 51] = Ret (Ok [45; 51; 46; 51; 51; 51; 51; 51; 51; 51; 51; 52]) /\
  calc dev L64 9 Ceil Times [49; 46; 53] [48; 46; 49] = Ret (Ok [48; 46; 49; 53]) /\
  calc dev L64 9 Ceil Over [49] [48] = Ret (Err (Failed DivisionByZero)).
Proof. example. Qed.
