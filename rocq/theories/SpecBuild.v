(** * SpecBuild: vocabulary for comparing the same operation in two builds. *)
From Verif Require Import Base.

(** All run-time checks are on, as in the dev profile. *)
Definition strict (b : build) : Prop := ovf b = true /\ dbg b = true.
(** The two builds have the same profile (and may differ in their features). *)
Definition same_profile (b b' : build) : Prop := ovf b = ovf b' /\ dbg b = dbg b'.
(** The checked outcome [o] is the other outcome, unless it is a panic. *)
Definition unless_panic {A : Type} (o o' : outcome A) : Prop := o = Panic \/ o = o'.

(** A dev build without the feature [i128], used by examples. *)
Definition dev64 : build := {| ovf := true; dbg := true; std := true; f128 := false |}.
