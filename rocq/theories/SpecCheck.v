(** * SpecCheck: what a result tells about the exact value, whatever the build. *)
From Verif Require Import Base Promo Spec.
Open Scope Z_scope.

(** The call panics, or computes the decimal [d] rounded by [m] or reports that it does not fit. *)
Definition rounded_or_panic (L : layout) (P : Z) (m : mode) (d : Q) (o : outcome (result Z aerr)) : Prop :=
  o = Panic \/ rounded_or_overflow L P m d o.
(** The call panics; or its number is one of the two representable decimals around [d]; or it
    reports [Overflow], and [d] rounded by [m] indeed does not fit. *)
Definition truthful (L : layout) (P : Z) (m : mode) (d : Q) (o : outcome (result Z aerr)) : Prop :=
  o = Panic \/
  (exists r, o = Ret (Ok r) /\ in_range L r /\ (rounds_to Floor P d r \/ rounds_to Ceil P d r)) \/
  (o = Ret (Err Overflow) /\ forall r, rounds_to m P d r -> ~ in_range L r).
