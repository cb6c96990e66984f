(** * SpecRound: the three roundings to whole numbers by their mode, and modes seen from the other
    side of zero. *)
From Verif Require Import Base Promo Ops Spec.
From Verif Require Import Fixed.
Open Scope Z_scope.

(** [floor], [round] and [ceil], src/lib.rs:518-534. *)
Definition rounder (m : mode) (b : build) (L : layout) (P x : Z) : outcome Z :=
  match m with Floor => floor b L P x | Nearest => round b L P x | Ceil => ceil b L P x end.
Definition mirror (m : mode) : mode := match m with Floor => Ceil | Nearest => Nearest | Ceil => Floor end.
(** Rounding to nearest needs twice the fraction, which i128 at precision 38 may not hold. *)
Definition tame (m : mode) (L : layout) (P : Z) : Prop := m = Nearest -> ~ (L = L128 /\ P = 38).
