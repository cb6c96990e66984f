(** * SpecUndo: vocabulary for laws that hold up to the last digit. *)
From Verif Require Import Base Promo Spec.
Open Scope Z_scope.

(** The difference, in units of the last digit, between rounding a sum and adding two rounded terms. *)
Definition drift (m : mode) (k : Z) : Prop :=
  match m with Floor => 0 <= k <= 1 | Ceil => -1 <= k <= 0 | Nearest => -1 <= k <= 1 end.
(** Twice the rest of a division by [y] fits the type; only [Nearest] needs it. *)
Definition roomy (m : mode) (L : layout) (y : Z) : Prop := m = Nearest -> 2 * Z.abs y <= hi L + 1.
