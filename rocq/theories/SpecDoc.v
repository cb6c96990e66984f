(** * SpecDoc: what the documentation promises of a rounded result (src/lib.rs:178-196, src/ops/mod.rs:247-258). *)
From Coq Require Import Qabs.
From Verif Require Import Base Promo Spec.
Open Scope Z_scope.

(** "Equal or greater than a mathematical result", "equal or less", "ERROR_MAX = 0.5 / (10 ^ PRECISION)";
    directed results are moreover less than one unit away. *)
Definition documented (m : mode) (P : Z) (d : Q) (r : Z) : Prop :=
  match m with
  | Ceil => (d <= dec P r < d + q10 (- P))%Q
  | Floor => (d - q10 (- P) < dec P r <= d)%Q
  | Nearest => (Qabs (dec P r - d) <= (1 # 2) * q10 (- P))%Q
  end.
(** Checks are needed for [Nearest] only. *)
Definition sound_for (b : build) (m : mode) : Prop := ovf b = true \/ m <> Nearest.
