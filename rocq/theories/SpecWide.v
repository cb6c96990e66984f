(** * SpecWide: wrapping to 256 bits. *)
From Coq Require Import ZArith.
Open Scope Z_scope.

(** [r] is [v] reduced to the range of signed 256-bit integers. *)
Definition wraps256 (v r : Z) : Prop := - 2 ^ 255 <= r < 2 ^ 255 /\ exists k, r = v + k * 2 ^ 256.
