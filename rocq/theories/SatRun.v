(** * SatRun: a running balance with saturating operations, and the derived [Hash]. *)
From Verif Require Import Base Promo Ops Fixed Spec Client.
From Verif Require Import Fixed.
Open Scope Z_scope.

(** A client program, not code of the crate; it calls [saturating_add] and [saturating_sub],
    src/lib.rs:384-387 and 400-403. *)
Definition sat_step (L : layout) (acc : Z) (s : step) : Z :=
  match s with SAdd v => fp_saturating_add L acc v | SSub v => fp_saturating_sub L acc v end.
Fixpoint sat_run (L : layout) (acc : Z) (l : list step) : Z :=
  match l with [] => acc | s :: l => sat_run L (sat_step L acc s) l end.

(** The derived [Hash] (src/lib.rs:197) hands the raw integer to the hasher by one call of
    [Hasher::write_i16] to [write_i128]; [PhantomData] writes nothing. The hasher is any state with
    such a method. *)
Definition hash_into {H : Type} (write : H -> ity -> Z -> H) (L : layout) (h : H) (x : Z) : H := write h (lty L) x.
(** [Hash for [T]] at a slice of numbers hashes the length and then each number (core, [hash_slice]);
    here the numbers only. *)
Definition hash_slice {H : Type} (write : H -> ity -> Z -> H) (L : layout) (h : H) (l : list Z) : H := fold_left (hash_into write L) l h.

(** Specification side: the change made by a step, in units of the last digit. *)
Definition delta (s : step) : Z := match s with SAdd v => v | SSub v => - v end.
Fixpoint change (l : list step) : Z := match l with [] => 0 | s :: l => delta s + change l end.
