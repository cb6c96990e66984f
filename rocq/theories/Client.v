(** * Client: small programs written against the API, used to state properties of histories. *)
From Verif Require Import Base Promo Ops Fixed Spec.

(** One step of a running balance: add or subtract a number.  (A client program, not code of the
    crate; it calls [cadd] and [csub], src/lib.rs:373-403, and stops at the first error.) *)
Inductive step : Type := SAdd (v : Z) | SSub (v : Z).
Definition do_step (L : layout) (acc : Z) (s : step) : result Z aerr :=
  match s with SAdd v => cadd L acc v | SSub v => csub L acc v end.
Fixpoint run_steps (L : layout) (acc : Z) (l : list step) : result Z aerr :=
  match l with
  | [] => Ok acc
  | s :: l => match do_step L acc s with Ok acc => run_steps L acc l | Err e => Err e end
  end.

(** Specification side: the exact decimal change made by a list of steps. *)
Definition qdelta (P : Z) (s : step) : Q :=
  match s with SAdd v => dec P v | SSub v => (- dec P v)%Q end.
Fixpoint qtotal (P : Z) (l : list step) : Q :=
  match l with [] => 0%Q | s :: l => (qdelta P s + qtotal P l)%Q end.
