(** * Average: moving averages, written against the API.

    Client programs, not code of the crate; they call [csub], [cadd] (src/lib.rs:374-403), [rmul]
    (src/lib.rs:275-305) and [rdiv] by an integer (src/lib.rs:351-360), and stop at the first
    error. *)
From Coq Require Import QArith Qabs.
From Verif Require Import Base Promo Ops Spec Programs.
From Verif Require Import Fixed.
Open Scope Z_scope.

(** The exponential moving average: [s + a (x - s)] for each sample [x]. *)
Fixpoint ema (b : build) (L : layout) (P : Z) (m : mode) (a s : Z) (l : list Z) : outcome (result Z aerr) :=
  match l with
  | [] => Ret (Ok s)
  | x :: l => try_ (Ret (csub L x s)) (fun d => try_ (rmul b L P d a m) (fun p => try_ (Ret (cadd L s p)) (fun s => ema b L P m a s l)))
  end.
(** The running mean: [s] is the mean of [n] samples; each further one moves it by its share of the distance. *)
Fixpoint mean (b : build) (L : layout) (m : mode) (n s : Z) (l : list Z) : outcome (result Z aerr) :=
  match l with
  | [] => Ret (Ok s)
  | x :: l => try_ (Ret (csub L x s)) (fun d => try_ (rdiv_int b L d (n + 1) m) (fun p => try_ (Ret (cadd L s p)) (fun s => mean b L m (n + 1) s l)))
  end.

(** Specification side: the same in rational numbers. *)
Fixpoint qema (P : Z) (a s : Q) (l : list Z) : Q :=
  match l with [] => s | x :: l => qema P a (a * dec P x + (1 - a) * s)%Q l end.
Fixpoint qsum (P : Z) (l : list Z) : Q := match l with [] => 0%Q | x :: l => (dec P x + qsum P l)%Q end.
