(** * Clients: clients of the public interface. A client is a tree: it makes a call of [SpecCalls],
    sees the answer and goes on. What it does between two calls is any function that knows nothing
    of the build, for example comparisons and the additions and subtractions of [Fixed], which
    take no build either. *)
From Coq Require Import SpecFloat.
From Verif Require Import Base Promo Ops Fixed Str Float Codec.
From Verif Require Import SpecCalls Calls.
From Verif Require Import Fixed.
Open Scope Z_scope.

(** What a call gives back: a number, a number or an arithmetic error, a number or a conversion
    error, mantissa and exponent, a text, a token of serde, or a float. *)
Inductive answer : Type :=
| Plain (z : Z) | Arith (r : result Z aerr) | Conv (r : result Z cerr) | Decimal (d : Z * Z)
| Text (s : str) | Token (t : token) | Float (f : spec_float).

Definition give {A : Type} (f : A -> answer) (o : outcome A) : outcome answer := bind o (fun a => Ret (f a)).
(** The public functions with their results; compare [Calls.run], where the places in /repo are
    those of the functions called. *)
Definition ask (b : build) (L : layout) (P : Z) (c : call) : outcome answer :=
  match c with
  | Rmul x y m => give Arith (rmul b L P x y m)
  | SaturatingRmul x y m => give Plain (saturating_rmul b L P x y m)
  | Rdiv x y m => give Arith (rdiv b L P x y m)
  | RdivInt x n m => give Arith (rdiv_int b L x n m)
  | IntRdiv t n d m => give Arith (int_rdiv b t n d m)
  | IntRdivFp n x m => give Arith (int_rdiv_fp b L P n x m)
  | Recip x m => give Arith (recip b L P x m)
  | HalfSum x y m => give Plain (half_sum b L x y m)
  | Rsqrt x m => give Arith (rsqrt b L P x m)
  | NextPowerOfTen x => give Arith (next_power_of_ten b L x)
  | Integral x m => give Plain (integral b L P x m)
  | IntPart x m => give Plain (match m with Floor => floor b L P x | Nearest => round b L P x | Ceil => ceil b L P x end)
  | FromDecimal n e => give Conv (from_decimal b L P n e)
  | ToDecimal x k => give Decimal (to_decimal b L P x k)
  | TryFromInt n => give Conv (try_from_int b L P n)
  | FromStr s => give Conv (from_str b L P s)
  | FromStrExact s => give Conv (from_str_exact b L P s)
  | ToString x => give Text (to_string b L P x)
  | Serialize x => give Token (serialize b L P x true false)
  | TryFromF64 raw => give Conv (try_from_f64 b L P raw)
  | ToF64 x => give Float (to_f64 b L P x)
  end.

Inductive prog (A : Type) : Type :=
| Done (v : A)
| Ask (L : layout) (P : Z) (c : call) (k : answer -> prog A).
Arguments Done {A} v.
Arguments Ask {A} L P c k.

(** Running a client in a build. *)
Fixpoint exec {A : Type} (b : build) (p : prog A) : outcome A :=
  match p with
  | Done v => Ret v
  | Ask L P c k => bind (ask b L P c) (fun a => exec b (k a))
  end.
(** The client makes the call [c] when it runs in build [b]. *)
Fixpoint reaches {A : Type} (b : build) (p : prog A) (L : layout) (P : Z) (c : call) : Prop :=
  match p with
  | Done _ => False
  | Ask L0 P0 c0 k => (L0 = L /\ P0 = P /\ c0 = c) \/ exists a, ask b L0 P0 c0 = Ret a /\ reaches b (k a) L P c
  end.
(** The calls that format a number; their buffer depends on the feature [i128]. *)
Definition formats (c : call) : Prop := match c with ToString _ | Serialize _ => True | _ => False end.

(** A client: reads a price and a share, multiplies, takes a third and prints the result. *)
Definition sample : prog (option str) :=
  Ask L64 9 (FromStr [49; 46; 53]) (fun a => match a with
  | Conv (Ok x) =>
      Ask L64 9 (Rmul x 2000000001 Nearest) (fun a => match a with
      | Arith (Ok y) =>
          Ask L64 9 (Rdiv y 3000000000 Nearest) (fun a => match a with
          | Arith (Ok z) => Ask L64 9 (ToString z) (fun a => match a with Text s => Done (Some s) | _ => Done None end)
          | _ => Done None
          end)
      | _ => Done None
      end)
  | _ => Done None
  end).
(** A client that divides by the largest number of 16 bits, and falls back if that is an error. *)
Definition sample16 : prog Z :=
  Ask L16 4 (Rdiv 10000 32767 Nearest) (fun a => match a with Arith (Ok z) => Done z | _ => Done 0 end).
