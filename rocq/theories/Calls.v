(** * Calls: the public functions as interpreter of [call]; results are dropped. *)
From Verif Require Import Base Promo Ops Fixed Str Float Codec.
From Verif Require Import SpecCalls.
From Verif Require Import Fixed.
Open Scope Z_scope.

(** Drops the result of a call (no code of the crate). *)
Definition forget {A : Type} (o : outcome A) : outcome unit := bind o (fun _ => Ret tt).
(** [IntPart] is [floor], [ceil] and [round]; [Serialize] is the human-readable form (src/serde.rs:27-43). *)
Definition run (b : build) (L : layout) (P : Z) (c : call) : outcome unit :=
  match c with
  | Rmul x y m => forget (rmul b L P x y m)
  | SaturatingRmul x y m => forget (saturating_rmul b L P x y m)
  | Rdiv x y m => forget (rdiv b L P x y m)
  | RdivInt x n m => forget (rdiv_int b L x n m)
  | IntRdiv t n d m => forget (int_rdiv b t n d m)
  | IntRdivFp n x m => forget (int_rdiv_fp b L P n x m)
  | Recip x m => forget (recip b L P x m)
  | HalfSum x y m => forget (half_sum b L x y m)
  | Rsqrt x m => forget (rsqrt b L P x m)
  | NextPowerOfTen x => forget (next_power_of_ten b L x)
  | Integral x m => forget (integral b L P x m)
  | IntPart x m => forget (match m with Floor => floor b L P x | Nearest => round b L P x | Ceil => ceil b L P x end)
  | FromDecimal n e => forget (from_decimal b L P n e)
  | ToDecimal x k => forget (to_decimal b L P x k)
  | TryFromInt n => forget (try_from_int b L P n)
  | FromStr s => forget (from_str b L P s)
  | FromStrExact s => forget (from_str_exact b L P s)
  | ToString x => forget (to_string b L P x)
  | Serialize x => forget (serialize b L P x true false)
  | TryFromF64 raw => forget (try_from_f64 b L P raw)
  | ToF64 x => forget (to_f64 b L P x)
  end.
