(** * Statements: formatting what does not fit (C91) and exactly which calls panic (C92). *)
From Verif Require Import Base Promo Ops Fixed Str Codec Spec SpecText SpecF64.
From Verif Require Import SpecCalls Calls ShowMore CallFacts.
From Verif Require Import Fixed.
From Verif Require Import Meets.
Open Scope Z_scope.

(** ** C91 *)
Theorem C91_fraction_text : forall b x, valid b L128 38 -> in_range L128 x -> ovf b = false -> hi L128 < Z.abs x mod 10 ^ 38 + 10 ^ 38 ->
  (0 <= x \/ (2 ^ 128 - Z.abs x mod 10 ^ 38) mod 10 = 0) ->
  exists f, digits f /\ numval f * 10 ^ 39 = (2 ^ 128 - 10 ^ 38 - Z.abs x mod 10 ^ 38) * 10 ^ Z.of_nat (length f) /\
    to_string b L128 38 x = Ret ((if x <? 0 then [45] else []) ++ (48 + Z.abs x / 10 ^ 38) :: 46 :: f).
Proof. exact show_38_text. Qed.
Print Assumptions C91_fraction_text.
Example C91_fraction_text_case : valid release L128 38 /\ in_range L128 99999999999999999999999999999999999999 /\ ovf release =
  false /\ hi L128 < Z.abs 99999999999999999999999999999999999999 mod 10 ^ 38 + 10 ^ 38 /\ (0 <=
  99999999999999999999999999999999999999 \/ (2 ^ 128 - Z.abs 99999999999999999999999999999999999999 mod 10 ^ 38) mod 10 = 0).
Proof. meets. Qed.
Theorem C91_fraction_overrun : forall b x, valid b L128 38 -> in_range L128 x -> ovf b = false -> hi L128 < Z.abs x mod 10 ^ 38 + 10 ^ 38 ->
  x < 0 -> (2 ^ 128 - Z.abs x mod 10 ^ 38) mod 10 <> 0 -> to_string b L128 38 x = if dbg b then Panic else Undef.
Proof. exact show_38_overrun. Qed.
Print Assumptions C91_fraction_overrun.
Example C91_fraction_overrun_case : valid release L128 38 /\ in_range L128 (-99999999999999999999999999999999999999) /\ ovf
  release = false /\ hi L128 < Z.abs (-99999999999999999999999999999999999999) mod 10 ^ 38 + 10 ^ 38 /\
  (-99999999999999999999999999999999999999) < 0 /\ (2 ^ 128 - Z.abs (-99999999999999999999999999999999999999) mod 10 ^ 38) mod 10
  <> 0.
Proof. meets. Qed.
Theorem C91_min_text : forall b L, valid b L 0 -> ovf b = false -> - 10 ^ (buffer b - 4) < lo L ->
  exists i, digits i /\ numval i = - lo L /\ (hd 0 i = 48 -> i = [48]) /\ to_string b L 0 (lo L) = Ret (45 :: 45 :: i ++ [46; 48]).
Proof. exact show_min_text. Qed.
Print Assumptions C91_min_text.
Example C91_min_text_case : valid release L64 0 /\ ovf release = false /\ - 10 ^ (buffer release - 4) < lo L64.
Proof. meets. Qed.
Theorem C91_min_overrun : forall b L, valid b L 0 -> ovf b = false -> lo L <= - 10 ^ (buffer b - 4) ->
  to_string b L 0 (lo L) = if dbg b then Panic else Undef.
Proof. exact show_min_overrun. Qed.
Print Assumptions C91_min_overrun.
Example C91_min_overrun_case : valid release L128 0 /\ ovf release = false /\ lo L128 <= - 10 ^ (buffer release - 4).
Proof. meets. Qed.
(** 0.75 prints as 0.165…, -0.75 as -0.165…, and -0.75…1 overruns the buffer. *)
Example C91_example :
  valid release L128 38 /\ in_range L128 (75 * 10 ^ 36) /\ ovf release = false /\ hi L128 < Z.abs (75 * 10 ^ 36) mod 10 ^ 38 + 10 ^ 38 /\
  to_string release L128 38 (75 * 10 ^ 36) =
    Ret [48; 46; 49; 54; 53; 50; 56; 50; 51; 54; 54; 57; 50; 48; 57; 51; 56; 52; 54; 51; 52; 54; 51; 51; 55; 52; 54; 48; 55; 52; 51; 49; 55; 54; 56; 50; 49; 49; 52; 53; 54] /\
  hi L128 < Z.abs (-75 * 10 ^ 36 - 6) mod 10 ^ 38 + 10 ^ 38 /\ (2 ^ 128 - Z.abs (-75 * 10 ^ 36 - 6) mod 10 ^ 38) mod 10 = 0 /\
  (2 ^ 128 - Z.abs (-75 * 10 ^ 36) mod 10 ^ 38) mod 10 <> 0 /\ to_string release L128 38 (-75 * 10 ^ 36) = Undef /\
  valid release L16 0 /\ - 10 ^ (buffer release - 4) < lo L16 /\ to_string release L16 0 (lo L16) = Ret [45; 45; 51; 50; 55; 54; 56; 46; 48].
Proof.
  repeat match goal with |- _ /\ _ => split end; try (vm_compute; reflexivity); try (vm_compute; split; discriminate); try (vm_compute; discriminate).
  all: split; [intros ?; (reflexivity || discriminate)|vm_compute; split; discriminate].
Qed.

(** ** C92 *)
Theorem C92_panics : forall b L P c, valid b L P -> proper L c ->
  (run b L P c = Panic <-> panics b L P c) /\ (run b L P c = Undef <-> undefined b L P c) /\ run b L P c <> NoFuel.
Proof. exact panic_map. Qed.
Print Assumptions C92_panics.
Example C92_panics_case : valid dev L64 9 /\ proper L64 (Rdiv (-700000001) 3 Nearest).
Proof. split; [meets|]; cbn [proper]; meets. Qed.
(** All conditions can be met, and the calls nearby return. *)
Example C92_example :
  proper L128 (Rmul 1 (10 ^ 38 - 1) Nearest) /\ run dev L128 38 (Rmul 1 (10 ^ 38 - 1) Nearest) = Panic /\ run release L128 38 (Rmul 1 (10 ^ 38 - 1) Nearest) = Ret tt /\
  run dev L128 37 (Rmul 1 (10 ^ 37 - 1) Nearest) = Ret tt /\ run dev L128 38 (Rmul 1 (10 ^ 38 - 1) Floor) = Ret tt /\
  run dev L64 9 (Rdiv 1 (hi L64) Nearest) = Ret tt /\ run dev L64 9 (Rdiv (9 * 10 ^ 9) (hi L64) Nearest) = Panic /\ run dev L64 9 (Rdiv 1 0 Nearest) = Ret tt /\
  run release L64 9 (RdivInt (lo L64) (-1) Floor) = Panic /\ run dev L64 9 (RdivInt (hi L64) (lo L64) Nearest) = Panic /\ run release L64 9 (RdivInt (hi L64) (lo L64) Nearest) = Ret tt /\
  run dev L64 9 (IntRdiv I32 (imin I32) (-1) Ceil) = Panic /\ run dev L64 9 (IntRdivFp 9 (hi L64) Nearest) = Panic /\ run dev L64 9 (Recip (lo L64) Nearest) = Panic /\
  run dev L64 9 (Integral (lo L64) Floor) = Panic /\ run release L64 9 (Integral (lo L64) Floor) = Ret tt /\
  run release L64 9 (IntPart (hi L64) Ceil) = Panic /\ run release L64 9 (IntPart (hi L64) Floor) = Ret tt /\
  run dev L16 4 (FromDecimal 0 1) = Panic /\ run release L16 4 (FromDecimal 0 1) = Ret tt /\ run dev L16 4 (ToDecimal 5 (-5)) = Panic /\
  run dev L64 0 (ToString (lo L64)) = Panic /\ run release L64 0 (ToString (lo L64)) = Ret tt /\ run release L128 0 (ToString (lo L128)) = Undef /\
  run dev L128 0 (Serialize (lo L128 + 1)) = Panic /\ run release L128 0 (Serialize (lo L128 + 1)) = Undef.
Proof. repeat split; try (vm_compute; reflexivity); vm_compute; discriminate. Qed.
