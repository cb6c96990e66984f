(** * PropsAccept: C70 and C71, the operands and inputs that are accepted. *)
From Coq Require Import QArith Qabs Qpower.
From Verif Require Import Base Promo ConstFn Ops Str Float Codec Macros Spec SpecText SpecMacro SpecF64.
From Verif Require Import SpecTypes TypeFacts AcceptFacts.
From Verif Require Import Fixed.
From Verif Require Import Meets.
Open Scope Z_scope.

(** ** C70 *)
Theorem C70_promote : forall r o, promote r o <> None <-> widens (okind o) r.
Proof. exact promote_some. Qed.
Print Assumptions C70_promote.
Theorem C70_cadd : forall r x y, op_cadd r x y <> None <->
  widens (okind x) r /\ widens (okind y) r /\ (fixed r -> okind x = r /\ okind y = r).
Proof. exact cadd_types. Qed.
Print Assumptions C70_cadd.
Theorem C70_csub : forall r x y, op_csub r x y <> None <->
  widens (okind x) r /\ widens (okind y) r /\ (fixed r -> okind x = r /\ okind y = r).
Proof. exact csub_types. Qed.
Print Assumptions C70_csub.
Theorem C70_saturating_add : forall r x y, op_saturating_add r x y <> None <->
  widens (okind x) r /\ widens (okind y) r /\ (fixed r -> okind x = r /\ okind y = r).
Proof. exact sadd_types. Qed.
Print Assumptions C70_saturating_add.
Theorem C70_saturating_sub : forall r x y, op_saturating_sub r x y <> None <->
  widens (okind x) r /\ widens (okind y) r /\ (fixed r -> okind x = r /\ okind y = r).
Proof. exact ssub_types. Qed.
Print Assumptions C70_saturating_sub.
(** With a fixed-point result exactly one factor is fixed-point. *)
Theorem C70_cmul : forall r x y, op_cmul r x y <> None <->
  widens (okind x) r /\ widens (okind y) r /\ (fixed r -> okind x = r <-> okind y <> r).
Proof. exact cmul_types. Qed.
Print Assumptions C70_cmul.
Theorem C70_rmul : forall b m r x y, op_rmul b r x y m <> None <-> fixed r /\ okind x = r /\ okind y = r.
Proof. exact rmul_types. Qed.
Print Assumptions C70_rmul.
Theorem C70_rdiv : forall b m r x y, op_rdiv b r x y m <> None <-> widens (okind x) r /\ widens (okind y) r.
Proof. exact rdiv_types. Qed.
Print Assumptions C70_rdiv.
Example C70_example : widens (KInt I8) (KFp L16 4) /\ widens (KInt I32) (KInt I64) /\ fixed (KFp L16 4) /\
  op_cadd (KInt I64) {| okind := KInt I32; oval := -7 |} {| okind := KInt I64; oval := 9 |} = Some (Ret (Ok 2)) /\
  op_cmul (KFp L16 4) {| okind := KInt I8; oval := -7 |} {| okind := KFp L16 4; oval := 9 |} = Some (Ret (Ok (-63))) /\
  op_cadd (KInt I32) {| okind := KInt I64; oval := 1 |} {| okind := KInt I32; oval := 1 |} = None /\
  op_cadd (KInt USize) {| okind := KInt USize; oval := 1 |} {| okind := KInt USize; oval := 1 |} = None /\
  op_cmul (KFp L16 4) {| okind := KFp L16 4; oval := 1 |} {| okind := KFp L16 4; oval := 1 |} = None.
Proof.
  split; [split; [cbn; auto|vm_compute; discriminate]|]. split; [split; [cbn; auto|split; [cbn; auto|vm_compute; discriminate]]|].
  split; [now exists L16, 4|]. repeat split; vm_compute; reflexivity.
Qed.

(** ** C71 *)
Theorem C71_str : forall b L P s x, valid b L P ->
  (str_deserialize b L P (TStr true s) = Ret (Ok x) <->
   exists neg i f, spells s neg i f /\ (P = 0 -> f = None) /\ in_range L x /\ rounds_to Nearest P (spelled neg i f) x).
Proof. exact str_accepts. Qed.
Print Assumptions C71_str.
Example C71_str_case : valid dev L64 9.
Proof. meets. Qed.
Theorem C71_str_total : forall b L P tok, valid b L P ->
  (exists x, str_deserialize b L P tok = Ret (Ok x)) \/ str_deserialize b L P tok = Ret (Err ConvertError).
Proof. exact str_total. Qed.
Print Assumptions C71_str_total.
Example C71_str_total_case : valid dev L64 9.
Proof. meets. Qed.
Theorem C71_str_rejects : forall b L P tok, (forall s, tok <> TStr true s) -> str_deserialize b L P tok = Ret (Err ConvertError).
Proof. exact str_rejects. Qed.
Print Assumptions C71_str_rejects.
Example C71_str_rejects_case : (forall s, (TInt U8 7) <> TStr true s).
Proof. intros; discriminate. Qed.
Theorem C71_str_option : forall b L P tok x, valid b L P ->
  (str_option_deserialize b L P tok = Ret (Ok x) <->
   (tok = TNone /\ x = None) \/ exists inner y, tok = TSome inner /\ x = Some y /\ str_deserialize b L P inner = Ret (Ok y)).
Proof. exact str_option_accepts. Qed.
Print Assumptions C71_str_option.
Example C71_str_option_case : valid dev L64 9.
Proof. meets. Qed.
(** An integer call of at most 64 bits goes through the nearest f64 ... *)
Theorem C71_float_int : forall b L P t z, valid b L P -> fits t z -> width t <= 64 ->
  exists raw, f64_finite raw /\ (Qabs (f64_val raw - Zq z) <= Qabs (Zq z) * Qpower (2 # 1) (-52))%Q /\
    float_deserialize b L P (TInt t z) = try_from_f64 b L P raw /\
    float_option_deserialize b L P (TSome (TInt t z)) = (r <- try_from_f64 b L P raw ;; Ret (rmap Some r)).
Proof. exact float_int. Qed.
Print Assumptions C71_float_int.
Example C71_float_int_case : valid dev L64 9 /\ fits U64 9007199254740993 /\ width U64 <= 64.
Proof. meets. Qed.
(** ... so that up to 2^53 it is exact. *)
Theorem C71_float_small_int : forall b L P t z, valid b L P -> fits t z -> width t <= 64 -> Z.abs z <= 2 ^ 53 ->
  (- hi L <= z * 10 ^ P <= hi L -> float_deserialize b L P (TInt t z) = Ret (Ok (z * 10 ^ P))) /\
  (~ - hi L <= z * 10 ^ P <= hi L -> float_deserialize b L P (TInt t z) = Ret (Err ConvertError)).
Proof. exact float_small_int. Qed.
Print Assumptions C71_float_small_int.
Example C71_float_small_int_case : valid dev L64 9 /\ fits I64 (-2250000000) /\ width I64 <= 64 /\ Z.abs (-2250000000) <= 2 ^ 53.
Proof. meets. Qed.
Theorem C71_float_rejects : forall b L P tok, (forall raw, tok <> TF64 raw) -> (forall t z, tok = TInt t z -> 64 < width t) ->
  float_deserialize b L P tok = Ret (Err ConvertError) /\ float_option_deserialize b L P (TSome tok) = Ret (Err ConvertError).
Proof. exact float_rejects. Qed.
Print Assumptions C71_float_rejects.
Example C71_float_rejects_case : (forall raw, (TInt I128 7) <> TF64 raw) /\ (forall t z, (TInt I128 7) = TInt t z -> 64 < width
  t).
Proof. split; [intros; discriminate|]; intros t z e; injection e as <- <-; reflexivity. Qed.
Theorem C71_repr_option : forall L tok x, repr_option_deserialize L tok = Ok x <->
  (tok = TNone /\ x = None) \/ exists t z, tok = TSome (TInt t z) /\ x = Some z /\ in_range L z.
Proof. exact repr_option_accepts. Qed.
Print Assumptions C71_repr_option.
Theorem C71_option_rejects : forall b L P tok, tok <> TNone -> (forall inner, tok <> TSome inner) ->
  float_option_deserialize b L P tok = Ret (Err ConvertError) /\ str_option_deserialize b L P tok = Ret (Err ConvertError) /\
  repr_option_deserialize L tok = Err ConvertError.
Proof. exact option_rejects. Qed.
Print Assumptions C71_option_rejects.
Example C71_option_rejects_case : (TInt U8 7) <> TNone /\ (forall inner, (TInt U8 7) <> TSome inner).
Proof. split; [|intros]; discriminate. Qed.
(** "0.00005" rounds to 0.0001; 9007199254740993 is 2^53 + 1. *)
Example C71_example : valid dev L16 4 /\ valid dev L128 18 /\
  str_deserialize dev L16 4 (TStr true [48; 46; 48; 48; 48; 48; 53]) = Ret (Ok 1) /\
  str_option_deserialize dev L16 4 (TSome (TStr true [48; 46; 48; 48; 48; 48; 53])) = Ret (Ok (Some 1)) /\
  str_deserialize dev L16 4 (TInt I8 1) = Ret (Err ConvertError) /\
  fits U64 9007199254740993 /\ width U64 <= 64 /\
  float_deserialize dev L128 18 (TInt U64 9007199254740993) = Ret (Ok 9007199254740992000000000000000000) /\
  float_deserialize dev L16 4 (TInt I8 (-3)) = Ret (Ok (-30000)) /\
  float_deserialize dev L16 4 (TInt I128 (-3)) = Ret (Err ConvertError).
Proof. example. Qed.
