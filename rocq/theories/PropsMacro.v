(** * PropsMacro: C41, C42, C62. *)
From Verif Require Import Base Promo ConstFn Ops Macros Spec SpecText SpecMacro MacroFacts LitFacts.
From Verif Require Import Fixed.
From Verif Require Import Meets.
Open Scope Z_scope.

(** Proves [literal] for concrete text with the sign given. *)
Ltac lit sg :=
  split; [discriminate|]; split; [cbn; repeat constructor; discriminate|];
  split; [cbn; repeat constructor; discriminate|]; exists sg; auto.

(** ** C41 *)
(** Missing: literals that do not fit the layout but fit the wider integer in which constants are
    computed, which compile to something else; and builds without overflow checks, for which see
    the completeness theorem.  Source files are shorter than 2^32 bytes. *)
Theorem C41_sound_partial : forall b L P s neg i f r,
  valid b L P -> ovf b = true -> Forall byte s -> Z.of_nat (length s) < 2 ^ 32 ->
  literal s neg i f -> fixnum_const b L P s = Ret r ->
  (bits L = const_bits b \/ exists r', represents L P (spelled neg i f) r') ->
  represents L P (spelled neg i f) r.
Proof. exact lit_sound. Qed.
Print Assumptions C41_sound_partial.
Example C41_sound_partial_case : valid dev L64 9 /\ ovf dev = true /\ Forall byte [45; 49; 50; 46; 53] /\ Z.of_nat (length [45;
  49; 50; 46; 53]) < 2 ^ 32 /\ literal [45; 49; 50; 46; 53] true [49; 50] (Some [53]) /\ fixnum_const dev L64 9 [45; 49; 50; 46;
  53] = Ret (-12500000000) /\ (bits L64 = const_bits dev \/ exists r', represents L64 9 (spelled true [49; 50] (Some [53])) r').
Proof. do 6 (split; [meets|]); right; exists (-12500000000); meets. Qed.
Theorem C41_places : forall b L P s neg i f r,
  valid b L P -> ovf b = true -> Forall byte s -> Z.of_nat (length s) < 2 ^ 32 ->
  literal s neg i f -> fixnum_const b L P s = Ret r -> places f <= P.
Proof. exact lit_places. Qed.
Print Assumptions C41_places.
Example C41_places_case : valid dev L64 9 /\ ovf dev = true /\ Forall byte [45; 49; 50; 46; 53] /\ Z.of_nat (length [45; 49; 50;
  46; 53]) < 2 ^ 32 /\ literal [45; 49; 50; 46; 53] true [49; 50] (Some [53]) /\ fixnum_const dev L64 9 [45; 49; 50; 46; 53] = Ret
  (-12500000000).
Proof. meets. Qed.
(** In every build.  Missing: more integer digits than the largest constant has (leading zeros),
    and MIN of the widest layout; see C62. *)
Theorem C41_complete_partial : forall b L P s neg i f r,
  valid b L P -> literal s neg i f -> places f <= P ->
  Z.of_nat (length i) <= const_digits b -> represents L P (spelled neg i f) r ->
  (bits L = const_bits b -> r <> lo L) -> fixnum_const b L P s = Ret r.
Proof. exact lit_complete. Qed.
Print Assumptions C41_complete_partial.
Example C41_complete_partial_case : valid dev L64 9 /\ literal [45; 49; 50; 46; 53] true [49; 50] (Some [53]) /\ places (Some
  [53]) <= 9 /\ Z.of_nat (length [49; 50]) <= const_digits dev /\ represents L64 9 (spelled true [49; 50] (Some [53]))
  (-12500000000) /\ (bits L64 = const_bits dev -> (-12500000000) <> lo L64).
Proof. meets. Qed.
Theorem C41_literal_unique : forall s neg i f neg' i' f',
  literal s neg i f -> literal s neg' i' f' -> neg = neg' /\ i = i' /\ f = f'.
Proof. exact literal_unique. Qed.
Print Assumptions C41_literal_unique.
Example C41_literal_unique_case : literal [45; 49; 50; 46; 53] true [49; 50] (Some [53]) /\ literal [45; 49; 50; 46; 53] true [49;
  50] (Some [53]).
Proof. meets. Qed.
Theorem C41_truncated_refuted : exists s neg i f r, valid dev L16 4 /\ literal s neg i f /\ places f <= 4 /\
  (forall r', ~ represents L16 4 (spelled neg i f) r') /\ fixnum_const dev L16 4 s = Ret r.
Proof. exact lit_truncated_refuted. Qed.
Print Assumptions C41_truncated_refuted.
Theorem C41_places_refuted : exists s neg i f, valid release64 L64 9 /\ literal s neg i f /\ 9 < places f /\
  ~ (spelled neg i f == 0)%Q /\ fixnum_const release64 L64 9 s = Ret 0.
Proof. exact lit_places_refuted. Qed.
Print Assumptions C41_places_refuted.
(** -12.34 with precision 9; 1.12 with precision 1 does not compile. *)
Example C41_example : valid no_std L64 9 /\ literal [45; 49; 50; 46; 51; 52] true [49; 50] (Some [51; 52]) /\
  places (Some [51; 52]) <= 9 /\ represents L64 9 (spelled true [49; 50] (Some [51; 52])) (-12340000000) /\
  fixnum_const no_std L64 9 [45; 49; 50; 46; 51; 52] = Ret (-12340000000) /\
  bits L64 = const_bits no_std /\ fixnum_const no_std L64 1 [49; 46; 49; 50] = Panic.
Proof. split; [example|split; [lit [45]|example]]. Qed.

(** ** C42 *)
Theorem C42_promote : forall r o o', promote r o = Some o' -> typed o -> typed o' /\ (value o' == value o)%Q.
Proof. exact promote_ok. Qed.
Print Assumptions C42_promote.
Example C42_promote_case : promote (KFp L64 9) {| okind := KInt I8; oval := -2 |} = Some {| okind := KInt I64; oval := -2 |} /\
  typed {| okind := KInt I8; oval := -2 |}.
Proof. meets. Qed.
Theorem C42_cadd : forall r x y o, typed x -> typed y -> op_cadd r x y = Some o -> computes r (value x + value y) o.
Proof. exact op_cadd_ok. Qed.
Print Assumptions C42_cadd.
Example C42_cadd_case : typed {| okind := KFp L64 9; oval := 1500000000 |} /\ typed {| okind := KFp L64 9; oval := -700000001 |}
  /\ op_cadd (KFp L64 9) {| okind := KFp L64 9; oval := 1500000000 |} {| okind := KFp L64 9; oval := -700000001 |} = Some (Ret (Ok
  799999999)).
Proof. meets. Qed.
Theorem C42_csub : forall r x y o, typed x -> typed y -> op_csub r x y = Some o -> computes r (value x - value y) o.
Proof. exact op_csub_ok. Qed.
Print Assumptions C42_csub.
Example C42_csub_case : typed {| okind := KFp L64 9; oval := 1500000000 |} /\ typed {| okind := KFp L64 9; oval := -700000001 |}
  /\ op_csub (KFp L64 9) {| okind := KFp L64 9; oval := 1500000000 |} {| okind := KFp L64 9; oval := -700000001 |} = Some (Ret (Ok
  2200000001)).
Proof. meets. Qed.
Theorem C42_cmul : forall r x y o, typed x -> typed y -> op_cmul r x y = Some o -> computes r (value x * value y) o.
Proof. exact op_cmul_ok. Qed.
Print Assumptions C42_cmul.
Example C42_cmul_case : typed {| okind := KFp L64 9; oval := 1500000000 |} /\ typed {| okind := KInt I8; oval := -2 |} /\ op_cmul
  (KFp L64 9) {| okind := KFp L64 9; oval := 1500000000 |} {| okind := KInt I8; oval := -2 |} = Some (Ret (Ok (-3000000000))).
Proof. meets. Qed.
Theorem C42_saturating_add : forall r x y z, typed x -> typed y ->
  op_saturating_add r x y = Some z -> saturates r (value x + value y) z.
Proof. exact op_sadd_ok. Qed.
Print Assumptions C42_saturating_add.
Example C42_saturating_add_case : typed {| okind := KFp L64 9; oval := 1500000000 |} /\ typed {| okind := KFp L64 9; oval :=
  -700000001 |} /\ op_saturating_add (KFp L64 9) {| okind := KFp L64 9; oval := 1500000000 |} {| okind := KFp L64 9; oval :=
  -700000001 |} = Some 799999999.
Proof. meets. Qed.
Theorem C42_saturating_sub : forall r x y z, typed x -> typed y ->
  op_saturating_sub r x y = Some z -> saturates r (value x - value y) z.
Proof. exact op_ssub_ok. Qed.
Print Assumptions C42_saturating_sub.
Example C42_saturating_sub_case : typed {| okind := KFp L64 9; oval := 1500000000 |} /\ typed {| okind := KFp L64 9; oval :=
  -700000001 |} /\ op_saturating_sub (KFp L64 9) {| okind := KFp L64 9; oval := 1500000000 |} {| okind := KFp L64 9; oval :=
  -700000001 |} = Some 2200000001.
Proof. meets. Qed.
Theorem C42_rmul : forall r x y b m o, op_rmul b r x y m = Some o ->
  exists L P, r = KFp L P /\ okind x = r /\ okind y = r /\ o = rmul b L P (oval x) (oval y) m.
Proof. exact op_rmul_is. Qed.
Print Assumptions C42_rmul.
Example C42_rmul_case : op_rmul dev (KFp L64 9) {| okind := KFp L64 9; oval := 1500000000 |} {| okind := KFp L64 9; oval :=
  -700000001 |} Nearest = Some (Ret (Ok (-1050000002))).
Proof. meets. Qed.
(** So the product is rounded, with the one exception of C06. *)
Theorem C42_rmul_rounded : forall r x y b m o, typed x -> typed y -> (forall L P, r = KFp L P -> supported b L) ->
  op_rmul b r x y m = Some o ->
  exists L P, r = KFp L P /\
    ((m = Nearest -> ~ (L = L128 /\ P = 38)) -> rounded_or_overflow L P m (value x * value y) o).
Proof. exact op_rmul_round. Qed.
Print Assumptions C42_rmul_rounded.
Example C42_rmul_rounded_case : typed {| okind := KFp L64 9; oval := 1500000000 |} /\ typed {| okind := KFp L64 9; oval :=
  -700000001 |} /\ (forall L P, (KFp L64 9) = KFp L P -> supported dev L) /\ op_rmul dev (KFp L64 9) {| okind := KFp L64 9; oval
  := 1500000000 |} {| okind := KFp L64 9; oval := -700000001 |} Nearest = Some (Ret (Ok (-1050000002))).
Proof. split; [meets|]; split; [meets|]; split; [intros L P e; injection e as <- <-; meets|meets]. Qed.
(** Integer operands of a fixed-point result: a divisor stays an integer, a dividend is converted
    first. *)
Theorem C42_rdiv : forall r x y b m o, op_rdiv b r x y m = Some o ->
  match r, okind x, okind y with
  | KFp L P, KFp L1 P1, KFp L2 P2 => okind x = r /\ okind y = r /\ o = rdiv b L P (oval x) (oval y) m
  | KFp L P, KFp L1 P1, KInt _ => okind x = r /\ o = rdiv_int b L (oval x) (oval y) m
  | KFp L P, KInt _, KFp L2 P2 => okind y = r /\ o = int_rdiv_fp b L P (oval x) (oval y) m
  | KInt t, KInt _, KInt _ => o = int_rdiv b t (oval x) (oval y) m
  | KFp L P, KInt _, KInt _ =>
      exists l, try_from_int b L P (oval x) = l /\
        o = (l <- l ;; match l with Err _ => Ret (Err Overflow) | Ok l => rdiv_int b L l (oval y) m end)
  | KInt _, _, _ => False
  end.
Proof. exact op_rdiv_is. Qed.
Print Assumptions C42_rdiv.
Example C42_rdiv_case : op_rdiv dev (KFp L64 9) {| okind := KInt I8; oval := -2 |} {| okind := KFp L64 9; oval := 1500000000 |}
  Nearest = Some (Ret (Ok (-1333333333))).
Proof. meets. Qed.
Theorem C42_add_types : forall L P x y,
  op_cadd (KFp L P) x y <> None <-> okind x = KFp L P /\ okind y = KFp L P.
Proof. exact op_typed_add. Qed.
Print Assumptions C42_add_types.
(** 1.5 * (-2i8) = -3 on i64 with precision 9. *)
Example C42_example : let x := {| okind := KFp L64 9; oval := 1500000000 |} in let y := {| okind := KInt I8; oval := -2 |} in
  typed x /\ typed y /\ op_cmul (KFp L64 9) x y = Some (Ret (Ok (-3000000000))) /\
  op_cadd (KFp L64 9) x y = None /\ op_rdiv dev (KFp L64 9) x y Floor = Some (Ret (Ok (-750000000))) /\
  op_rdiv dev (KFp L64 9) y x Floor = Some (Ret (Ok (-1333333334))) /\
  op_rmul dev (KFp L64 9) x x Floor = Some (Ret (Ok 2250000000)).
Proof. cbv zeta. unfold typed. cbn [okind]. example. Qed.

(** ** C62 *)
Theorem C62_literals : forall b L P s r, valid b L P -> ovf b = true -> Forall byte s -> Z.of_nat (length s) < 2 ^ 32 ->
  (fixnum_const b L P s = Ret r <->
   exists neg i f z, literal s neg i f /\ places f <= P /\ Z.of_nat (length i) <= const_digits b /\
     (dec P z == spelled neg i f)%Q /\ const_fits b z /\ truncated L z r).
Proof. exact lit_exact. Qed.
Print Assumptions C62_literals.
Example C62_literals_case : valid dev L64 9 /\ ovf dev = true /\ Forall byte [45; 49; 50; 46; 53] /\ Z.of_nat (length [45; 49; 50;
  46; 53]) < 2 ^ 32.
Proof. meets. Qed.
Theorem C62_fixnum : forall b L P s, fixnum b L P s = fixnum_const b L P s.
Proof. exact fixnum_same. Qed.
Print Assumptions C62_fixnum.
(** In every build. *)
Theorem C62_truncates : forall b L P s neg i f z, valid b L P -> literal s neg i f -> places f <= P ->
  Z.of_nat (length i) <= const_digits b -> (dec P z == spelled neg i f)%Q -> const_fits b z ->
  exists r, fixnum_const b L P s = Ret r /\ truncated L z r.
Proof. exact lit_truncates. Qed.
Print Assumptions C62_truncates.
Example C62_truncates_case : valid dev L16 1 /\ literal [52; 48; 48; 48; 48; 46; 53] false [52; 48; 48; 48; 48] (Some [53]) /\
  places (Some [53]) <= 1 /\ Z.of_nat (length [52; 48; 48; 48; 48]) <= const_digits dev /\ (dec 1 400005 == spelled false [52; 48;
  48; 48; 48]%Z (Some [53]%Z))%Q /\ const_fits dev 400005.
Proof. meets. Qed.
Theorem C62_min : forall b L P s neg i f r, valid b L P -> ovf b = true -> Forall byte s -> Z.of_nat (length s) < 2 ^ 32 ->
  bits L = const_bits b -> literal s neg i f -> (dec P (lo L) == spelled neg i f)%Q -> fixnum_const b L P s <> Ret r.
Proof. exact lit_min. Qed.
Print Assumptions C62_min.
Example C62_min_case : valid no_std L64 0 /\ ovf no_std = true /\ Forall byte [45; 57; 50; 50; 51; 51; 55; 50; 48; 51; 54; 56; 53;
  52; 55; 55; 53; 56; 48; 56] /\ Z.of_nat (length [45; 57; 50; 50; 51; 51; 55; 50; 48; 51; 54; 56; 53; 52; 55; 55; 53; 56; 48;
  56]) < 2 ^ 32 /\ bits L64 = const_bits no_std /\ literal [45; 57; 50; 50; 51; 51; 55; 50; 48; 51; 54; 56; 53; 52; 55; 55; 53;
  56; 48; 56] true [57; 50; 50; 51; 51; 55; 50; 48; 51; 54; 56; 53; 52; 55; 55; 53; 56; 48; 56] None /\ (dec 0 (lo L64) == spelled
  true [57; 50; 50; 51; 51; 55; 50; 48; 51; 54; 56; 53; 52; 55; 55; 53; 56; 48; 56]%Z None)%Q.
Proof. meets. Qed.
Theorem C62_leading_zeros : exists s neg i r, valid no_std L64 9 /\ literal s neg i None /\
  represents L64 9 (spelled neg i None) r /\ fixnum_const no_std L64 9 s = Panic.
Proof. exact lit_zeros_refuted. Qed.
Print Assumptions C62_leading_zeros.
(** "7.", "-.5" and "-" are accepted; "40000" wraps on i16. *)
Example C62_example : valid dev L16 0 /\ literal [52; 48; 48; 48; 48] false [52; 48; 48; 48; 48] None /\
  fixnum_const dev L16 0 [52; 48; 48; 48; 48] = Ret (-25536) /\ truncated L16 40000 (-25536) /\
  fixnum_const dev L16 0 [55; 46] = Ret 7 /\ fixnum_const dev L16 1 [45; 46; 53] = Ret (-5) /\
  fixnum_const dev L16 1 [45] = Ret 0.
Proof. split; [example|split; [lit (@nil Z)|]]. unfold truncated. example. Qed.
