(** * PropsText: C26-C31, C60, C61. *)
From Verif Require Import Base Promo Fixed Str Spec SpecText StrFacts ShowFacts.
From Verif Require Import Fixed.
From Verif Require Import Meets.
Open Scope Z_scope.

(** Proves [spells] for a concrete string whose white space, sign and digits are given. *)
Ltac spell pre sg post :=
  exists pre, sg, post; repeat split;
  try (repeat constructor; unfold space, digit; lia); try discriminate; auto.

(** ** C26 *)
Theorem C26_from_str_exact : forall b L P s x, valid b L P ->
  (from_str_exact b L P s = Ret (Ok x) <->
   exists neg i f, spells s neg i f /\ places f <= P /\ represents L P (spelled neg i f) x).
Proof. exact from_str_exact_ok. Qed.
Print Assumptions C26_from_str_exact.
Example C26_from_str_exact_case : valid dev L64 9.
Proof. meets. Qed.
Theorem C26_from_str_exact_total : forall b L P s, valid b L P ->
  (exists x, from_str_exact b L P s = Ret (Ok x)) \/ from_str_exact b L P s = Ret (Err ConvertError).
Proof. exact (fun b L P s => parse_total b L P true s). Qed.
Print Assumptions C26_from_str_exact_total.
Example C26_from_str_exact_total_case : valid dev L64 9.
Proof. meets. Qed.
(** The reading of a string is unique. *)
Theorem C26_spells_unique : forall s neg i f neg' i' f',
  spells s neg i f -> spells s neg' i' f' -> neg = neg' /\ i = i' /\ f = f'.
Proof. exact spells_unique. Qed.
Print Assumptions C26_spells_unique.
Example C26_spells_unique_case : spells [45; 49; 50; 46; 53] true [49; 50] (Some [53]) /\ spells [45; 49; 50; 46; 53] true [49;
  50] (Some [53]).
Proof. meets. Qed.
(** " -3.2768\n" is MIN of i16 with precision 4, "-3.2769" too small, "1.00000" has too many
    places, "1." and ".5" are not decimals. *)
Example C26_example : valid dev L16 4 /\
  spells [32; 45; 51; 46; 50; 55; 54; 56; 10] true [51] (Some [50; 55; 54; 56]) /\
  places (Some [50; 55; 54; 56]) = 4 /\
  from_str_exact dev L16 4 [32; 45; 51; 46; 50; 55; 54; 56; 10] = Ret (Ok (-32768)) /\
  from_str_exact dev L16 4 [45; 51; 46; 50; 55; 54; 57] = Ret (Err ConvertError) /\
  from_str_exact dev L16 4 [49; 46; 48; 48; 48; 48; 48] = Ret (Err ConvertError) /\
  from_str_exact dev L16 4 [49; 46] = Ret (Err ConvertError) /\
  from_str_exact dev L16 4 [46; 53] = Ret (Err ConvertError).
Proof. split; [example|split; [spell [32] [45] [10]|example]]. Qed.

(** ** C27 *)
(** Missing: precision 0, where the property is false; see C60. *)
Theorem C27_from_str_partial : forall b L P s x, valid b L P -> 0 < P ->
  (from_str b L P s = Ret (Ok x) <->
   exists neg i f, spells s neg i f /\ in_range L x /\ rounds_to Nearest P (spelled neg i f) x).
Proof. exact from_str_rounds. Qed.
Print Assumptions C27_from_str_partial.
Example C27_from_str_partial_case : valid dev L64 9 /\ 0 < 9.
Proof. meets. Qed.
Theorem C27_from_str_total : forall b L P s, valid b L P ->
  (exists x, from_str b L P s = Ret (Ok x)) \/ from_str b L P s = Ret (Err ConvertError).
Proof. exact (fun b L P s => parse_total b L P false s). Qed.
Print Assumptions C27_from_str_total.
Example C27_from_str_total_case : valid dev L64 9.
Proof. meets. Qed.
(** "1.0" denotes 1, which is representable at precision 0. *)
Theorem C27_from_str_refuted : exists s neg i f x, valid dev L16 0 /\ spells s neg i f /\ in_range L16 x /\
  (dec 0 x == spelled neg i f)%Q /\ from_str dev L16 0 s = Ret (Err ConvertError).
Proof. exact from_str_refuted. Qed.
Print Assumptions C27_from_str_refuted.
(** "-3.27685" is half-way and rounds away from zero, out of range; "-3.27684999" is MIN. *)
Example C27_example : valid dev L16 4 /\
  spells [45; 51; 46; 50; 55; 54; 56; 52; 57; 57; 57] true [51] (Some [50; 55; 54; 56; 52; 57; 57; 57]) /\
  from_str dev L16 4 [45; 51; 46; 50; 55; 54; 56; 52; 57; 57; 57] = Ret (Ok (-32768)) /\
  from_str dev L16 4 [45; 51; 46; 50; 55; 54; 56; 53] = Ret (Err ConvertError) /\
  from_str dev L16 4 [45; 48; 46; 48; 48; 48; 48; 53] = Ret (Ok (-1)).
Proof. split; [example|split; [spell (@nil Z) [45] (@nil Z)|example]]. Qed.

(** ** C28 *)
Theorem C28_exact_refines : forall b L P s x, valid b L P ->
  from_str_exact b L P s = Ret (Ok x) -> from_str b L P s = Ret (Ok x).
Proof. exact exact_refines. Qed.
Print Assumptions C28_exact_refines.
Example C28_exact_refines_case : valid dev L64 9 /\ from_str_exact dev L64 9 [45; 49; 50; 46; 53] = Ret (Ok (-12500000000)).
Proof. meets. Qed.
Example C28_example : valid release L64 9 /\ from_str_exact release L64 9 [43; 48; 46; 53] = Ret (Ok 500000000) /\
  from_str release L64 9 [43; 48; 46; 53] = Ret (Ok 500000000).
Proof. example. Qed.

(** ** C29 *)
(** Missing: the values that are not [printable], for which the property is false; see C61. *)
Theorem C29_to_string_partial : forall b L P x, valid b L P -> in_range L x -> printable b L P x ->
  exists s, to_string b L P x = Ret s /\ canonical s (dec P x) /\ Z.of_nat (length s) <= buffer b.
Proof. exact to_string_ok. Qed.
Print Assumptions C29_to_string_partial.
Example C29_to_string_partial_case : valid dev L64 9 /\ in_range L64 1500000000 /\ printable dev L64 9 1500000000.
Proof. meets. Qed.
Theorem C29_canonical_unique : forall s d s' d', canonical s d -> canonical s' d' -> (d == d')%Q -> s = s'.
Proof. exact canonical_unique. Qed.
Print Assumptions C29_canonical_unique.
Example C29_canonical_unique_case : canonical [45; 49; 50; 46; 53] (- 25 # 2) /\ canonical [45; 49; 50; 46; 53] (- 50 # 4) /\ ((-
  25 # 2) == (- 50 # 4))%Q.
Proof. split; [|split; [|reflexivity]]; exists [49; 50], [53]; repeat split; try discriminate; repeat constructor; discriminate.
  Qed.
Theorem C29_to_string_refuted : exists x, valid dev L16 0 /\ in_range L16 x /\ to_string dev L16 0 x = Panic.
Proof. exact show_refuted. Qed.
Print Assumptions C29_to_string_refuted.
(** "-0.05" and "0.0". *)
Example C29_example : valid dev L16 4 /\ in_range L16 (-500) /\
  to_string dev L16 4 (-500) = Ret [45; 48; 46; 48; 53] /\ to_string dev L16 4 0 = Ret [48; 46; 48].
Proof. example. Qed.
Example C29_printable_example : printable dev L16 4 (-500) /\ printable dev L128 38 (lo L128 + 10 ^ 38 + 1) /\ printable dev L16 0 (-32767).
Proof.
  split; [|split]; (split; [intros H|intros H H']); (discriminate H || discriminate H' || idtac).
  - vm_compute. congruence.
  - split; vm_compute; reflexivity.
Qed.

(** ** C30 *)
(** Missing: precision 0, where the property is false, and values that are not [printable]. *)
Theorem C30_round_trip_partial : forall b L P x, valid b L P -> in_range L x -> printable b L P x -> 0 < P ->
  exists s, to_string b L P x = Ret s /\ from_str_exact b L P s = Ret (Ok x) /\ from_str b L P s = Ret (Ok x).
Proof. exact round_trip. Qed.
Print Assumptions C30_round_trip_partial.
Example C30_round_trip_partial_case : valid dev L64 9 /\ in_range L64 1500000000 /\ printable dev L64 9 1500000000 /\ 0 < 9.
Proof. meets. Qed.
(** At precision 0 every printed text is rejected. *)
Theorem C30_round_trip0 : forall b L x, valid b L 0 -> in_range L x -> printable b L 0 x ->
  exists s, to_string b L 0 x = Ret s /\ from_str_exact b L 0 s = Ret (Err ConvertError) /\
    from_str b L 0 s = Ret (Err ConvertError).
Proof. exact round_trip0. Qed.
Print Assumptions C30_round_trip0.
Example C30_round_trip0_case : valid dev L64 0 /\ in_range L64 1500000000 /\ printable dev L64 0 1500000000.
Proof. meets. Qed.
Theorem C30_round_trip_refuted : exists x s, valid dev L16 0 /\ in_range L16 x /\ to_string dev L16 0 x = Ret s /\
  from_str dev L16 0 s = Ret (Err ConvertError) /\ from_str_exact dev L16 0 s = Ret (Err ConvertError).
Proof. exact round_trip_refuted. Qed.
Print Assumptions C30_round_trip_refuted.
Theorem C30_wrong_text_refuted : exists x s y, valid release L128 38 /\ in_range L128 x /\
  to_string release L128 38 x = Ret s /\ from_str release L128 38 s = Ret (Ok y) /\ y <> x.
Proof. exact show_wrong38. Qed.
Print Assumptions C30_wrong_text_refuted.
Example C30_example : valid dev L64 9 /\ in_range L64 (lo L64) /\
  to_string dev L64 9 (lo L64) = Ret [45; 57; 50; 50; 51; 51; 55; 50; 48; 51; 54; 46; 56; 53; 52; 55; 55; 53; 56; 48; 56] /\
  from_str_exact dev L64 9 [45; 57; 50; 50; 51; 51; 55; 50; 48; 51; 54; 46; 56; 53; 52; 55; 55; 53; 56; 48; 56] = Ret (Ok (lo L64)).
Proof. example. Qed.

(** ** C31 *)
(** Missing: the values that are not [printable], for which the property is false; see C61. *)
Theorem C31_buffer_partial : forall b L P x, valid b L P -> in_range L x -> printable b L P x ->
  exists s, to_string b L P x = Ret s /\ canonical s (dec P x) /\ Z.of_nat (length s) <= buffer b.
Proof. exact to_string_ok. Qed.
Print Assumptions C31_buffer_partial.
Example C31_buffer_partial_case : valid dev L64 9 /\ in_range L64 1500000000 /\ printable dev L64 9 1500000000.
Proof. meets. Qed.
Theorem C31_buffer_refuted : exists L x, valid release L 0 /\ in_range L x /\ to_string release L 0 x = Undef.
Proof. exact show_undef. Qed.
Print Assumptions C31_buffer_refuted.
Theorem C31_buffer64_refuted : exists b x, valid b L64 0 /\ in_range L64 x /\ to_string b L64 0 x = Undef.
Proof. exact show_undef64. Qed.
Print Assumptions C31_buffer64_refuted.
(** The longest text fills the buffer exactly. *)
Example C31_example : valid no_std L64 1 /\ in_range L64 (lo L64) /\
  (exists s, to_string no_std L64 1 (lo L64) = Ret s /\ Z.of_nat (length s) = buffer no_std).
Proof.
  split; [example|split; [example|]]. eexists. split; [vm_compute; reflexivity|reflexivity].
Qed.

(** ** C60 *)
Theorem C60_from_str_zero : forall b L P s x, valid b L P ->
  (from_str b L P s = Ret (Ok x) <->
   exists neg i f, spells s neg i f /\ (P = 0 -> f = None) /\ in_range L x /\
     rounds_to Nearest P (spelled neg i f) x).
Proof. exact from_str_ok. Qed.
Print Assumptions C60_from_str_zero.
Example C60_from_str_zero_case : valid dev L64 9.
Proof. meets. Qed.
Theorem C60_point_rejected : forall b L P s neg i f, valid b L P -> P = 0 -> spells s neg i (Some f) ->
  from_str b L P s = Ret (Err ConvertError).
Proof. exact from_str_point. Qed.
Print Assumptions C60_point_rejected.
Example C60_point_rejected_case : valid dev L64 0 /\ 0 = 0 /\ spells [45; 49; 50; 46; 53] true [49; 50] (Some [53]).
Proof. meets. Qed.
Example C60_example : valid dev L16 0 /\ spells [55; 46; 48] false [55] (Some [48]) /\
  from_str dev L16 0 [55; 46; 48] = Ret (Err ConvertError) /\ from_str dev L16 0 [55] = Ret (Ok 7).
Proof. split; [example|split; [spell (@nil Z) (@nil Z) (@nil Z)|example]]. Qed.

(** ** C61 *)
Theorem C61_min : forall b L, valid b L 0 -> ovf b = true -> to_string b L 0 (lo L) = Panic.
Proof. exact show_min. Qed.
Print Assumptions C61_min.
Example C61_min_case : valid dev L64 0 /\ ovf dev = true.
Proof. meets. Qed.
Theorem C61_overrun : forall b L x, valid b L 0 -> in_range L x -> x <> lo L -> x <= - 10 ^ (buffer b - 3) ->
  to_string b L 0 x = if dbg b then Panic else Undef.
Proof. exact show_overrun. Qed.
Print Assumptions C61_overrun.
Example C61_overrun_case : valid no_std L64 0 /\ in_range L64 (-9000000000000000000) /\ (-9000000000000000000) <> lo L64 /\
  (-9000000000000000000) <= - 10 ^ (buffer no_std - 3).
Proof. meets. Qed.
Theorem C61_precision_38 : forall b x, valid b L128 38 -> in_range L128 x -> ovf b = true ->
  hi L128 < Z.abs x mod 10 ^ 38 + 10 ^ 38 -> to_string b L128 38 x = Panic.
Proof. exact show_38. Qed.
Print Assumptions C61_precision_38.
Example C61_precision_38_case : valid dev L128 38 /\ in_range L128 (-99999999999999999999999999999999999999) /\ ovf dev = true /\
  hi L128 < Z.abs (-99999999999999999999999999999999999999) mod 10 ^ 38 + 10 ^ 38.
Proof. meets. Qed.
(** Without overflow checks MIN of i16 prints as "--32768.0". *)
Theorem C61_two_signs : to_string release L16 0 (lo L16) = Ret [45; 45; 51; 50; 55; 54; 56; 46; 48].
Proof. exact show_two_signs. Qed.
Print Assumptions C61_two_signs.
Example C61_example : valid release L128 0 /\ in_range L128 (- 10 ^ 38) /\ - 10 ^ 38 <> lo L128 /\
  - 10 ^ 38 <= - 10 ^ (buffer release - 3) /\ to_string release L128 0 (- 10 ^ 38) = Undef /\
  valid dev L128 38 /\ in_range L128 (8 * 10 ^ 37) /\ hi L128 < Z.abs (8 * 10 ^ 37) mod 10 ^ 38 + 10 ^ 38.
Proof. example. Qed.
