(** * PropsCodec: C37-C40. *)
From Coq Require Import SpecFloat.
From Verif Require Import Base Promo ConstFn Str Float Codec Spec SpecText CodecFacts.
From Verif Require Import Fixed.
From Verif Require Import Meets.
Open Scope Z_scope.

(** ** C37 *)
(** Missing: precision 0, where the property is false, and values that are not [printable].  The
    two builds need not be the same. *)
Theorem C37_round_trip_partial : forall b b' L P x bw bw' qx,
  valid b L P -> valid b' L P -> in_range L x -> printable b L P x -> 0 < P ->
  exists s, serialize b L P x true bw = Ret (TStr bw s) /\ canonical s (dec P x) /\
    deserialize b' L P qx true (TStr bw' s) = Ret (Ok x).
Proof. exact ser_trip. Qed.
Print Assumptions C37_round_trip_partial.
Example C37_round_trip_partial_case : valid dev L64 9 /\ valid release L64 9 /\ in_range L64 1500000000 /\ printable dev L64 9
  1500000000 /\ 0 < 9.
Proof. meets. Qed.
Theorem C37_round_trip_refuted : exists x s, valid dev L16 0 /\ in_range L16 x /\
  serialize dev L16 0 x true true = Ret (TStr true s) /\
  deserialize dev L16 0 false true (TStr true s) = Ret (Err ConvertError).
Proof. exact ser_refuted. Qed.
Print Assumptions C37_round_trip_refuted.
Theorem C37_string : forall b L P qx bw s x, valid b L P ->
  (deserialize b L P qx true (TStr bw s) = Ret (Ok x) <->
   exists neg i f, spells s neg i f /\ (P = 0 -> f = None) /\ in_range L x /\
     rounds_to Nearest P (spelled neg i f) x).
Proof. exact de_str. Qed.
Print Assumptions C37_string.
Example C37_string_case : valid dev L64 9.
Proof. meets. Qed.
Theorem C37_integer : forall b L P qx t z, valid b L P ->
  exact_or L P (Zq z) ConvertError (deserialize b L P qx true (TInt t z)).
Proof. exact de_int_tok. Qed.
Print Assumptions C37_integer.
Example C37_integer_case : valid dev L64 9.
Proof. meets. Qed.
Theorem C37_float : forall b L P qx raw,
  deserialize b L P qx true (TF64 raw) = try_from_f64 b L P raw.
Proof. exact (fun b L P qx raw => eq_refl). Qed.
Print Assumptions C37_float.
(** A character is a one-character string, that is a digit. *)
Theorem C37_char : forall b L P qx c x, valid b L P ->
  (deserialize b L P qx true (TChar c) = Ret (Ok x) <-> digit c /\ represents L P (Zq (c - 48)) x).
Proof. exact de_char. Qed.
Print Assumptions C37_char.
Example C37_char_case : valid dev L64 9.
Proof. meets. Qed.
(** With feature [quick-xml], a map whose first key is "$value" stands for its string. *)
Theorem C37_map : forall b L P key v, valid b L P -> forall x,
  (deserialize b L P true true (TMap key v) = Ret (Ok x) <->
   (exists bk, key = Some (TStr bk [36; 118; 97; 108; 117; 101])) /\
   ((exists bv s, v = TStr bv s) \/ (exists c, v = TChar c)) /\
   deserialize b L P true true v = Ret (Ok x)).
Proof. exact de_map. Qed.
Print Assumptions C37_map.
Example C37_map_case : valid dev L64 9.
Proof. meets. Qed.
Theorem C37_rejected : forall b L P qx tok,
  (forall bw s, tok <> TStr bw s) -> (forall t z, tok <> TInt t z) -> (forall raw, tok <> TF64 raw) ->
  (forall c, tok <> TChar c) -> (qx = false \/ forall k v, tok <> TMap k v) ->
  deserialize b L P qx true tok = Ret (Err ConvertError).
Proof. exact de_other. Qed.
Print Assumptions C37_rejected.
Example C37_rejected_case : (forall bw s, (TSome (TInt U8 7)) <> TStr bw s) /\ (forall t z, (TSome (TInt U8 7)) <> TInt t z) /\
  (forall raw, (TSome (TInt U8 7)) <> TF64 raw) /\ (forall c, (TSome (TInt U8 7)) <> TChar c) /\ (true = false \/ forall k v,
  (TSome (TInt U8 7)) <> TMap k v).
Proof. repeat split; try (intros; discriminate); right; intros; discriminate. Qed.
(** -1.5 is written "-1.5"; the integer 3 is accepted, 4 is too large; 0.25 as f64. *)
Example C37_example : valid dev L16 4 /\ in_range L16 (-15000) /\
  serialize dev L16 4 (-15000) true false = Ret (TStr false [45; 49; 46; 53]) /\
  deserialize release L16 4 false true (TStr false [45; 49; 46; 53]) = Ret (Ok (-15000)) /\
  deserialize dev L16 4 false true (TInt U64 3) = Ret (Ok 30000) /\
  deserialize dev L16 4 false true (TInt U64 4) = Ret (Err ConvertError) /\
  deserialize dev L16 4 false true (TF64 4598175219545276416) = Ret (Ok 2500) /\
  deserialize dev L16 4 false true (TChar 50) = Ret (Ok 20000) /\
  deserialize dev L16 4 true true (TMap (Some (TStr false [36; 118; 97; 108; 117; 101])) (TStr false [50])) = Ret (Ok 20000) /\
  deserialize dev L16 4 false true TNone = Ret (Err ConvertError).
Proof. example. Qed.

(** ** C38 *)
Theorem C38_binary : forall b b' L P x bw qx, in_range L x ->
  exists t, fits t x /\ serialize b L P x false bw = Ret (TInt t x) /\
    deserialize b' L P qx false (TInt t x) = Ret (Ok x).
Proof. exact binary_trip. Qed.
Print Assumptions C38_binary.
Example C38_binary_case : in_range L64 1500000000.
Proof. meets. Qed.
Theorem C38_repr : forall L x, in_range L x ->
  exists t, fits t x /\ repr_serialize L x = TInt t x /\ repr_deserialize L (TInt t x) = Ok x.
Proof. exact repr_mod_trip. Qed.
Print Assumptions C38_repr.
Example C38_repr_case : in_range L64 1500000000.
Proof. meets. Qed.
(** An integer call of any type is accepted if and only if its value is in range. *)
Theorem C38_deserialize : forall b L P qx tok,
  deserialize b L P qx false tok = Ret (repr_deserialize L tok) /\
  forall x, repr_deserialize L tok = Ok x <-> in_range L x /\ exists t, tok = TInt t x.
Proof. exact binary_de. Qed.
Print Assumptions C38_deserialize.
Example C38_example : in_range L64 (lo L64) /\ serialize dev L64 9 (lo L64) false false = Ret (TInt I64 (lo L64)) /\
  deserialize dev L64 9 false false (TInt I64 (lo L64)) = Ret (Ok (lo L64)) /\
  deserialize dev L16 4 false false (TInt U64 40000) = Ret (Err ConvertError).
Proof. example. Qed.

(** ** C39 *)
Theorem C39_repr_option : forall L x, (forall r, x = Some r -> in_range L r) ->
  repr_option_serialize L x = match x with None => TNone | Some r => TSome (repr_serialize L r) end /\
  repr_option_deserialize L (repr_option_serialize L x) = Ok x.
Proof. exact repr_opt. Qed.
Print Assumptions C39_repr_option.
Example C39_repr_option_case : (forall r, (Some (-1500000000)) = Some r -> in_range L64 r).
Proof. intros r e; injection e as <-; meets. Qed.
(** Missing: the values excluded in C37; and strings that the format cannot lend, which the [str]
    module rejects. *)
Theorem C39_str_partial : forall b b' L P x bw,
  valid b L P -> valid b' L P -> in_range L x -> printable b L P x -> 0 < P ->
  exists s, str_serialize b L P x bw = Ret (TStr bw s) /\ canonical s (dec P x) /\
    str_deserialize b' L P (TStr true s) = Ret (Ok x) /\
    str_deserialize b' L P (TStr false s) = Ret (Err ConvertError).
Proof. exact str_trip. Qed.
Print Assumptions C39_str_partial.
Example C39_str_partial_case : valid dev L64 9 /\ valid release L64 9 /\ in_range L64 1500000000 /\ printable dev L64 9 1500000000
  /\ 0 < 9.
Proof. meets. Qed.
(** Missing: the same. *)
Theorem C39_str_option_partial : forall b b' L P x,
  valid b L P -> valid b' L P -> (forall r, x = Some r -> in_range L r /\ printable b L P r) -> 0 < P ->
  exists tok, str_option_serialize b L P x true = Ret tok /\
    match x with
    | None => tok = TNone
    | Some r => exists s, tok = TSome (TStr true s) /\ canonical s (dec P r)
    end /\
    str_option_deserialize b' L P tok = Ret (Ok x).
Proof. exact str_opt_trip. Qed.
Print Assumptions C39_str_option_partial.
Example C39_str_option_partial_case : valid dev L64 9 /\ valid release L64 9 /\ (forall r, (Some (-1500000000)) = Some r ->
  in_range L64 r /\ printable dev L64 9 r) /\ 0 < 9.
Proof. split; [meets|]; split; [meets|]; split; [intros r e; injection e as <-; meets|meets]. Qed.
Theorem C39_owned_refuted : exists x s, valid dev L16 4 /\ in_range L16 x /\
  str_serialize dev L16 4 x false = Ret (TStr false s) /\
  str_deserialize dev L16 4 (TStr false s) = Ret (Err ConvertError).
Proof. exact str_owned. Qed.
Print Assumptions C39_owned_refuted.
Theorem C39_float : forall b L P x f, to_f64 b L P x = Ret f ->
  float_serialize b L P x = Ret (TF64 (f64_to_bits f)) /\
  float_option_serialize b L P (Some x) = Ret (TSome (TF64 (f64_to_bits f))).
Proof. exact float_mod. Qed.
Print Assumptions C39_float.
Example C39_float_case : to_f64 dev L64 9 1500000000 = Ret (S754_finite false 6755399441055744 (-52)).
Proof. meets. Qed.
Theorem C39_float_none : forall b L P,
  float_option_serialize b L P None = Ret TNone /\ float_option_deserialize b L P TNone = Ret (Ok None).
Proof. exact float_opt_none. Qed.
Print Assumptions C39_float_none.
Theorem C39_float_deserialize : forall b L P raw r, try_from_f64 b L P raw = Ret r ->
  float_deserialize b L P (TF64 raw) = Ret r /\
  float_option_deserialize b L P (TSome (TF64 raw)) = Ret (rmap Some r).
Proof. exact float_mod_de. Qed.
Print Assumptions C39_float_deserialize.
Example C39_float_deserialize_case : try_from_f64 dev L64 9 4591870180066957722 = Ret (Ok 100000000).
Proof. meets. Qed.
(** 0.25 as f64. *)
Example C39_example : valid dev L16 4 /\ in_range L16 2500 /\ to_f64 dev L16 4 2500 = Ret (S754_finite false 4503599627370496 (-54)) /\
  float_option_serialize dev L16 4 (Some 2500) = Ret (TSome (TF64 4598175219545276416)) /\
  float_option_deserialize dev L16 4 (TSome (TF64 4598175219545276416)) = Ret (Ok (Some 2500)) /\
  repr_option_serialize L16 (Some 2500) = TSome (TInt I16 2500) /\
  str_option_serialize dev L16 4 (Some 2500) true = Ret (TSome (TStr true [48; 46; 50; 53])) /\
  str_option_deserialize dev L16 4 (TSome (TStr true [48; 46; 50; 53])) = Ret (Ok (Some 2500)).
Proof. example. Qed.

(** ** C40 *)
Theorem C40_encode : forall L x, in_range L x -> twos L (encode L x) x.
Proof. exact encode_twos. Qed.
Print Assumptions C40_encode.
Example C40_encode_case : in_range L64 1500000000.
Proof. meets. Qed.
(** Any bytes of the right number are the representation of one value, which [decode] returns
    with the rest of the input. *)
Theorem C40_decode : forall L l rest, 8 * Z.of_nat (length l) = bits L -> Forall byte l ->
  exists x, twos L l x /\ decode L (l ++ rest) = Ok (x, rest).
Proof. exact decode_twos. Qed.
Print Assumptions C40_decode.
Example C40_decode_case : 8 * Z.of_nat (length [254; 255]) = bits L16 /\ Forall byte [254; 255].
Proof. meets. Qed.
Theorem C40_twos_unique : forall L l l' x x', twos L l x -> twos L l' x' -> (l = l' <-> x = x').
Proof. exact twos_unique. Qed.
Print Assumptions C40_twos_unique.
Example C40_twos_unique_case : twos L16 [254; 255] (-2) /\ twos L16 [1; 128] (-32767).
Proof. meets. Qed.
Theorem C40_round_trip : forall L x rest, in_range L x -> decode L (encode L x ++ rest) = Ok (x, rest).
Proof. exact decode_encode. Qed.
Print Assumptions C40_round_trip.
Example C40_round_trip_case : in_range L64 1500000000.
Proof. meets. Qed.
Theorem C40_short : forall L l, 8 * Z.of_nat (length l) < bits L -> decode L l = Err ConvertError.
Proof. exact decode_short. Qed.
Print Assumptions C40_short.
Example C40_short_case : 8 * Z.of_nat (length [254; 255; 3]) < bits L32.
Proof. meets. Qed.
Theorem C40_encode_as : forall L x, in_range L x ->
  0 <= encode_as L x < 2 ^ bits L /\ encode_as L x mod 2 ^ bits L = x mod 2 ^ bits L /\
  decode_from L (encode_as L x) = x.
Proof. exact compact_to. Qed.
Print Assumptions C40_encode_as.
Example C40_encode_as_case : in_range L64 1500000000.
Proof. meets. Qed.
Theorem C40_decode_from : forall L v, 0 <= v < 2 ^ bits L ->
  in_range L (decode_from L v) /\ encode_as L (decode_from L v) = v.
Proof. exact compact_from. Qed.
Print Assumptions C40_decode_from.
Example C40_decode_from_case : 0 <= 7 < 2 ^ bits L64.
Proof. meets. Qed.
Example C40_example : in_range L32 (-2) /\ encode L32 (-2) = [254; 255; 255; 255] /\
  decode L32 [254; 255; 255; 255; 7] = Ok (-2, [7]) /\ decode L32 [254; 255; 255] = Err ConvertError /\
  encode_as L16 (-1) = 65535 /\ decode_from L16 32768 = -32768.
Proof. example. Qed.
