(** * Codec: src/serde.rs and src/parity.rs at the level of the calls they make and receive. *)
From Coq Require Import SpecFloat.
From Verif Require Import Base Sqrt Promo ConstFn Ops Fixed Str Float.

(** Calls of the serde data model.  A serializer receives one of these ([serialize_str],
    [serialize_i64], [serialize_some], ...); a deserializer makes the corresponding [visit_*] call.
    Strings are borrowed from the input or not; floats are f64 bit patterns; [TOther] stands for
    every other call (bool, bytes, unit, seq, enum). *)
Inductive token : Type :=
| TStr (borrowed : bool) (s : str)
| TInt (t : ity) (z : Z)
| TF64 (raw : Z)
| TChar (c : Z)
| TNone
| TSome (tok : token)
| TMap (key : option token) (value : token)
| TOther.

(** serde's [Deserialize for iN] (crate serde): any integer call whose value is in range. *)
Definition de_int (t : ity) (tok : token) : result Z cerr :=
  match tok with
  | TInt _ z => if fitsb t z then Ok z else Err ConvertError
  | _ => Err ConvertError
  end.
(** serde's [Deserialize for f64] (crate serde): a float call, or an integer call of at most 64
    bits, converted with [as f64]. *)
Definition de_f64 (tok : token) : result Z cerr :=
  match tok with
  | TF64 raw => Ok raw
  | TInt t z => if width t <=? 64 then Ok (f64_to_bits (int_to_f64 z)) else Err ConvertError
  | _ => Err ConvertError
  end.
(** serde's [Deserialize for &str] (crate serde): borrowed strings only. *)
Definition de_borrowed_str (tok : token) : result str cerr :=
  match tok with
  | TStr true s => Ok s
  | _ => Err ConvertError
  end.
(** serde's [Deserialize for Option<T>] (crate serde). *)
Definition de_option {A : Type} (f : token -> result A cerr) (tok : token)
  : result (option A) cerr :=
  match tok with
  | TNone => Ok None
  | TSome tok => rmap Some (f tok)
  | _ => Err ConvertError
  end.

(** [serde::repr], src/serde.rs:148-175.  [F: Into<FixedPoint>] is taken to be [FixedPoint]. *)
Definition repr_serialize (L : layout) (x : Z) : token := TInt (lty L) (into_bits x).
Definition repr_deserialize (L : layout) (tok : token) : result Z cerr :=
  rmap from_bits (de_int (lty L) tok).

(** [serde::repr_option], src/serde.rs:177-206. *)
Definition repr_option_serialize (L : layout) (x : option Z) : token :=
  match option_map into_bits x with
  | None => TNone
  | Some i => TSome (TInt (lty L) i)
  end.
Definition repr_option_deserialize (L : layout) (tok : token) : result (option Z) cerr :=
  rmap (option_map from_bits) (de_option (de_int (lty L)) tok).

(** [serde::str], src/serde.rs:208-239.  The serializer is handed a string; whether the
    deserializer can borrow it depends on the format, hence [borrowed]. *)
Definition str_serialize (b : build) (L : layout) (P x : Z) (borrowed : bool) : outcome token :=
  s <- stringify b L P x ;; Ret (TStr borrowed s).
Definition str_deserialize (b : build) (L : layout) (P : Z) (tok : token)
  : outcome (result Z cerr) :=
  match de_borrowed_str tok with
  | Err e => Ret (Err e)
  | Ok s => from_str b L P s
  end.

(** [serde::str_option], src/serde.rs:241-279. *)
Definition str_option_serialize (b : build) (L : layout) (P : Z) (x : option Z) (borrowed : bool)
  : outcome token :=
  match x with
  | Some x => s <- stringify b L P x ;; Ret (TSome (TStr borrowed s))
  | None => Ret TNone
  end.
Definition str_option_deserialize (b : build) (L : layout) (P : Z) (tok : token)
  : outcome (result (option Z) cerr) :=
  match de_option de_borrowed_str tok with
  | Err e => Ret (Err e)
  | Ok None => Ret (Ok None)
  | Ok (Some s) => r <- from_str b L P s ;; Ret (rmap Some r)
  end.

(** [serde::float], src/serde.rs:281-314. *)
Definition float_serialize (b : build) (L : layout) (P x : Z) : outcome token :=
  f <- to_f64 b L P x ;; Ret (TF64 (f64_to_bits f)).
Definition float_deserialize (b : build) (L : layout) (P : Z) (tok : token)
  : outcome (result Z cerr) :=
  match de_f64 tok with
  | Err e => Ret (Err e)
  | Ok raw => try_from_f64 b L P raw
  end.

(** [serde::float_option], src/serde.rs:316-356. *)
Definition float_option_serialize (b : build) (L : layout) (P : Z) (x : option Z) : outcome token :=
  match x with
  | Some x => f <- to_f64 b L P x ;; Ret (TSome (TF64 (f64_to_bits f)))
  | None => Ret TNone
  end.
Definition float_option_deserialize (b : build) (L : layout) (P : Z) (tok : token)
  : outcome (result (option Z) cerr) :=
  match de_option de_f64 tok with
  | Err e => Ret (Err e)
  | Ok None => Ret (Ok None)
  | Ok (Some raw) => r <- try_from_f64 b L P raw ;; Ret (rmap Some r)
  end.

(** [Serialize for FixedPoint], src/serde.rs:27-43; [human] is [is_human_readable()]. *)
Definition serialize (b : build) (L : layout) (P x : Z) (human borrowed : bool) : outcome token :=
  if human then str_serialize b L P x borrowed else Ret (repr_serialize L x).

(** [FixedPointVisitor], src/serde.rs:63-146.  [visit_i8..i64], [visit_u8..u64] and
    [visit_i128/u128] all end in [TryFrom] of an integer; serde's default [visit_char] forwards
    to [visit_str]; everything else is rejected by serde's default methods.  [visit_map]
    (119-143) exists with feature [quick-xml] only: key "$value", then a [String], which serde
    reads from a string or character call (it would also take UTF-8 bytes: not modelled). *)
Definition dollar_value : str := [36; 118; 97; 108; 117; 101].
Fixpoint str_eqb (x y : str) : bool :=
  match x, y with
  | [], [] => true
  | a :: x, c :: y => (a =? c) && str_eqb x y
  | _, _ => false
  end.
Definition visit (b : build) (L : layout) (P : Z) (quick_xml : bool) (tok : token)
  : outcome (result Z cerr) :=
  match tok with
  | TStr _ s => from_str b L P s
  | TChar c => from_str b L P [c]
  | TF64 raw => try_from_f64 b L P raw
  | TInt _ z => try_from_int b L P z
  | TMap (Some (TStr _ k)) (TStr _ s) =>
      if quick_xml && str_eqb k dollar_value then from_str b L P s else Ret (Err ConvertError)
  | TMap (Some (TStr _ k)) (TChar c) =>
      if quick_xml && str_eqb k dollar_value then from_str b L P [c] else Ret (Err ConvertError)
  | _ => Ret (Err ConvertError)
  end.

(** [Deserialize for FixedPoint], src/serde.rs:45-61. *)
Definition deserialize (b : build) (L : layout) (P : Z) (quick_xml human : bool) (tok : token)
  : outcome (result Z cerr) :=
  if human then visit b L P quick_xml tok else Ret (repr_deserialize L tok).

(** ** SCALE codec, src/parity.rs *)

(** [$representation], src/parity.rs:69-76. *)
Definition repr_ty (L : layout) : ity :=
  match L with L16 => U16 | L32 => U32 | L64 => U64 | L128 => U128 end.

(** [CompactAs::encode_as], src/parity.rs:51-59: reinterprets the bits as unsigned. *)
Definition encode_as (L : layout) (x : Z) : Z := wrap (repr_ty L) (as_bits x).
(** [CompactAs::decode_from], src/parity.rs:61-64: [value as $layout]. *)
Definition decode_from (L : layout) (v : Z) : Z := from_bits (wrap (lty L) v).

(** [Encode for uN] (crate parity-scale-codec): little-endian bytes. *)
Fixpoint le_bytes (n : nat) (v : Z) : list Z :=
  match n with
  | O => []
  | S n => v mod 256 :: le_bytes n (v / 256)
  end.
Fixpoint le_value (l : list Z) : Z :=
  match l with
  | [] => 0
  | x :: l => x + 256 * le_value l
  end.
Definition size_of (L : layout) : nat :=
  match L with L16 => 2 | L32 => 4 | L64 => 8 | L128 => 16 end%nat.

(** [Encode], src/parity.rs:27-32: the bytes written. *)
Definition encode (L : layout) (x : Z) : list Z := le_bytes (size_of L) (encode_as L x).

(** [Decode], src/parity.rs:36-44: reads [size_of] bytes; returns the value and the rest of the
    input, or an error when the input is too short. *)
Definition decode (L : layout) (input : list Z) : result (Z * list Z) cerr :=
  let n := size_of L in
  if Nat.ltb (length input) n then Err ConvertError
  else Ok (decode_from L (le_value (firstn n input)), skipn n input).
