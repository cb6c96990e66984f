(** * Compact: SCALE's variable-length form, [Compact<FixedPoint>].

    src/parity.rs:8-14, 46-66 only says which integer stands for the number ([encode_as],
    [decode_from]) and takes a [Compact] apart.  The byte forms are those of
    parity-scale-codec 3, [Compact<u16>] to [Compact<u128>]; its source is not in the repository,
    so they are written down from its published format and code. *)
From Coq Require Import ZArith List Bool.
From Verif Require Import Base Promo Ops Str Float Codec.
From Verif Require Import Fixed.
Import ListNotations.
Open Scope Z_scope.
Open Scope outcome_scope.

(** [CompactRef<uN>::encode_to]: one, two and four byte modes, then a length and the significant
    bytes. For [u32] the length is always four, [u16] does not get there. *)
Definition compact_encode_uint (L : layout) (n : Z) : outcome (list Z) :=
  if n <=? 63 then Ret (le_bytes 1 (n * 4))
  else if n <=? 16383 then Ret (le_bytes 2 (n * 4 + 1))
  else if n <=? 1073741823 then Ret (le_bytes 4 (n * 4 + 2))
  else
    match L with
    | L16 => Ret (le_bytes 4 (n * 4 + 2))
    | L32 => Ret (3 :: le_bytes 4 n)
    | L64 | L128 =>
        let needed := Z.of_nat (size_of L) - leading_zeros (repr_ty L) n / 8 in
        _ <- assert_ (4 <=? needed) ;;
        _ <- assert_ (n / 2 ^ (8 * needed) =? 0) ;;
        Ret (3 + (needed - 4) * 4 :: le_bytes (Z.to_nat needed) n)
    end.

(** [uN::decode]: the next [n] bytes. The byte loop of [Compact<u64>] is the same. *)
Definition take (n : nat) (input : list Z) : result (Z * list Z) cerr :=
  if Nat.ltb (length input) n then Err ConvertError
  else Ok (le_value (firstn n input), skipn n input).
(** Reads [n] bytes, drops [s] bits and accepts the numbers above [low] and up to [high]. *)
Definition take_in (n : nat) (s low high : Z) (input : list Z) : result (Z * list Z) cerr :=
  match take n input with
  | Ok (w, rest) => let x := w / 2 ^ s in if (low <? x) && (x <=? high) then Ok (x, rest) else Err ConvertError
  | Err e => Err e
  end.
(** [Compact<uN>::decode].  A form longer than necessary is an error. *)
Definition compact_decode_uint (L : layout) (input : list Z) : result (Z * list Z) cerr :=
  match input with
  | [] => Err ConvertError
  | prefix :: rest =>
      if prefix mod 4 =? 0 then Ok (prefix / 4, rest)
      else if prefix mod 4 =? 1 then take_in 2 2 63 16383 input
      else if prefix mod 4 =? 2 then
        take_in 4 2 16383 (match L with L16 => 65535 | _ => 1073741823 end) input
      else
        match L with
        | L16 => Err ConvertError
        | L32 => if prefix / 4 =? 0 then take_in 4 0 1073741823 (imax U32) rest else Err ConvertError
        | L64 | L128 =>
            let max := Z.of_nat (size_of L) in
            let needed := prefix / 4 + 4 in
            if needed =? 4 then take_in 4 0 1073741823 (imax U32) rest
            else if needed =? 8 then take_in 8 0 (imax U64 / 2 ^ 8) (imax U64) rest
            else if needed =? max then take_in (size_of L) 0 (imax (repr_ty L) / 2 ^ 8) (imax (repr_ty L)) rest
            else if max <? needed then Err ConvertError
            else take_in (Z.to_nat needed) 0 (imax (repr_ty L) / 2 ^ ((max - needed + 1) * 8)) (imax (repr_ty L)) rest
        end
  end.

(** [Encode] and [Decode] of [Compact<FixedPoint>] (parity-scale-codec, through [CompactAs]), and
    the conversion back, src/parity.rs:9-14. *)
Definition compact_encode (L : layout) (x : Z) : outcome (list Z) := compact_encode_uint L (encode_as L x).
Definition compact_decode (L : layout) (input : list Z) : result (Z * list Z) cerr :=
  rmap (fun '(v, rest) => (decode_from L v, rest)) (compact_decode_uint L input).
