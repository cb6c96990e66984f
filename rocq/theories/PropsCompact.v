(** * PropsCompact: C87, SCALE's compact form. *)
From Coq Require Import ZArith List.
From Verif Require Import Base Promo Ops Str Float Codec Spec SpecText.
From Verif Require Import Compact SpecCompact CompactFacts.
From Verif Require Import Fixed.
Import ListNotations.
From Verif Require Import Meets.
Open Scope Z_scope.

(** ** C87 *)
Theorem C87_encode : forall L x, in_range L x -> exists l, compact_encode L x = Ret l /\ compact (x mod 2 ^ bits L) l.
Proof. exact compact_enc. Qed.
Print Assumptions C87_encode.
Example C87_encode_case : in_range L64 1500000000.
Proof. meets. Qed.
Theorem C87_decode : forall L x l rest, in_range L x -> compact (x mod 2 ^ bits L) l -> compact_decode L (l ++ rest) = Ok (x, rest).
Proof. exact compact_dec. Qed.
Print Assumptions C87_decode.
Example C87_decode_case : in_range L16 300 /\ compact (300 mod 2 ^ bits L16) [177; 4].
Proof. split; [meets|]; split; [meets|]; right; left; meets. Qed.
Theorem C87_round_trip : forall L x rest, in_range L x ->
  exists l, compact_encode L x = Ret l /\ compact_decode L (l ++ rest) = Ok (x, rest).
Proof. exact compact_trip. Qed.
Print Assumptions C87_round_trip.
Example C87_round_trip_case : in_range L64 1500000000.
Proof. meets. Qed.
(** Nothing else is accepted. *)
Theorem C87_canonical : forall L input x rest, Forall byte input -> compact_decode L input = Ok (x, rest) ->
  in_range L x /\ exists l, compact_encode L x = Ret l /\ input = l ++ rest.
Proof. exact compact_canonical. Qed.
Print Assumptions C87_canonical.
Example C87_canonical_case : Forall byte [177; 4; 9] /\ compact_decode L16 [177; 4; 9] = Ok (300, [9]).
Proof. meets. Qed.
(** Negative numbers are longer than in the fixed-width form. *)
Theorem C87_negative : forall L x l, in_range L x -> x < 0 -> compact_encode L x = Ret l ->
  length l = match L with L16 => 4%nat | L32 => 5%nat | L64 => 9%nat | L128 => 17%nat end.
Proof. exact compact_negative. Qed.
Print Assumptions C87_negative.
Example C87_negative_case : in_range L64 (-1500000000) /\ (-1500000000) < 0 /\ compact_encode L64 (-1500000000) = Ret [19; 0; 209;
  151; 166; 255; 255; 255; 255].
Proof. meets. Qed.
Example C87_example : in_range L64 5 /\ in_range L64 1000000000000 /\ in_range L64 (-2) /\
  compact_encode L64 5 = Ret [20] /\ compact_encode L64 100 = Ret [145; 1] /\ compact_encode L64 1000000 = Ret [2; 9; 61; 0] /\
  compact_encode L64 1000000000000 = Ret [7; 0; 16; 165; 212; 232] /\
  compact_encode L64 (-2) = Ret [19; 254; 255; 255; 255; 255; 255; 255; 255] /\
  compact_encode L16 (-2) = Ret [250; 255; 3; 0] /\
  compact_decode L64 [145; 1; 7] = Ok (100, [7]) /\ compact_decode L64 [21; 0] = Err ConvertError /\
  compact 100 [145; 1] /\ ~ compact 5 [21; 0].
Proof.
  repeat (split; [example; reflexivity|]). split.
  - split; [repeat constructor; discriminate|]. right. left. repeat split; discriminate.
  - intros [_ [(_ & H & _)|[(H & _)|[(H & _)|(H & _)]]]]; [discriminate H|destruct H as [H _]; now apply H..|now apply H].
Qed.
