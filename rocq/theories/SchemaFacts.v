(** * SchemaFacts: serialized values against the schema. *)
From Verif Require Import Base Promo Fixed Str Float Codec Spec.
From Verif Require Import Schema.
Open Scope Z_scope.

Lemma str_matches b L P x bw tok : str_serialize b L P x bw = Ret tok -> json_type tok = Some json_schema.
Proof. unfold str_serialize. destruct (stringify b L P x); cbn [bind]; intros E; try discriminate E. injection E as <-. reflexivity. Qed.
Lemma output_matches b L P x bw tok : serialize b L P x true bw = Ret tok -> json_type tok = Some json_schema.
Proof. apply str_matches. Qed.
Lemma option_matches b L P x bw tok : str_option_serialize b L P x bw = Ret tok -> (x = None /\ json_type tok = Some INull) \/ json_type tok = Some json_schema.
Proof.
  unfold str_option_serialize. destruct x as [x|].
  - destruct (stringify b L P x); cbn [bind]; intros E; try discriminate E. injection E as <-. now right.
  - intros E. injection E as <-. now left.
Qed.
Lemma others_differ b L P x tok : (repr_serialize L x = tok \/ float_serialize b L P x = Ret tok) -> json_type tok <> Some json_schema.
Proof.
  intros [<-|E]; [discriminate|]. unfold float_serialize in E. destruct (to_f64 b L P x); cbn [bind] in E; try discriminate E.
  injection E as <-. discriminate.
Qed.
Lemma input_wider : exists t z raw x y, valid dev L64 9 /\
  deserialize dev L64 9 false true (TInt t z) = Ret (Ok x) /\ json_type (TInt t z) <> Some json_schema /\
  deserialize dev L64 9 false true (TF64 raw) = Ret (Ok y) /\ json_type (TF64 raw) <> Some json_schema.
Proof.
  exists U8, 5, 4609434218613702656, 5000000000, 1500000000.
  split; [example|]. split; [now vm_compute|]. split; [discriminate|]. split; [now vm_compute|discriminate].
Qed.
