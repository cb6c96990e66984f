(** * PropsSchema: C107, the JSON schema. *)
From Verif Require Import Base Promo Fixed Str Float Codec Spec.
From Verif Require Import Schema SchemaFacts.
From Verif Require Import Meets.
Open Scope Z_scope.

(** ** C107 *)
Theorem C107_output : forall b L P x bw tok, serialize b L P x true bw = Ret tok -> json_type tok = Some json_schema.
Proof. exact output_matches. Qed.
Print Assumptions C107_output.
Example C107_output_case : serialize dev L64 1 (-15) true false = Ret (TStr false [45; 49; 46; 53]).
Proof. meets. Qed.
Theorem C107_str : forall b L P x bw tok, str_serialize b L P x bw = Ret tok -> json_type tok = Some json_schema.
Proof. exact str_matches. Qed.
Print Assumptions C107_str.
Example C107_str_case : str_serialize dev L64 1 (-15) true = Ret (TStr true [45; 49; 46; 53]).
Proof. meets. Qed.
Theorem C107_option : forall b L P x bw tok, str_option_serialize b L P x bw = Ret tok ->
  (x = None /\ json_type tok = Some INull) \/ json_type tok = Some json_schema.
Proof. exact option_matches. Qed.
Print Assumptions C107_option.
Example C107_option_case : str_option_serialize dev L64 1 (Some (-15)) true = Ret (TSome (TStr true [45; 49; 46; 53])).
Proof. meets. Qed.
(** A field with the modules [repr] or [float] needs another schema. *)
Theorem C107_others : forall b L P x tok, (repr_serialize L x = tok \/ float_serialize b L P x = Ret tok) -> json_type tok <> Some json_schema.
Proof. exact others_differ. Qed.
Print Assumptions C107_others.
Example C107_others_case : repr_serialize L64 (-15) = TInt I64 (-15) \/ float_serialize dev L64 1 (-15) = Ret (TInt I64 (-15)).
Proof. left. meets. Qed.
(** Numbers are read although the schema does not allow them. *)
Theorem C107_input : exists t z raw x y, valid dev L64 9 /\
  deserialize dev L64 9 false true (TInt t z) = Ret (Ok x) /\ json_type (TInt t z) <> Some json_schema /\
  deserialize dev L64 9 false true (TF64 raw) = Ret (Ok y) /\ json_type (TF64 raw) <> Some json_schema.
Proof. exact input_wider. Qed.
Print Assumptions C107_input.
