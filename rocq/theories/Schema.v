(** * Schema: src/schemars.rs. *)
From Verif Require Import Base Promo Fixed Str Float Codec.
Open Scope Z_scope.

(** The instance types of JSON schema (crate schemars, [InstanceType]). *)
Inductive instance_type : Type := INull | IBoolean | IObject | IArray | INumber | IString | IInteger.
(** [json_schema], src/schemars.rs:18-24: the type, no further restriction. *)
Definition json_schema : instance_type := IString.
(** The JSON value (crate serde_json) that a call of serde's data model becomes; [TOther] stands for
    calls that become different kinds, none of which fixnum makes. *)
Fixpoint json_type (tok : token) : option instance_type :=
  match tok with
  | TStr _ _ | TChar _ => Some IString
  | TInt _ _ => Some IInteger
  | TF64 _ => Some INumber
  | TNone => Some INull
  | TSome tok => json_type tok
  | TMap _ _ => Some IObject
  | TOther => None
  end.
