(** * SpecReason: vocabulary for the reasons of failed conversions. *)
From Verif Require Import Base Promo Ops Fixed Spec SpecText.
From Verif Require Import Reason.
From Verif Require Import Fixed.
Open Scope Z_scope.

(** What is left of the result when the reason is dropped. *)
Definition forget {E : Type} (o : outcome (result Z E)) : outcome (result Z cerr) :=
  match o with
  | Ret (Ok x) => Ret (Ok x)
  | Ret (Err _) => Ret (Err ConvertError)
  | Panic => Panic | Undef => Undef | NoFuel => NoFuel
  end.
(** [t] is [s] without the white space at both ends. *)
Definition core (s t : list Z) : Prop :=
  exists pre post, s = pre ++ t ++ post /\ Forall space pre /\ Forall space post /\
    (forall c u, t = c :: u -> ~ space c) /\ (forall c u, t = u ++ [c] -> ~ space c).
(** [s] is a sign and digits and denotes the integer [v] of the layout. *)
Definition reads (L : layout) (s : list Z) (v : Z) : Prop :=
  in_range L v /\ exists ds, digits ds /\
    ((s = 45 :: ds /\ v = - numval ds) \/ ((s = ds \/ s = 43 :: ds) /\ v = numval ds)).

(** The trimmed string is [i], a point and [f], and [i] contains no point. *)
Definition pointed (s i f : list Z) : Prop := core s (i ++ 46 :: f) /\ ~ In 46 i.
(** Why parsing fails: the causes are listed in order of precedence. *)
Definition cause (L : layout) (P : Z) (exact : bool) (s : list Z) (r : reason) : Prop :=
  let short (f : list Z) := exact = true -> Z.of_nat (length f) <= P in
  match r with
  | IntegerSyntax => exists t, core s t /\ ~ In 46 t /\ forall v, ~ reads L t v
  | IntegralSyntax => exists i f, pointed s i f /\ forall v, ~ reads L i v
  | DigitsOnly => exists i f v, pointed s i f /\ reads L i v /\ ~ Forall digit f
  | PrecisionTooHigh => exact = true /\ exists i f v, pointed s i f /\ reads L i v /\ Forall digit f /\ P < Z.of_nat (length f)
  | FractionalSyntax => exists i f v, pointed s i f /\ reads L i v /\ Forall digit f /\ short f /\ (f = [] \/ P = 0)
  | TooBigIntegral => exists i f v, pointed s i f /\ reads L i v /\ digits f /\ short f /\ 0 < P /\ ~ in_range L (v * 10 ^ P)
  | TooBigNumber =>
      (exists t v, core s t /\ ~ In 46 t /\ reads L t v /\ ~ in_range L (v * 10 ^ P)) \/
      (exists i f v neg ds, pointed s i f /\ reads L i v /\ digits f /\ short f /\ 0 < P /\ in_range L (v * 10 ^ P) /\
         spells s neg ds (Some f) /\ forall x, rounds_to Nearest P (spelled neg ds (Some f)) x -> ~ in_range L x)
  | _ => False
  end.
