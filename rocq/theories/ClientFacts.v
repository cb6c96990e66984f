(** * ClientFacts: clients in different builds. *)
From Coq Require Import SpecFloat.
From Verif Require Import Base Promo Ops Fixed Str Float Codec Spec SpecText SpecBuild StrFacts ProfileFacts.
From Verif Require Import SpecCalls Calls CallFacts.
From Verif Require Import Clients.
From Verif Require Import Fixed.
Open Scope Z_scope.

Lemma unless_refl {A} (o : outcome A) : unless_panic o o.
Proof. now right. Qed.
Lemma unless_bind {A B} (o o' : outcome A) (f f' : A -> outcome B) :
  unless_panic o o' -> (forall a, o = Ret a -> unless_panic (f a) (f' a)) -> unless_panic (bind o f) (bind o' f').
Proof.
  intros [->|<-] H; [now left|].
  destruct o as [a| | |]; cbn [bind]; try (now right).
  now apply H.
Qed.
Lemma unless_give {A} (f : A -> answer) (o o' : outcome A) : unless_panic o o' -> unless_panic (give f o) (give f o').
Proof. intros H. unfold give. apply unless_bind; [exact H|]. intros; apply unless_refl. Qed.

Lemma strict_rdiv_int b b' L x n m : strict b -> unless_panic (rdiv_int b L x n m) (rdiv_int b' L x n m).
Proof. intros H. now apply strict_int_rdiv. Qed.
Lemma same_rdiv_int b b' L x n m : same_profile b b' -> rdiv_int b L x n m = rdiv_int b' L x n m.
Proof. intros H. now apply same_int_rdiv. Qed.

Lemma ask_strict b b' L P c : strict b -> valid b L P -> valid b' L P -> proper L c -> (formats c -> f128 b = f128 b') ->
  unless_panic (ask b L P c) (ask b' L P c).
Proof.
  intros Hs V V' Hc Hf; destruct c; cbn [ask proper formats] in *; apply unless_give.
  - now apply strict_rmul.
  - now apply strict_saturating_rmul.
  - now apply strict_rdiv.
  - now apply strict_rdiv_int.
  - now apply strict_int_rdiv.
  - now apply strict_int_rdiv_fp.
  - now apply strict_recip.
  - now apply strict_half_sum.
  - right. now apply all_rsqrt.
  - now apply strict_npt.
  - now apply strict_integral.
  - destruct m; now apply strict_int_part.
  - now apply strict_from_decimal.
  - now apply strict_to_decimal.
  - right. now apply same_try_from_int.
  - right. now apply parse_profiles.
  - right. now apply parse_profiles.
  - apply strict_to_string; auto.
  - apply strict_serialize; auto.
  - now apply strict_try_from_f64.
  - right. now apply same_to_f64.
Qed.
Lemma ask_same b b' L P c : same_profile b b' -> valid b L P -> valid b' L P -> proper L c -> (formats c -> f128 b = f128 b') ->
  ask b L P c = ask b' L P c.
Proof.
  intros Hs V V' Hc Hf; destruct c; cbn [ask proper formats] in *; apply f_equal.
  - now apply same_rmul.
  - now apply same_saturating_rmul.
  - now apply same_rdiv.
  - now apply same_rdiv_int.
  - now apply same_int_rdiv.
  - now apply same_int_rdiv_fp.
  - now apply same_recip.
  - now apply all_half_sum.
  - now apply all_rsqrt.
  - now apply all_npt.
  - now apply same_integral.
  - destruct m; now apply same_int_part.
  - now apply same_from_decimal.
  - now apply all_to_decimal.
  - now apply same_try_from_int.
  - now apply parse_profiles.
  - now apply parse_profiles.
  - apply same_to_string; auto.
  - apply same_serialize; auto.
  - now apply same_try_from_f64.
  - now apply same_to_f64.
Qed.
Lemma ask_run b L P c : run b L P c = forget (ask b L P c).
Proof.
  destruct c; cbn [ask run]; unfold give, forget; match goal with |- bind ?o _ = _ => destruct o end; reflexivity.
Qed.

Section clients.
Context {A : Type}.
Implicit Type p : prog A.
Lemma exec_strict b b' p : strict b ->
  (forall L P c, reaches b p L P c -> valid b L P /\ valid b' L P /\ proper L c /\ (formats c -> f128 b = f128 b')) ->
  unless_panic (exec b p) (exec b' p).
Proof.
  intros Hs. induction p as [v|L P c k IH]; intros H; cbn [exec]; [apply unless_refl|].
  apply unless_bind.
  - destruct (H L P c) as (V & V' & Hc & Hf); [now left|]. now apply ask_strict.
  - intros a Ha. apply IH. intros L' P' c' Hr. apply H. right. now exists a.
Qed.
Lemma exec_same b b' p : same_profile b b' ->
  (forall L P c, reaches b p L P c -> valid b L P /\ valid b' L P /\ proper L c /\ (formats c -> f128 b = f128 b')) ->
  exec b p = exec b' p.
Proof.
  intros Hs. induction p as [v|L P c k IH]; intros H; cbn [exec]; [reflexivity|].
  destruct (H L P c) as (V & V' & Hc & Hf); [now left|].
  rewrite <- (ask_same b b') by assumption.
  destruct (ask b L P c) as [a| | |] eqn:Ha; cbn [bind]; try reflexivity.
  apply IH. intros L' P' c' Hr. apply H. right. now exists a.
Qed.
Lemma exec_map b p : (forall L P c, reaches b p L P c -> valid b L P /\ proper L c) ->
  (exec b p = Panic <-> exists L P c, reaches b p L P c /\ panics b L P c) /\
  (exec b p = Undef <-> exists L P c, reaches b p L P c /\ undefined b L P c) /\ exec b p <> NoFuel.
Proof.
  induction p as [v|L P c k IH]; intros H; cbn [exec].
  - repeat split; try discriminate; intros (L & P & c & [] & _).
  - destruct (H L P c) as (V & Hc); [now left|].
    destruct (panic_map b L P c V Hc) as (Hp & Hu & Hn).
    rewrite ask_run in Hp, Hu, Hn.
    destruct (ask b L P c) as [a| | |] eqn:Ha; cbn [forget bind] in *; unfold forget in *; cbn [bind] in *.
    + destruct (IH a) as (Ip & Iu & In). { intros L' P' c' Hr. apply H. right. now exists a. }
      split; [|split; [|exact In]].
      * rewrite Ip. split.
        -- intros (L' & P' & c' & Hr & Hq). exists L', P', c'. split; [|exact Hq]. right. now exists a.
        -- intros (L' & P' & c' & Hr & Hq). cbn [reaches] in Hr. destruct Hr as [(-> & -> & ->)|(a' & Ha' & Hr)].
           ++ now apply Hp in Hq.
           ++ rewrite Ha in Ha'. injection Ha' as <-. now exists L', P', c'.
      * rewrite Iu. split.
        -- intros (L' & P' & c' & Hr & Hq). exists L', P', c'. split; [|exact Hq]. right. now exists a.
        -- intros (L' & P' & c' & Hr & Hq). cbn [reaches] in Hr. destruct Hr as [(-> & -> & ->)|(a' & Ha' & Hr)].
           ++ now apply Hu in Hq.
           ++ rewrite Ha in Ha'. injection Ha' as <-. now exists L', P', c'.
    + split; [|split; [|discriminate]].
      * split; [|reflexivity]. intros _. exists L, P, c. split; [now left|]. now apply Hp.
      * split; [discriminate|]. intros (L' & P' & c' & Hr & Hq). cbn [reaches] in Hr.
        destruct Hr as [(-> & -> & ->)|(a' & Ha' & Hr)]; [now apply Hu in Hq|congruence].
    + split; [|split; [|discriminate]].
      * split; [discriminate|]. intros (L' & P' & c' & Hr & Hq). cbn [reaches] in Hr.
        destruct Hr as [(-> & -> & ->)|(a' & Ha' & Hr)]; [now apply Hp in Hq|congruence].
      * split; [|reflexivity]. intros _. exists L, P, c. split; [now left|]. now apply Hu.
    + now elim Hn.
Qed.
Lemma exec_safe b p : (forall L P c, reaches b p L P c -> valid b L P /\ proper L c /\ ~ panics b L P c /\ ~ undefined b L P c) ->
  exists v, exec b p = Ret v.
Proof.
  intros H. destruct (exec_map b p) as (Hp & Hu & Hn). { intros L P c Hr. now destruct (H L P c Hr) as (? & ? & _). }
  destruct (exec b p) as [v| | |]; [now exists v| | |now elim Hn].
  - destruct Hp as [Hp _]. destruct (Hp eq_refl) as (L & P & c & Hr & Hq). now destruct (H L P c Hr) as (_ & _ & N & _).
  - destruct Hu as [Hu _]. destruct (Hu eq_refl) as (L & P & c & Hr & Hq). now destruct (H L P c Hr) as (_ & _ & _ & N).
Qed.
(** Safe with all checks on: then it is the same in every build. *)
Lemma exec_everywhere b b' p : strict b ->
  (forall L P c, reaches b p L P c -> valid b L P /\ valid b' L P /\ proper L c /\ (formats c -> f128 b = f128 b') /\ ~ panics b L P c) ->
  exists v, exec b p = Ret v /\ exec b' p = Ret v.
Proof.
  intros Hs H.
  destruct (exec_safe b p) as (v & Hv).
  { intros L P c Hr. destruct (H L P c Hr) as (V & _ & Hc & _ & N).
    split; [exact V|]. split; [exact Hc|]. split; [exact N|].
    intros U. destruct Hs as [_ Hd]. destruct c; cbn [undefined] in U; try exact U; destruct U as [E _]; congruence. }
  exists v. split; [exact Hv|].
  destruct (exec_strict b b' p Hs) as [E|E]; [|congruence|congruence].
  intros L P c Hr. destruct (H L P c Hr) as (V & V' & Hc & Hf & N). auto.
Qed.
End clients.
