(** * DocFacts: results are as documented. *)
From Coq Require Import Lia QArith Qabs Lqa.
From Verif Require Import Base Promo Ops Spec BaseFacts RoundFacts ArithProofs PrimPromo SimpleProofs MulDiv OrderFacts DecProofs LawFacts Programs ProgramFacts Checked SpecCheck.
From Verif Require Import SpecDoc.
From Verif Require Import Fixed.
Open Scope Z_scope.

Lemma rounds_documented m P d r : 0 <= P -> rounds_to m P d r -> documented m P d r.
Proof.
  intros HP H. destruct m; cbn [documented]; try (now apply (rounds_to_slack Nearest)); unfold rounds_to in H; cbn [rounds] in H;
    pose proof (q10_gt0 (- P)) as U; pose proof (q10_opp P HP) as E; unfold dec; rewrite ?Zq_succ, ?Zq_pred in H;
    destruct H as [H1 H2]; apply (Qmult_le_compat_r _ _ (q10 (- P))) in H1 || apply (Qmult_lt_compat_r _ _ (q10 (- P)) U) in H1;
    apply (Qmult_le_compat_r _ _ (q10 (- P))) in H2 || apply (Qmult_lt_compat_r _ _ (q10 (- P)) U) in H2; try lra;
    assert (d * q10 P * q10 (- P) == d)%Q as F by (rewrite <- Qmult_assoc, E; ring); rewrite F in *; lra.
Qed.
Lemma ok_rounds L P m d r : rounded_or_overflow L P m d (Ret (Ok r)) -> rounds_to m P d r.
Proof.
  intros (v & Hv & [(_ & E)|(_ & E)]); [injection E as ->; exact Hv|discriminate E].
Qed.
Lemma ok_panics L P m d r : rounded_or_panic L P m d (Ret (Ok r)) -> rounds_to m P d r.
Proof. intros [E|H]; [discriminate E|now apply (ok_rounds L)]. Qed.

Lemma rmul_documented b L P x y m r : valid b L P -> in_range L x -> in_range L y -> sound_for b m ->
  rmul b L P x y m = Ret (Ok r) -> documented m P (dec P x * dec P y) r.
Proof.
  intros Hv Hx Hy S E. apply rounds_documented; [apply Hv|]. destruct S as [S|S].
  - apply (ok_panics L). rewrite <- E. now apply rmul_checked.
  - apply (ok_rounds L). rewrite <- E. now apply rmul_directed.
Qed.
Lemma rdiv_documented b L P x y m r : valid b L P -> in_range L x -> in_range L y -> y <> 0 -> sound_for b m ->
  rdiv b L P x y m = Ret (Ok r) -> documented m P (dec P x / dec P y) r.
Proof.
  intros Hv Hx Hy H0 S E. apply rounds_documented; [apply Hv|]. destruct S as [S|S].
  - apply (ok_panics L). rewrite <- E. now apply rdiv_checked.
  - apply (ok_rounds L). rewrite <- E. now apply rdiv_directed.
Qed.
Lemma recip_documented b L P x m r : valid b L P -> in_range L x -> x <> 0 -> sound_for b m ->
  recip b L P x m = Ret (Ok r) -> documented m P (1 / dec P x) r.
Proof.
  intros Hv Hx H0 S E. apply rounds_documented; [apply Hv|]. destruct S as [S|S].
  - apply (ok_panics L). rewrite <- E. now apply recip_checked.
  - apply (ok_rounds L). rewrite <- E. apply recip_rounded; try assumption. intros N. now elim S.
Qed.
Lemma rdiv_int_documented b L P x n m r : 0 <= P -> in_range L x -> in_range L n -> n <> 0 -> sound_for b m ->
  rdiv_int b L x n m = Ret (Ok r) -> documented m P (dec P x / Zq n) r.
Proof.
  intros HP Hx Hn H0 S E. apply rounds_documented; [exact HP|]. destruct S as [S|S].
  - apply (ok_panics L). rewrite <- E. now apply rdiv_int_checked.
  - apply (ok_rounds L). rewrite <- E. apply rdiv_int_rounded; try assumption; [|intros N; now elim S].
    intros (-> & ->). unfold rdiv_int in E. rewrite <- (imin_lty L) in E. rewrite int_rdiv_min in E by apply signed_lty. discriminate E.
Qed.
(** Half a unit is attained, and exceeded without overflow checks. *)
Lemma documented_tight : exists x y r, valid dev L64 9 /\ in_range L64 x /\ in_range L64 y /\ rmul dev L64 9 x y Nearest = Ret (Ok r) /\
  (Qabs (dec 9 r - dec 9 x * dec 9 y) == (1 # 2) * q10 (-9))%Q.
Proof. exists 1, 500000000, 1. repeat split; try (vm_compute; congruence). Qed.
Lemma documented_unchecked : exists x y r, valid release L16 4 /\ in_range L16 x /\ in_range L16 y /\ y <> 0 /\
  rdiv release L16 4 x y Nearest = Ret (Ok r) /\ ~ documented Nearest 4 (dec 4 x / dec 4 y) r.
Proof.
  exists 10000, 32767, 3051. repeat split; try (vm_compute; congruence); vm_compute; intros H; discriminate H || now apply H.
Qed.
