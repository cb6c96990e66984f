(** * SeriesFacts: error bounds of sums of products and of Horner's scheme. *)
From Coq Require Import Lqa.
From Verif Require Import Base Promo Ops Fixed Spec BaseFacts RoundFacts ArithProofs SimpleProofs MulDiv DecProofs OrderFacts LawFacts Programs ProgramFacts.
From Verif Require Import SpecRound Series.
From Verif Require Import Fixed.
Open Scope Z_scope.

Lemma product b L P x y m : valid b L P -> in_range L x -> in_range L y -> tame m L P ->
  (exists p, rmul b L P x y m = Ret (Ok p) /\ in_range L p /\ rounds_to m P (dec P x * dec P y) p) \/ rmul b L P x y m = Ret (Err Overflow).
Proof.
  intros V R R' T. destruct (rmul_any b L P V x y R R' m T) as (p & Hp & [[A E]|[A E]]); [left|right; exact E]. exists p. auto.
Qed.
Lemma sum_cases L P x y : (exists z, cadd L x y = Ok z /\ in_range L z /\ (dec P z == dec P x + dec P y)%Q) \/ cadd L x y = Err Overflow.
Proof.
  rewrite cadd_eq. destruct (chkr L (x + y)) as [z|e] eqn:E.
  - apply chkr_inv in E. destruct E as [-> R]. left. exists (x + y). split; [reflexivity|]. split; [exact R|apply dec_add].
  - right. destruct (chkr_spec L (x + y)) as [[R E']|[R E']]; injection E' as E'; congruence.
Qed.
Lemma off_step m n e p u : (0 <= u)%Q -> off_q m 1 p u -> off_q m n e u -> off_q m (n + 1) (p + e) u.
Proof.
  intros U A B. pose proof (Zq_succ n) as Z. unfold off_q in *. change (Zq 1) with 1%Q in A. destruct m.
  - setoid_rewrite Z. nra.
  - apply abs_le in A. apply abs_le in B. apply abs_both; setoid_rewrite Z; nra.
  - setoid_rewrite Z. nra.
Qed.
Lemma off_compat m n e e' u : (e == e')%Q -> off_q m n e u -> off_q m n e' u.
Proof. intros E. unfold off_q. destruct m; intros H; [|rewrite <- E; exact H|]; lra. Qed.
Lemma off_one m P d r : 0 <= P -> rounds_to m P d r -> off_q m 1 (dec P r - d) (q10 (- P)).
Proof.
  intros HP H. pose proof (q10_opp P HP) as E. pose proof (q10_nonneg (- P)) as U. pose proof (Zq_succ r) as S1. pose proof (Zq_pred r) as S2.
  assert (dec P r - d == (Zq r - d * q10 P) * q10 (- P))%Q as EQ.
  { unfold dec. transitivity (Zq r * q10 (- P) - d * (q10 P * q10 (- P)))%Q; [rewrite E; ring|ring]. }
  unfold off_q. change (Zq 1) with 1%Q. destruct m.
  - unfold rounds_to, rounds in H. destruct H as [A B]. rewrite EQ. assert (Zq r - d * q10 P <= 1)%Q by lra. assert (0 <= Zq r - d * q10 P)%Q by lra. nra.
  - apply rounds_to_slack in H; [|exact HP]. unfold slack in H. lra.
  - unfold rounds_to, rounds in H. destruct H as [A B]. rewrite EQ. assert (-1 <= Zq r - d * q10 P)%Q by lra. assert (Zq r - d * q10 P <= 0)%Q by lra. nra.
Qed.

Lemma dot_total b L P m l : valid b L P -> tame m L P -> Forall (pair_in L) l -> forall acc, in_range L acc ->
  (exists r, dot b L P m acc l = Ret (Ok r) /\ in_range L r /\
     off_q m (Z.of_nat (length l)) (dec P r - (dec P acc + qdot P l)) (q10 (- P))) \/ dot b L P m acc l = Ret (Err Overflow).
Proof.
  intros V T. assert (0 <= P) as HP by apply V. pose proof (q10_nonneg (- P)) as U. induction 1 as [|[x y] l [Rx Ry] _ IH]; intros acc Ra.
  - left. exists acc. split; [reflexivity|]. split; [exact Ra|]. cbn [length qdot]. change (Z.of_nat 0) with 0.
    apply (off_compat m 0 0); [ring|]. destruct m; unfold off_q; try split; change (Zq 0) with 0%Q; try lra. apply abs_both; lra.
  - cbn [dot]. cbn [fst snd] in *. destruct (product b L P x y m V Rx Ry T) as [(p & E & Rp & Hp)|E]; rewrite E; cbn [try_ bind]; [|right; reflexivity].
    destruct (sum_cases L P acc p) as [(z & F & Rz & Hz)|F]; rewrite F; cbn [try_ bind]; [|right; reflexivity].
    destruct (IH z Rz) as [(r & G & Rr & Hr)|G]; [left|right; exact G]. exists r. split; [exact G|]. split; [exact Rr|].
    cbn [length qdot]. rewrite Nat2Z.inj_succ. unfold Z.succ.
    apply (off_compat m _ ((dec P p - dec P x * dec P y) + (dec P r - (dec P z + qdot P l)))%Q); [rewrite Hz; ring|].
    apply off_step; [exact U|apply off_one; assumption|exact Hr].
Qed.

Lemma qpow_nonneg a n : (0 <= a)%Q -> (0 <= qpow a n)%Q.
Proof. intros A. induction n as [|n IH]; cbn [qpow]; [discriminate|]. now apply Qmult_le_0_compat. Qed.
Lemma qpow_abs a n : (Qabs (qpow a n) == qpow (Qabs a) n)%Q.
Proof. induction n as [|n IH]; cbn [qpow]; [reflexivity|]. rewrite Qabs_Qmult, IH. reflexivity. Qed.
Lemma geom_nonneg a n : (0 <= a)%Q -> (0 <= geom a n)%Q.
Proof. intros A. induction n as [|n IH]; cbn [geom]; [discriminate|]. pose proof (qpow_nonneg a n A). lra. Qed.
Lemma qpow_one a n : (0 <= a <= 1)%Q -> (qpow a n <= 1)%Q.
Proof. intros A. induction n as [|n IH]; cbn [qpow]; [discriminate|]. pose proof (qpow_nonneg a n (proj1 A)). nra. Qed.
Lemma geom_le a n : (0 <= a <= 1)%Q -> (geom a n <= Zq (Z.of_nat n))%Q.
Proof.
  intros A. induction n as [|n IH]; cbn [geom]; [discriminate|]. pose proof (qpow_one a n A). rewrite Nat2Z.inj_succ. unfold Z.succ. rewrite Zq_succ. lra.
Qed.
Definition tolerance (m : mode) (P : Z) : Q := (slack m * q10 (- P))%Q.
Lemma horner_total b L P m x l : valid b L P -> tame m L P -> in_range L x -> Forall (in_range L) l -> forall acc q e, in_range L acc ->
  (Qabs (dec P acc - q) <= e)%Q ->
  (exists r, horner b L P m x acc l = Ret (Ok r) /\ in_range L r /\
     (Qabs (dec P r - (q * qpow (dec P x) (length l) + qpoly P (dec P x) l)) <=
      e * qpow (Qabs (dec P x)) (length l) + tolerance m P * geom (Qabs (dec P x)) (length l))%Q) \/
  horner b L P m x acc l = Ret (Err Overflow).
Proof.
  intros V T Rx. assert (0 <= P) as HP by apply V. set (X := dec P x). set (s := tolerance m P).
  induction 1 as [|a l Ra _ IH]; intros acc q e Rc He.
  - left. exists acc. split; [reflexivity|]. split; [exact Rc|]. cbn [length qpow qpoly geom].
    setoid_replace (dec P acc - (q * 1 + 0))%Q with (dec P acc - q)%Q by ring. lra.
  - cbn [horner]. destruct (product b L P acc x m V Rc Rx T) as [(p & E & Rp & Hp)|E]; rewrite E; cbn [try_ bind]; [|right; reflexivity].
    destruct (sum_cases L P p a) as [(z & F & Rz & Hz)|F]; rewrite F; cbn [try_ bind]; [|right; reflexivity].
    assert (Qabs (dec P z - (q * X + dec P a)) <= e * Qabs X + s)%Q as Hn.
    { setoid_replace (dec P z - (q * X + dec P a))%Q with ((dec P p - dec P acc * X) + (dec P acc - q) * X)%Q by (rewrite Hz; ring).
      eapply Qle_trans; [apply Qabs_triangle|]. rewrite Qabs_Qmult. apply rounds_to_slack in Hp; [|exact HP]. fold X in Hp.
      pose proof (Qabs_nonneg X) as XN. assert (Qabs (dec P acc - q) * Qabs X <= e * Qabs X)%Q by (apply Qmult_le_compat_r; assumption).
      unfold s, tolerance. lra. }
    destruct (IH z _ _ Rz Hn) as [(r & G & Rr & Hr)|G]; [left|right; exact G]. exists r. split; [exact G|]. split; [exact Rr|].
    cbn [length qpow qpoly geom].
    setoid_replace (q * (X * qpow X (length l)) + (dec P a * qpow X (length l) + qpoly P X l))%Q with ((q * X + dec P a) * qpow X (length l) + qpoly P X l)%Q by ring.
    eapply Qle_trans; [exact Hr|]. apply Qle_lteq. right. ring.
Qed.
Lemma horner_exact b L P m x a l : valid b L P -> tame m L P -> in_range L x -> Forall (in_range L) (a :: l) ->
  (exists r, horner b L P m x a l = Ret (Ok r) /\ in_range L r /\
     (Qabs (dec P r - qpoly P (dec P x) (a :: l)) <= slack m * q10 (- P) * geom (Qabs (dec P x)) (length l))%Q) \/
  horner b L P m x a l = Ret (Err Overflow).
Proof.
  intros V T Rx H. inversion H; subst.
  destruct (horner_total b L P m x l V T Rx H3 a (dec P a) 0 H2) as [(r & G & Rr & Hr)|G]; [|left|right; exact G].
  { setoid_replace (dec P a - dec P a)%Q with 0%Q by ring. apply Qle_refl. }
  exists r. split; [exact G|]. split; [exact Rr|]. cbn [qpoly]. unfold tolerance in Hr. lra.
Qed.
Lemma horner_small b L P m x a l r : valid b L P -> tame m L P -> in_range L x -> Forall (in_range L) (a :: l) -> (Qabs (dec P x) <= 1)%Q ->
  horner b L P m x a l = Ret (Ok r) -> (Qabs (dec P r - qpoly P (dec P x) (a :: l)) <= slack m * Zq (Z.of_nat (length l)) * q10 (- P))%Q.
Proof.
  intros V T Rx H X E. destruct (horner_exact b L P m x a l V T Rx H) as [(r' & G & _ & Hr)|G]; [|congruence].
  assert (r' = r) as -> by congruence. eapply Qle_trans; [exact Hr|].
  pose proof (geom_le (Qabs (dec P x)) (length l) (conj (Qabs_nonneg _) X)) as A. pose proof (slack_pos m). pose proof (q10_nonneg (- P)).
  assert (0 <= slack m * q10 (- P))%Q by now apply Qmult_le_0_compat.
  assert (slack m * q10 (- P) * geom (Qabs (dec P x)) (length l) <= slack m * q10 (- P) * Zq (Z.of_nat (length l)))%Q.
  { rewrite (Qmult_comm (slack m * q10 (- P)) (geom _ _)), (Qmult_comm (slack m * q10 (- P)) (Zq _)). now apply Qmult_le_compat_r. }
  lra.
Qed.
