(** * BaseFacts: lemmas about the language model. *)
From Coq Require Export ZifyBool ZifyNat.
From Verif Require Import Base Promo ConstFn Ops Fixed Spec.
Ltac Zify.zify_post_hook ::= Z.div_mod_to_equations.

Lemma imin_lty L : imin (lty L) = lo L. Proof. destruct L; reflexivity. Qed.
Lemma imax_lty L : imax (lty L) = hi L. Proof. destruct L; reflexivity. Qed.
Lemma fits_lty L z : fits (lty L) z <-> in_range L z.
Proof. unfold fits, in_range. rewrite imin_lty, imax_lty. reflexivity. Qed.
Lemma lo_hi L : lo L = - hi L - 1. Proof. destruct L; reflexivity. Qed.
Lemma hi_pos L : 32767 <= hi L. Proof. destruct L; vm_compute; discriminate. Qed.

Lemma fitsb_fits t z : fitsb t z = true <-> fits t z.
Proof. unfold fitsb, fits. lia. Qed.
Lemma fitsb_true t z : fits t z -> fitsb t z = true.
Proof. apply fitsb_fits. Qed.
Lemma fitsb_false t z : ~ fits t z -> fitsb t z = false.
Proof. rewrite <- fitsb_fits. destruct (fitsb t z); congruence. Qed.
Lemma fits_dec t z : fits t z \/ ~ fits t z.
Proof. unfold fits. lia. Qed.

Lemma fit_ok b t z : fits t z -> fit b t z = Ret z.
Proof. intros H. unfold fit. rewrite fitsb_true by assumption. reflexivity. Qed.
Lemma add_ok b t x y : fits t (x + y) -> add b t x y = Ret (x + y).
Proof. apply fit_ok. Qed.
Lemma sub_ok b t x y : fits t (x - y) -> sub b t x y = Ret (x - y).
Proof. apply fit_ok. Qed.
Lemma mul_ok b t x y : fits t (x * y) -> mul b t x y = Ret (x * y).
Proof. apply fit_ok. Qed.
Lemma neg_ok b t x : fits t (- x) -> neg b t x = Ret (- x).
Proof. apply fit_ok. Qed.
Lemma iabs_ok b t x : fits t (Z.abs x) -> iabs b t x = Ret (Z.abs x).
Proof. apply fit_ok. Qed.
Lemma ipow_ok b t x n : fits t (x ^ n) -> ipow b t x n = Ret (x ^ n).
Proof. apply fit_ok. Qed.
Lemma div_ok t x y : y <> 0 -> fits t (Z.quot x y) -> div t x y = Ret (Z.quot x y).
Proof.
  intros Hy H. unfold div. destruct (Z.eqb_spec y 0); [congruence|].
  rewrite fitsb_true by assumption. reflexivity.
Qed.
Lemma rem_ok t x y : y <> 0 -> fits t (Z.quot x y) -> rem t x y = Ret (Z.rem x y).
Proof.
  intros Hy H. unfold rem. destruct (Z.eqb_spec y 0); [congruence|].
  rewrite fitsb_true by assumption. reflexivity.
Qed.
Lemma dassert_ok b c : c = true -> dassert b c = Ret tt.
Proof. intros ->. unfold dassert. destruct (dbg b); reflexivity. Qed.
Lemma chk_some t z : fits t z -> chk t z = Some z.
Proof. intros H. unfold chk. rewrite fitsb_true by assumption. reflexivity. Qed.
Lemma chk_none t z : ~ fits t z -> chk t z = None.
Proof. intros H. unfold chk. rewrite fitsb_false by assumption. reflexivity. Qed.

Lemma width_pos t : 8 <= width t. Proof. destruct t; simpl; lia. Qed.
Lemma wrap_fits t z : fits t z -> wrap t z = z.
Proof.
  unfold fits, imin, imax, wrap. pose proof (width_pos t) as Hw.
  assert (2 ^ width t = 2 * 2 ^ (width t - 1)) as E.
  { replace (width t) with (Z.succ (width t - 1)) at 1 by lia. rewrite Z.pow_succ_r by lia. lia. }
  destruct (is_signed t); intros H.
  - rewrite Z.mod_small by lia. lia.
  - apply Z.mod_small. lia.
Qed.
Lemma fits_wrap t z : fits t (wrap t z).
Proof.
  unfold fits, imin, imax, wrap. pose proof (width_pos t) as Hw.
  assert (2 ^ width t = 2 * 2 ^ (width t - 1)) as E.
  { replace (width t) with (Z.succ (width t - 1)) at 1 by lia. rewrite Z.pow_succ_r by lia. lia. }
  assert (0 < 2 ^ (width t - 1)) by (apply Z.pow_pos_nonneg; lia).
  destruct (is_signed t).
  - pose proof (Z.mod_pos_bound (z + 2 ^ (width t - 1)) (2 ^ width t)). lia.
  - pose proof (Z.mod_pos_bound z (2 ^ width t)). lia.
Qed.
Lemma wrap_mod t z : exists k, wrap t z = z + k * 2 ^ width t.
Proof.
  unfold wrap. pose proof (width_pos t) as Hw.
  assert (2 ^ width t <> 0) by (apply Z.pow_nonzero; lia).
  destruct (is_signed t).
  - exists (- ((z + 2 ^ (width t - 1)) / 2 ^ width t)). rewrite Z.mod_eq by assumption. lia.
  - exists (- (z / 2 ^ width t)). rewrite Z.mod_eq by assumption. lia.
Qed.

(** Numeric bounds of the primitive types, for [lia]. *)
Ltac bounds t := pose proof (eq_refl : imin t = ltac:(let v := eval vm_compute in (imin t) in exact v));
                 pose proof (eq_refl : imax t = ltac:(let v := eval vm_compute in (imax t) in exact v)).

(** ** Lifting a check over a finite range of integers *)
Fixpoint zrange (n : nat) : list Z :=
  match n with O => [] | S n => Z.of_nat n :: zrange n end.
Lemma zrange_in n z : 0 <= z < Z.of_nat n -> In z (zrange n).
Proof. induction n; simpl; intros H; [lia|]. destruct (Z.eq_dec (Z.of_nat n) z); [left|right; apply IHn]; lia. Qed.
Lemma forall_range (f : Z -> bool) n :
  forallb f (zrange n) = true -> forall z, 0 <= z < Z.of_nat n -> f z = true.
Proof. intros H z Hz. rewrite forallb_forall in H. apply H, zrange_in, Hz. Qed.

(** ** The coefficient *)
Definition coef_check (b : build) (L : layout) (P : Z) : bool :=
  implb ((10 ^ P <=? hi L) && (match L with L128 => f128 b | _ => true end))
    (match COEF b L P with Ret c => c =? 10 ^ P | _ => false end).
Lemma coef_checked b L : forallb (coef_check b L) (zrange 39) = true.
Proof. destruct b as [[] [] [] []], L; vm_compute; reflexivity. Qed.

Lemma valid_prec_38 L P : valid_prec L P -> 0 <= P < 39.
Proof.
  intros [H0 H]. split; [assumption|]. apply Z.lt_nge. intros Hp.
  assert (10 ^ 39 <= 10 ^ P) by (apply Z.pow_le_mono_r; lia).
  assert (hi L < 10 ^ 39) by (destruct L; vm_compute; reflexivity). lia.
Qed.
Lemma COEF_ok b L P : valid b L P -> COEF b L P = Ret (10 ^ P).
Proof.
  intros [Hs Hv]. pose proof (valid_prec_38 L P Hv) as Hp. destruct Hv as [_ Hv].
  pose proof (forall_range _ 39 (coef_checked b L) P Hp) as H. unfold coef_check in H.
  replace (10 ^ P <=? hi L) with true in H by lia.
  assert (match L with L128 => f128 b | _ => true end = true) as E
    by (destruct L; try reflexivity; apply Hs; reflexivity).
  rewrite E in H. simpl in H. destruct (COEF b L P); try discriminate.
  f_equal. lia.
Qed.
Lemma pow10_pos P : 0 <= P -> 0 < 10 ^ P.
Proof. intros. apply Z.pow_pos_nonneg; lia. Qed.
Lemma NEG_COEF_ok b L P : valid b L P -> NEG_COEF b L P = Ret (- 10 ^ P).
Proof.
  intros H. unfold NEG_COEF. rewrite COEF_ok by assumption. simpl bind.
  destruct H as [_ [Hp H]]. pose proof (pow10_pos P Hp).
  rewrite fitsb_true; [reflexivity|]. apply fits_lty. unfold in_range. rewrite lo_hi. lia.
Qed.
