(** * PrecFacts: the coefficient for every precision, also those too large for the layout. *)
From Coq Require Import QArith.
From Verif Require Import Base Promo ConstFn Ops Spec BaseFacts RoundFacts ArithProofs MulDiv SimpleProofs.
From Verif Require Import Fixed.
Open Scope Z_scope.

Lemma wrap_unique t z z' k : fits t z' -> z = z' + k * 2 ^ width t -> wrap t z = z'.
Proof.
  intros H ->. rewrite <- (wrap_fits t z' H) at 2. unfold wrap. pose proof (width_pos t).
  assert (2 ^ width t <> 0) by (apply Z.pow_nonzero; lia). destruct (is_signed t).
  - f_equal. replace (z' + k * 2 ^ width t + 2 ^ (width t - 1)) with (z' + 2 ^ (width t - 1) + k * 2 ^ width t) by lia. now apply Z_mod_plus_full.
  - now apply Z_mod_plus_full.
Qed.
Lemma wrap_shift t z k : wrap t (z + k * 2 ^ width t) = wrap t z.
Proof.
  destruct (wrap_mod t z) as [j E]. apply (wrap_unique t _ _ (k - j)); [apply fits_wrap|]. rewrite E. lia.
Qed.
Lemma wrap_wrap t t' z : width t <= width t' -> wrap t (wrap t' z) = wrap t z.
Proof.
  intros H. pose proof (width_pos t). destruct (wrap_mod t' z) as [k ->].
  replace (2 ^ width t') with (2 ^ (width t' - width t) * 2 ^ width t) by (rewrite <- Z.pow_add_r by lia; f_equal; lia).
  rewrite Z.mul_assoc. apply wrap_shift.
Qed.
Lemma wrap_mul_l t x y : wrap t (wrap t x * y) = wrap t (x * y).
Proof.
  destruct (wrap_mod t x) as [k ->]. replace ((x + k * 2 ^ width t) * y) with (x * y + k * y * 2 ^ width t) by ring. apply wrap_shift.
Qed.
Lemma wrap_eq_fits t z : wrap t z = z -> fits t z.
Proof. intros <-. apply fits_wrap. Qed.

(** ** The loop of [pow10] *)
Lemma pow10_loop_wraps b n r : ovf b = false -> pow10_loop b n (wrap (Int b) r) = Ret (wrap (Int b) (r * 10 ^ Z.of_nat n)).
Proof.
  intros Ho. revert r. induction n as [|n IH]; intros r; cbn [pow10_loop].
  - now rewrite Z.mul_1_r.
  - unfold mul, fit. rewrite Ho. assert (forall z, (if fitsb (Int b) z then Ret z else Ret (wrap (Int b) z)) = Ret (wrap (Int b) z)) as E.
    { intros z. destruct (fits_dec (Int b) z) as [F|F]; [rewrite fitsb_true, wrap_fits by assumption|rewrite fitsb_false by assumption]; reflexivity. }
    rewrite E. cbn [bind]. rewrite wrap_mul_l, IH. do 2 f_equal. rewrite Nat2Z.inj_succ, Z.pow_succ_r by lia. ring.
Qed.
Lemma pow10_loop_checked b n r : ovf b = true -> 0 < r ->
  pow10_loop b n r = if r * 10 ^ Z.of_nat n <=? imax (Int b) then Ret (r * 10 ^ Z.of_nat n) else if (n =? 0)%nat then Ret r else Panic.
Proof.
  intros Ho. revert r. induction n as [|n IH]; intros r Hr; cbn [pow10_loop].
  - rewrite Z.mul_1_r. destruct (r <=? imax (Int b)); reflexivity.
  - assert (0 < 10 ^ Z.of_nat n) as Hp by (apply Z.pow_pos_nonneg; lia).
    rewrite Nat2Z.inj_succ, Z.pow_succ_r, Z.mul_assoc by lia. change (S n =? 0)%nat with false. cbn iota.
    assert (imin (Int b) <= 0) as Hm by (unfold Int; destruct (f128 b); vm_compute; discriminate).
    unfold mul, fit. destruct (Z_le_gt_dec (r * 10) (imax (Int b))) as [F|F].
    + rewrite fitsb_true by (unfold fits; lia). cbn [bind]. rewrite IH by lia.
      destruct (Z.leb_spec (r * 10 * 10 ^ Z.of_nat n) (imax (Int b))); [reflexivity|].
      destruct n as [|n]; [cbn in *; lia|reflexivity].
    + rewrite fitsb_false by (unfold fits; lia). rewrite Ho. cbn [bind].
      destruct (Z.leb_spec (r * 10 * 10 ^ Z.of_nat n) (imax (Int b))); [nia|reflexivity].
Qed.
Lemma pow10_small b P : 0 <= P < 19 -> pow10 b P = Ret (10 ^ P).
Proof.
  intros H. assert (forallb (fun P => match pow10 b P with Ret c => c =? 10 ^ P | _ => false end) (zrange 19) = true) as E
    by (destruct b as [[] [] [] []]; vm_compute; reflexivity).
  pose proof (forall_range _ 19 E P H) as K. cbv beta in K. destruct (pow10 b P); try discriminate. f_equal. lia.
Qed.
Lemma pow10_large b P : 19 <= P < 2 ^ 31 -> pow10 b P = pow10_loop b (Z.to_nat (P - 18)) (10 ^ 18).
Proof.
  intros H. unfold pow10. replace (P <? 19) with false by lia. change (idx POW_10 18) with (Ret (10 ^ 18)). cbn [bind].
  bounds I32. unfold sub, add, fit. rewrite fitsb_true by (unfold fits; lia). cbn [bind].
  rewrite fitsb_true by (unfold fits; lia). cbn [bind]. do 2 f_equal. lia.
Qed.
Notation int_digits b := (if f128 b then 38 else 18).
Lemma int_digits_max b P : 0 <= P -> (10 ^ P <=? imax (Int b)) = (P <=? int_digits b).
Proof.
  intros H. unfold Int.
  assert (forall m k, 0 <= k -> 10 ^ k <= m < 10 ^ (k + 1) -> (10 ^ P <=? m) = (P <=? k)) as A.
  { intros m k Hk Hm. destruct (Z.leb_spec P k).
    - apply Z.leb_le. apply Z.le_trans with (10 ^ k); [apply Z.pow_le_mono_r; lia|lia].
    - apply Z.leb_gt. apply Z.lt_le_trans with (10 ^ (k + 1)); [lia|apply Z.pow_le_mono_r; lia]. }
  destruct (f128 b); apply A; try lia; split; vm_compute; congruence.
Qed.
Lemma supported_width b L : supported b L -> width (lty L) <= width (Int b).
Proof. intros H. unfold Int. destruct L; try (destruct (f128 b); vm_compute; discriminate). rewrite (H eq_refl). vm_compute. discriminate. Qed.
Theorem COEF_all b L P : supported b L -> 0 <= P < 2 ^ 31 ->
  COEF b L P = if ovf b && (int_digits b <? P) then Panic else Ret (wrap (lty L) (10 ^ P)).
Proof.
  intros Hs HP. unfold COEF. destruct (Z_lt_dec P 19) as [H|H].
  - rewrite pow10_small by lia. cbn [bind]. replace (int_digits b <? P) with false by (destruct (f128 b); lia).
    now rewrite andb_false_r.
  - rewrite pow10_large by lia.
    assert (10 ^ 18 * 10 ^ Z.of_nat (Z.to_nat (P - 18)) = 10 ^ P) as E.
    { rewrite Z2Nat.id, <- Z.pow_add_r by lia. f_equal. lia. }
    destruct (ovf b) eqn:Ho; cbn [andb].
    + rewrite pow10_loop_checked, E, int_digits_max by (try assumption; try lia; reflexivity).
      rewrite Z.ltb_antisym. destruct (P <=? int_digits b); [reflexivity|]. cbn [negb].
      destruct (Nat.eqb_spec (Z.to_nat (P - 18)) 0); [lia|reflexivity].
    + rewrite <- (wrap_fits (Int b) (10 ^ 18)) by (unfold fits, Int; destruct (f128 b); vm_compute; split; discriminate).
      rewrite pow10_loop_wraps, E by assumption. cbn [bind]. now rewrite wrap_wrap by now apply supported_width.
Qed.
Theorem COEF_right b L P : supported b L -> 0 <= P < 2 ^ 31 -> (COEF b L P = Ret (10 ^ P) <-> valid_prec L P).
Proof.
  intros Hs HP. split.
  - rewrite COEF_all by assumption. destruct (ovf b && (int_digits b <? P)); [discriminate|]. intros E. injection E as E.
    apply wrap_eq_fits, fits_lty in E. split; [lia|apply E].
  - intros H. apply COEF_ok. now split.
Qed.
Theorem ONE_wrong b L P r : supported b L -> 0 <= P < 2 ^ 31 -> ~ valid_prec L P -> ONE b L P = Ret r -> ~ (dec P r == 1)%Q.
Proof.
  intros Hs HP Hn E D. apply Hn. apply (COEF_right b L P Hs HP). unfold ONE in E. rewrite E. f_equal.
  pose proof (dec_scaled P r ltac:(lia)) as S. rewrite D, Qmult_1_l, q10_pos in S by lia. apply Zq_eq. now symmetry.
Qed.
Lemma pow10_even P w : 0 <= w <= P -> exists k, 10 ^ P = k * 2 ^ w.
Proof.
  intros H. exists (5 ^ P * 2 ^ (P - w)). rewrite <- Z.mul_assoc, <- Z.pow_add_r by lia. replace (P - w + w) with P by lia.
  rewrite <- Z.pow_mul_l. reflexivity.
Qed.
Theorem COEF_zero b L P : supported b L -> width (lty L) <= P < 2 ^ 31 -> COEF b L P = Panic \/ COEF b L P = Ret 0.
Proof.
  intros Hs HP. pose proof (width_pos (lty L)). rewrite COEF_all by (try assumption; lia).
  destruct (ovf b && (int_digits b <? P)); [now left|right]. f_equal.
  destruct (pow10_even P (width (lty L)) ltac:(lia)) as [k ->].
  apply (wrap_unique _ _ _ k); [|lia]. apply fits_lty. unfold in_range. rewrite lo_hi. pose proof (hi_pos L). lia.
Qed.
Theorem rmul_zero_coef b L P x y m : supported b L -> width (lty L) <= P < 2 ^ 31 -> L <> L128 ->
  in_range L x -> in_range L y -> rmul b L P x y m = Panic.
Proof.
  intros Hs HP HL Hx Hy. unfold rmul. destruct (COEF_zero b L P Hs HP) as [E|E]; [rewrite E; reflexivity|].
  unfold NEG_COEF. rewrite E. cbn [bind].
  rewrite fitsb_true by (apply fits_lty; unfold in_range; rewrite lo_hi; pose proof (hi_pos L); lia). cbn [bind].
  destruct L; try congruence; cbn [promo_of prim_promo p_from p_mul p_div]; unfold mul, fit;
    (destruct (fitsb _ _); [reflexivity|destruct (ovf b); reflexivity]).
Qed.
Theorem NEG_COEF_min b L P : supported b L -> P = width (lty L) - 1 -> P < 39 -> NEG_COEF b L P = Panic.
Proof.
  intros Hs -> HP. destruct L; try (vm_compute in HP; discriminate); destruct b as [[] [] [] []]; reflexivity.
Qed.
(** ** In the terms of the properties *)
Lemma period L : 2 ^ width (lty L) = 2 * (hi L + 1).
Proof. destruct L; reflexivity. Qed.
Theorem coefficient_all b L P : supported b L -> 0 <= P < 2 ^ 31 ->
  (ovf b = true /\ int_digits b < P /\ COEF b L P = Panic) \/
  (~ (ovf b = true /\ int_digits b < P) /\ exists r, COEF b L P = Ret r /\ ONE b L P = Ret r /\ in_range L r /\ (2 * (hi L + 1) | r - 10 ^ P)).
Proof.
  intros Hs HP. unfold ONE. rewrite COEF_all by assumption. destruct (ovf b) eqn:Ho; cbn [andb].
  - destruct (Z.ltb_spec (int_digits b) P); [left; auto|right]. split; [lia|].
    exists (wrap (lty L) (10 ^ P)). repeat split; try apply (fits_lty L), fits_wrap.
    destruct (wrap_mod (lty L) (10 ^ P)) as [k E]. exists k. rewrite <- period. lia.
  - right. split; [intros [? _]; discriminate|].
    exists (wrap (lty L) (10 ^ P)). repeat split; try apply (fits_lty L), fits_wrap.
    destruct (wrap_mod (lty L) (10 ^ P)) as [k E]. exists k. rewrite <- period. lia.
Qed.
Theorem one_valid b L P o : valid b L P -> ONE b L P = Ret o -> (dec P o == 1)%Q.
Proof.
  intros H E. destruct (constants_spec b L P H) as (_ & _ & (r & Er & _ & D) & _). rewrite Er in E. now injection E as <-.
Qed.
Lemma one_refuted : exists b L P o, supported b L /\ ONE b L P = Ret o /\ ~ (dec P o == 1)%Q.
Proof. exists dev, L16, 5, (-31072). split; [discriminate|]. split; [vm_compute; reflexivity|]. vm_compute. discriminate. Qed.
