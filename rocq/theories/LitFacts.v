(** * LitFacts: [fixnum_const!]. *)
From Verif Require Import Base Promo ConstFn Ops Str Macros Spec SpecText SpecMacro BaseFacts RoundFacts SimpleProofs StrFacts CodecFacts.
From Verif Require Import Fixed.
Open Scope Z_scope.

Lemma fit_inv b t z v : ovf b = true -> fit b t z = Ret v -> v = z /\ fits t z.
Proof.
  intros Ho. unfold fit. rewrite Ho. destruct (fitsb t z) eqn:E; [|discriminate]. intros H. injection H as <-.
  split; [reflexivity|]. now apply fitsb_fits.
Qed.
Lemma fit_not b t z : ovf b = true -> ~ fits t z -> fit b t z = Panic.
Proof. intros Ho F. unfold fit. now rewrite (fitsb_false _ _ F), Ho. Qed.
Definition imx (b : build) : Z := imax (Int b).
Lemma imx_bits b : imx b = 2 ^ (const_bits b - 1) - 1.
Proof. unfold imx, Int, const_bits. destruct (f128 b); reflexivity. Qed.
Lemma imin_imx b : imin (Int b) = - imx b - 1.
Proof. unfold imx, Int. destruct (f128 b); reflexivity. Qed.
Lemma imx_pos b : 10 ^ 18 <= imx b.
Proof. unfold imx, Int. destruct (f128 b); vm_compute; discriminate. Qed.
Lemma fits_Int b z : fits (Int b) z <-> - imx b - 1 <= z <= imx b.
Proof. unfold fits. rewrite imin_imx. reflexivity. Qed.
Lemma imx_digits b : 10 ^ (const_digits b - 1) <= imx b < 10 ^ const_digits b.
Proof. unfold imx, Int, const_digits. destruct (f128 b); split; vm_compute; (reflexivity || discriminate). Qed.

(** ** Powers of ten *)
Lemma pow10_loop_ok b n : forall r, 0 < r -> r * 10 ^ Z.of_nat n <= imx b -> pow10_loop b n r = Ret (r * 10 ^ Z.of_nat n).
Proof.
  induction n as [|n IH]; intros r Hr H; cbn [pow10_loop].
  - change (10 ^ Z.of_nat 0) with 1. now rewrite Z.mul_1_r.
  - rewrite Nat2Z.inj_succ, Z.pow_succ_r in * by lia. pose proof (pow10_pos (Z.of_nat n) ltac:(lia)) as Hp.
    rewrite mul_ok by (rewrite fits_Int; pose proof (imx_pos b); nia). cbn [bind]. rewrite IH by nia. f_equal. ring.
Qed.
Lemma pow10_loop_inv b n : ovf b = true -> forall r p, pow10_loop b n r = Ret p -> p = r * 10 ^ Z.of_nat n.
Proof.
  intros Ho. induction n as [|n IH]; intros r p H; cbn [pow10_loop] in H.
  - injection H as <-. change (10 ^ Z.of_nat 0) with 1. ring.
  - unfold mul in H. destruct (fit b (Int b) (r * 10)) as [v| | |] eqn:E; try discriminate.
    apply (fit_inv _ _ _ _ Ho) in E as [-> _]. apply IH in H. rewrite H, Nat2Z.inj_succ, Z.pow_succ_r by lia. ring.
Qed.
Lemma pow10_small b n : 0 <= n < 19 -> pow10 b n = Ret (10 ^ n).
Proof.
  intros H. apply (forall_range (fun n => match pow10 b n with Ret v => v =? 10 ^ n | _ => false end) 19) in H.
  - destruct (pow10 b n); try discriminate. apply Z.eqb_eq in H. now subst.
  - unfold pow10. reflexivity.
Qed.
Lemma pow10_ok b n : 0 <= n -> 10 ^ n <= imx b -> pow10 b n = Ret (10 ^ n).
Proof.
  intros Hn H. destruct (Z.lt_ge_cases n 19) as [K|K]; [now apply pow10_small|].
  assert (n < 39) as Hn'.
  { apply Z.nle_gt. intros C. apply (Z.pow_le_mono_r 10) in C; [|lia].
    assert (imx b < 10 ^ 39) by (unfold imx, Int; destruct (f128 b); reflexivity). lia. }
  unfold pow10. replace (n <? 19) with false by lia. change (idx POW_10 18) with (@Ret Z (10 ^ 18)). cbn [bind].
  rewrite sub_ok by (unfold fits; change (imin I32) with (-2147483648); change (imax I32) with 2147483647; lia). cbn [bind].
  rewrite add_ok by (unfold fits; change (imin I32) with (-2147483648); change (imax I32) with 2147483647; lia). cbn [bind].
  assert (10 ^ 18 * 10 ^ Z.of_nat (Z.to_nat (n - 19 + 1)) = 10 ^ n) as E.
  { rewrite Z2Nat.id by lia. rewrite <- Z.pow_add_r by lia. f_equal. lia. }
  rewrite pow10_loop_ok; [now rewrite E|lia|now rewrite E].
Qed.
Lemma wrap_i32 d : 0 <= d < 2 ^ 31 -> wrap I32 d = d.
Proof. intros H. apply wrap_fits. unfold fits. change (imin I32) with (- 2 ^ 31). change (imax I32) with (2 ^ 31 - 1). lia. Qed.
Lemma wrap_i32_neg d : 2 ^ 31 <= d < 2 ^ 32 -> wrap I32 d = d - 2 ^ 32.
Proof.
  intros H. unfold wrap. cbn [is_signed width]. change (32 - 1) with 31.
  replace (d + 2 ^ 31) with (d - 2 ^ 31 + 1 * 2 ^ 32) by lia. rewrite Z.mod_add by lia. rewrite Z.mod_small by lia. lia.
Qed.
Lemma pow10_inv b d p : ovf b = true -> 0 <= d < 2 ^ 32 -> pow10 b (wrap I32 d) = Ret p -> p = 10 ^ d /\ d < 2 ^ 31.
Proof.
  intros Ho Hd H. destruct (Z.lt_ge_cases d (2 ^ 31)) as [K|K].
  - split; [|exact K]. rewrite wrap_i32 in H by lia. destruct (Z.lt_ge_cases d 19) as [K'|K'].
    + rewrite pow10_small in H by lia. now injection H as <-.
    + unfold pow10 in H. replace (d <? 19) with false in H by lia. change (idx POW_10 18) with (@Ret Z (10 ^ 18)) in H. cbn [bind] in H.
      rewrite sub_ok in H by (unfold fits; change (imin I32) with (-2147483648); change (imax I32) with 2147483647; lia). cbn [bind] in H.
      rewrite add_ok in H by (unfold fits; change (imin I32) with (-2147483648); change (imax I32) with 2147483647; lia). cbn [bind] in H.
      apply (pow10_loop_inv _ _ Ho) in H. rewrite H, Z2Nat.id by lia. rewrite <- Z.pow_add_r by lia. f_equal. lia.
  - exfalso. rewrite wrap_i32_neg in H by lia. unfold pow10 in H. replace (d - 2 ^ 32 <? 19) with true in H by lia.
    unfold idx in H. assert (wrap USize (d - 2 ^ 32) = d - 2 ^ 32 + 2 ^ 64) as E.
    { unfold wrap. cbn [is_signed width]. symmetry. apply (Z.mod_unique_pos _ _ (-1)); lia. }
    rewrite E in H. change (Z.of_nat (length POW_10)) with 19 in H.
    replace ((0 <=? d - 2 ^ 32 + 2 ^ 64) && (d - 2 ^ 32 + 2 ^ 64 <? 19)) with false in H by lia. discriminate.
Qed.

(** ** Digits *)
Lemma parse_digit_ok c : digit c -> parse_digit c = Ret (c - 48).
Proof.
  unfold digit. intros H. unfold parse_digit. rewrite wrap_fits by (unfold fits; change (imin U8) with 0; change (imax U8) with 255; lia).
  unfold const_assert. replace (c - 48 <? 10) with true by lia. reflexivity.
Qed.
Lemma parse_digit_inv c d : byte c -> parse_digit c = Ret d -> digit c /\ d = c - 48.
Proof.
  unfold byte, digit. intros Hc H. unfold parse_digit, wrap in H. cbn [is_signed width] in H.
  assert (48 <= c \/ c < 48) as [K|K] by lia.
  - rewrite Z.mod_small in H by lia. unfold const_assert in H. destruct (Z.ltb_spec (c - 48) 10); [|discriminate].
    cbn [bind] in H. injection H as <-. lia.
  - rewrite <- (Z.mod_unique_pos (c - 48) (2 ^ 8) (-1) (c - 48 + 2 ^ 8)) in H by lia.
    unfold const_assert in H. replace (c - 48 + 2 ^ 8 <? 10) with false in H by lia. discriminate.
Qed.
Lemma idx_at (pre : list Z) c post : idx (pre ++ c :: post) (Z.of_nat (length pre)) = Ret c.
Proof.
  rewrite idx_nth by (rewrite app_length; cbn [length]; lia). rewrite Nat2Z.id, app_nth2, Nat.sub_diag by lia. reflexivity.
Qed.
Lemma fits_usize z : 0 <= z < 2 ^ 64 -> fits USize z.
Proof. unfold fits. change (imin USize) with 0. change (imax USize) with (2 ^ 64 - 1). lia. Qed.
Lemma parse_loop_step b pre c seg post acc :
  Z.of_nat (length (pre ++ c :: seg ++ post)) < 2 ^ 32 ->
  let k := Z.of_nat (length pre) in let n := Z.of_nat (length seg) in
  parse_int_loop b (pre ++ c :: seg ++ post) (length (c :: seg)) k (k + 1 + n) acc =
  (d <- parse_digit c ;; p <- pow10 b (wrap I32 n) ;; dp <- mul b (Int b) d p ;; r <- add b (Int b) acc dp ;;
   parse_int_loop b (pre ++ c :: seg ++ post) (length seg) (k + 1) (k + 1 + n) r).
Proof.
  intros Hl k n. rewrite app_length in Hl. cbn [length] in *. rewrite app_length in Hl.
  cbn [parse_int_loop]. unfold k at 1. rewrite idx_at. cbn [bind].
  destruct (parse_digit c) as [d| | |]; cbn [bind]; try reflexivity.
  rewrite add_ok by (apply fits_usize; unfold k; lia). cbn [bind].
  rewrite sub_ok by (apply fits_usize; unfold k, n; lia). cbn [bind].
  replace (k + 1 + n - (k + 1)) with n by lia. reflexivity.
Qed.
Lemma parse_loop_ok b seg : forall pre post acc,
  Z.of_nat (length (pre ++ seg ++ post)) < 2 ^ 31 -> Forall digit seg -> Z.of_nat (length seg) <= const_digits b ->
  0 <= acc -> acc + numval seg <= imx b ->
  parse_int_loop b (pre ++ seg ++ post) (length seg) (Z.of_nat (length pre)) (Z.of_nat (length pre) + Z.of_nat (length seg)) acc
    = Ret (acc + numval seg).
Proof.
  induction seg as [|c seg IH]; intros pre post acc Hl Hd Hn Ha Hs.
  - cbn [length parse_int_loop numval]. now rewrite Z.add_0_r.
  - inversion Hd as [|? ? Hc Hd']; subst. cbn [numval length app] in *.
    replace (Z.of_nat (length pre) + Z.of_nat (S (length seg))) with (Z.of_nat (length pre) + 1 + Z.of_nat (length seg)) by lia.
    pose proof (numval_bound seg Hd') as Hb. pose proof (imx_digits b) as Hx.
    assert (10 ^ Z.of_nat (length seg) <= imx b) as Hp.
    { apply Z.le_trans with (10 ^ (const_digits b - 1)); [|lia]. apply Z.pow_le_mono_r; lia. }
    pose proof (pow10_pos (Z.of_nat (length seg)) ltac:(lia)) as Hp0.
    assert (0 <= (c - 48) * 10 ^ Z.of_nat (length seg)) as Hm by (unfold digit in Hc; nia).
    change (S (length seg)) with (length (c :: seg)). rewrite parse_loop_step by lia.
    rewrite (parse_digit_ok c Hc). cbn [bind].
    rewrite wrap_i32 by (revert Hl; rewrite app_length; cbn [length]; rewrite app_length; lia).
    rewrite (pow10_ok b (Z.of_nat (length seg)) ltac:(lia) Hp). cbn [bind].
    pose proof (imx_pos b). rewrite mul_ok by (apply fits_Int; lia). cbn [bind]. rewrite add_ok by (apply fits_Int; lia). cbn [bind].
    specialize (IH (pre ++ [c]) post (acc + (c - 48) * 10 ^ Z.of_nat (length seg))).
    rewrite <- app_assoc in IH. cbn [app] in IH.
    replace (Z.of_nat (length (pre ++ [c]))) with (Z.of_nat (length pre) + 1) in IH by (rewrite app_length; cbn [length]; lia).
    rewrite IH; [f_equal; ring|exact Hl|exact Hd'|lia|lia|lia].
Qed.
Lemma parse_loop_inv b seg : ovf b = true -> forall pre post acc v,
  Z.of_nat (length (pre ++ seg ++ post)) < 2 ^ 32 -> Forall byte seg -> 0 <= acc <= imx b ->
  parse_int_loop b (pre ++ seg ++ post) (length seg) (Z.of_nat (length pre)) (Z.of_nat (length pre) + Z.of_nat (length seg)) acc = Ret v ->
  Forall digit seg /\ v = acc + numval seg /\ v <= imx b.
Proof.
  intros Ho. induction seg as [|c seg IH]; intros pre post acc v Hl Hd Ha H.
  - cbn [length parse_int_loop numval] in *. injection H as <-. split; [constructor|]. split; [ring|lia].
  - inversion Hd as [|? ? Hc Hd']; subst. cbn [numval length app] in *.
    replace (Z.of_nat (length pre) + Z.of_nat (S (length seg))) with (Z.of_nat (length pre) + 1 + Z.of_nat (length seg)) in H by lia.
    change (S (length seg)) with (length (c :: seg)) in H. rewrite parse_loop_step in H by lia.
    destruct (parse_digit c) as [d| | |] eqn:Ed; try discriminate. apply (parse_digit_inv _ _ Hc) in Ed as [Hc' ->]. cbn [bind] in H.
    destruct (pow10 b _) as [p| | |] eqn:Ep; try discriminate.
    apply (pow10_inv _ _ _ Ho) in Ep as [-> _]; [|revert Hl; rewrite app_length; cbn [length]; rewrite app_length; lia]. cbn [bind] in H.
    unfold mul in H. destruct (fit b (Int b) ((c - 48) * _)) as [dp| | |] eqn:Em; try discriminate.
    apply (fit_inv _ _ _ _ Ho) in Em as [-> _]. cbn [bind] in H.
    unfold add in H. destruct (fit b (Int b) (acc + _)) as [r| | |] eqn:Er; try discriminate.
    apply (fit_inv _ _ _ _ Ho) in Er as [-> Fr]. apply fits_Int in Fr. cbn [bind] in H.
    pose proof (pow10_pos (Z.of_nat (length seg)) ltac:(lia)) as Hp0.
    assert (0 <= (c - 48) * 10 ^ Z.of_nat (length seg)) as Hm by (unfold digit in Hc'; nia).
    specialize (IH (pre ++ [c]) post (acc + (c - 48) * 10 ^ Z.of_nat (length seg)) v).
    rewrite <- app_assoc in IH. cbn [app] in IH.
    replace (Z.of_nat (length (pre ++ [c]))) with (Z.of_nat (length pre) + 1) in IH by (rewrite app_length; cbn [length]; lia).
    destruct (IH Hl Hd' ltac:(lia) H) as (Hs & Ev & Hv). split; [constructor; assumption|]. split; [rewrite Ev; ring|exact Hv].
Qed.
Lemma pow10_loop_big b n : ovf b = true -> forall r, 0 < r <= imx b -> imx b < r * 10 ^ Z.of_nat n -> pow10_loop b n r = Panic.
Proof.
  intros Ho. induction n as [|n IH]; intros r Hr H; cbn [pow10_loop].
  - change (10 ^ Z.of_nat 0) with 1 in H. lia.
  - unfold mul. destruct (Z.lt_ge_cases (imx b) (r * 10)) as [K|K].
    + rewrite fit_not; [reflexivity|assumption|]. rewrite fits_Int. lia.
    + rewrite fit_ok by (apply fits_Int; lia). cbn [bind]. apply IH; [lia|].
      rewrite Nat2Z.inj_succ, Z.pow_succ_r in H by lia. lia.
Qed.
Lemma pow10_big b d : ovf b = true -> 0 <= d < 2 ^ 32 -> imx b < 10 ^ d -> pow10 b (wrap I32 d) = Panic.
Proof.
  intros Ho Hd H. pose proof (imx_pos b) as Hx.
  assert (18 < d) as Hd' by (apply Z.nle_gt; intros C; apply (Z.pow_le_mono_r 10) in C; lia).
  destruct (Z.lt_ge_cases d (2 ^ 31)) as [K|K].
  - rewrite wrap_i32 by lia. unfold pow10. replace (d <? 19) with false by lia. change (idx POW_10 18) with (@Ret Z (10 ^ 18)). cbn [bind].
    rewrite sub_ok by (unfold fits; change (imin I32) with (-2147483648); change (imax I32) with 2147483647; lia). cbn [bind].
    rewrite add_ok by (unfold fits; change (imin I32) with (-2147483648); change (imax I32) with 2147483647; lia). cbn [bind].
    apply pow10_loop_big; [assumption|lia|]. rewrite Z2Nat.id by lia. rewrite <- Z.pow_add_r by lia.
    replace (18 + (d - 19 + 1)) with d by lia. assumption.
  - rewrite wrap_i32_neg by lia. unfold pow10. replace (d - 2 ^ 32 <? 19) with true by lia.
    unfold idx. assert (wrap USize (d - 2 ^ 32) = d - 2 ^ 32 + 2 ^ 64) as E.
    { unfold wrap. cbn [is_signed width]. symmetry. apply (Z.mod_unique_pos _ _ (-1)); lia. }
    rewrite E. change (Z.of_nat (length POW_10)) with 19.
    replace ((0 <=? d - 2 ^ 32 + 2 ^ 64) && (d - 2 ^ 32 + 2 ^ 64 <? 19)) with false by lia. reflexivity.
Qed.
(** A long run of digits overflows the power of ten. *)
Lemma parse_loop_long b seg : ovf b = true -> forall pre post acc,
  Z.of_nat (length (pre ++ seg ++ post)) < 2 ^ 32 -> const_digits b < Z.of_nat (length seg) -> Forall digit seg ->
  parse_int_loop b (pre ++ seg ++ post) (length seg) (Z.of_nat (length pre)) (Z.of_nat (length pre) + Z.of_nat (length seg)) acc = Panic.
Proof.
  intros Ho pre post acc Hl Hn Hd. destruct seg as [|c seg]; [cbn [length] in Hn; unfold const_digits in Hn; destruct (f128 b); lia|].
  inversion Hd as [|? ? Hc Hd']; subst. cbn [length app] in *.
  replace (Z.of_nat (length pre) + Z.of_nat (S (length seg))) with (Z.of_nat (length pre) + 1 + Z.of_nat (length seg)) by lia.
  change (S (length seg)) with (length (c :: seg)). rewrite parse_loop_step by lia. rewrite (parse_digit_ok c Hc). cbn [bind].
  pose proof (imx_digits b) as Hx.
  rewrite pow10_big; [reflexivity|assumption| |].
  - revert Hl. rewrite app_length. cbn [length]. rewrite app_length. lia.
  - apply Z.lt_le_trans with (10 ^ const_digits b); [lia|]. apply Z.pow_le_mono_r; lia.
Qed.

(** ** [find] *)
Lemma find_from_spec s p : forall k,
  match find_from s p k with
  | None => ~ In p s
  | Some n => exists l r, s = l ++ p :: r /\ ~ In p l /\ n = k + Z.of_nat (length l)
  end.
Proof.
  induction s as [|c s IH]; intros k; cbn [find_from].
  - auto.
  - destruct (Z.eqb_spec c p) as [->|N].
    + exists [], s. cbn. repeat split; auto. lia.
    + specialize (IH (k + 1)). destruct (find_from s p (k + 1)).
      * destruct IH as (l & r & -> & Hl & ->). exists (c :: l), r. cbn [app length]. repeat split; [|lia].
        intros [E|E]; [congruence|auto].
      * intros [E|E]; [congruence|auto].
Qed.
Lemma find_at l p r : ~ In p l -> find (l ++ p :: r) p = Some (Z.of_nat (length l)).
Proof.
  intros Hl. unfold find. pose proof (find_from_spec (l ++ p :: r) p 0) as H. destruct (find_from _ p 0) as [n|].
  - destruct H as (l' & r' & E & Hl' & ->). f_equal. rewrite Z.add_0_l. f_equal.
    pose proof (split_once_at l p r Hl) as A. pose proof (split_once_at l' p r' Hl') as B. rewrite <- E, A in B. now injection B as -> _.
  - destruct H. apply in_elt.
Qed.
Lemma find_not s p : ~ In p s -> find s p = None.
Proof.
  intros Hs. unfold find. pose proof (find_from_spec s p 0) as H. destruct (find_from s p 0); [|reflexivity].
  destruct H as (l & r & -> & _). destruct Hs. apply in_elt.
Qed.

(** ** The literal *)
Definition sgn_len (sg : list Z) : Z := Z.of_nat (length sg).
Lemma literal_head s neg i f : literal s neg i f -> exists sg c0 r, sign_str neg sg /\ s = c0 :: r /\
  s = sg ++ i ++ match f with None => [] | Some f => 46 :: f end /\
  (if c0 =? 45 then -1 else 1) = (if neg then -1 else 1) /\ (if (c0 =? 45) || (c0 =? 43) then 1 else 0) = Z.of_nat (length sg).
Proof.
  intros (Hs & Hi & Hf & sg & Hg & E). destruct s as [|c0 r]; [congruence|]. exists sg, c0, r.
  split; [exact Hg|]. split; [reflexivity|]. split; [exact E|].
  destruct neg; [subst sg; cbn in E; injection E as -> _; auto|]. destruct Hg as [-> | ->].
  - cbn [app] in E. assert (c0 = 46 \/ digit c0) as Hc.
    { destruct i as [|d i]; [|right; inversion Hi; subst; cbn in E; congruence].
      cbn [app] in E. destruct f; [|discriminate]. left. congruence. }
    unfold digit in Hc. replace (c0 =? 45) with false by lia. replace (c0 =? 43) with false by lia. auto.
  - cbn in E. injection E as -> _. auto.
Qed.
Lemma sign_nodot neg sg : sign_str neg sg -> ~ In 46 sg.
Proof. exact (sg_free neg sg). Qed.
Lemma lit_raw P f : 0 <= P -> Forall digit f -> Z.of_nat (length f) <= P ->
  Z.quot (10 ^ P) (10 ^ Z.of_nat (length f)) * numval f = frac_raw P f /\ 10 ^ Z.of_nat (length f) <= 10 ^ P.
Proof.
  intros HP Hf Hl. unfold frac_raw. replace (Z.of_nat (length f) <=? P) with true by lia.
  pose proof (pow10_pos (Z.of_nat (length f)) ltac:(lia)) as Hp. split; [|apply Z.pow_le_mono_r; lia].
  f_equal. replace P with (P - Z.of_nat (length f) + Z.of_nat (length f)) at 1 by lia. rewrite Z.pow_add_r by lia.
  apply Z.quot_mul. lia.
Qed.
Definition lit_val (P : Z) (neg : bool) (i : list Z) (f : option (list Z)) : Z := sgz neg (numval i * 10 ^ P + frac_raw P (fraction f)).
Lemma coef_pow10 b L P : valid b L P -> pow10 b P = Ret (10 ^ P).
Proof.
  intros Hv. pose proof (valid_prec_38 L P (proj2 Hv)) as HP. apply pow10_ok; [lia|].
  destruct Hv as [Hs [_ Hc]]. apply (Z.le_trans _ _ _ Hc). rewrite imx_bits. unfold const_bits.
  destruct L, (f128 b) eqn:E; try (vm_compute; discriminate). specialize (Hs eq_refl). congruence.
Qed.
Lemma layout_imx b L : supported b L -> hi L <= imx b.
Proof.
  intros Hs. rewrite imx_bits. unfold const_bits. destruct L, (f128 b) eqn:E; try (vm_compute; discriminate). specialize (Hs eq_refl). congruence.
Qed.
Lemma mul_signum b (neg : bool) v : 0 <= v <= imx b -> mul b (Int b) (if neg then -1 else 1) v = Ret (sgz neg v).
Proof.
  intros H. rewrite mul_ok; [destruct neg; cbn [sgz]; f_equal; ring|]. apply fits_Int. destruct neg; lia.
Qed.

Theorem lit_ok b L P s neg i f : valid b L P -> literal s neg i f -> places f <= P ->
  Z.of_nat (length i) <= const_digits b -> Z.abs (lit_val P neg i f) <= imx b ->
  fixnum_const b L P s = Ret (wrap (lty L) (lit_val P neg i f)).
Proof.
  intros Hv Hl Hp Hn Hz. pose proof (valid_prec_38 L P (proj2 Hv)) as HP. pose proof (pow10_pos P ltac:(lia)) as Hpp.
  destruct (literal_head s neg i f Hl) as (sg & c0 & r & Hg & Es & E & Esg & Est). destruct Hl as (_ & Hi & Hf & _).
  pose proof (numval_bound i Hi) as Bi. pose proof (frac_raw_bound P (fraction f) ltac:(lia) Hf) as Bf.
  assert (Z.abs (lit_val P neg i f) = numval i * 10 ^ P + frac_raw P (fraction f)) as Ea
    by (unfold lit_val; destruct neg; cbn [sgz]; [rewrite Z.abs_opp|]; apply Z.abs_eq; nia).
  rewrite Ea in Hz. clear Ea.
  assert (Z.of_nat (length sg) <= 1) as Lsg by (clear - Hg; unfold sign_str in Hg; destruct neg; [rewrite Hg; cbn; lia|destruct Hg as [-> | ->]; cbn; lia]).
  assert (const_digits b <= 39) as Ld by (unfold const_digits; destruct (f128 b); lia).
  assert (numval i <= imx b) as Hi1 by nia. pose proof (imx_pos b) as Hx.
  unfold fixnum_const. rewrite (coef_pow10 b L P Hv). cbn [bind]. unfold parse_fixed.
  replace (idx s 0) with (@Ret Z c0) by (rewrite Es; reflexivity). cbn [bind]. rewrite Esg, Est.
  destruct f as [f|]; cbn [fraction] in *.
  - unfold places in Hp; cbn [fraction] in Hp. rewrite app_assoc in E.
    rewrite E. rewrite find_at by (exact (sg_int_free neg sg i Hg Hi)).
    assert (Z.of_nat (length ((sg ++ i) ++ 46 :: f)) = Z.of_nat (length sg) + Z.of_nat (length i) + 1 + Z.of_nat (length f)) as EL
      by (rewrite !app_length; cbn [length]; lia).
    rewrite EL. unfold parse_int at 1. rewrite app_length.
    replace (Z.to_nat (Z.of_nat (length sg + length i) - Z.of_nat (length sg))) with (length i) by lia.
    rewrite <- app_assoc. rewrite Nat2Z.inj_add.
    rewrite parse_loop_ok; [|rewrite app_assoc, EL; lia|assumption|assumption|lia|lia]. rewrite Z.add_0_l. cbn [bind].
    rewrite sub_ok by (apply fits_usize; lia). cbn [bind]. rewrite sub_ok by (apply fits_usize; lia). cbn [bind].
    replace (Z.of_nat (length sg) + Z.of_nat (length i) + 1 + Z.of_nat (length f) - (Z.of_nat (length sg) + Z.of_nat (length i)) - 1) with (Z.of_nat (length f)) by lia.
    destruct (lit_raw P f (proj1 HP) Hf Hp) as [ER Hle]. rewrite wrap_i32 by lia.
    pose proof (Z.le_trans _ _ _ (proj2 (proj2 Hv)) (layout_imx b L (proj1 Hv))) as Hc.
    rewrite pow10_ok; [|lia|lia]. cbn [bind]. unfold const_assert. replace (10 ^ Z.of_nat (length f) <=? 10 ^ P) with true by lia. cbn [bind].
    rewrite add_ok by (apply fits_usize; lia). cbn [bind].
    unfold parse_int. replace (Z.to_nat (Z.of_nat (length sg) + Z.of_nat (length i) + 1 + Z.of_nat (length f) - (Z.of_nat (length sg) + Z.of_nat (length i) + 1))) with (length f) by lia.
    pose proof (numval_bound f Hf) as Bn.
    assert (numval f <= imx b) as Hfi by lia.
    assert (Z.of_nat (length f) <= const_digits b) as Hfd.
    { apply Z.lt_succ_r, Z.nle_gt. intros C. pose proof (imx_digits b) as Hxd.
      assert (10 ^ const_digits b <= 10 ^ Z.of_nat (length f)) by (apply Z.pow_le_mono_r; lia). lia. }
    pose proof (parse_loop_ok b f (sg ++ i ++ [46]) [] 0) as PL. rewrite app_nil_r in PL.
    replace ((sg ++ i ++ [46]) ++ f) with (sg ++ i ++ 46 :: f) in PL by (rewrite <- !app_assoc; reflexivity).
    rewrite !app_length in PL. cbn [length] in PL.
    replace (Z.of_nat (length sg + (length i + 1))) with (Z.of_nat (length sg) + Z.of_nat (length i) + 1) in PL by lia.
    rewrite PL by (auto; lia). clear PL. rewrite Z.add_0_l. cbn [bind].
    rewrite mul_ok by (apply fits_Int; nia). cbn [bind].
    assert (0 < 10 ^ Z.of_nat (length f)) as Hp1 by (apply pow10_pos; lia).
    assert (0 <= Z.quot (10 ^ P) (10 ^ Z.of_nat (length f)) <= 10 ^ P) as Hq.
    { split; [apply Z.quot_pos; lia|]. apply Z.quot_le_upper_bound; nia. }
    rewrite div_ok; [|lia|apply fits_Int; lia]. cbn [bind].
    rewrite mul_ok by (rewrite ER; apply fits_Int; nia). cbn [bind]. rewrite ER.
    rewrite add_ok by (apply fits_Int; nia). cbn [bind]. rewrite mul_signum by nia. reflexivity.
  - rewrite app_nil_r in E. rewrite find_not by (rewrite E; apply (sg_int_free neg sg i Hg Hi)).
    rewrite E. unfold parse_int. rewrite app_length. replace (Z.to_nat (Z.of_nat (length sg + length i) - Z.of_nat (length sg))) with (length i) by lia.
    rewrite Nat2Z.inj_add. pose proof (parse_loop_ok b i sg [] 0) as PL. rewrite app_nil_r in PL.
    rewrite PL by (rewrite ?app_length; auto; lia). rewrite Z.add_0_l. cbn [bind].
    rewrite mul_signum by lia. cbn [bind]. unfold lit_val, frac_raw. cbn [fraction length Z.of_nat numval].
    replace (0 <=? P) with true by lia. rewrite Z.mul_0_r, Z.add_0_r.
    unfold frac_raw in Bf, Hz. cbn [length Z.of_nat numval] in Bf, Hz. replace (0 <=? P) with true in * by lia.
    rewrite mul_ok by (apply fits_Int; destruct neg; cbn [sgz]; nia). cbn [bind]. do 2 f_equal. destruct neg; cbn [sgz]; ring.
Qed.

Theorem lit_inv b L P s r : valid b L P -> ovf b = true -> Forall byte s -> Z.of_nat (length s) < 2 ^ 32 ->
  fixnum_const b L P s = Ret r ->
  exists neg i f, literal s neg i f /\ places f <= P /\ r = wrap (lty L) (lit_val P neg i f) /\
    Z.of_nat (length i) <= const_digits b /\ Z.abs (lit_val P neg i f) <= imx b.
Proof.
  intros Hv Ho Hs Hn H. pose proof (valid_prec_38 L P (proj2 Hv)) as HP. pose proof (pow10_pos P ltac:(lia)) as Hpp.
  pose proof (imx_pos b) as Hx.
  unfold fixnum_const in H. rewrite (coef_pow10 b L P Hv) in H. cbn [bind] in H. unfold parse_fixed in H.
  destruct s as [|c0 s']; [discriminate|]. change (idx (c0 :: s') 0) with (@Ret Z c0) in H. cbn [bind] in H.
  set (s := c0 :: s') in *.
  set (neg := c0 =? 45). assert ((if c0 =? 45 then -1 else 1) = if neg then -1 else 1) as En by reflexivity. rewrite En in H.
  assert (exists sg, sign_str neg sg /\ (if (c0 =? 45) || (c0 =? 43) then 1 else 0) = Z.of_nat (length sg) /\ exists t, s = sg ++ t) as (sg & Hg & Est & t & Et).
  { unfold neg, sign_str. destruct (Z.eqb_spec c0 45) as [->|N1]; [exists [45]; repeat split; exists s'; reflexivity|].
    destruct (Z.eqb_spec c0 43) as [->|N2]; [exists [43]; repeat split; auto; exists s'; reflexivity|].
    exists []. repeat split; auto. exists s; reflexivity. }
  rewrite Est in H. assert (~ In 46 sg) as Hd by (apply (sg_free neg sg Hg)).
  assert (Forall byte t) as Ht by (rewrite Et, Forall_app in Hs; apply Hs).
  assert (s <> []) as Hne by discriminate.
  unfold find in H. pose proof (find_from_spec s 46 0) as F. destruct (find_from s 46 0) as [point|].
  - destruct F as (l & f & E & Hl & Epoint). rewrite Z.add_0_l in Epoint.
    (* the sign is at the start of the part before the point *)
    assert (exists i, l = sg ++ i /\ t = i ++ 46 :: f) as (i & El & Eti).
    { assert (sg ++ t = l ++ 46 :: f) as EE by congruence. clear - EE Hl Hd Hg.
      destruct sg as [|g sg]; [exists l; auto|].
      assert (sg = []) as -> by (unfold sign_str in Hg; destruct neg; [now inversion Hg|destruct Hg as [K|K]; now inversion K]).
      destruct l as [|a l].
      - cbn in EE. injection EE as -> ->. destruct Hd. now left.
      - cbn in EE. injection EE as -> ->. exists l. auto. }
    rewrite Eti, Forall_app in Ht. destruct Ht as [Hi Hf]. inversion Hf as [|? ? _ Hf']; subst x l0. clear Hf.
    assert (s = sg ++ i ++ 46 :: f) as Es by congruence.
    assert (Z.of_nat (length s) = Z.of_nat (length sg) + Z.of_nat (length i) + 1 + Z.of_nat (length f)) as EL
      by (rewrite Es, !app_length; cbn [length]; lia).
    assert (point = Z.of_nat (length sg) + Z.of_nat (length i)) as Epo by (rewrite Epoint, El, app_length; lia).
    rewrite EL in H. rewrite Epo in H. unfold parse_int at 1 in H.
    replace (Z.to_nat (Z.of_nat (length sg) + Z.of_nat (length i) - Z.of_nat (length sg))) with (length i) in H by lia.
    rewrite Es in H.
    destruct (parse_int_loop b _ (length i) _ _ 0) as [vi| | |] eqn:Ki; try discriminate.
    pose proof Ki as Kd. apply (parse_loop_inv b i Ho) in Ki as (Di & -> & Bi); [|rewrite <- Es; assumption|assumption|lia].
    assert (Z.of_nat (length i) <= const_digits b) as Hdi.
    { apply Z.nlt_ge. intros C. rewrite (parse_loop_long b i Ho) in Kd; [discriminate|rewrite <- Es; assumption|assumption|assumption]. }
    rewrite Z.add_0_l in H, Bi. cbn [bind] in H.
    rewrite sub_ok in H by (apply fits_usize; lia). cbn [bind] in H. rewrite sub_ok in H by (apply fits_usize; lia). cbn [bind] in H.
    replace (Z.of_nat (length sg) + Z.of_nat (length i) + 1 + Z.of_nat (length f) - (Z.of_nat (length sg) + Z.of_nat (length i)) - 1) with (Z.of_nat (length f)) in H by lia.
    destruct (pow10 b _) as [ex| | |] eqn:Kp; try discriminate. apply (pow10_inv _ _ _ Ho) in Kp as [-> _]; [|lia]. cbn [bind] in H.
    unfold const_assert in H. destruct (Z.leb_spec (10 ^ Z.of_nat (length f)) (10 ^ P)) as [Hle|]; [|discriminate]. cbn [bind] in H.
    apply Z.pow_le_mono_r_iff in Hle; [|lia|lia].
    rewrite add_ok in H by (apply fits_usize; lia). cbn [bind] in H. unfold parse_int in H.
    replace (Z.to_nat (Z.of_nat (length sg) + Z.of_nat (length i) + 1 + Z.of_nat (length f) - (Z.of_nat (length sg) + Z.of_nat (length i) + 1))) with (length f) in H by lia.
    pose proof (parse_loop_inv b f Ho (sg ++ i ++ [46]) [] 0) as PL. rewrite app_nil_r in PL.
    replace ((sg ++ i ++ [46]) ++ f) with (sg ++ i ++ 46 :: f) in PL by (rewrite <- !app_assoc; reflexivity).
    rewrite !app_length in PL. cbn [length] in PL.
    replace (Z.of_nat (length sg + (length i + 1))) with (Z.of_nat (length sg) + Z.of_nat (length i) + 1) in PL by lia.
    destruct (parse_int_loop b _ (length f) _ _ 0) as [vf| | |] eqn:Kf; try discriminate.
    destruct (PL vf ltac:(lia) Hf' ltac:(lia) eq_refl) as (Df & -> & _). rewrite Z.add_0_l in H. cbn [bind] in H.
    destruct (lit_raw P f (proj1 HP) Df Hle) as [ER Hle'].
    unfold mul in H. destruct (fit b (Int b) (numval i * _)) as [fi| | |] eqn:K1; try discriminate.
    apply (fit_inv _ _ _ _ Ho) in K1 as [-> F1]. cbn [bind] in H.
    assert (0 < 10 ^ Z.of_nat (length f)) as Hp1 by (apply pow10_pos; lia).
    pose proof (Z.le_trans _ _ _ (proj2 (proj2 Hv)) (layout_imx b L (proj1 Hv))) as Hc.
    assert (0 <= Z.quot (10 ^ P) (10 ^ Z.of_nat (length f)) <= 10 ^ P) as Hq.
    { split; [apply Z.quot_pos; lia|]. apply Z.quot_le_upper_bound; nia. }
    rewrite div_ok in H; [|lia|apply fits_Int; lia]. cbn [bind] in H. rewrite ER in H.
    destruct (fit b (Int b) (frac_raw P f)) as [ff| | |] eqn:K2; try discriminate.
    apply (fit_inv _ _ _ _ Ho) in K2 as [-> F2]. cbn [bind] in H.
    unfold add in H. destruct (fit b (Int b) (numval i * _ + _)) as [sm| | |] eqn:K3; try discriminate.
    apply (fit_inv _ _ _ _ Ho) in K3 as [-> F3]. cbn [bind] in H.
    destruct (fit b (Int b) ((if neg then -1 else 1) * _)) as [z| | |] eqn:K4; try discriminate.
    apply (fit_inv _ _ _ _ Ho) in K4 as [-> F4]. cbn [bind] in H. injection H as <-.
    assert ((if neg then -1 else 1) * (numval i * 10 ^ P + frac_raw P f) = lit_val P neg i (Some f)) as EV
      by (unfold lit_val; cbn [fraction]; destruct neg; cbn [sgz]; ring).
    rewrite EV in *. exists neg, i, (Some f). split.
    + split; [assumption|]. split; [assumption|]. split; [assumption|]. exists sg. auto.
    + split; [exact Hle|]. split; [reflexivity|]. split; [exact Hdi|]. apply fits_Int in F3.
      pose proof (numval_bound i Di) as Bn. pose proof (frac_raw_bound P f (proj1 HP) Df) as Bf.
      unfold lit_val. cbn [fraction]. destruct neg; cbn [sgz]; [rewrite Z.abs_opp|]; rewrite Z.abs_eq; nia.
  - assert (~ In 46 t) as Htd by (intros K; apply F; rewrite Et; apply in_or_app; auto).
    unfold parse_int in H. assert (Z.of_nat (length s) = Z.of_nat (length sg) + Z.of_nat (length t)) as EL by (rewrite Et, app_length; lia).
    rewrite EL in H. replace (Z.to_nat (Z.of_nat (length sg) + Z.of_nat (length t) - Z.of_nat (length sg))) with (length t) in H by lia.
    rewrite Et in H. pose proof (parse_loop_inv b t Ho sg [] 0) as PL. rewrite app_nil_r in PL. rewrite <- Et in PL, H.
    destruct (parse_int_loop b _ (length t) _ _ 0) as [vi| | |] eqn:Ki; try discriminate.
    destruct (PL vi Hn Ht ltac:(lia) eq_refl) as (Di & -> & Bi).
    assert (Z.of_nat (length t) <= const_digits b) as Hdi.
    { apply Z.nlt_ge. intros C. pose proof (parse_loop_long b t Ho sg [] 0) as PB. rewrite app_nil_r, <- Et in PB.
      rewrite (PB Hn C Di) in Ki. discriminate. }
    rewrite Z.add_0_l in H, Bi. cbn [bind] in H.
    unfold mul in H. destruct (fit b (Int b) ((if neg then -1 else 1) * _)) as [z| | |] eqn:K4; try discriminate.
    apply (fit_inv _ _ _ _ Ho) in K4 as [-> F4]. cbn [bind] in H.
    destruct (fit b (Int b) (_ * 10 ^ P)) as [z| | |] eqn:K5; try discriminate.
    apply (fit_inv _ _ _ _ Ho) in K5 as [-> F5]. cbn [bind] in H. injection H as <-.
    assert ((if neg then -1 else 1) * numval t * 10 ^ P = lit_val P neg t None) as EV.
    { unfold lit_val. cbn [fraction]. rewrite frac_raw_nil by lia. destruct neg; cbn [sgz]; ring. }
    rewrite EV in *. exists neg, t, None. split.
    + split; [assumption|]. split; [assumption|]. split; [constructor|]. exists sg. rewrite app_nil_r. auto.
    + split; [unfold places; cbn; lia|]. split; [reflexivity|]. split; [exact Hdi|].
      apply fits_Int in F5. rewrite <- EV in *. pose proof (numval_bound t Di) as Bn.
      assert (Z.abs ((if neg then -1 else 1) * numval t * 10 ^ P) = numval t * 10 ^ P) as EA
        by (rewrite !Z.abs_mul; rewrite (Z.abs_eq (numval t)), (Z.abs_eq (10 ^ P)) by lia; destruct neg; change (Z.abs (-1)) with 1; change (Z.abs 1) with 1; ring).
      rewrite EA. assert (numval t * 10 ^ P <> imx b + 1) as Hne'; [|destruct neg; nia].
      intros C. destruct (Z.eq_dec P 0) as [->|NP]; [change (10 ^ 0) with 1 in C; lia|].
      replace P with (1 + (P - 1)) in C by lia. rewrite Z.pow_add_r in C by lia.
      assert ((imx b + 1) mod 10 = 8) as M by (unfold imx, Int; destruct (f128 b); reflexivity).
      rewrite <- C in M. replace (numval t * (10 ^ 1 * 10 ^ (P - 1))) with (numval t * 10 ^ (P - 1) * 10) in M by ring.
      rewrite Z.mod_mul in M; lia.
Qed.

(** ** In terms of decimals *)
Lemma lit_dec P neg i f : 0 <= P -> places f <= P -> (dec P (lit_val P neg i f) == spelled neg i f)%Q.
Proof. intros HP Hf. apply (spelled_raw P neg i f _ HP Hf). reflexivity. Qed.
Lemma truncated_wrap L z : truncated L z (wrap (lty L) z).
Proof. split; [apply wrap_range|apply wrap_mod_same]. Qed.
Lemma truncated_in L z r : in_range L z -> truncated L z r -> r = z.
Proof.
  intros Hz [Hr E]. rewrite <- (wrap_of_mod L z r Hz E). symmetry. apply wrap_fits. now apply fits_lty.
Qed.
Theorem lit_truncates b L P s neg i f z : valid b L P -> literal s neg i f -> places f <= P ->
  Z.of_nat (length i) <= const_digits b -> (dec P z == spelled neg i f)%Q -> const_fits b z ->
  exists r, fixnum_const b L P s = Ret r /\ truncated L z r.
Proof.
  intros Hv Hl Hp Hn E Hz. assert (z = lit_val P neg i f) as Ez by (apply (dec_eq P); rewrite E; symmetry; apply lit_dec; [apply Hv|assumption]).
  subst z. exists (wrap (lty L) (lit_val P neg i f)). split; [|apply truncated_wrap].
  apply lit_ok; auto. unfold const_fits in Hz. rewrite imx_bits. lia.
Qed.
Theorem lit_complete b L P s neg i f r : valid b L P -> literal s neg i f -> places f <= P ->
  Z.of_nat (length i) <= const_digits b -> represents L P (spelled neg i f) r -> (bits L = const_bits b -> r <> lo L) ->
  fixnum_const b L P s = Ret r.
Proof.
  intros Hv Hl Hp Hn [Hr E] Hm. destruct (lit_truncates b L P s neg i f r Hv Hl Hp Hn E) as (r' & H & T).
  - unfold const_fits. unfold in_range in Hr. destruct Hv as [Hs _]. unfold const_bits in *.
    destruct L, (f128 b) eqn:K; try (specialize (Hs eq_refl); congruence); cbn [bits] in *;
      change (2 ^ (128 - 1)) with 170141183460469231731687303715884105728; change (2 ^ (64 - 1)) with 9223372036854775808;
      change (lo L16) with (-32768) in *; change (hi L16) with 32767 in *; change (lo L32) with (-2147483648) in *; change (hi L32) with 2147483647 in *;
      change (lo L64) with (-9223372036854775808) in *; change (hi L64) with 9223372036854775807 in *;
      change (lo L128) with (-170141183460469231731687303715884105728) in *; change (hi L128) with 170141183460469231731687303715884105727 in *; 
      try (specialize (Hm eq_refl)); lia.
  - now rewrite H, (truncated_in L r r' Hr T).
Qed.
Lemma lit_dec_inv P neg i f z : 0 <= P -> places f <= P -> (dec P z == spelled neg i f)%Q -> z = lit_val P neg i f.
Proof. intros HP Hp E. apply (dec_eq P). rewrite E. symmetry. now apply lit_dec. Qed.
(** With overflow checks: exactly which texts are accepted, and what they become. *)
Theorem lit_exact b L P s r : valid b L P -> ovf b = true -> Forall byte s -> Z.of_nat (length s) < 2 ^ 32 ->
  (fixnum_const b L P s = Ret r <->
   exists neg i f z, literal s neg i f /\ places f <= P /\ Z.of_nat (length i) <= const_digits b /\
     (dec P z == spelled neg i f)%Q /\ const_fits b z /\ truncated L z r).
Proof.
  intros Hv Ho Hs Hn. split.
  - intros H. destruct (lit_inv b L P s r Hv Ho Hs Hn H) as (neg & i & f & Hl & Hp & -> & Hd & Hz).
    exists neg, i, f, (lit_val P neg i f). split; [assumption|]. split; [assumption|]. split; [assumption|].
    split; [apply lit_dec; [apply Hv|assumption]|]. split; [unfold const_fits; rewrite imx_bits in Hz; lia|apply truncated_wrap].
  - intros (neg & i & f & z & Hl & Hp & Hd & E & Hz & T). destruct (lit_truncates b L P s neg i f z Hv Hl Hp Hd E Hz) as (r' & -> & T').
    f_equal. destruct T as [R T], T' as [R' T']. rewrite <- (wrap_of_mod L r r R eq_refl). symmetry. apply wrap_of_mod; [assumption|congruence].
Qed.
Theorem literal_unique s neg i f neg' i' f' : literal s neg i f -> literal s neg' i' f' -> neg = neg' /\ i = i' /\ f = f'.
Proof.
  intros H H'. destruct (literal_head s neg i f H) as (sg & c0 & r & Hg & Es & E & Esg & Est).
  destruct (literal_head s neg' i' f' H') as (sg' & c0' & r' & Hg' & Es' & E' & Esg' & Est').
  assert (c0 = c0') by congruence. subst c0'. assert (neg = neg') as <- by (rewrite Esg in Esg'; destruct neg, neg'; congruence).
  split; [reflexivity|]. rewrite Est in Est'.
  destruct H as (_ & Hi & Hf & _), H' as (_ & Hi' & Hf' & _).
  assert (sg ++ i ++ match f with None => [] | Some f => 46 :: f end = sg' ++ i' ++ match f' with None => [] | Some f => 46 :: f end) as EE by congruence.
  assert (length sg = length sg') as EL by lia.
  assert (i ++ match f with None => [] | Some f => 46 :: f end = i' ++ match f' with None => [] | Some f => 46 :: f end) as ET.
  { clear - EE EL. revert sg' EE EL. induction sg as [|a sg IH]; intros [|a' sg'] EE EL; try discriminate EL; [exact EE|].
    cbn in EE. injection EE as _ EE. apply (IH sg' EE). cbn in EL. congruence. }
  assert (forall j, Forall digit j -> ~ In 46 j) as Hd by (intros j Hj; apply digit_free; [exact Hj|unfold digit; lia]).
  destruct f as [f|], f' as [f'|].
  - pose proof (split_once_at i 46 f (Hd i Hi)) as A. pose proof (split_once_at i' 46 f' (Hd i' Hi')) as B.
    rewrite ET, B in A. injection A as -> ->. auto.
  - exfalso. rewrite app_nil_r in ET. apply (Hd i' Hi'). rewrite <- ET. apply in_elt.
  - exfalso. rewrite app_nil_r in ET. apply (Hd i Hi). rewrite ET. apply in_elt.
  - rewrite !app_nil_r in ET. auto.
Qed.
(** What is accepted and representable is exact. *)
Theorem lit_sound b L P s neg i f r : valid b L P -> ovf b = true -> Forall byte s -> Z.of_nat (length s) < 2 ^ 32 ->
  literal s neg i f -> fixnum_const b L P s = Ret r ->
  (bits L = const_bits b \/ exists r', represents L P (spelled neg i f) r') -> represents L P (spelled neg i f) r.
Proof.
  intros Hv Ho Hs Hn Hl H K. pose proof (proj1 (lit_exact b L P s r Hv Ho Hs Hn) H) as (neg' & i' & f' & z & Hl' & Hp & Hd & E & Hz & T).
  destruct (literal_unique s neg i f neg' i' f' Hl Hl') as (<- & <- & <-).
  assert (in_range L z) as Hr.
  { destruct K as [K|(r' & Hr' & E')].
    - unfold const_fits in Hz. rewrite <- K in Hz. unfold in_range, lo, hi. lia.
    - assert (z = r') as -> by (apply (dec_eq P); now rewrite E, E'). assumption. }
  rewrite (truncated_in L z r Hr T). split; assumption.
Qed.
Theorem lit_places b L P s neg i f r : valid b L P -> ovf b = true -> Forall byte s -> Z.of_nat (length s) < 2 ^ 32 ->
  literal s neg i f -> fixnum_const b L P s = Ret r -> places f <= P.
Proof.
  intros Hv Ho Hs Hn Hl H. pose proof (proj1 (lit_exact b L P s r Hv Ho Hs Hn) H) as (neg' & i' & f' & z & Hl' & Hp & _).
  destruct (literal_unique s neg i f neg' i' f' Hl Hl') as (<- & <- & <-). exact Hp.
Qed.
(** MIN of the widest layout does not compile. *)
Theorem lit_min b L P s neg i f r : valid b L P -> ovf b = true -> Forall byte s -> Z.of_nat (length s) < 2 ^ 32 ->
  bits L = const_bits b -> literal s neg i f -> (dec P (lo L) == spelled neg i f)%Q -> fixnum_const b L P s <> Ret r.
Proof.
  intros Hv Ho Hs Hn HL Hl E H. pose proof (proj1 (lit_exact b L P s r Hv Ho Hs Hn) H) as (neg' & i' & f' & z & Hl' & Hp & Hd & E' & Hz & T).
  destruct (literal_unique s neg i f neg' i' f' Hl Hl') as (<- & <- & <-).
  assert (z = lo L) as -> by (apply (dec_eq P); now rewrite E, E'). unfold const_fits, lo in Hz. rewrite <- HL in Hz. lia.
Qed.

(** ** What goes wrong *)
(** 5 with precision 4 does not fit i16 but compiles, to -1.5536. *)
Lemma lit_truncated_refuted : exists s neg i f r, valid dev L16 4 /\ literal s neg i f /\ places f <= 4 /\
  (forall r', ~ represents L16 4 (spelled neg i f) r') /\ fixnum_const dev L16 4 s = Ret r.
Proof.
  exists [53], false, [53], None, (-15536). split; [example|]. split.
  { split; [discriminate|]. split; [repeat constructor; discriminate|]. split; [constructor|]. exists []. auto. }
  split; [vm_compute; discriminate|]. split; [|vm_compute; reflexivity].
  intros r' [[_ H] E]. assert (r' = 50000) as -> by (apply (dec_eq 4); rewrite E; reflexivity). vm_compute in H. congruence.
Qed.
(** Nineteen places are accepted at precision 9 without overflow checks and feature [i128]. *)
Definition release64 : build := {| ovf := false; dbg := false; std := true; f128 := false |}.
Lemma lit_places_refuted : exists s neg i f, valid release64 L64 9 /\ literal s neg i f /\ 9 < places f /\
  ~ (spelled neg i f == 0)%Q /\ fixnum_const release64 L64 9 s = Ret 0.
Proof.
  exists ([48; 46] ++ repeat 48 18 ++ [49]), false, [48], (Some (repeat 48 18 ++ [49])). split; [example|]. split.
  { split; [discriminate|]. split; [repeat constructor; discriminate|]. split; [cbn; repeat constructor; discriminate|]. exists []. auto. }
  split; [reflexivity|]. split; [|vm_compute; reflexivity]. vm_compute. discriminate.
Qed.
(** A representable number written with twenty digits does not compile. *)
Lemma lit_zeros_refuted : exists s neg i r, valid no_std L64 9 /\ literal s neg i None /\
  represents L64 9 (spelled neg i None) r /\ fixnum_const no_std L64 9 s = Panic.
Proof.
  exists (repeat 48 19 ++ [49]), false, (repeat 48 19 ++ [49]), 1000000000. split; [example|]. split.
  { split; [discriminate|]. split; [cbn; repeat constructor; discriminate|]. split; [constructor|]. exists []. auto. }
  split; [example|vm_compute; reflexivity].
Qed.
Lemma fixnum_same b L P s : fixnum b L P s = fixnum_const b L P s.
Proof. reflexivity. Qed.
