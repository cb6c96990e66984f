(** * DecProofs: powers of ten and conversions between mantissa/exponent pairs and numbers. *)
From Coq Require Import Qpower.
From Verif Require Import Spec Base PowerTable Promo Ops Fixed BaseFacts RoundFacts ArithProofs SimpleProofs MulDiv.
From Verif Require Import Fixed.
Open Scope Z_scope.

Definition i32_fits z : fits I32 z <-> -2147483648 <= z <= 2147483647.
Proof. reflexivity. Qed.

(** ** next_power_of_ten *)

(** What the tables have to satisfy for the values with [lz] leading zeros. *)
Definition pt_row (L : layout) (lz : Z) : bool :=
  let a := 2 ^ (Spec.bits L - 1 - lz) in
  let z := 2 * a - 1 in
  match idx (pt_of L) lz, idx (pt_of L) (lz - 1) with
  | Ret v, Ret w =>
      existsb (fun j =>
        ((v =? 10 ^ j) && ((j =? 0) || (10 ^ (j - 1) <? a)) &&
           ((z <=? v) || ((w =? 10 * v) && (z <=? w)) || ((w =? 0) && (hi L <? 10 * v))))
        || ((v =? 0) && (w =? 0) && (10 ^ j <? a) && (hi L <? 10 ^ (j + 1)))) (zrange 40)
  | _, _ => false
  end.
Lemma pt_rows L : forallb (fun k => pt_row L (k + 1)) (zrange (Z.to_nat (Spec.bits L - 1))) = true.
Proof. destruct L; vm_compute; reflexivity. Qed.

Lemma pow10_lt j k : 0 <= k -> 10 ^ j < 10 ^ k -> j < k.
Proof. intros Hk H. apply (Z.pow_lt_mono_r_iff 10); [lia|assumption|assumption]. Qed.
Lemma least_pow x j : 0 <= j -> (j = 0 \/ 10 ^ (j - 1) < x) -> forall i, 0 <= i -> x <= 10 ^ i -> j <= i.
Proof. intros Hj [->|H] i Hi Hx; [lia|]. pose proof (pow10_lt (j - 1) i Hi ltac:(lia)). lia. Qed.

Lemma width_lty L : width (lty L) = Spec.bits L.
Proof. destruct L; reflexivity. Qed.

Lemma zrange_nonneg n z : In z (zrange n) -> 0 <= z.
Proof. induction n as [|n IH]; cbn [zrange In]; [contradiction|]. intros [<-|H]; [lia|auto]. Qed.
Lemma pt_le L i v : idx (pt_of L) i = Ret v -> v <= hi L.
Proof.
  intros E. assert (In v (pt_of L)) as Hin.
  { unfold idx in E. destruct (_ && _); [|discriminate].
    destruct (nth_error (pt_of L) (Z.to_nat i)) eqn:En; [|discriminate]. injection E as ->.
    eapply nth_error_In. exact En. }
  assert (forallb (fun z => z <=? hi L) (pt_of L) = true) as T by (destruct L; vm_compute; reflexivity).
  rewrite forallb_forall in T. specialize (T _ Hin). lia.
Qed.
Lemma npt_pos b L x : in_range L x -> 0 < x ->
  exists k, 0 <= k /\ x <= 10 ^ k /\ (forall j, 0 <= j -> x <= 10 ^ j -> k <= j) /\
    exact_or_overflow L (10 ^ k) (npt_nonneg b L x).
Proof.
  intros Hx Hpos. pose proof (hi_pos L) as HH. unfold in_range in Hx.
  pose proof (Z.log2_spec x Hpos) as [G1 G2]. pose proof (Z.log2_nonneg x) as G0.
  assert (1 < Spec.bits L) as HB by (destruct L; reflexivity).
  assert (Z.log2 x < Spec.bits L - 1) as G3.
  { apply Z.log2_lt_pow2; [assumption|]. unfold hi in Hx. lia. }
  assert (leading_zeros (lty L) x = Spec.bits L - 1 - Z.log2 x) as El.
  { unfold leading_zeros. rewrite width_lty. replace (x <? 0) with false by lia. replace (x =? 0) with false by lia. reflexivity. }
  pose proof (pt_rows L) as T. rewrite forallb_forall in T.
  specialize (T (Spec.bits L - 2 - Z.log2 x)
    (zrange_in (Z.to_nat (Spec.bits L - 1)) (Spec.bits L - 2 - Z.log2 x) ltac:(lia))). cbn beta in T.
  replace (Spec.bits L - 2 - Z.log2 x + 1) with (leading_zeros (lty L) x) in T by lia.
  unfold npt_nonneg. unfold pt_row in T.
  replace (Spec.bits L - 1 - leading_zeros (lty L) x) with (Z.log2 x) in T by lia.
  replace (0 <? leading_zeros (lty L) x) with true by lia. cbn [assert_ bind].
  assert (1 <= leading_zeros (lty L) x <= 127) as Hlz by (destruct L; unfold Spec.bits in *; lia).
  assert (sub b USize (leading_zeros (lty L) x) 1 = Ret (leading_zeros (lty L) x - 1)) as Es.
  { apply sub_ok. unfold fits. change (imin USize) with 0. change (imax USize) with 18446744073709551615. lia. }
  remember (leading_zeros (lty L) x) as lz eqn:Elz. clear Elz El.
  destruct (idx (pt_of L) lz) as [v| | |] eqn:Ev; try discriminate.
  destruct (idx (pt_of L) (lz - 1)) as [w| | |] eqn:Ew; try discriminate.
  pose proof (pt_le _ _ _ Ev) as Lv. pose proof (pt_le _ _ _ Ew) as Lw.
  rewrite existsb_exists in T. destruct T as (j & Hj & T). cbn [bind].
  assert (0 <= j) as Hj0.
  { apply zrange_nonneg in Hj. assumption. }
  clear Hj. pose proof (pow10_pos j Hj0) as Pj.
  assert (10 ^ (j + 1) = 10 * 10 ^ j) as Ej1 by (rewrite Z.pow_add_r by lia; lia).
  rewrite <- Z.add_1_r, Z.pow_add_r, Z.pow_1_r in G2 by lia.
  revert T G1 G2. generalize (2 ^ Z.log2 x). intros a T G1 G2.
  rewrite orb_true_iff, !andb_true_iff, !orb_true_iff, !andb_true_iff in T.
  rewrite !Z.eqb_eq, !Z.leb_le, !Z.ltb_lt in T.
  unfold exact_or_overflow, in_range.
  assert (lo L <= 10 ^ j) as Lj by (rewrite lo_hi; lia).
  assert (lo L <= 10 ^ (j + 1)) as Lj1 by (rewrite lo_hi; lia).
  destruct T as [[[-> T0] T]|[[[-> ->] T1] T2]].
  - assert (j = 0 \/ 10 ^ (j - 1) < x) as T0' by (destruct T0; [left|right]; lia).
    destruct (Z.ltb_spec (10 ^ j) x) as [Hlt|Hge].
    + rewrite Es. cbn [bind]. rewrite Ew. cbn [bind].
      exists (j + 1). split; [lia|].
      assert (forall i, 0 <= i -> x <= 10 ^ i -> j + 1 <= i) as Least.
      { apply least_pow; [lia|]. right. replace (j + 1 - 1) with j by lia. assumption. }
      destruct T as [[T|[-> T]]|[-> T]]; [exfalso; lia| |].
      * split; [lia|]. split; [exact Least|]. left. replace (10 * 10 ^ j =? 0) with false by lia.
        rewrite <- Ej1. split; [|reflexivity].
        lia.
      * split; [|split; [exact Least|]]; [lia|]. right. split; [lia|reflexivity].
    + cbn [bind]. exists j. split; [assumption|]. split; [assumption|]. split; [apply least_pow; assumption|].
      left. replace (10 ^ j =? 0) with false by lia. split; [|reflexivity].
      split; [lia|].
      lia.
  - destruct (Z.ltb_spec 0 x) as [_|]; [|lia]. rewrite Es. cbn [bind]. rewrite Ew. cbn [bind Z.eqb].
    exists (j + 1). split; [lia|].
    assert (x <= 10 ^ (j + 1)) as Hle by lia.
    split; [lia|]. split.
    + apply least_pow; [lia|]. right. replace (j + 1 - 1) with j by lia. lia.
    + right. split; [lia|reflexivity].
Qed.

Lemma npt_zero b L : next_power_of_ten b L 0 = Ret (Ok EPSILON).
Proof. destruct b as [[|] [|] [|] [|]], L; vm_compute; reflexivity. Qed.
Lemma npt_min b L : next_power_of_ten b L (lo L) = Ret (Err Overflow).
Proof. destruct b as [[|] [|] [|] [|]], L; vm_compute; reflexivity. Qed.
Lemma npt_pos_spec b L x : in_range L x -> 0 < x ->
  exists k, 0 <= k /\ x <= 10 ^ k /\ (forall j, 0 <= j -> x <= 10 ^ j -> k <= j) /\
    exact_or_overflow L (10 ^ k) (next_power_of_ten b L x).
Proof.
  intros Hx Hp. unfold next_power_of_ten. replace (x <? 0) with false by lia. apply npt_pos; assumption.
Qed.
Lemma npt_neg_spec b L x : in_range L x -> x < 0 -> x <> lo L ->
  (exists v, next_power_of_ten b L (- x) = Ret (Ok v) /\ next_power_of_ten b L x = Ret (Ok (- v))) \/
  (next_power_of_ten b L (- x) = Ret (Err Overflow) /\ next_power_of_ten b L x = Ret (Err Overflow)).
Proof.
  intros Hx Hn Hlo. unfold next_power_of_ten. replace (x <? 0) with true by lia. replace (- x <? 0) with false by lia.
  pose proof (lo_hi L) as LH. pose proof Hx as Hx'. unfold in_range in Hx'.
  rewrite cneg_val by assumption. replace (x =? lo L) with false by lia. cbn [bind try_].
  destruct (npt_pos b L (- x)) as (k & Hk & _ & _ & [[R E]|[R E]]); [unfold in_range; lia|lia| |]; rewrite E; cbn [bind try_].
  - left. exists (10 ^ k). split; [reflexivity|]. rewrite cneg_val by assumption.
    pose proof (pow10_pos k Hk). replace (10 ^ k =? lo L) with false by lia. reflexivity.
  - right. split; reflexivity.
Qed.

(** ** from_decimal *)
Lemma from_decimal_bad b L P m e : valid b L P -> ~ (- P <= e <= 10) -> from_decimal b L P m e = Ret (Err ConvertError).
Proof.
  intros Hv He. pose proof Hv as [_ HP]. pose proof (valid_prec_38 L P HP) as H38. unfold from_decimal.
  rewrite neg_ok by (apply (proj2 (i32_fits _)); lia). cbn [bind]. replace ((e <? - P) || (10 <? e)) with true by lia. reflexivity.
Qed.
Lemma from_decimal_unfold b L P m e : valid b L P -> - P <= e <= 10 ->
  from_decimal b L P m e =
  (multiplier <- ipow b (lty L) 10 (e + P) ;; Ret (ok_or (checked_mul (lty L) m multiplier) ConvertError)).
Proof.
  intros Hv He. pose proof Hv as [_ HP]. pose proof (valid_prec_38 L P HP) as H38. unfold from_decimal.
  rewrite neg_ok by (apply (proj2 (i32_fits _)); lia). cbn [bind]. replace ((e <? - P) || (10 <? e)) with false by lia.
  rewrite add_ok by (apply (proj2 (i32_fits _)); lia). cbn [bind].
  rewrite (wrap_fits U32) by (unfold fits; change (imin U32) with 0; change (imax U32) with 4294967295; lia).
  reflexivity.
Qed.
Lemma from_decimal_val b L P m e : valid b L P -> - P <= e <= 10 -> 10 ^ (e + P) <= hi L ->
  from_decimal b L P m e = Ret (ok_or (chk (lty L) (m * 10 ^ (e + P))) ConvertError).
Proof.
  intros Hv He Hm. rewrite from_decimal_unfold by assumption. pose proof (pow10_pos (e + P) ltac:(lia)).
  rewrite ipow_ok by (apply fits_lty; unfold in_range; rewrite lo_hi; pose proof (hi_pos L); lia). reflexivity.
Qed.
Lemma dec_shift P m e : 0 <= e + P -> (dec P (m * 10 ^ (e + P)) == Zq m * q10 e)%Q.
Proof.
  intros H. unfold dec. rewrite Zq_mul, <- q10_pos by assumption. unfold q10.
  rewrite <- Qmult_assoc, <- Qpower_plus by discriminate. replace (e + P + - P) with e by lia. reflexivity.
Qed.
Lemma from_decimal_spec b L P m e : valid b L P -> - P <= e <= 10 -> 10 ^ (e + P) <= hi L ->
  exact_or L P (Zq m * q10 e) ConvertError (from_decimal b L P m e).
Proof.
  intros Hv He Hm. rewrite from_decimal_val by assumption.
  destruct (chk_exact L P (m * 10 ^ (e + P)) ConvertError) as [(r & [R E] & Eo)|[N Eo]]; rewrite Eo.
  - left. exists r. split; [split; [assumption|]|reflexivity]. rewrite E. apply dec_shift. lia.
  - right. split; [|reflexivity]. intros r [R E]. apply (N r). split; [assumption|]. rewrite E.
    symmetry. apply dec_shift. lia.
Qed.
Lemma from_decimal_panic b L P m e : valid b L P -> - P <= e <= 10 -> hi L < 10 ^ (e + P) -> ovf b = true ->
  from_decimal b L P m e = Panic.
Proof.
  intros Hv He Hm Ho. rewrite from_decimal_unfold by assumption. unfold ipow, fit.
  rewrite fitsb_false, Ho by (rewrite fits_lty; unfold in_range; lia). reflexivity.
Qed.

(** ** to_decimal *)
Lemma loop_unfold b L f k m e : to_decimal_loop b L (S f) k m e =
  if e <? k then
    r <- rem (lty L) m 10 ;;
    if r =? 0 then
      e <- add b I32 e 1 ;; m <- div (lty L) m 10 ;; to_decimal_loop b L f k m e
    else Ret (m, e)
  else Ret (m, e).
Proof. reflexivity. Qed.
Lemma quot10_range L m : in_range L m -> in_range L (Z.quot m 10).
Proof. pose proof (abs_quot_le m 10 ltac:(lia)). unfold in_range. rewrite lo_hi. pose proof (hi_pos L). 
  destruct (quot_rem_facts m 10 ltac:(lia)) as (E & B & Sp & Sn). lia. Qed.
Lemma loop_spec b L P k : fits I32 k -> forall f m e, in_range L m -> m <> 0 -> fits I32 e -> e <= k -> - P <= e ->
  Z.abs m < 10 ^ Z.of_nat f ->
  exists m' e', to_decimal_loop b L (S f) k m e = Ret (m', e') /\ e <= e' <= k /\ m = m' * 10 ^ (e' - e) /\
    in_range L m' /\ (e' = k \/ m' mod 10 <> 0).
Proof.
  intros Fk. induction f as [|f IH]; intros m e Rm Hm Fe Hek HeP Hf.
  - change (10 ^ Z.of_nat 0) with 1 in Hf. lia.
  - rewrite loop_unfold. destruct (Z.ltb_spec e k) as [Hlt|Hge].
    + rewrite rem_ok by (lia || (apply fits_lty, quot10_range; assumption)). cbn [bind].
      destruct (quot_rem_facts m 10 ltac:(lia)) as (E & B & Sp & Sn).
      destruct (Z.eqb_spec (Z.rem m 10) 0) as [E0|E0].
      * pose proof (proj1 (i32_fits _) Fk) as Fk'. pose proof (proj1 (i32_fits _) Fe) as Fe'.
        rewrite add_ok by (apply (proj2 (i32_fits _)); lia). cbn [bind].
        rewrite div_ok by (lia || (apply fits_lty, quot10_range; assumption)). cbn [bind].
        destruct (IH (Z.quot m 10) (e + 1)) as (m' & e' & El & He' & Em & Rm' & Hc).
        -- apply quot10_range. assumption.
        -- lia.
        -- apply (proj2 (i32_fits _)). lia.
        -- lia.
        -- lia.
        -- rewrite Nat2Z.inj_succ, Z.pow_succ_r in Hf by lia. lia.
        -- exists m', e'. split; [exact El|]. split; [lia|]. split; [|auto].
           replace m with (Z.quot m 10 * 10) by lia. rewrite Em. replace (e' - e) with (Z.succ (e' - (e + 1))) by lia. rewrite Z.pow_succ_r by lia. ring.
      * exists m, e. rewrite Z.sub_diag, Z.mul_1_r. split; [reflexivity|]. split; [lia|]. split; [reflexivity|]. split; [assumption|].
        right. intros M. apply E0. apply Z.rem_divide; [lia|]. apply Z.mod_divide; [lia|]. assumption.
    + exists m, e. rewrite Z.sub_diag, Z.mul_1_r. split; [reflexivity|]. split; [lia|]. split; [reflexivity|]. split; [assumption|].
      left. lia.
Qed.
Lemma to_decimal_panic b L P x k : valid b L P -> k < - P -> to_decimal b L P x k = Panic.
Proof.
  intros Hv Hk. pose proof Hv as [_ HP]. pose proof (valid_prec_38 L P HP) as H38. unfold to_decimal.
  rewrite neg_ok by (apply (proj2 (i32_fits _)); lia). cbn [bind]. replace (- P <=? k) with false by lia. reflexivity.
Qed.
Lemma to_decimal_zero b L P k : valid b L P -> - P <= k -> to_decimal b L P 0 k = Ret (0, Z.min 0 k).
Proof.
  intros Hv Hk. pose proof Hv as [_ HP]. pose proof (valid_prec_38 L P HP) as H38. unfold to_decimal.
  rewrite neg_ok by (apply (proj2 (i32_fits _)); lia). cbn [bind]. replace (- P <=? k) with true by lia. reflexivity.
Qed.
Lemma to_decimal_val b L P x k : valid b L P -> in_range L x -> x <> 0 -> fits I32 k -> - P <= k ->
  exists m e, to_decimal b L P x k = Ret (m, e) /\ - P <= e <= k /\ x = m * 10 ^ (e + P) /\
    in_range L m /\ (e = k \/ m mod 10 <> 0).
Proof.
  intros Hv Rx Hx Fk Hk. pose proof Hv as [_ HP]. pose proof (valid_prec_38 L P HP) as H38. unfold to_decimal.
  rewrite neg_ok by (apply (proj2 (i32_fits _)); lia). cbn [bind]. replace (- P <=? k) with true by lia. cbn [assert_ bind].
  replace (x =? 0) with false by lia. change 100%nat with (S 99).
  assert (Z.abs x < 10 ^ Z.of_nat 99) as Hf.
  { eapply Z.le_lt_trans with (2 ^ 127); [|reflexivity]. unfold in_range in Rx.
    assert (hi L <= 2 ^ 127 - 1) by (destruct L; vm_compute; discriminate). rewrite lo_hi in Rx. lia. }
  destruct (loop_spec b L P k Fk 99 x (- P) Rx Hx ltac:(apply (proj2 (i32_fits _)); lia) Hk ltac:(lia) Hf)
    as (m & e & E & He & Em & Rm & Hc).
  exists m, e. replace (e + P) with (e - - P) by lia. auto.
Qed.
Lemma to_decimal_spec b L P x k : valid b L P -> in_range L x -> fits I32 k -> - P <= k ->
  exists m e, to_decimal b L P x k = Ret (m, e) /\ (Zq m * q10 e == dec P x)%Q /\ - P <= e <= k /\
    in_range L m /\ (x <> 0 -> e = k \/ m mod 10 <> 0) /\ (x = 0 -> m = 0 /\ e = Z.min 0 k).
Proof.
  intros Hv Rx Fk Hk. destruct (Z.eq_dec x 0) as [->|Hx].
  - exists 0, (Z.min 0 k). rewrite to_decimal_zero by assumption. split; [reflexivity|].
    assert (0 <= P) by apply Hv.
    split; [rewrite dec_0; change (Zq 0) with 0%Q; ring|]. split; [lia|]. split; [assumption|]. split; [congruence|auto].
  - destruct (to_decimal_val b L P x k Hv Rx Hx Fk Hk) as (m & e & E & He & Ex & Rm & Hc).
    exists m, e. split; [exact E|]. split; [rewrite Ex; symmetry; apply dec_shift; lia|]. split; [assumption|]. split; [assumption|]. split; [auto|intros; contradiction].
Qed.

(** No power of ten is one more than the maximum. *)
Lemma pow10_not_min L n : 0 <= n -> 10 ^ n <= hi L + 1 -> 10 ^ n <= hi L.
Proof.
  intros Hn Hle. destruct (Z.eq_dec (10 ^ n) (hi L + 1)) as [E|]; [exfalso|lia].
  destruct (Z.eq_dec n 0) as [->|Hn0]; [pose proof (hi_pos L); change (10 ^ 0) with 1 in E; lia|].
  assert (10 ^ n = 10 * 10 ^ (n - 1)) as E' by (replace n with (Z.succ (n - 1)) at 1 by lia; apply Z.pow_succ_r; lia).
  assert (hi L + 1 <> 10 * 10 ^ (n - 1)) as Hne; [|lia].
  assert ((hi L + 1) mod 5 <> 0) as Hm by (destruct L; vm_compute; discriminate).
  intros E5. apply Hm. rewrite E5. replace (10 * 10 ^ (n - 1)) with (2 * 10 ^ (n - 1) * 5) by ring. apply Z.mod_mul. lia.
Qed.
Lemma decimal_round_trip b b' L P x k : valid b L P -> valid b' L P -> in_range L x -> - P <= k <= 10 ->
  exists m e, to_decimal b L P x k = Ret (m, e) /\ from_decimal b' L P m e = Ret (Ok x).
Proof.
  intros Hv Hv' Rx Hk. assert (fits I32 k) as Fk.
  { pose proof Hv as [_ HP]. pose proof (valid_prec_38 L P HP) as H38. apply (proj2 (i32_fits _)). lia. }
  destruct (Z.eq_dec x 0) as [->|Hx].
  - exists 0, (Z.min 0 k). split; [apply to_decimal_zero; [assumption|lia]|].
    assert (0 <= P) by apply Hv.
    rewrite from_decimal_val; [rewrite Z.mul_0_l, chk_some by (apply fits_lty; assumption); reflexivity|assumption|lia|].
    pose proof (coef_bounds b L P Hv). etransitivity; [apply Z.pow_le_mono_r with (c := P); lia|lia].
  - destruct (to_decimal_val b L P x k Hv Rx Hx Fk ltac:(lia)) as (m & e & E & He & Ex & Rm & Hc).
    exists m, e. split; [exact E|]. rewrite from_decimal_val; [|assumption|lia|].
    + rewrite <- Ex, chk_some by (apply fits_lty; assumption). reflexivity.
    + apply pow10_not_min; [lia|]. unfold in_range in Rx. rewrite lo_hi in Rx.
      pose proof (pow10_pos (e + P) ltac:(lia)). assert (1 <= Z.abs m) by nia.
      assert (10 ^ (e + P) <= Z.abs x); [|lia]. rewrite Ex, Z.abs_mul, (Z.abs_eq (10 ^ (e + P))) by lia. nia.
Qed.
