(** * F64Steps: the conversion from f64 when nothing is lost before the first rounding. *)
From Coq Require Import SpecFloat QArith Qabs Qpower.
From Verif Require Import Base PowerTable ConstFn Sqrt Promo Ops Fixed Float Spec SpecF64 BaseFacts SimpleProofs FloatFacts DivWord
  F64Facts F64Rel F64Proofs.
From Verif Require Import Fixed.
Open Scope Z_scope.
Ltac Zify.zify_post_hook ::= idtac.

(** An odd number times a power of five that fits. *)
Lemma scale_down_exact b n : forall N e5 e10, 0 < N -> N mod 2 = 1 -> N * 5 ^ e5 < 2 ^ 128 -> 0 <= e5 <= 1074 -> e5 < Z.of_nat n ->
  scale_down b n N e5 e10 = Ret (N * 5 ^ e5, 0, e10).
Proof.
  induction n as [|n IH]; intros N e5 e10 HN Ho Hb He Hn; [lia|]. cbn [scale_down]. destruct (Z.eq_dec e5 0) as [->|H0].
  { change (0 <? 0) with false. cbv iota. rewrite Z.mul_1_r. reflexivity. }
  replace (0 <? e5) with true by lia. rewrite land_1, Ho. cbn [Z.eqb Pos.eqb].
  assert (E5 : N * 5 ^ e5 = N * 5 * 5 ^ (e5 - 1)).
  { replace (5 ^ e5) with (5 * 5 ^ (e5 - 1)) by (rewrite <- Z.pow_succ_r by lia; f_equal; lia). ring. }
  assert (1 <= 5 ^ (e5 - 1)) as G by (pose proof (Z.pow_pos_nonneg 5 (e5 - 1)); lia).
  assert (N * 5 * 1 <= N * 5 * 5 ^ (e5 - 1)) as K by (apply Z.mul_le_mono_nonneg_l; lia).
  unfold checked_mul, chk. rewrite fitsb_true by (apply fits_u128; lia). rewrite sub_ok by (apply fits_i32; lia). cbn [bind].
  rewrite E5. apply IH; lia.
Qed.
Lemma absorb5_exact b m e5 e10 : 0 < m < 2 ^ 53 -> 0 < e5 <= 1074 -> e10 = - e5 ->
  (exists k j, 0 <= j <= e5 /\ 0 <= k < 2 ^ 128 /\ m * 5 ^ e5 = k * 10 ^ j) ->
  exists N s, absorb5 b m e5 e10 = Ret (N, 0, e10 + s) /\ 0 <= s <= e5 /\ 0 < N < 2 ^ 128 /\ m * 5 ^ e5 = N * 10 ^ s.
Proof.
  intros Hm He E10 (k & j & Hj & Hk & Ek). unfold absorb5. replace (0 <? e5) with true by lia.
  destruct m as [|p|p]; try lia. cbn [trailing_zeros]. destruct (ctz_spec p) as [H0 (q & Eq & Hq)].
  rewrite (wrap_fits U32 e5) by (unfold fits; change (imin U32) with 0; change (imax U32) with 4294967295; lia).
  set (x := Z.min (ctz p) e5). assert (0 <= x <= e5 /\ x <= ctz p) as Hx by lia.
  rewrite (wrap_fits I32 x) by (apply fits_i32; lia). cbv zeta.
  rewrite add_ok by (apply fits_i32; lia). cbn [bind]. rewrite sub_ok by (apply fits_i32; lia). cbn [bind].
  assert (0 < 2 ^ x) as G2 by (apply Z.pow_pos_nonneg; lia).
  assert (exists m, Zpos p = m * 2 ^ x /\ 0 < m /\ (x < e5 -> m mod 2 = 1)) as (m & Em & Hm0 & Hodd).
  { exists (q * 2 ^ (ctz p - x)). split; [|split].
    - rewrite <- Z.mul_assoc, <- Z.pow_add_r by lia. replace (ctz p - x + x) with (ctz p) by lia. exact Eq.
    - assert (0 < 2 ^ ctz p) by (apply Z.pow_pos_nonneg; lia). assert (0 < q) by (clear - Eq H; nia).
      apply Z.mul_pos_pos; [assumption|]. apply Z.pow_pos_nonneg; lia.
    - intros C. replace (ctz p - x) with 0 by lia. change (2 ^ 0) with 1. rewrite Z.mul_1_r. exact Hq. }
  assert (m <= Zpos p) as Hmp. { rewrite Em. rewrite <- (Z.mul_1_r m) at 1. apply Z.mul_le_mono_nonneg_l; lia. }
  assert (x < 53) as Hx3.
  { apply Z.lt_nge. intros K. pose proof (Z.pow_le_mono_r 2 53 x ltac:(lia) K).
    assert (1 * 2 ^ x <= m * 2 ^ x) by (apply Z.mul_le_mono_nonneg_r; lia). lia. }
  assert (Base.shr b U128 (Zpos p) x = Ret m) as Es.
  { unfold Base.shr. cbn [width]. replace (0 <=? x) with true by lia. replace (x <? 128) with true by lia. cbn [andb].
    rewrite Em, Z.div_mul by lia. reflexivity. }
  rewrite Es. cbn [bind].
  assert (E10x : Zpos p * 5 ^ e5 = m * 5 ^ (e5 - x) * 10 ^ x).
  { rewrite Em. replace (5 ^ e5) with (5 ^ (e5 - x) * 5 ^ x) by (rewrite <- Z.pow_add_r by lia; f_equal; lia).
    change 10 with (2 * 5). rewrite Z.pow_mul_l. ring. }
  destruct (Z.eq_dec x e5) as [Exe|Exe].
  { replace (0 <? e5 - x) with false by lia. exists m, x. replace (e5 - x) with 0 in * by lia.
    split; [reflexivity|]. split; [lia|]. split; [lia|]. rewrite E10x. change (5 ^ 0) with 1. ring. }
  replace (0 <? e5 - x) with true by lia. specialize (Hodd ltac:(lia)).
  assert (GF : 0 < 5 ^ (e5 - x)) by (apply Z.pow_pos_nonneg; lia).
  (* the odd part times the power of five divides k *)
  assert (m * 5 ^ (e5 - x) < 2 ^ 128) as Hbig.
  { apply Z.le_lt_trans with k; [|lia]. assert (j <= x) as Hjx.
    { apply Z.nlt_ge. intros C. rewrite E10x in Ek. replace j with (j - x - 1 + 1 + x) in Ek by lia.
      rewrite (Z.pow_add_r 10 (j - x - 1 + 1)), Z.mul_assoc in Ek by lia. apply Z.mul_cancel_r in Ek; [|apply Z.pow_nonzero; lia].
      assert ((m * 5 ^ (e5 - x)) mod 2 = 1) as M.
      { rewrite Z.mul_mod, Hodd by lia. assert (forall n, 0 <= n -> 5 ^ n mod 2 = 1) as M5.
        { apply natlike_ind; [reflexivity|]. intros n Hn IH. rewrite Z.pow_succ_r, Z.mul_mod, IH by lia. reflexivity. }
        rewrite M5 by lia. reflexivity. }
      rewrite Ek, Z.pow_add_r in M by lia. replace (k * (10 ^ (j - x - 1) * 10 ^ 1)) with (k * 10 ^ (j - x - 1) * 5 * 2) in M by (change (10 ^ 1) with 10; ring).
      rewrite Z.mod_mul in M by lia. discriminate. }
    rewrite E10x in Ek. replace x with (x - j + j) in Ek at 2 by lia. rewrite Z.pow_add_r, Z.mul_assoc in Ek by lia.
    apply Z.mul_cancel_r in Ek; [|apply Z.pow_nonzero; lia]. rewrite <- Ek. rewrite <- Z.mul_1_r at 1.
    apply Z.mul_le_mono_nonneg_l; [apply Z.mul_nonneg_nonneg; lia|]. pose proof (pow10_pos (x - j)). lia. }
  pose proof (Z.log2_spec m Hm0) as [L1 L2]. pose proof (Z.log2_nonneg m) as L0.
  assert (Z.log2 m < 53) as L3 by (apply Z.log2_lt_pow2; lia). set (l := Z.log2 m) in *.
  assert (leading_zeros U128 m = 127 - l) as El.
  { unfold leading_zeros. replace (m <? 0) with false by lia. replace (m =? 0) with false by lia. fold l. cbn [width]. lia. }
  rewrite El. clearbody l. replace (127 - l =? 0) with false by lia.
  rewrite sub_ok by (unfold fits; change (imin USize) with 0; change (imax USize) with 18446744073709551615; lia). cbn [bind].
  destruct (m5_table (127 - l - 1) ltac:(lia)) as (m5 & E5 & Hm5 & Hp5). rewrite E5. cbn [bind].
  set (u := Z.min (e5 - x) m5). assert (1 <= u <= e5 - x /\ u <= m5) as Hu by lia. clearbody u.
  rewrite wrap_fits by (unfold fits; change (imin USize) with 0; change (imax USize) with 18446744073709551615; lia).
  rewrite p5_table by lia. cbn [bind].
  assert (fit : forall w, 0 <= w <= e5 - x -> 0 < m * 5 ^ w < 2 ^ 128).
  { intros w Hw. assert (0 < 5 ^ w) by (apply Z.pow_pos_nonneg; lia). split; [apply Z.mul_pos_pos; lia|].
    apply Z.le_lt_trans with (m * 5 ^ (e5 - x)); [|assumption]. apply Z.mul_le_mono_nonneg_l; [lia|]. apply Z.pow_le_mono_r; lia. }
  rewrite mul_ok by (apply fits_u128; pose proof (fit u); lia). cbn [bind].
  assert (exists w, (if u <? e5 - x then
       match checked_mul U128 (m * 5 ^ u) 5 with
       | Some b5 => m1 <- add b I32 u 1 ;; Ret (b5, m1)
       | None => Ret (m * 5 ^ u, u)
       end
      else Ret (m * 5 ^ u, u)) = Ret (m * 5 ^ w, w) /\ 1 <= w <= e5 - x) as (w & Ew & Hw).
  { destruct (u <? e5 - x) eqn:Cu; [|exists u; split; [reflexivity|]; lia]. apply Z.ltb_lt in Cu.
    assert (5 ^ (u + 1) = 5 ^ u * 5) as E1 by (rewrite Z.pow_add_r by lia; reflexivity).
    unfold checked_mul, chk. rewrite <- Z.mul_assoc, <- E1, fitsb_true by (apply fits_u128; pose proof (fit (u + 1)); lia).
    rewrite add_ok by (apply fits_i32; lia). cbn [bind]. exists (u + 1). split; [reflexivity|]. lia. }
  rewrite Ew. cbn [bind]. replace (w =? 0) with false by lia. rewrite sub_ok by (apply fits_i32; lia). cbn [bind].
  assert (m * 5 ^ w * 5 ^ (e5 - x - w) = m * 5 ^ (e5 - x)) as Em5.
  { rewrite <- Z.mul_assoc, <- Z.pow_add_r by lia. do 2 f_equal. lia. }
  rewrite scale_down_exact; rewrite ?Em5, ?fuel_1200; try lia.
  - exists (m * 5 ^ (e5 - x)), x. split; [reflexivity|]. split; [lia|]. split; [|exact E10x]. split; [apply Z.mul_pos_pos; lia|assumption].
  - assert (forall n, 0 <= n -> 5 ^ n mod 2 = 1) as M5.
    { apply natlike_ind; [reflexivity|]. intros n Hn IH. rewrite Z.pow_succ_r, Z.mul_mod, IH by lia. reflexivity. }
    rewrite Z.mul_mod, Hodd, M5 by lia. reflexivity.
Qed.

Lemma rest_exact b P N E : 0 <= P <= 38 -> 0 <= N < 2 ^ 128 -> -1074 <= E <= 0 ->
  exists d, 0 <= d <= - E /\ (d = - E \/ N < 2 ^ 52 * 10 ^ d) /\ (d = 0 \/ 2 ^ 52 * 10 ^ (d - 1) <= N) /\
    let z := c49 (c49 N (10 ^ d) * 10 ^ (E + d + K0)) (10 ^ (K0 - P)) in
    rest b P N E = Ret (Ok z) \/ (rest b P N E = Ret (Err ConvertError) /\ 2 ^ 128 <= z).
Proof.
  intros HP HN HE. unfold rest. destruct (cut_digits_spec b N E HN HE) as (d & Hd & Hd38 & Ec & Hbig & Hex). rewrite Ec. cbn [bind].
  pose proof (pow10_pos d ltac:(lia)) as GD. exists d. split; [lia|]. split; [assumption|]. split; [assumption|]. cbv zeta.
  assert (0 <= c49 N (10 ^ d) < 2 ^ 128) as Hy.
  { split; [apply c49_nonneg; lia|]. apply Z.le_lt_trans with N; [|lia]. apply c49_le; [lia|assumption|]. apply pow10_cases. lia. }
  exact (rescale_spec b P (c49 N (10 ^ d)) (E + d) HP Hy ltac:(lia)).
Qed.
Lemma mid_exact b P m e N E : 0 <= P <= 38 -> 0 < m < 2 ^ 53 -> -1074 <= e < 0 -> 0 <= E -> 0 <= N < 2 ^ 128 ->
  Vof m e * 10 ^ E = N * 10 ^ K0 ->
  exists N0 E0 d, 0 <= E0 <= K0 /\ 0 < N0 < 2 ^ 128 /\ Vof m e = N0 * 10 ^ (K0 - E0) /\
    0 <= d <= E0 /\ (d = E0 \/ N0 < 2 ^ 52 * 10 ^ d) /\ (d = 0 \/ 2 ^ 52 * 10 ^ (d - 1) <= N0) /\
    let z := c49 (c49 N0 (10 ^ d) * 10 ^ (K0 - E0 + d)) (10 ^ (K0 - P)) in
    mid b P m e = Ret (Ok z) \/ (mid b P m e = Ret (Err ConvertError) /\ 2 ^ 128 <= z).
Proof.
  intros HP Hm He HE HN EV. assert (HK : K0 = 1074) by reflexivity.
  rewrite Vof_neg in EV by lia.
  assert (exists k j, 0 <= j <= - e /\ 0 <= k < 2 ^ 128 /\ m * 5 ^ (- e) = k * 10 ^ j) as Hk.
  { assert (0 < 5 ^ (- e)) by (apply Z.pow_pos_nonneg; lia). assert (0 < m * 5 ^ (- e)) as Gw by (apply Z.mul_pos_pos; lia).
    set (w := m * 5 ^ (- e)) in *. replace K0 with (- e + (e + K0)) in EV at 2 by lia. rewrite (p10_split (- e)) in EV by lia.
    replace (w * 10 ^ (e + K0) * 10 ^ E) with (w * 10 ^ E * 10 ^ (e + K0)) in EV by ring. rewrite Z.mul_assoc in EV.
    apply Z.mul_cancel_r in EV; [|apply Z.pow_nonzero; lia]. destruct (Z_le_gt_dec E (- e)) as [C|C].
    - exists N, (- e - E). split; [lia|]. split; [lia|]. replace (- e) with (- e - E + E) in EV by lia.
      rewrite p10_split, Z.mul_assoc in EV by lia. apply Z.mul_cancel_r in EV; [assumption|apply Z.pow_nonzero; lia].
    - exists w, 0. split; [lia|]. split; [|ring]. split; [lia|]. apply Z.le_lt_trans with N; [|lia].
      replace E with (E + e + - e) in EV by lia. rewrite p10_split, Z.mul_assoc in EV by lia.
      apply Z.mul_cancel_r in EV; [|apply Z.pow_nonzero; lia]. rewrite <- EV. rewrite <- Z.mul_1_r at 1.
      apply Z.mul_le_mono_nonneg_l; [lia|]. pose proof (pow10_pos (E + e)). lia. }
  destruct (absorb5_exact b m (- e) e Hm ltac:(lia) ltac:(lia) Hk) as (N0 & s & Ea & Hs & HN0 & EN).
  destruct (rest_exact b P N0 (e + s) HP ltac:(lia) ltac:(lia)) as (d & Hd & Hb & Hx & Hz).
  exists N0, (- (e + s)), d. split; [lia|]. split; [lia|]. split.
  { rewrite Vof_neg, EN by lia. rewrite <- Z.mul_assoc, <- p10_split by lia. do 2 f_equal. lia. }
  split; [lia|]. split; [assumption|]. split; [assumption|]. cbv zeta in *. replace (K0 - - (e + s) + d) with (e + s + d + K0) by lia.
  unfold mid. rewrite neg_ok by (apply fits_i32; lia). cbn [bind]. rewrite Ea. cbn [bind].
  destruct fuel_S as [n Ef]. rewrite Ef, scale_up_done. cbn [bind]. exact Hz.
Qed.
Lemma shape_out b L P neg m e z : 0 <= z ->
  mid b P m e = Ret (Ok z) \/ (mid b P m e = Ret (Err ConvertError) /\ 2 ^ 128 <= z) -> shape b L P neg m e = outcome_of L neg z.
Proof.
  intros Hz0 Hz. unfold shape, outcome_of. pose proof (hi_127 L) as Hh. destruct Hz as [->|[-> Hz]]; unfold try_; cbn [bind].
  - rewrite try_from_pos by assumption. destruct (z <=? hi L) eqn:C; [|reflexivity]. destruct neg; [|reflexivity].
    unfold checked_neg, chk. rewrite fitsb_true; [reflexivity|]. pose proof (lty_hi L) as [E1 E2]. pose proof (lo_hi L). unfold fits. lia.
  - replace (z <=? hi L) with false by lia. reflexivity.
Qed.
(** In integers. *)
Lemma conv_exact b L P raw N E : valid b L P -> f64_finite raw -> 0 <= E -> 0 <= N < 2 ^ 128 ->
  0 < f64_units raw * 5 ^ K0 < 2 ^ 52 * 10 ^ K0 -> f64_units raw * 5 ^ K0 * 10 ^ E = N * 10 ^ K0 ->
  exists N0 E0 d, 0 <= E0 <= K0 /\ 0 < N0 < 2 ^ 128 /\ f64_units raw * 5 ^ K0 = N0 * 10 ^ (K0 - E0) /\
    0 <= d <= E0 /\ (d = E0 \/ N0 < 2 ^ 52 * 10 ^ d) /\ (d = 0 \/ 2 ^ 52 * 10 ^ (d - 1) <= N0) /\
    try_from_f64 b L P raw = outcome_of L (f64_sign raw) (c49 (c49 N0 (10 ^ d) * 10 ^ (K0 - E0 + d)) (10 ^ (K0 - P))).
Proof.
  intros HV F HE HN HB EV. pose proof (valid_prec_38 _ _ (proj2 HV)) as HP. assert (HK : K0 = 1074) by reflexivity.
  destruct (units_me raw F) as (_ & Hm & He & Hn). rewrite units_Vof in * by assumption.
  rewrite try_from_shape by assumption. set (m := mant raw) in *. set (e := expo raw) in *. clearbody m e.
  assert (0 < 10 ^ K0) as G0 by (apply pow10_pos; lia).
  assert (m <> 0) as Hm0 by (intros ->; unfold Vof in HB; lia). replace (m =? 0) with false by lia.
  assert (e < 0) as He0.
  { apply Z.lt_nge. intros C. rewrite Vof_pos in HB by lia. assert (m * 2 ^ e < 2 ^ 52) as K by (apply (Z.mul_lt_mono_pos_r (10 ^ K0)); lia).
    pose proof (pow2_pos_le e C). assert (2 ^ 52 * 1 <= m * 2 ^ e) by (apply Z.mul_le_mono_nonneg; lia). lia. }
  destruct (mid_exact b P m e N E ltac:(lia) ltac:(lia) ltac:(lia) HE HN EV) as (N0 & E0 & d & H1 & H2 & H3 & H4 & H5 & H6 & H7).
  exists N0, E0, d. do 6 (split; [assumption|]). apply shape_out; [|exact H7].
  apply c49_nonneg; [apply pow10_pos; lia|]. apply Z.mul_nonneg_nonneg; [|apply Z.pow_nonneg; lia]. apply c49_nonneg; [apply pow10_pos|]; lia.
Qed.
(** ** In decimals *)
Lemma c49_cuts n d q : 0 < d -> (q == Zq n / Zq d)%Q -> cuts q (c49 n d).
Proof.
  intros Hd E. pose proof (c49_spec n d Hd) as [K1 K2]. set (z := c49 n d) in *. clearbody z.
  assert (0 < Zq d)%Q as G by (unfold Zq; change 0%Q with (inject_Z 0); rewrite <- Zlt_Qlt; assumption).
  assert (q * Zq d == Zq n)%Q as Em by (rewrite E; field; intros Z0; rewrite Z0 in G; discriminate).
  split; [apply (Qmult_lt_r _ _ (Zq d) G)|apply (Qmult_le_r _ _ (Zq d) G)]; rewrite Em; unfold Qminus, Zq, inject_Z; unfold Qlt, Qle, Qmult, Qplus, Qopp; cbn [Qnum Qden]; lia.
Qed.
Lemma q10_add x y : (q10 (x + y) == q10 x * q10 y)%Q.
Proof. unfold q10. apply Qpower_plus. discriminate. Qed.
Lemma cuts_eq q q' z : (q == q')%Q -> cuts q z -> cuts q' z.
Proof. intros E [A B]. split; rewrite <- E; assumption. Qed.
Lemma grow N B : 0 < N < B -> exists j, 0 <= j /\ N * 10 ^ j < B <= N * 10 ^ (j + 1).
Proof.
  intros H. remember (Z.to_nat (B - N)) as n eqn:En. revert N H En. induction n as [n IH] using lt_wf_ind. intros N H En.
  destruct (Z_le_gt_dec B (N * 10)) as [C|C].
  - exists 0. change (10 ^ 0) with 1. change (10 ^ (0 + 1)) with 10. lia.
  - destruct (IH (Z.to_nat (B - N * 10)) ltac:(lia) (N * 10) ltac:(lia) eq_refl) as (j & Hj & K). exists (j + 1).
    split; [lia|]. replace (10 ^ (j + 1 + 1)) with (10 * 10 ^ (j + 1)) by (rewrite <- Z.pow_succ_r by lia; f_equal; lia).
    replace (10 ^ (j + 1)) with (10 * 10 ^ j) in * by (rewrite <- Z.pow_succ_r by lia; f_equal; lia). lia.
Qed.
Lemma two_steps : forall b L P raw N E, valid b L P -> f64_finite raw -> 0 <= E -> 0 < N < 2 ^ 128 ->
  (Qabs (f64_val raw) == dec E N)%Q -> (Qabs (f64_val raw) < Zq (2 ^ 52))%Q ->
  exists k y z, 0 <= k /\ (Qabs (f64_val raw) * q10 k < Zq (2 ^ 52))%Q /\ (Zq (2 ^ 52) <= Qabs (f64_val raw) * q10 (k + 1))%Q /\
    cuts (Qabs (f64_val raw) * q10 k) y /\ cuts (dec k y * q10 P) z /\ 0 <= z /\
    try_from_f64 b L P raw = Ret (if z <=? hi L then Ok (if f64_sign raw then - z else z) else Err ConvertError).
Proof.
  intros b L P raw N E HV F HE HN EQ HB. pose proof (valid_prec_38 _ _ (proj2 HV)) as HP. assert (HK : K0 = 1074) by reflexivity.
  pose proof (abs_T raw F) as ET. set (q := Qabs (f64_val raw)) in *. set (V := f64_units raw * 5 ^ K0) in *.
  assert (G0 : 0 < 10 ^ K0) by (apply pow10_pos; lia).
  assert (GE : 0 < 10 ^ E) by (apply pow10_pos; lia).
  assert (V * 10 ^ E = N * 10 ^ K0) as EV.
  { assert (Zq (V * 10 ^ E) == Zq (N * 10 ^ K0))%Q as K.
    { unfold Zq in *. rewrite !inject_Z_mult, <- ET, EQ. unfold dec, T. rewrite RoundFacts.q10_neg by lia. unfold Zq. field.
      change 0%Q with (inject_Z 0). rewrite inject_Z_injective. lia. }
    unfold Zq in K. rewrite inject_Z_injective in K. exact K. }
  assert (0 < V < 2 ^ 52 * 10 ^ K0) as HVb.
  { split.
    - apply (Z.mul_lt_mono_pos_r (10 ^ E)); [assumption|]. rewrite EV. change (0 * 10 ^ E) with 0. apply Z.mul_pos_pos; lia.
    - apply (Qmult_lt_r _ _ (Zq T) T_pos) in HB. rewrite ET in HB. unfold Zq in HB. rewrite <- inject_Z_mult, <- Zlt_Qlt in HB. exact HB. }
  destruct (conv_exact b L P raw N E HV F HE ltac:(lia) HVb EV) as (N0 & E0 & d & H1 & H2 & H3 & H4 & H5 & H6 & H7).
  fold V in H3.
  assert (q == dec E0 N0)%Q as EQ0.
  { apply (Qmult_inj_r _ _ (Zq T)); [intros Z0; pose proof T_pos as TP; rewrite Z0 in TP; discriminate|].
    rewrite ET, H3. unfold dec, T. rewrite RoundFacts.q10_neg by lia. replace K0 with (E0 + (K0 - E0)) at 2 by lia.
    rewrite p10_split by lia. unfold Zq. rewrite !inject_Z_mult. field. change 0%Q with (inject_Z 0). rewrite inject_Z_injective.
    pose proof (pow10_pos E0). lia. }
  set (y := c49 N0 (10 ^ d)) in *. set (z := c49 (y * 10 ^ (K0 - E0 + d)) (10 ^ (K0 - P))) in *.
  assert (0 <= z) as Hz0.
  { apply c49_nonneg; [apply pow10_pos; lia|]. apply Z.mul_nonneg_nonneg; [|apply Z.pow_nonneg; lia]. apply c49_nonneg; [apply pow10_pos|]; lia. }
  assert (N0 < 2 ^ 52 * 10 ^ d) as H8.
  { destruct H5 as [->|H5]; [|exact H5]. apply (Z.mul_lt_mono_pos_r (10 ^ (K0 - E0))); [apply pow10_pos; lia|].
    rewrite <- H3, <- Z.mul_assoc, <- p10_split by lia. replace (E0 + (K0 - E0)) with K0 by lia. apply HVb. }
  pose proof (pow10_pos d ltac:(lia)) as Gd.
  assert (Qk : forall k, 0 <= k -> (q * q10 (E0 + k) == Zq (N0 * 10 ^ k))%Q).
  { intros k Hk. rewrite EQ0, q10_add. unfold dec, Zq. rewrite inject_Z_mult. rewrite (RoundFacts.q10_pos k), (RoundFacts.q10_pos E0), RoundFacts.q10_neg by lia.
    unfold Zq. field. change 0%Q with (inject_Z 0). rewrite inject_Z_injective. pose proof (pow10_pos E0). lia. }
  assert (Qd : forall c, 0 <= c <= E0 -> (q * q10 (E0 - c) == Zq N0 / Zq (10 ^ c))%Q).
  { intros c Hc. replace (E0 - c) with (E0 + (- c)) by lia. rewrite q10_add, Qmult_assoc. specialize (Qk 0 ltac:(lia)).
    rewrite Z.add_0_r, Z.mul_1_r in Qk. rewrite Qk, RoundFacts.q10_neg by lia. field. change 0%Q with (inject_Z 0). unfold Zq. rewrite inject_Z_injective.
    pose proof (pow10_pos c). lia. }
  assert (cuts (dec (E0 - d) y * q10 P) z) as Cz.
  { apply c49_cuts; [apply pow10_pos; lia|]. unfold dec. rewrite <- Qmult_assoc, <- q10_add.
    replace (- (E0 - d) + P) with ((K0 - E0 + d) + - (K0 - P)) by lia. rewrite q10_add, RoundFacts.q10_pos, RoundFacts.q10_neg by lia.
    unfold Zq. rewrite inject_Z_mult. field. change 0%Q with (inject_Z 0). rewrite inject_Z_injective. pose proof (pow10_pos (K0 - P)). lia. }
  destruct (Z.eq_dec d 0) as [D0|D0].
  - subst d. change (10 ^ 0) with 1 in *. destruct (grow N0 (2 ^ 52) ltac:(lia)) as (j & Hj & [G1 G2]).
    exists (E0 + j), (N0 * 10 ^ j), z. split; [lia|]. split; [rewrite Qk by lia; unfold Zq; rewrite <- Zlt_Qlt; exact G1|].
    split; [replace (E0 + j + 1) with (E0 + (j + 1)) by lia; rewrite Qk by lia; unfold Zq; rewrite <- Zle_Qle; exact G2|].
    split; [|split; [|split; [exact Hz0|exact H7]]].
    + rewrite <- (c49_1 (N0 * 10 ^ j)). apply c49_cuts; [lia|]. rewrite Qk by lia. change (Zq 1) with 1%Q. field.
    + revert Cz. apply cuts_eq. unfold y. rewrite c49_1. unfold dec. rewrite Z.sub_0_r, Z.opp_add_distr, q10_add, (RoundFacts.q10_neg j) by lia.
      unfold Zq. rewrite inject_Z_mult. field. change 0%Q with (inject_Z 0). rewrite inject_Z_injective. pose proof (pow10_pos j). lia.
  - exists (E0 - d), y, z. split; [lia|]. pose proof (pow10_pos (d - 1) ltac:(lia)) as Gd1.
    assert (0 < Zq (10 ^ d))%Q as Gq by (unfold Zq; change 0%Q with (inject_Z 0); rewrite <- Zlt_Qlt; assumption).
    assert (0 < Zq (10 ^ (d - 1)))%Q as Gq1 by (unfold Zq; change 0%Q with (inject_Z 0); rewrite <- Zlt_Qlt; assumption).
    split; [|split; [|split; [|split; [exact Cz|split; [exact Hz0|exact H7]]]]].
    + rewrite Qd by lia. apply Qlt_shift_div_r; [exact Gq|]. unfold Zq. rewrite <- inject_Z_mult, <- Zlt_Qlt. exact H8.
    + replace (E0 - d + 1) with (E0 - (d - 1)) by lia. rewrite Qd by lia. apply Qle_shift_div_l; [exact Gq1|].
      unfold Zq. rewrite <- inject_Z_mult, <- Zle_Qle. destruct H6 as [H6|H6]; [contradiction|exact H6].
    + apply c49_cuts; [assumption|]. apply Qd. lia.
Qed.
(** The rounding leaves one answer. *)
Lemma cuts_unique : forall q z z', cuts q z -> cuts q z' -> z = z'.
Proof.
  intros [n d] z z' [A B] [A' B']. unfold Qminus, Zq, inject_Z in *. unfold Qlt, Qle, Qplus, Qopp in *. cbn [Qnum Qden] in *. nia.
Qed.
