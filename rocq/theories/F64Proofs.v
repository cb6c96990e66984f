(** * F64Proofs: properties of the conversion from f64. *)
From Coq Require Import SpecFloat QArith Qabs Qpower Lqa.
From Verif Require Import Base PowerTable ConstFn Sqrt Promo Ops Fixed Float Spec SpecF64 BaseFacts SimpleProofs FloatFacts DivWord F64Facts F64Rel.
From Verif Require Import Fixed.
Open Scope Z_scope.
Ltac Zify.zify_post_hook ::= idtac.

(** ** Fields *)
Definition mant (raw : Z) : Z := if f64_exponent raw =? 0 then f64_fraction raw else 2 ^ 52 + f64_fraction raw.
Definition expo (raw : Z) : Z := if f64_exponent raw =? 0 then -1074 else f64_exponent raw - 1075.
Lemma fields raw : f64_finite raw -> 0 <= f64_exponent raw < 2047 /\ 0 <= f64_fraction raw < 2 ^ 52.
Proof.
  intros [H1 H2]. unfold f64_exponent, f64_fraction in *. pose proof (Z.mod_pos_bound (raw / 2 ^ 52) (2 ^ 11) ltac:(lia)).
  pose proof (Z.mod_pos_bound raw (2 ^ 52) ltac:(lia)). lia.
Qed.
Lemma units_me raw : f64_finite raw -> f64_units raw = mant raw * 2 ^ (expo raw + 1074) /\
  0 <= mant raw < 2 ^ 53 /\ -1074 <= expo raw <= 971 /\ (expo raw = -1074 \/ 2 ^ 52 <= mant raw).
Proof.
  intros H. pose proof (fields raw H). unfold f64_units, mant, expo. destruct (f64_exponent raw =? 0) eqn:C.
  - change (-1074 + 1074) with 0. change (2 ^ 0) with 1. lia.
  - apply Z.eqb_neq in C. replace (f64_exponent raw - 1075 + 1074) with (f64_exponent raw - 1) by lia. lia.
Qed.
Lemma units_Vof raw : f64_finite raw -> f64_units raw * 5 ^ K0 = Vof (mant raw) (expo raw).
Proof. intros H. destruct (units_me raw H) as [-> _]. reflexivity. Qed.
Lemma units_nonneg raw : f64_finite raw -> 0 <= f64_units raw.
Proof.
  intros H. destruct (units_me raw H) as (-> & H1 & H2 & _). apply Z.mul_nonneg_nonneg; [lia|]. apply Z.pow_nonneg. lia.
Qed.

(** Two different floats are at least [2^-53] apart, relatively; equal ones have equal fields. *)
Lemma gap m e m' e' : 0 <= m < 2 ^ 53 -> 0 <= m' < 2 ^ 53 -> 0 <= e -> 0 <= e' -> e' = 0 \/ 2 ^ 52 <= m' -> e = 0 \/ 2 ^ 52 <= m ->
  m * 2 ^ e <= m' * 2 ^ e' -> (m = m' /\ e = e') \/ 2 ^ 53 * (m * 2 ^ e) <= (2 ^ 53 - 1) * (m' * 2 ^ e').
Proof.
  intros Hm Hm' He He' Hn' Hn H. destruct (Z_lt_ge_dec e e') as [C|C].
  - right. assert (exists w, 2 ^ e' = 2 ^ e * (2 * w) /\ 1 <= w) as (w & -> & Hw).
    { exists (2 ^ (e' - e - 1)). split; [|apply pow2_pos_le; lia]. rewrite <- Z.pow_succ_r, <- Z.pow_add_r by lia. f_equal. lia. }
    pose proof (pow2_pos_le e He) as G. set (p := 2 ^ e) in *. clearbody p.
    replace (2 ^ 53 * (m * p)) with (2 ^ 53 * m * p) by ring.
    replace ((2 ^ 53 - 1) * (m' * (p * (2 * w)))) with ((2 ^ 53 - 1) * (m' * (2 * w)) * p) by ring.
    apply Z.mul_le_mono_nonneg_r; [lia|]. assert (2 ^ 52 * (2 * 1) <= m' * (2 * w)) by (apply Z.mul_le_mono_nonneg; lia). lia.
  - assert (exists w, 2 ^ e = w * 2 ^ e' /\ (w = 1 /\ e = e' \/ 2 <= w)) as (w & Ew & Hw).
    { exists (2 ^ (e - e')). split; [rewrite <- Z.pow_add_r by lia; f_equal; lia|]. destruct (Z.eq_dec e e') as [->|Hne].
      - left. rewrite Z.sub_diag. now split.
      - right. change 2 with (2 ^ 1) at 1. apply Z.pow_le_mono_r; lia. }
    rewrite Ew in *. pose proof (pow2_pos_le e' He') as G. set (p := 2 ^ e') in *. clearbody p.
    rewrite Z.mul_assoc in H |- *. apply Z.mul_le_mono_pos_r in H; [|lia].
    destruct (Z.eq_dec (m * w) m') as [E|E].
    + left. destruct Hw as [[-> ->]|Hw]; [lia|]. destruct Hn as [->|Hn]; [exfalso; lia|].
      assert (2 ^ 52 * 2 <= m * w) by (apply Z.mul_le_mono_nonneg; lia). lia.
    + right. rewrite !Z.mul_assoc with (p := p). apply Z.mul_le_mono_nonneg_r; lia.
Qed.

(** ** The result in terms of the fields *)
Definition shape (b : build) (L : layout) (P : Z) (neg : bool) (m e : Z) : outcome (result Z cerr) :=
  bits <-? mid b P m e ;;
  match try_from (lty L) bits with
  | None => Ret (Err ConvertError)
  | Some bits => if neg then Ret (ok_or (checked_neg (lty L) bits) ConvertError) else Ret (Ok bits)
  end.
Lemma land_exp raw : Z.land (raw / 2 ^ 52) 2047 = f64_exponent raw.
Proof. exact (Z.land_ones (raw / 2 ^ 52) 11 ltac:(lia)). Qed.
Lemma land_frac raw : Z.land raw 4503599627370495 = f64_fraction raw.
Proof. exact (Z.land_ones raw 52 ltac:(lia)). Qed.
Lemma sign_bit raw : is_f64 raw -> (raw / 2 ^ 63 =? 0) = negb (f64_sign raw).
Proof.
  intros H. unfold f64_sign. unfold is_f64 in H. destruct (2 ^ 63 <=? raw) eqn:C; cbn [negb].
  - apply Z.leb_le in C. apply Z.eqb_neq. assert (1 <= raw / 2 ^ 63) by (apply Z.div_le_lower_bound; lia). lia.
  - apply Z.leb_gt in C. rewrite Z.div_small by lia. reflexivity.
Qed.
Lemma try_from_shape b L P raw : f64_finite raw ->
  try_from_f64 b L P raw = if mant raw =? 0 then Ret (Ok 0) else shape b L P (f64_sign raw) (mant raw) (expo raw).
Proof.
  intros H. pose proof (fields raw H) as [H1 H2]. unfold try_from_f64. rewrite land_exp, land_frac.
  replace (f64_exponent raw =? 2047) with false by lia. rewrite (sign_bit raw (proj1 H)).
  cbv zeta. unfold mant, expo. destruct (f64_exponent raw =? 0) eqn:C; cbn [andb].
  - destruct (f64_fraction raw =? 0) eqn:C0; [reflexivity|]. cbn [bind]. rewrite sub_ok by (apply fits_i32; lia). cbn [bind].
    change (-1022 - 52) with (-1074). unfold shape, mid, rest. destruct (neg b I32 (-1074)) as [ne| | |]; try reflexivity. cbn [bind].
    destruct (absorb5 b (f64_fraction raw) ne (-1074)) as [[[N e5] e10]| | |]; try reflexivity. cbn [bind].
    destruct (scale_up b float_fuel N e5 e10) as [[[N' e5'] e10']| | |]; try reflexivity. cbn [bind].
    destruct (cut_digits b N' e10') as [[N1 E1]| | |]; try reflexivity. cbn [bind try_].
    destruct (rescale b P N1 E1) as [[r|err]| | |]; try reflexivity. cbn [try_].
    destruct (f64_sign raw); reflexivity.
  - apply Z.eqb_neq in C. replace (2 ^ 52 + f64_fraction raw =? 0) with false by lia.
    rewrite sub_ok by (apply fits_i32; lia). cbn [bind]. rewrite sub_ok by (apply fits_i32; lia). cbn [bind].
    assert (Z.lor (f64_fraction raw) 4503599627370496 = 2 ^ 52 + f64_fraction raw) as ->.
    { rewrite Z.lor_comm. exact (lor_disjoint 1 (f64_fraction raw) 52 ltac:(lia) H2). }
    replace (f64_exponent raw - 1023 - 52) with (f64_exponent raw - 1075) by lia.
    unfold shape, mid, rest. destruct (neg b I32 (f64_exponent raw - 1075)) as [ne| | |]; try reflexivity. cbn [bind].
    destruct (absorb5 b (2 ^ 52 + f64_fraction raw) ne (f64_exponent raw - 1075)) as [[[N e5] e10]| | |]; try reflexivity. cbn [bind].
    destruct (scale_up b float_fuel N e5 e10) as [[[N' e5'] e10']| | |]; try reflexivity. cbn [bind].
    destruct (cut_digits b N' e10') as [[N1 E1]| | |]; try reflexivity. cbn [bind try_].
    destruct (rescale b P N1 E1) as [[r|err]| | |]; try reflexivity. cbn [try_].
    destruct (f64_sign raw); reflexivity.
Qed.

Definition outcome_of (L : layout) (neg : bool) (z : Z) : outcome (result Z cerr) :=
  Ret (if z <=? hi L then Ok (if neg then - z else z) else Err ConvertError).

Lemma f64rel_0 P : 0 <= P <= 38 -> f64rel P 0 0.
Proof.
  intros HP. assert (HK : K0 = 1074) by reflexivity. exists 0, K0, 0. rewrite !Z.mul_0_r. rewrite Z.mul_0_l.
  assert (forall d, 0 < d -> 0 = c49 0 d) as H0 by (intros d Hd; symmetry; exact (c49_exact 0 d Hd)).
  split; [lia|]. split; [lia|]. split; [lia|]. split; [split; reflexivity|]. split; [apply H0, pow10_pos; lia|].
  split; [now left|]. split; [now left|]. apply H0, pow10_pos. lia.
Qed.
Lemma f64rel_nonneg P V z : 0 <= P <= 38 -> f64rel P V z -> 0 <= z.
Proof.
  intros HP (a & h & y & Ha & Hh & _ & _ & -> & _ & _ & ->). assert (HK : K0 = 1074) by reflexivity.
  apply c49_nonneg; [apply pow10_pos; lia|]. apply Z.mul_nonneg_nonneg; [|apply Z.pow_nonneg; lia].
  apply c49_nonneg; [apply pow10_pos; lia|assumption].
Qed.
Lemma lty_hi L : imax (lty L) = hi L /\ imin (lty L) = lo L.
Proof. destruct L; split; reflexivity. Qed.
Lemma hi_127 L : 0 < hi L < 2 ^ 127.
Proof. destruct L; split; reflexivity. Qed.
Lemma try_from_pos L z : 0 <= z -> try_from (lty L) z = if z <=? hi L then Some z else None.
Proof.
  intros H. pose proof (lty_hi L) as [E1 E2]. pose proof (lo_hi L). pose proof (hi_pos L).
  unfold try_from, chk. destruct (z <=? hi L) eqn:C.
  - rewrite fitsb_true; [reflexivity|]. unfold fits. lia.
  - destruct (fitsb (lty L) z) eqn:Cf; [|reflexivity]. apply fitsb_fits in Cf. unfold fits in Cf. lia.
Qed.

Lemma mag_spec b P m e : 0 <= P <= 38 -> 0 <= m < 2 ^ 53 -> -1074 <= e <= 971 ->
  exists z, 0 <= z /\ f64rel P (Vof m e) z /\
    forall L raw, f64_finite raw -> mant raw = m -> expo raw = e -> try_from_f64 b L P raw = outcome_of L (f64_sign raw) z.
Proof.
  intros HP Hm He. destruct (Z.eq_dec m 0) as [->|Hm0].
  - exists 0. split; [lia|]. split; [apply f64rel_0; assumption|]. intros L raw H Em Ee.
    rewrite try_from_shape by assumption. rewrite Em. cbn [Z.eqb]. unfold outcome_of. pose proof (hi_127 L).
    replace (0 <=? hi L) with true by lia. destruct (f64_sign raw); reflexivity.
  - destruct (mid_spec b P m e HP ltac:(lia) He) as (z & Hr & Hz). exists z.
    assert (0 <= z) as Hz0 by (exact (f64rel_nonneg P _ z HP Hr)). split; [assumption|]. split; [exact Hr|].
    intros L raw H Em Ee. rewrite try_from_shape by assumption. rewrite Em, Ee. replace (m =? 0) with false by lia.
    unfold shape, outcome_of. pose proof (hi_127 L) as Hh. destruct Hz as [->|[Hz [->|(w & -> & Hw)]]]; unfold try_; cbn [bind].
    + rewrite try_from_pos by assumption. destruct (z <=? hi L) eqn:C; [|reflexivity]. destruct (f64_sign raw); [|reflexivity].
      unfold checked_neg, chk. rewrite fitsb_true; [reflexivity|]. pose proof (lty_hi L) as [E1 E2]. pose proof (lo_hi L). unfold fits. lia.
    + replace (z <=? hi L) with false by lia. reflexivity.
    + replace (z <=? hi L) with false by lia. rewrite try_from_pos by lia. replace (w <=? hi L) with false by lia. reflexivity.
Qed.
Lemma conv b L P raw : valid b L P -> f64_finite raw ->
  exists z, 0 <= z /\ f64rel P (f64_units raw * 5 ^ K0) z /\ try_from_f64 b L P raw = outcome_of L (f64_sign raw) z.
Proof.
  intros HV H. pose proof (valid_prec_38 _ _ (proj2 HV)). destruct (units_me raw H) as (_ & H1 & H2 & _).
  destruct (mag_spec b P (mant raw) (expo raw) ltac:(lia) H1 H2) as (z & Hz & Hr & Ht). exists z.
  split; [assumption|]. rewrite units_Vof by assumption. split; [assumption|]. now apply Ht.
Qed.

(** ** Consequences in integers *)
Lemma K0_val : K0 = 1074. Proof. reflexivity. Qed.
Lemma K0_P P : 0 <= P <= 38 -> 0 < 10 ^ (K0 - P).
Proof. intros H. apply pow10_pos. rewrite K0_val. lia. Qed.
Lemma c49_multiple y h h' : 0 <= h' <= h -> c49 (y * 10 ^ h) (10 ^ h') * 10 ^ h' = y * 10 ^ h.
Proof.
  intros H. replace h with (h - h' + h') by lia. rewrite p10_split, Z.mul_assoc by lia.
  rewrite c49_exact by (apply pow10_pos; lia). reflexivity.
Qed.
Lemma c49_two52 : c49 (2 ^ 52) 10 = 450359962737050. Proof. reflexivity. Qed.

Lemma cut_mono a h a' h' : 0 <= h <= K0 -> 0 <= h' <= K0 -> a <= a' ->
  h = K0 \/ a < 2 ^ 52 * 10 ^ h -> a = c49 a (10 ^ h) * 10 ^ h \/ 1 <= h /\ 2 ^ 52 * 10 ^ (h - 1) <= a ->
  h' = K0 \/ a' < 2 ^ 52 * 10 ^ h' -> a' = c49 a' (10 ^ h') * 10 ^ h' \/ 1 <= h' /\ 2 ^ 52 * 10 ^ (h' - 1) <= a' ->
  c49 a (10 ^ h) * 10 ^ h <= c49 a' (10 ^ h') * 10 ^ h'.
Proof.
  intros Hh Hh' Ha B E B' E'. pose proof (pow10_pos h ltac:(lia)) as G. pose proof (pow10_pos h' ltac:(lia)) as G'.
  destruct (Z.lt_trichotomy h h') as [C|[->|C]].
  - destruct E' as [E'|[H1 E']].
    + rewrite E' in Ha |- * at 1. rewrite <- E'. apply Z.le_trans with (c49 a' (10 ^ h) * 10 ^ h).
      * apply Z.mul_le_mono_nonneg_r; [lia|]. apply c49_mono; [assumption|]. rewrite E'. exact Ha.
      * rewrite E' at 1. rewrite c49_multiple by lia. rewrite <- E'. lia.
    + destruct B as [B|B]; [lia|]. pose proof (pow10_pos (h' - 1) ltac:(lia)) as G1.
      assert (E10 : 10 ^ h' = 10 * 10 ^ (h' - 1)) by (rewrite <- Z.pow_succ_r by lia; f_equal; lia).
      assert (10 ^ h <= 10 ^ (h' - 1)) as G2 by (apply Z.pow_le_mono_r; lia).
      assert (c49 a (10 ^ h) <= 2 ^ 52) as Y.
      { rewrite <- (c49_exact (2 ^ 52) (10 ^ h)) by assumption. apply c49_mono; lia. }
      assert (450359962737050 <= c49 a' (10 ^ h')) as Y'.
      { rewrite <- c49_two52, E10. rewrite <- (c49_scale (2 ^ 52) 10 (10 ^ (h' - 1))) by lia. apply c49_mono; lia. }
      rewrite E10 in Y' |- *.
      apply Z.le_trans with (2 ^ 52 * 10 ^ h); [apply Z.mul_le_mono_nonneg_r; lia|].
      apply Z.le_trans with (2 ^ 52 * 10 ^ (h' - 1)); [apply Z.mul_le_mono_nonneg_l; lia|].
      rewrite Z.mul_assoc. apply Z.mul_le_mono_nonneg_r; lia.
  - apply Z.mul_le_mono_nonneg_r; [lia|]. apply c49_mono; lia.
  - destruct E as [E|[H1 E]].
    + rewrite <- E. rewrite E at 1. rewrite <- (c49_multiple (c49 a (10 ^ h)) h h') by lia.
      apply Z.mul_le_mono_nonneg_r; [lia|]. apply c49_mono; [assumption|]. rewrite <- E. assumption.
    + exfalso. destruct B' as [B'|B']; [lia|].
      assert (10 ^ h' <= 10 ^ (h - 1)) as G2 by (apply Z.pow_le_mono_r; lia). lia.
Qed.
Lemma f64rel_mono P V z V' z' : 0 <= P <= 38 -> 0 <= V -> 0 <= V' -> f64rel P V z -> f64rel P V' z' ->
  2 ^ 53 * V <= (2 ^ 53 - 1) * V' -> z <= z'.
Proof.
  intros HP HV HV' (a & h & y & Ha & Hh & [_ A1] & _ & -> & B & E & ->) (a' & h' & y' & Ha' & Hh' & [A2 _] & _ & -> & B' & E' & ->) HG.
  apply c49_mono; [apply K0_P; assumption|]. apply cut_mono; try assumption.
  assert (a <= V) as A3 by (apply (Z.mul_le_mono_pos_l _ _ Kd); [reflexivity|exact A1]).
  apply (Z.mul_le_mono_pos_l _ _ Kd); [reflexivity|]. apply Z.le_trans with ((Kd - 1074) * V'); [|exact A2].
  clear - A3 HG HV HV'. unfold Kd. lia.
Qed.

(** The error, in units of [10^-K0]. *)
Lemma f64rel_error P V z : 0 <= P <= 38 -> 0 <= V -> f64rel P V z ->
  9 * 2 ^ 49 * Z.abs (z * 10 ^ (K0 - P) - V) <= 5 * 2 ^ 49 * 10 ^ (K0 - P) + 9 * V.
Proof.
  intros HP HV (a & h & y & Ha & Hh & [A1 A2] & _ & Ey & B & E & ->).
  pose proof (K0_P P HP) as GS. set (S := 10 ^ (K0 - P)) in *. pose proof (c49_spec (y * 10 ^ h) S GS) as C.
  set (z := c49 (y * 10 ^ h) S) in *. clearbody z S.
  assert (9 * 2 ^ 52 * Z.abs (y * 10 ^ h - a) <= 50 * a) as D.
  { destruct E as [E|[H1 E]]; [rewrite <- E, Z.sub_diag; cbn [Z.abs]; lia|].
    pose proof (pow10_pos h ltac:(lia)) as G. pose proof (c49_spec a (10 ^ h) G) as K. rewrite <- Ey in K.
    assert (E10 : 10 ^ h = 10 * 10 ^ (h - 1)) by (rewrite <- Z.pow_succ_r by lia; f_equal; lia).
    rewrite E10 in *. set (p := 10 ^ (h - 1)) in *. clearbody p. clear - K E. lia. }
  set (Y := y * 10 ^ h) in *. clearbody Y. clear - C D A1 A2 HV Ha. unfold Kd in *.
  replace (9 * z * S) with (9 * (z * S)) in C by ring. set (w := z * S) in *. clearbody w. lia.
Qed.
Lemma f64rel_exact P k z : 0 <= P <= 38 -> f64rel P (k * 10 ^ K0) z -> z = k * 10 ^ P.
Proof.
  intros HP (a & h & y & Ha & Hh & _ & Hi & -> & _ & _ & ->). destruct (Hi k eq_refl) as [-> ->].
  assert (HK : K0 = 1074) by reflexivity. rewrite c49_exact by (apply pow10_pos; lia).
  replace K0 with (P + (K0 - P)) at 1 by lia. rewrite p10_split, Z.mul_assoc by lia. apply c49_exact. apply K0_P. assumption.
Qed.
(** Close enough to a decimal of at most fifteen digits, the result is that decimal. *)
Lemma f64rel_near P V z r : 0 <= P <= 38 -> 0 <= V -> 0 <= r <= 10 ^ 15 -> f64rel P V z ->
  2 ^ 51 * Z.abs (V - r * 10 ^ (K0 - P)) <= r * 10 ^ (K0 - P) -> z = r.
Proof.
  intros HP HV Hr (a & h & y & Ha & Hh & [A1 A2] & _ & Ey & B & E & ->) HN. assert (HK : K0 = 1074) by reflexivity.
  pose proof (K0_P P HP) as GS. symmetry. apply c49_unique; [assumption|].
  pose proof (pow10_pos h ltac:(lia)) as Gh. pose proof (c49_spec a (10 ^ h) Gh) as K. rewrite <- Ey in K.
  destruct (Z.lt_trichotomy h (K0 - P)) as [C|[->|C]].
  - assert (10 * 10 ^ h <= 10 ^ (K0 - P)) as G by (rewrite <- Z.pow_succ_r by lia; apply Z.pow_le_mono_r; lia).
    destruct B as [B|B]; [lia|]. set (S := 10 ^ (K0 - P)) in *. set (p := 10 ^ h) in *. clearbody p S.
    clear - K HN B A1 A2 G Hr Ha HV GS Gh. unfold Kd in *. replace (9 * y * p) with (9 * (y * p)) in K by ring.
    replace (9 * r * S) with (9 * (r * S)) by ring. set (Y := y * p) in *. set (R := r * S) in *. clearbody Y R. lia.
  - assert (r * 10 ^ (K0 - P) <= 10 ^ 15 * 10 ^ (K0 - P)) as HR by (apply Z.mul_le_mono_nonneg_r; lia).
    set (S := 10 ^ (K0 - P)) in *. assert (r = y) as ->.
    { rewrite Ey. apply c49_unique; [assumption|]. clearbody S. clear - HN HR A1 A2 HV Ha GS. unfold Kd in *.
      replace (9 * r * S) with (9 * (r * S)) by ring. set (R := r * S) in *. clearbody R. lia. }
    replace (9 * (y * S)) with (9 * y * S) by ring. lia.
  - assert (a = y * 10 ^ h) as Ea.
    { destruct E as [E|[H1 E]]; [assumption|exfalso].
      assert (10 ^ (K0 - P) <= 10 ^ (h - 1)) as G by (apply Z.pow_le_mono_r; lia).
      assert (r * 10 ^ (K0 - P) <= 10 ^ 15 * 10 ^ (K0 - P)) as HR by (apply Z.mul_le_mono_nonneg_r; lia).
      set (S := 10 ^ (K0 - P)) in *. set (R := r * S) in *. set (p := 10 ^ (h - 1)) in *. clearbody S p R. clear - G HR HN E A1 A2 HV Ha GS. unfold Kd in *. lia. }
    rewrite <- Ea. assert (r * 10 ^ (K0 - P) <= 10 ^ 15 * 10 ^ (K0 - P)) as HR by (apply Z.mul_le_mono_nonneg_r; lia).
    set (S := 10 ^ (K0 - P)) in *. clearbody S. clear - HN HR A1 A2 HV Ha GS. unfold Kd in *.
    replace (9 * r * S) with (9 * (r * S)) by ring. set (R := r * S) in *. clearbody R. lia.
Qed.

(** ** Back to decimals *)
Definition sval (raw : Z) : Z := if f64_sign raw then - f64_units raw else f64_units raw.
Definition T : Z := 10 ^ K0.
Lemma T_pos : (0 < Zq T)%Q. Proof. reflexivity. Qed.
Lemma two_T : (Qpower (2 # 1) (-1074) * Zq T == Zq (5 ^ K0))%Q.
Proof. apply Qeq_bool_iff. vm_compute. reflexivity. Qed.
Lemma val_T raw : (f64_val raw * Zq T == Zq (sval raw * 5 ^ K0))%Q.
Proof. unfold f64_val. fold (sval raw). rewrite <- Qmult_assoc, two_T. unfold Zq. now rewrite inject_Z_mult. Qed.
Lemma q10_T P : 0 <= P <= 38 -> (q10 (- P) * Zq T == Zq (10 ^ (K0 - P)))%Q.
Proof.
  intros HP. pose proof (K0_val) as HK. rewrite RoundFacts.q10_neg by lia. unfold T. replace K0 with (P + (K0 - P)) at 1 by lia.
  rewrite p10_split by lia. unfold Zq. rewrite inject_Z_mult. field. change 0%Q with (inject_Z 0). rewrite inject_Z_injective.
  pose proof (pow10_pos P ltac:(lia)). lia.
Qed.
Lemma dec_T P x : 0 <= P <= 38 -> (dec P x * Zq T == Zq (x * 10 ^ (K0 - P)))%Q.
Proof. intros HP. unfold dec. rewrite <- Qmult_assoc, q10_T by assumption. unfold Zq. now rewrite inject_Z_mult. Qed.
Lemma sval_abs raw : f64_finite raw -> Z.abs (sval raw) = f64_units raw.
Proof. intros H. pose proof (units_nonneg raw H). unfold sval. destruct (f64_sign raw); lia. Qed.
Lemma abs_T raw : f64_finite raw -> (Qabs (f64_val raw) * Zq T == Zq (f64_units raw * 5 ^ K0))%Q.
Proof.
  intros H. rewrite <- (Qabs_pos (Zq T)) by (apply Qlt_le_weak, T_pos). rewrite <- Qabs_Qmult, val_T.
  unfold Zq, Qabs, inject_Z. rewrite Z.abs_mul, sval_abs by assumption. rewrite Z.abs_eq; [reflexivity|]. apply Z.pow_nonneg. lia.
Qed.
Lemma abs_diff_T P x raw : 0 <= P <= 38 -> (Qabs (dec P x - f64_val raw) * Zq T == Zq (Z.abs (x * 10 ^ (K0 - P) - sval raw * 5 ^ K0)))%Q.
Proof.
  intros HP. rewrite <- (Qabs_pos (Zq T)) at 1 by (apply Qlt_le_weak, T_pos). rewrite <- Qabs_Qmult.
  assert ((dec P x - f64_val raw) * Zq T == Zq (x * 10 ^ (K0 - P) - sval raw * 5 ^ K0))%Q as ->.
  { unfold Qminus. rewrite Qmult_plus_distr_l. setoid_replace (- f64_val raw * Zq T)%Q with (- (f64_val raw * Zq T))%Q by ring.
    rewrite dec_T, val_T by assumption. unfold Zq. rewrite <- inject_Z_opp, <- inject_Z_plus. reflexivity. }
  reflexivity.
Qed.
Lemma five_pos : 0 < 5 ^ K0.
Proof. apply Z.pow_pos_nonneg; rewrite ?K0_val; lia. Qed.
Lemma V_nonneg raw : f64_finite raw -> 0 <= f64_units raw * 5 ^ K0.
Proof. intros H. pose proof (units_nonneg raw H). pose proof five_pos. apply Z.mul_nonneg_nonneg; lia. Qed.

(** ** C32 *)
Lemma conv_nonfinite b L P raw : f64_exponent raw = 2047 -> try_from_f64 b L P raw = Ret (Err ConvertError).
Proof. intros H. unfold try_from_f64. rewrite land_exp, H. reflexivity. Qed.
Lemma conv_total b L P raw : valid b L P -> is_f64 raw ->
  try_from_f64 b L P raw = Ret (Err ConvertError) \/
  exists x, try_from_f64 b L P raw = Ret (Ok x) /\ - hi L <= x <= hi L /\ (if f64_sign raw then x <= 0 else 0 <= x).
Proof.
  intros HV H. destruct (Z.eq_dec (f64_exponent raw) 2047) as [E|E]; [left; now apply conv_nonfinite|].
  destruct (conv b L P raw HV (conj H E)) as (z & Hz & _ & ->). unfold outcome_of.
  destruct (z <=? hi L) eqn:C; [right|now left]. apply Z.leb_le in C.
  exists (if f64_sign raw then - z else z). split; [reflexivity|]. destruct (f64_sign raw); lia.
Qed.
Definition neg_res (o : outcome (result Z cerr)) : outcome (result Z cerr) :=
  match o with Ret (Ok x) => Ret (Ok (- x)) | o => o end.
Lemma mod_plus w n : 0 < n -> (w + n) mod n = w mod n.
Proof. intros H. rewrite <- (Z.mod_add w 1 n) by lia. f_equal. lia. Qed.
Lemma negate_fields raw : is_f64 raw -> is_f64 (f64_negate raw) /\ f64_sign (f64_negate raw) = negb (f64_sign raw) /\
  f64_exponent (f64_negate raw) = f64_exponent raw /\ f64_fraction (f64_negate raw) = f64_fraction raw.
Proof.
  unfold is_f64, f64_negate, f64_sign, f64_exponent, f64_fraction. intros H. destruct (2 ^ 63 <=? raw) eqn:C; cbn [negb].
  - apply Z.leb_le in C. assert (E : raw = (raw - 2 ^ 63) + 2 ^ 11 * 2 ^ 52) by lia. set (w := raw - 2 ^ 63) in *.
    split; [lia|]. split; [lia|]. rewrite E. rewrite Z.div_add, Z.mod_add by lia.
    split; [|reflexivity]. symmetry. apply mod_plus. lia.
  - apply Z.leb_gt in C. split; [lia|]. split; [lia|]. replace (raw + 2 ^ 63) with (raw + 2 ^ 11 * 2 ^ 52) by lia.
    rewrite Z.div_add, Z.mod_add by lia. split; [|reflexivity]. apply mod_plus. lia.
Qed.
Lemma conv_negate b L P raw : valid b L P -> is_f64 raw -> try_from_f64 b L P (f64_negate raw) = neg_res (try_from_f64 b L P raw).
Proof.
  intros HV H. destruct (negate_fields raw H) as (H1 & H2 & H3 & H4). destruct (Z.eq_dec (f64_exponent raw) 2047) as [E|E].
  { rewrite !conv_nonfinite by congruence. reflexivity. }
  assert (f64_finite raw) as F by (split; assumption). assert (f64_finite (f64_negate raw)) as F' by (split; [assumption|congruence]).
  pose proof (valid_prec_38 _ _ (proj2 HV)). destruct (units_me raw F) as (_ & M1 & M2 & _).
  destruct (mag_spec b P (mant raw) (expo raw) ltac:(lia) M1 M2) as (z & Hz & _ & Ht).
  rewrite (Ht L raw F eq_refl eq_refl). rewrite (Ht L (f64_negate raw) F') by (unfold mant, expo; rewrite ?H3, ?H4; reflexivity).
  rewrite H2. unfold outcome_of. destruct (z <=? hi L); [|reflexivity]. destruct (f64_sign raw); cbn [negb neg_res]; f_equal; f_equal; lia.
Qed.
Lemma conv_zero b L P raw : valid b L P -> f64_finite raw -> (f64_val raw == 0)%Q -> try_from_f64 b L P raw = Ret (Ok 0).
Proof.
  intros HV H Hv. pose proof (abs_T raw H) as A. rewrite Hv in A. change (Qabs 0 * Zq T)%Q with (inject_Z 0) in A.
  unfold Zq in A. rewrite inject_Z_injective in A. pose proof five_pos.
  assert (f64_units raw = 0) as U by (symmetry in A; apply Z.mul_eq_0 in A as [A|A]; [assumption|lia]).
  destruct (units_me raw H) as (E & M1 & M2 & _). rewrite U in E. symmetry in E. apply Z.mul_eq_0 in E as [E|E].
  - rewrite try_from_shape by assumption. rewrite E. reflexivity.
  - exfalso. revert E. apply Z.pow_nonzero; lia.
Qed.

(** ** C33 *)
Lemma err_Q (A S B : Z) : 9 * 2 ^ 49 * A <= 5 * 2 ^ 49 * S + 9 * B -> (Zq A <= (5 # 9) * Zq S + Zq B * Qpower (2 # 1) (-49))%Q.
Proof.
  intros H. change (Qpower (2 # 1) (-49)) with (1 # 562949953421312). unfold Zq, Qle, Qplus, Qmult, inject_Z. cbn [Qnum Qden]. lia.
Qed.
Lemma conv_error b L P raw x : valid b L P -> f64_finite raw -> try_from_f64 b L P raw = Ret (Ok x) ->
  (Qabs (dec P x - f64_val raw) <= (5 # 9) * q10 (- P) + Qabs (f64_val raw) * Qpower (2 # 1) (-49))%Q.
Proof.
  intros HV H Hx. pose proof (valid_prec_38 _ _ (proj2 HV)) as HP.
  destruct (conv b L P raw HV H) as (z & Hz & Hr & E). rewrite E in Hx. unfold outcome_of in Hx.
  destruct (z <=? hi L) eqn:C; [|discriminate]. injection Hx as Hx.
  apply (Qmult_le_r _ _ (Zq T) T_pos). rewrite abs_diff_T by lia.
  setoid_replace (((5 # 9) * q10 (- P) + Qabs (f64_val raw) * Qpower (2 # 1) (-49)) * Zq T)%Q
    with ((5 # 9) * (q10 (- P) * Zq T) + (Qabs (f64_val raw) * Zq T) * Qpower (2 # 1) (-49))%Q by ring.
  rewrite q10_T by lia. rewrite abs_T by assumption. apply err_Q.
  pose proof (f64rel_error P _ z ltac:(lia) (V_nonneg raw H) Hr) as K. revert K. set (V := f64_units raw * 5 ^ K0). intros K.
  replace (Z.abs (x * 10 ^ (K0 - P) - sval raw * 5 ^ K0)) with (Z.abs (z * 10 ^ (K0 - P) - V)); [assumption|].
  subst x. unfold sval, V. destruct (f64_sign raw); [|reflexivity].
  rewrite <- Z.abs_opp. f_equal. ring.
Qed.
Lemma ovf_Q (h S V : Z) : 9 * 2 ^ 49 * ((h + 1) * S - V) <= 5 * 2 ^ 49 * S + 9 * V -> 0 < S -> 0 <= V -> 0 < h ->
  ((1 - Qpower (2 # 1) (-49)) * Zq (h * S) <= Zq V)%Q.
Proof.
  intros H HS HV Hh. change (1 - Qpower (2 # 1) (-49))%Q with (562949953421311 # 562949953421312). unfold Zq, Qle, Qmult, inject_Z. cbn [Qnum Qden].
  replace ((h + 1) * S) with (h * S + S) in H by ring. assert (0 < h * S) by (apply Z.mul_pos_pos; lia). set (w := h * S) in *. clearbody w. clear Hh.
  lia.
Qed.
Lemma conv_overflow b L P raw e : valid b L P -> f64_finite raw -> try_from_f64 b L P raw = Ret (Err e) ->
  ((1 - Qpower (2 # 1) (-49)) * dec P (hi L) <= Qabs (f64_val raw))%Q.
Proof.
  intros HV H Hx. pose proof (valid_prec_38 _ _ (proj2 HV)) as HP.
  destruct (conv b L P raw HV H) as (z & Hz & Hr & E). rewrite E in Hx. unfold outcome_of in Hx.
  destruct (z <=? hi L) eqn:C; [discriminate|]. apply Z.leb_gt in C.
  apply (Qmult_le_r _ _ (Zq T) T_pos). rewrite <- Qmult_assoc, dec_T, abs_T by (trivial; lia).
  pose proof (f64rel_error P _ z ltac:(lia) (V_nonneg raw H) Hr) as K. pose proof (V_nonneg raw H) as HV0.
  pose proof (K0_P P ltac:(lia)) as GS. revert K HV0 GS. set (V := f64_units raw * 5 ^ K0). set (S := 10 ^ (K0 - P)). intros K HV0 GS.
  pose proof (hi_127 L) as Hh. apply ovf_Q; try lia.
  assert ((hi L + 1) * S <= z * S) by (apply Z.mul_le_mono_nonneg_r; lia). clearbody V S. lia.
Qed.

(** ** C34 *)
Lemma conv_int b L P raw n : valid b L P -> f64_finite raw -> (f64_val raw == Zq n)%Q ->
  try_from_f64 b L P raw = Ret (if Z.abs (n * 10 ^ P) <=? hi L then Ok (n * 10 ^ P) else Err ConvertError).
Proof.
  intros HV H Hn. pose proof (valid_prec_38 _ _ (proj2 HV)) as HP.
  destruct (conv b L P raw HV H) as (z & Hz & Hr & ->). pose proof (val_T raw) as E. rewrite Hn in E. unfold Zq in E.
  rewrite <- inject_Z_mult, inject_Z_injective in E. unfold T in E.
  pose proof (pow10_pos K0 ltac:(rewrite K0_val; lia)) as GT. pose proof five_pos as G5. pose proof (units_nonneg raw H) as U.
  assert (f64_units raw * 5 ^ K0 = Z.abs n * 10 ^ K0) as EV.
  { rewrite <- (sval_abs raw H). rewrite <- (Z.abs_eq (5 ^ K0)) by lia. rewrite <- (Z.abs_eq (10 ^ K0)) by lia.
    rewrite <- !Z.abs_mul. now rewrite E. }
  rewrite EV in Hr. apply f64rel_exact in Hr; [|lia]. subst z. unfold outcome_of.
  pose proof (pow10_pos P ltac:(lia)) as GP. replace (Z.abs (n * 10 ^ P)) with (Z.abs n * 10 ^ P) by (rewrite Z.abs_mul, (Z.abs_eq (10 ^ P)) by lia; reflexivity).
  destruct (Z.abs n * 10 ^ P <=? hi L); [|reflexivity]. do 2 f_equal.
  destruct (Z.eq_dec n 0) as [->|Hn0]; [destruct (f64_sign raw); reflexivity|].
  unfold sval in E. destruct (f64_sign raw).
  - assert (n < 0) as Hneg. { apply Z.nle_gt. intros C. assert (0 < n * 10 ^ K0) by (apply Z.mul_pos_pos; lia).
      assert (0 <= f64_units raw * 5 ^ K0) by (apply Z.mul_nonneg_nonneg; lia). lia. }
    rewrite Z.abs_neq by lia. ring.
  - assert (0 < n) as Hpos. { apply Z.nle_gt. intros C. assert (0 < (- n) * 10 ^ K0) by (apply Z.mul_pos_pos; lia).
      assert (0 <= f64_units raw * 5 ^ K0) by (apply Z.mul_nonneg_nonneg; lia). lia. }
    rewrite Z.abs_eq by lia. ring.
Qed.

(** ** C48 *)
Lemma mag_mono b L P raw raw' z z' : valid b L P -> f64_finite raw -> f64_finite raw' -> f64_units raw <= f64_units raw' ->
  try_from_f64 b L P raw = outcome_of L (f64_sign raw) z -> f64rel P (f64_units raw * 5 ^ K0) z -> 0 <= z <= hi L ->
  try_from_f64 b L P raw' = outcome_of L (f64_sign raw') z' -> f64rel P (f64_units raw' * 5 ^ K0) z' -> 0 <= z' <= hi L -> z <= z'.
Proof.
  intros HV H H' HU E Hr Hz E' Hr' Hz'. pose proof (valid_prec_38 _ _ (proj2 HV)) as HP.
  destruct (units_me raw H) as (EU & M1 & M2 & M3). destruct (units_me raw' H') as (EU' & M1' & M2' & M3').
  rewrite EU, EU' in HU. destruct (gap (mant raw) (expo raw + 1074) (mant raw') (expo raw' + 1074) M1 M1' ltac:(lia) ltac:(lia) ltac:(lia) ltac:(lia) HU) as [[Em Ee]|G].
  - destruct (mag_spec b P (mant raw) (expo raw) ltac:(lia) M1 M2) as (w & Hw & _ & Ht).
    rewrite (Ht L raw H eq_refl eq_refl) in E. rewrite (Ht L raw' H' ltac:(lia) ltac:(lia)) in E'.
    unfold outcome_of in E, E'. replace (z <=? hi L) with true in E by lia. replace (z' <=? hi L) with true in E' by lia.
    destruct (w <=? hi L); [|discriminate]. injection E as E. injection E' as E'. destruct (f64_sign raw), (f64_sign raw'); lia.
  - apply (f64rel_mono P _ z _ z' ltac:(lia) (V_nonneg raw H) (V_nonneg raw' H') Hr Hr'). rewrite <- EU, <- EU' in G.
    rewrite !Z.mul_assoc. pose proof five_pos. apply Z.mul_le_mono_nonneg_r; [lia|exact G].
Qed.
Lemma val_le raw raw' : (f64_val raw <= f64_val raw')%Q <-> sval raw <= sval raw'.
Proof.
  rewrite <- (Qmult_le_r _ _ (Zq T) T_pos). rewrite !val_T. unfold Zq. rewrite <- Zle_Qle. pose proof five_pos.
  symmetry. apply Z.mul_le_mono_pos_r. assumption.
Qed.
Lemma conv_mono b L P raw raw' x x' : valid b L P -> f64_finite raw -> f64_finite raw' -> (f64_val raw <= f64_val raw')%Q ->
  try_from_f64 b L P raw = Ret (Ok x) -> try_from_f64 b L P raw' = Ret (Ok x') -> x <= x'.
Proof.
  intros HV H H' HU E E'. apply val_le in HU. pose proof (valid_prec_38 _ _ (proj2 HV)) as HP.
  destruct (conv b L P raw HV H) as (z & Hz & Hr & Ez). destruct (conv b L P raw' HV H') as (z' & Hz' & Hr' & Ez').
  pose proof (units_nonneg raw H) as U. pose proof (units_nonneg raw' H') as U'.
  rewrite Ez in E. rewrite Ez' in E'. unfold outcome_of in E, E'.
  destruct (z <=? hi L) eqn:C; [|discriminate]. destruct (z' <=? hi L) eqn:C'; [|discriminate]. apply Z.leb_le in C, C'.
  injection E as <-. injection E' as <-. unfold sval in HU.
  pose proof (fun A => mag_mono b L P raw raw' z z' HV H H' A Ez Hr (conj Hz C) Ez' Hr' (conj Hz' C')) as M1.
  pose proof (fun A => mag_mono b L P raw' raw z' z HV H' H A Ez' Hr' (conj Hz' C') Ez Hr (conj Hz C)) as M2.
  destruct (f64_sign raw), (f64_sign raw').
  - assert (z' <= z) by (apply M2; lia). lia.
  - lia.
  - assert (z <= z') by (apply M1; lia). assert (z' <= z) by (apply M2; lia). clear M1 M2.
    assert (f64_units raw = 0) as U0 by lia. clear - Hr U0 HP Hz Hz' H0 H1.
    rewrite U0, Z.mul_0_l in Hr. change 0 with (0 * 10 ^ K0) in Hr. apply f64rel_exact in Hr; lia.
  - apply M1. lia.
Qed.
