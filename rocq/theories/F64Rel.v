(** * F64Rel: the conversion from f64 as a relation between integers. *)
From Coq Require Import SpecFloat.
From Verif Require Import Base PowerTable ConstFn Sqrt Promo Ops Fixed Float Spec BaseFacts FloatFacts F64Facts.
From Verif Require Import Fixed.
Open Scope Z_scope.
Ltac Zify.zify_post_hook ::= idtac.

(** Quantities are multiplied by [10^K0], which makes all of them integers. *)
Definition K0 : Z := 1074.
(** [z] is the raw value found for the float of value [V / 10^K0]: [a] is the intermediate
    decimal, truncated by a relative [1074 / 2^124] at most, [y * 10^h] what is left of it after
    cutting its digits. *)
Definition f64rel (P V z : Z) : Prop :=
  exists a h y, 0 <= a /\ 0 <= h <= K0 /\ (Kd - 1074) * V <= Kd * a <= Kd * V /\
    (forall k, V = k * 10 ^ K0 -> a = V /\ h = K0) /\
    y = c49 a (10 ^ h) /\ (h = K0 \/ a < 2 ^ 52 * 10 ^ h) /\
    (a = y * 10 ^ h \/ 1 <= h /\ 2 ^ 52 * 10 ^ (h - 1) <= a) /\
    z = c49 (y * 10 ^ h) (10 ^ (K0 - P)).

Lemma p10_split x y : 0 <= x -> 0 <= y -> 10 ^ (x + y) = 10 ^ x * 10 ^ y.
Proof. intros. apply Z.pow_add_r; lia. Qed.

Lemma c49_le n d : 0 <= n -> 0 < d -> d = 1 \/ 10 <= d -> c49 n d <= n.
Proof.
  intros Hn Hd [->|H]; [rewrite c49_1; lia|]. pose proof (c49_spec n d Hd) as [K _]. set (c := c49 n d) in *. clearbody c.
  apply Z.le_ngt. intros C. assert ((n + 1) * d <= c * d) by (apply Z.mul_le_mono_nonneg_r; lia).
  assert (0 <= n * (d - 10)) by (apply Z.mul_nonneg_nonneg; lia). lia.
Qed.
Lemma pow10_cases i : 0 <= i -> 10 ^ i = 1 \/ 10 <= 10 ^ i.
Proof.
  intros H. destruct (Z.eq_dec i 0) as [->|Hi]; [now left|right]. change 10 with (10 ^ 1) at 1. apply Z.pow_le_mono_r; lia.
Qed.

Lemma rescale_spec b P N E : 0 <= P <= 38 -> 0 <= N < 2 ^ 128 -> -1074 <= E <= 0 ->
  let z := c49 (N * 10 ^ (E + K0)) (10 ^ (K0 - P)) in
  rescale b P N E = Ret (Ok z) \/ (rescale b P N E = Ret (Err ConvertError) /\ 2 ^ 128 <= z).
Proof.
  intros HP HN HE z. unfold rescale. rewrite neg_ok by (apply fits_i32; lia). cbn [bind].
  assert (HK : K0 = 1074) by reflexivity.
  destruct (- P <? E) eqn:C1.
  - apply Z.ltb_lt in C1. rewrite add_ok by (apply fits_i32; lia). cbn [bind].
    assert (z = N * 10 ^ (E + P)) as ->.
    { unfold z. replace (E + K0) with (E + P + (K0 - P)) by lia. rewrite p10_split, Z.mul_assoc by lia.
      apply c49_exact. apply pow10_pos. lia. }
    rewrite wrap_fits by (unfold fits; change (imin U32) with 0; change (imax U32) with 4294967295; lia).
    unfold power_of_10. destruct (p10_table (E + P) ltac:(lia)) as (r & -> & _).
    unfold checked_mul, chk, ok_or. destruct (fitsb U128 (N * 10 ^ (E + P))) eqn:Cf; [now left|right].
    split; [reflexivity|]. apply Z.le_ngt. intros K. rewrite fitsb_true in Cf; [discriminate|]. apply fits_u128.
    split; [|assumption]. apply Z.mul_nonneg_nonneg; [lia|]. apply Z.pow_nonneg. lia.
  - apply Z.ltb_ge in C1. left. destruct (E <? - P) eqn:C2.
    + apply Z.ltb_lt in C2. rewrite sub_ok by (apply fits_i32; lia). cbn [bind].
      rewrite wrap_fits by (unfold fits; change (imin U32) with 0; change (imax U32) with 4294967295; lia).
      assert (z = c49 N (10 ^ (- P - E))) as ->.
      { unfold z. replace (K0 - P) with (- P - E + (E + K0)) by lia. rewrite (p10_split (- P - E)) by lia.
        apply c49_scale; apply pow10_pos; lia. }
      unfold rdiv_by_exponent_10. destruct (Z_le_gt_dec (- P - E) 38) as [H|H].
      * destruct (p10_table (- P - E) ltac:(lia)) as (r & -> & Hr). rewrite round_div by (try assumption; lia). reflexivity.
      * rewrite p10_none by lia. cbn [bind]. do 2 f_equal. apply c49_unique; [apply pow10_pos; lia|].
        assert (10 ^ 39 <= 10 ^ (- P - E)) as B by (apply Z.pow_le_mono_r; lia). set (D := 10 ^ (- P - E)) in *. clearbody D.
        change (9 * 0 * D) with 0. change (10 ^ 39) with 1000000000000000000000000000000000000000 in B. lia.
    + apply Z.ltb_ge in C2. assert (E = - P) as -> by lia. do 2 f_equal. unfold z.
      replace (- P + K0) with (K0 - P) by lia. symmetry. apply c49_exact. apply pow10_pos. lia.
Qed.

Definition rest (b : build) (P N E : Z) : outcome (result Z cerr) :=
  '(bits, e10) <- cut_digits b N E ;; rescale b P bits e10.
Lemma rest_spec b P N E V : 0 <= P <= 38 -> 0 <= N < 2 ^ 128 -> -1074 <= E <= 0 ->
  (Kd - 1074) * V <= Kd * (N * 10 ^ (E + K0)) <= Kd * V ->
  (forall k, V = k * 10 ^ K0 -> N = k /\ E = 0) ->
  exists z, f64rel P V z /\ (rest b P N E = Ret (Ok z) \/ rest b P N E = Ret (Err ConvertError) /\ 2 ^ 128 <= z).
Proof.
  intros HP HN HE HV Hi. assert (HK : K0 = 1074) by reflexivity. unfold rest.
  destruct (cut_digits_spec b N E HN HE) as (d & Hd & Hd38 & Ec & Hbig & Hex). rewrite Ec. cbn [bind].
  pose proof (pow10_pos d ltac:(lia)) as GD. pose proof (pow10_pos (E + K0) ltac:(lia)) as GE.
  assert (0 <= c49 N (10 ^ d) < 2 ^ 128) as Hy.
  { split; [apply c49_nonneg; lia|]. apply Z.le_lt_trans with N; [|lia]. apply c49_le; [lia|assumption|]. apply pow10_cases. lia. }
  exists (c49 (c49 N (10 ^ d) * 10 ^ (E + d + K0)) (10 ^ (K0 - P))). split.
  2:{ exact (rescale_spec b P (c49 N (10 ^ d)) (E + d) HP Hy ltac:(lia)). }
  assert (10 ^ (E + d + K0) = 10 ^ d * 10 ^ (E + K0)) as Eh by (rewrite <- p10_split by lia; f_equal; lia).
  assert (c49 (N * 10 ^ (E + K0)) (10 ^ (E + d + K0)) = c49 N (10 ^ d)) as Ey by (rewrite Eh; apply c49_scale; assumption).
  exists (N * 10 ^ (E + K0)), (E + d + K0), (c49 N (10 ^ d)).
  split; [apply Z.mul_nonneg_nonneg; lia|]. split; [lia|]. split; [exact HV|].
  split; [|split; [now symmetry|split; [|split; [|reflexivity]]]].
  - intros k Ek. destruct (Hi k Ek) as [-> E0]. subst E. split; [|lia]. rewrite Ek. f_equal.
  - destruct Hbig as [->|Hb]; [left; lia|right]. rewrite Eh, Z.mul_assoc. apply Z.mul_lt_mono_pos_r; assumption.
  - destruct (Z.eq_dec d 0) as [->|Hd0].
    + left. rewrite c49_1, Eh. change (10 ^ 0) with 1. ring.
    + right. destruct Hex as [Hx|Hx]; [lia|]. split; [lia|]. replace (E + d + K0 - 1) with (d - 1 + (E + K0)) by lia.
      rewrite p10_split, Z.mul_assoc by lia. apply Z.mul_le_mono_nonneg_r; [lia|exact Hx].
Qed.

Definition mid (b : build) (P bits e2 : Z) : outcome (result Z cerr) :=
  e5 <- neg b I32 e2 ;;
  '(bits, e5, e10) <- absorb5 b bits e5 e2 ;;
  '(bits, e5, e10) <- scale_up b float_fuel bits e5 e10 ;;
  rest b P bits e10.

Lemma cut_digits_pos b N E : 0 <= E -> cut_digits b N E = Ret (N, E).
Proof.
  intros H. unfold cut_digits. change (Base.shr b U128 N 52) with (Ret (N / 2 ^ 52)). cbn [bind].
  replace (E <? 0) with false by lia. reflexivity.
Qed.
Lemma fuel_S : exists n, float_fuel = S n.
Proof. exists (Nat.pred float_fuel). reflexivity. Qed.

(** The value of the float, times [10^K0]. *)
Definition Vof (m e : Z) : Z := m * 2 ^ (e + K0) * 5 ^ K0.
Lemma p10_25 i : 10 ^ i = 2 ^ i * 5 ^ i.
Proof. exact (Z.pow_mul_l 2 5 i). Qed.
Lemma Vof_neg m e : - K0 <= e <= 0 -> Vof m e = m * 5 ^ (- e) * 10 ^ (e + K0).
Proof.
  intros H. unfold Vof. rewrite p10_25. replace (5 ^ K0) with (5 ^ (- e) * 5 ^ (e + K0)).
  - ring.
  - rewrite <- Z.pow_add_r by lia. f_equal. lia.
Qed.
Lemma Vof_pos m e : 0 <= e -> Vof m e = m * 2 ^ e * 10 ^ K0.
Proof. intros H. unfold Vof. rewrite p10_25, Z.pow_add_r by (unfold K0; lia). ring. Qed.

Lemma mid_spec b P m e : 0 <= P <= 38 -> 0 < m < 2 ^ 53 -> -1074 <= e <= 971 ->
  exists z, f64rel P (Vof m e) z /\ (mid b P m e = Ret (Ok z) \/
    2 ^ 127 <= z /\ (mid b P m e = Ret (Err ConvertError) \/ exists w, mid b P m e = Ret (Ok w) /\ 2 ^ 127 <= w)).
Proof.
  intros HP Hm He. assert (HK : K0 = 1074) by reflexivity. assert (GK : 0 < 10 ^ K0) by (apply pow10_pos; lia).
  assert (G124 : 1074 < Kd) by reflexivity.
  assert (weak : forall r, (exists z, f64rel P (Vof m e) z /\ (r = Ret (Ok z) \/ r = Ret (Err ConvertError) /\ 2 ^ 128 <= z)) ->
    exists z, f64rel P (Vof m e) z /\ (r = Ret (Ok z) \/
      2 ^ 127 <= z /\ (r = Ret (Err ConvertError) \/ exists w, r = Ret (Ok w) /\ 2 ^ 127 <= w))).
  { intros r (z & Hr & [H|[H Hz]]); exists z; (split; [exact Hr|]); [now left|right]. split; [lia|now left]. }
  unfold mid. rewrite neg_ok by (apply fits_i32; lia). cbn [bind]. destruct (Z_lt_ge_dec e 0) as [Hneg|Hpos].
  - destruct (absorb5_spec b m (- e) e Hm ltac:(lia) ltac:(lia)) as (N & s & Ea & Hs & HN & HB & Hi). rewrite Ea. cbn [bind].
    destruct fuel_S as [n Ef]. rewrite Ef, scale_up_done. cbn [bind].
    pose proof (pow10_pos (e + K0) ltac:(lia)) as GE.
    apply weak, rest_spec; try assumption; [lia|..]; rewrite Vof_neg by lia.
    + replace (e + s + K0) with (s + (e + K0)) by lia. rewrite (p10_split s (e + K0)) by lia.
      set (T := 10 ^ (e + K0)) in *. set (w := m * 5 ^ (- e)) in *. set (u := 10 ^ s) in *. clearbody T w u.
      replace (Kd * (N * (u * T))) with (Kd * (N * u) * T) by ring. rewrite !Z.mul_assoc with (p := T).
      split; apply Z.mul_le_mono_nonneg_r; lia.
    + intros k Ek. apply and_comm. assert (m = k * 2 ^ (- e)) as Em.
      { replace K0 with (- e + (e + K0)) in Ek at 2 by lia. rewrite (p10_split (- e)), Z.mul_assoc in Ek by lia.
        apply Z.mul_cancel_r in Ek; [|lia]. rewrite p10_25, Z.mul_assoc in Ek. apply Z.mul_cancel_r in Ek; [assumption|].
        apply Z.pow_nonzero; lia. }
      destruct (Hi k Em) as [-> ->]. split; [lia|reflexivity].
  - assert (absorb5 b m (- e) e = Ret (m, - e, e)) as -> by (unfold absorb5; replace (0 <? - e) with false by lia; reflexivity).
    cbn [bind]. destruct (Z_lt_ge_dec (m * 2 ^ e) (2 ^ 128)) as [Hsmall|Hlarge].
    + rewrite scale_up_small; rewrite ?Z.opp_involutive, ?fuel_1200; try lia. cbn [bind].
      assert (0 < m * 2 ^ e) as Gv by (apply Z.mul_pos_pos; [lia|apply Z.pow_pos_nonneg; lia]).
      replace (e + - e) with 0 by lia. apply weak, rest_spec; try assumption; try lia; rewrite Vof_pos by lia.
      * change (0 + K0) with K0. set (w := m * 2 ^ e * 10 ^ K0). assert (0 < w) by (apply Z.mul_pos_pos; lia). clearbody w. lia.
      * intros k Ek. split; [|reflexivity]. apply Z.mul_cancel_r in Ek; lia.
    + destruct (scale_up_large b float_fuel m (- e) e) as (N & E & Ee & HN & HE); rewrite ?Z.opp_involutive, ?fuel_1200; try lia.
      rewrite Ee. cbn [bind]. unfold rest. rewrite cut_digits_pos by lia. cbn [bind].
      assert (1 <= 10 ^ P) as G1 by (pose proof (pow10_pos P ltac:(lia)); lia).
      exists (m * 2 ^ e * 10 ^ P). split.
      * exists (Vof m e), K0, (m * 2 ^ e). rewrite Vof_pos by lia. set (v := m * 2 ^ e) in *.
        assert (0 < v) as Gv by (unfold v; apply Z.mul_pos_pos; [lia|apply Z.pow_pos_nonneg; lia]). clearbody v.
        assert (0 < v * 10 ^ K0) as Gw by (apply Z.mul_pos_pos; lia).
        split; [lia|]. split; [lia|]. split; [|split; [|split; [|split; [|split]]]].
        -- set (w := v * 10 ^ K0) in *. clearbody w. clear - Gw G124. lia.
        -- intros k Ek. split; reflexivity.
        -- symmetry. apply c49_exact. assumption.
        -- now left.
        -- now left.
        -- replace K0 with (P + (K0 - P)) at 1 by lia. rewrite p10_split, Z.mul_assoc by lia. symmetry. apply c49_exact. apply pow10_pos. lia.
      * right. split.
        -- apply Z.le_trans with (m * 2 ^ e * 1); [lia|]. apply Z.mul_le_mono_nonneg_l; lia.
        -- unfold rescale. rewrite neg_ok by (apply fits_i32; lia). cbn [bind]. replace (- P <? E) with true by lia.
           rewrite add_ok by (apply fits_i32; lia). cbn [bind].
           rewrite wrap_fits by (unfold fits; change (imin U32) with 0; change (imax U32) with 4294967295; lia).
           unfold power_of_10. destruct (Z_le_gt_dec (E + P) 38) as [H|H].
           ++ destruct (p10_table (E + P) ltac:(lia)) as (r & -> & _). unfold checked_mul, chk, ok_or.
              destruct (fitsb U128 (N * 10 ^ (E + P))) eqn:Cf; [right|now left]. eexists; split; [reflexivity|].
              assert (10 <= 10 ^ (E + P)) as G10 by (change 10 with (10 ^ 1) at 1; apply Z.pow_le_mono_r; lia).
              apply Z.le_trans with (N * 10); [lia|]. apply Z.mul_le_mono_nonneg_l; lia.
           ++ rewrite p10_none by lia. now left.
Qed.
