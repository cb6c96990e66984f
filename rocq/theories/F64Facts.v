(** * F64Facts: what the steps of the conversion from f64 compute, in integer terms. *)
From Coq Require Import SpecFloat.
From Verif Require Import Base PowerTable ConstFn Sqrt Promo Ops Fixed Float Spec BaseFacts FloatFacts.
From Verif Require Import Fixed.
Open Scope Z_scope.
Ltac Zify.zify_post_hook ::= idtac.

(** ** Rounding up above four ninths *)
(** [n / d] rounded to the integer [z] with [z - 5/9 < n / d <= z + 4/9]. *)
Definition c49 (n d : Z) : Z := (9 * n + 5 * d - 1) / (9 * d).
Lemma c49_spec n d : 0 < d -> 9 * c49 n d * d - 5 * d < 9 * n <= 9 * c49 n d * d + 4 * d.
Proof.
  intros Hd. unfold c49. pose proof (Z.div_mod (9 * n + 5 * d - 1) (9 * d) ltac:(lia)) as E.
  pose proof (Z.mod_pos_bound (9 * n + 5 * d - 1) (9 * d) ltac:(lia)) as B.
  set (q := (9 * n + 5 * d - 1) / (9 * d)) in *. set (r := (9 * n + 5 * d - 1) mod (9 * d)) in *. clearbody q r.
  replace (9 * q * d) with (9 * d * q) by ring. lia.
Qed.
Lemma c49_unique n d z : 0 < d -> 9 * z * d - 5 * d < 9 * n <= 9 * z * d + 4 * d -> z = c49 n d.
Proof.
  intros Hd H. pose proof (c49_spec n d Hd) as K. set (c := c49 n d) in *. clearbody c.
  assert (9 * d * (z - c) < 9 * d * 1) by (replace (9 * d * (z - c)) with (9 * z * d - 9 * c * d) by ring; lia).
  assert (9 * d * (c - z) < 9 * d * 1) by (replace (9 * d * (c - z)) with (9 * c * d - 9 * z * d) by ring; lia).
  assert (z - c < 1) by (apply (Z.mul_lt_mono_pos_l (9 * d)); lia).
  assert (c - z < 1) by (apply (Z.mul_lt_mono_pos_l (9 * d)); lia). lia.
Qed.
Lemma c49_exact k d : 0 < d -> c49 (k * d) d = k.
Proof. intros Hd. symmetry. apply c49_unique; [assumption|]. replace (9 * (k * d)) with (9 * k * d) by ring. lia. Qed.
Lemma c49_1 n : c49 n 1 = n.
Proof. rewrite <- (c49_exact n 1) at 2 by lia. now rewrite Z.mul_1_r. Qed.
Lemma c49_mono n n' d : 0 < d -> n <= n' -> c49 n d <= c49 n' d.
Proof. intros Hd H. unfold c49. apply Z.div_le_mono; lia. Qed.
Lemma c49_scale n d k : 0 < d -> 0 < k -> c49 (n * k) (d * k) = c49 n d.
Proof.
  intros Hd Hk. symmetry. apply c49_unique; [apply Z.mul_pos_pos; lia|].
  pose proof (c49_spec n d Hd) as K. set (c := c49 n d) in *. clearbody c.
  replace (9 * c * (d * k) - 5 * (d * k)) with ((9 * c * d - 5 * d) * k) by ring.
  replace (9 * (n * k)) with (9 * n * k) by ring.
  replace (9 * c * (d * k) + 4 * (d * k)) with ((9 * c * d + 4 * d) * k) by ring.
  split; [apply Z.mul_lt_mono_pos_r; lia|apply Z.mul_le_mono_nonneg_r; lia].
Qed.
Lemma c49_nonneg n d : 0 < d -> 0 <= n -> 0 <= c49 n d.
Proof. intros Hd H. rewrite <- (c49_exact 0 d Hd). apply c49_mono; lia. Qed.

(** ** Tables *)
Lemma idx_nth {A} (l : list A) i x : 0 <= i -> nth_error l (Z.to_nat i) = Some x -> idx l i = Ret x.
Proof.
  intros Hi H. unfold idx. rewrite H. assert (Z.to_nat i < length l)%nat by (apply nth_error_Some; congruence).
  replace (0 <=? i) with true by lia. replace (i <? Z.of_nat (length l)) with true by lia. reflexivity.
Qed.
Definition p10_row (i : Z) : bool :=
  match nth_error POWERS_OF_10 (Z.to_nat i) with
  | Some (d, r) => (d =? 10 ^ i) && (9 * r =? 4 * (10 ^ i - 1))
  | None => false
  end.
Lemma p10_rows : forallb p10_row (zrange 39) = true.
Proof. vm_compute. reflexivity. Qed.
Lemma p10_table i : 0 <= i <= 38 -> exists r, nth_error POWERS_OF_10 (Z.to_nat i) = Some (10 ^ i, r) /\ 9 * r = 4 * (10 ^ i - 1).
Proof.
  intros H. pose proof p10_rows as T. rewrite forallb_forall in T. specialize (T i (zrange_in 39 i ltac:(lia))).
  unfold p10_row in T. destruct (nth_error POWERS_OF_10 (Z.to_nat i)) as [[d r]|]; [|discriminate].
  apply andb_true_iff in T as [T1 T2]. apply Z.eqb_eq in T1, T2. subst d. now exists r.
Qed.
Lemma p10_none i : 39 <= i -> nth_error POWERS_OF_10 (Z.to_nat i) = None.
Proof. intros H. apply nth_error_None. change (length POWERS_OF_10) with 39%nat. lia. Qed.

Definition m5_row (k : Z) : bool :=
  match nth_error MAX_EXPONENT_5 (Z.to_nat k) with
  | Some m => (1 <=? m) && (m <? 56) && (5 ^ m <=? 2 ^ (k + 1))
  | None => false
  end.
Lemma m5_rows : forallb (fun k => m5_row (k + 74)) (zrange 53) = true.
Proof. vm_compute. reflexivity. Qed.
Lemma m5_table k : 74 <= k <= 126 -> exists m, idx MAX_EXPONENT_5 k = Ret m /\ 1 <= m < 56 /\ 5 ^ m <= 2 ^ (k + 1).
Proof.
  intros H. pose proof m5_rows as T. rewrite forallb_forall in T. specialize (T (k - 74) (zrange_in 53 (k - 74) ltac:(lia))).
  cbn beta in T. replace (k - 74 + 74) with k in T by lia. unfold m5_row in T.
  destruct (nth_error MAX_EXPONENT_5 (Z.to_nat k)) as [m|] eqn:E; [|discriminate].
  apply andb_true_iff in T as [T T3]. apply andb_true_iff in T as [T1 T2].
  apply Z.leb_le in T1, T3. apply Z.ltb_lt in T2. exists m. split; [apply idx_nth; [lia|assumption]|]. now split.
Qed.
Definition p5_row (i : Z) : bool := match nth_error POWERS_OF_5 (Z.to_nat i) with Some p => p =? 5 ^ i | None => false end.
Lemma p5_rows : forallb p5_row (zrange 56) = true.
Proof. vm_compute. reflexivity. Qed.
Lemma p5_table i : 0 <= i < 56 -> idx POWERS_OF_5 i = Ret (5 ^ i).
Proof.
  intros H. pose proof p5_rows as T. rewrite forallb_forall in T. specialize (T i (zrange_in 56 i ltac:(lia))).
  unfold p5_row in T. apply idx_nth; [lia|]. destruct (nth_error POWERS_OF_5 (Z.to_nat i)); [|discriminate].
  apply Z.eqb_eq in T. now subst.
Qed.
(** [k] is the bit length of the prefix minus one. *)
Definition n10_row (k : Z) : bool :=
  match nth_error NEXT_EXPONENT_10 (Z.to_nat (127 - k)), nth_error NEXT_EXPONENT_10 (Z.to_nat (126 - k)) with
  | Some t, Some t' =>
      (0 <=? t) && (t <=? 37) && ((t =? 0) || (10 ^ (t - 1) <=? 2 ^ k)) &&
        ((2 ^ (k + 1) <=? 10 ^ t) || ((t' =? t + 1) && (2 ^ (k + 1) <=? 10 ^ t')))
      && ((negb (t =? 0)) || (k =? 0))
  | _, _ => false
  end.
Lemma n10_rows : forallb n10_row (zrange 76) = true.
Proof. vm_compute. reflexivity. Qed.

(** Division by a power of ten as the code does it. *)
Lemma fits_u128 z : 0 <= z < 2 ^ 128 -> fits U128 z.
Proof. intros H. unfold fits. change (imin U128) with 0. change (imax U128) with (2 ^ 128 - 1). lia. Qed.
Lemma fits_i32 z : -2147483648 <= z <= 2147483647 -> fits I32 z.
Proof. intros H. exact H. Qed.
Lemma round_div b N i r : 0 <= N < 2 ^ 128 -> 0 <= i <= 38 -> 9 * r = 4 * (10 ^ i - 1) ->
  (res <- div U128 N (10 ^ i) ;; m <- rem U128 N (10 ^ i) ;; if r <? m then add b U128 res 1 else Ret res) = Ret (c49 N (10 ^ i)).
Proof.
  intros HN Hi Hr. pose proof (pow10_pos i ltac:(lia)) as Hp. set (D := 10 ^ i) in *.
  assert (HD : i = 0 /\ D = 1 \/ 10 <= D).
  { destruct (Z.eq_dec i 0) as [->|Hi0]; [left; now split|right]. unfold D. change 10 with (10 ^ 1) at 1. apply Z.pow_le_mono_r; lia. }
  clearbody D.
  assert (EQ : Z.quot N D = N / D) by (apply Z.quot_div_nonneg; lia).
  assert (ER : Z.rem N D = N mod D) by (apply Z.rem_mod_nonneg; lia).
  pose proof (Z.div_mod N D ltac:(lia)) as E. pose proof (Z.mod_pos_bound N D Hp) as B.
  assert (0 <= N / D) as Hq by (apply Z.div_pos; lia).
  assert (N / D <= N) as Hq' by (apply Z.div_le_upper_bound; [lia|]; rewrite <- (Z.mul_1_l N) at 1; apply Z.mul_le_mono_nonneg_r; lia).
  rewrite div_ok by (rewrite ?EQ; try apply fits_u128; lia). cbn [bind].
  rewrite rem_ok by (rewrite ?EQ; try apply fits_u128; lia). cbn [bind]. rewrite EQ, ER.
  set (q := N / D) in *. set (m := N mod D) in *. clearbody q m.
  destruct (r <? m) eqn:C.
  - apply Z.ltb_lt in C. rewrite add_ok.
    + f_equal. apply c49_unique; [lia|]. subst N. replace (9 * (q + 1) * D) with (9 * (D * q) + 9 * D) by ring. lia.
    + apply fits_u128. split; [lia|]. destruct HD as [[_ HD]|HD]; [subst D; lia|]. nia.
  - apply Z.ltb_ge in C. f_equal. apply c49_unique; [lia|]. subst N. replace (9 * q * D) with (9 * (D * q)) by ring. lia.
Qed.

(** The number of digits to cut: [10^(t-1) <= p < 10^t]. *)
Lemma next_exp b p : 0 < p < 2 ^ 76 -> exists t, 1 <= t <= 38 /\ 10 ^ (t - 1) <= p < 10 ^ t /\
  (d10 <- idx NEXT_EXPONENT_10 (leading_zeros U128 p) ;;
   divisor <- unwrap_opt (power_of_10 (wrap U32 d10)) ;;
   (if divisor <=? p then l1 <- sub b USize (leading_zeros U128 p) 1 ;; idx NEXT_EXPONENT_10 l1 else Ret d10)) = Ret t.
Proof.
  intros Hp. pose proof (Z.log2_spec p ltac:(lia)) as [G1 G2]. pose proof (Z.log2_nonneg p) as G0.
  assert (Z.log2 p < 76) as G3 by (apply Z.log2_lt_pow2; lia). set (k := Z.log2 p) in *.
  assert (leading_zeros U128 p = 127 - k) as El.
  { unfold leading_zeros. replace (p <? 0) with false by lia. replace (p =? 0) with false by lia. fold k. cbn [width]. lia. }
  rewrite El. clearbody k. clear El.
  pose proof n10_rows as T. rewrite forallb_forall in T. specialize (T k (zrange_in 76 k ltac:(lia))). unfold n10_row in T.
  destruct (nth_error NEXT_EXPONENT_10 (Z.to_nat (127 - k))) as [t|] eqn:E1; [|discriminate].
  destruct (nth_error NEXT_EXPONENT_10 (Z.to_nat (126 - k))) as [t'|] eqn:E2; [|discriminate].
  apply andb_true_iff in T as [T T5]. apply andb_true_iff in T as [T T4]. apply andb_true_iff in T as [T T3].
  apply andb_true_iff in T as [T1 T2]. apply Z.leb_le in T1, T2.
  rewrite (idx_nth _ (127 - k) t) by (assumption || lia). cbn [bind].
  rewrite wrap_fits by (unfold fits; change (imin U32) with 0; change (imax U32) with 4294967295; lia).
  unfold power_of_10. destruct (p10_table t ltac:(lia)) as (r & -> & _). cbn [unwrap_opt bind].
  replace (k + 1) with (Z.succ k) in T4 by lia.
  destruct (10 ^ t <=? p) eqn:C.
  - apply Z.leb_le in C. rewrite sub_ok by (unfold fits; change (imin USize) with 0; change (imax USize) with 18446744073709551615; lia).
    cbn [bind]. replace (127 - k - 1) with (126 - k) by lia. rewrite (idx_nth _ (126 - k) t') by (assumption || lia).
    apply orb_true_iff in T4 as [T4|T4]; [apply Z.leb_le in T4; lia|].
    apply andb_true_iff in T4 as [T4 T6]. apply Z.eqb_eq in T4. apply Z.leb_le in T6. subst t'.
    exists (t + 1). split; [lia|]. replace (t + 1 - 1) with t by lia. split; [lia|reflexivity].
  - apply Z.leb_gt in C. exists t.
    assert (t <> 0) by (intros ->; change (10 ^ 0) with 1 in C; lia).
    split; [lia|]. split; [|reflexivity]. split; [|lia].
    apply orb_true_iff in T3 as [T3|T3]; [apply Z.eqb_eq in T3; lia|]. apply Z.leb_le in T3. lia.
Qed.

Lemma lz_shift N p : 0 < p -> p = N / 2 ^ 52 -> leading_zeros U128 N + 52 = leading_zeros U128 p.
Proof.
  intros Hp ->. assert (0 < N) as HN by (apply Z.lt_nge; intros K; pose proof (Z.div_le_mono N 0 (2 ^ 52) ltac:(lia) K); cbn in *; lia).
  unfold leading_zeros. replace (N <? 0) with false by lia. replace (N =? 0) with false by lia.
  replace (N / 2 ^ 52 <? 0) with false by lia. replace (N / 2 ^ 52 =? 0) with false by lia.
  rewrite <- (Z.shiftr_div_pow2 N 52) by lia. rewrite Z.log2_shiftr by assumption.
  assert (52 <= Z.log2 N); [|lia]. apply Z.log2_le_pow2; [assumption|].
  pose proof (Z.mul_div_le N (2 ^ 52) ltac:(lia)). lia.
Qed.
Lemma cut_digits_spec b N E : 0 <= N < 2 ^ 128 -> -1074 <= E <= 0 -> exists d, 0 <= d <= - E /\ d <= 38 /\
  cut_digits b N E = Ret (c49 N (10 ^ d), E + d) /\
  (d = - E \/ N < 2 ^ 52 * 10 ^ d) /\ (d = 0 \/ 2 ^ 52 * 10 ^ (d - 1) <= N).
Proof.
  intros HN HE. unfold cut_digits. change (Base.shr b U128 N 52) with (Ret (N / 2 ^ 52)). cbn [bind].
  assert (0 <= N / 2 ^ 52) as H0 by (apply Z.div_pos; lia).
  assert (N / 2 ^ 52 < 2 ^ 76) as H1 by (apply Z.div_lt_upper_bound; lia).
  pose proof (Z.mul_div_le N (2 ^ 52) ltac:(lia)) as H2.
  pose proof (Z.mul_succ_div_gt N (2 ^ 52) ltac:(lia)) as H3.
  destruct (Z.eq_dec E 0) as [->|HE0]; [|destruct (Z.eq_dec (N / 2 ^ 52) 0) as [Hp|Hp]].
  - exists 0. change (0 <? 0) with false. cbn [andb]. rewrite c49_1. repeat split; lia || reflexivity.
  - exists 0. replace (0 <? N / 2 ^ 52) with false by lia. rewrite andb_false_r. rewrite c49_1, Z.add_0_r. change (10 ^ 0) with 1.
    repeat split; lia || reflexivity || idtac; right; lia.
  - replace (E <? 0) with true by lia. replace (0 <? N / 2 ^ 52) with true by lia. cbn [andb].
    set (p := N / 2 ^ 52) in *.
    assert (0 <= leading_zeros U128 p <= 128) as HL.
    { unfold leading_zeros. replace (p <? 0) with false by lia. replace (p =? 0) with false by lia.
      pose proof (Z.log2_nonneg p). assert (Z.log2 p < 76) by (apply Z.log2_lt_pow2; lia). cbn [width]. lia. }
    rewrite add_ok by (rewrite (lz_shift N p) by (reflexivity || lia); unfold fits; change (imin U32) with 0; change (imax U32) with 4294967295; lia).
    cbn [bind]. rewrite (lz_shift N p) by (reflexivity || lia).
    destruct (next_exp b p ltac:(lia)) as (t & Ht & Hpt & Et).
    assert (forall k : Z -> outcome (Z * Z),
      (d10 <- idx NEXT_EXPONENT_10 (leading_zeros U128 p) ;;
       divisor <- unwrap_opt (power_of_10 (wrap U32 d10)) ;;
       d10 <- (if divisor <=? p then l1 <- sub b USize (leading_zeros U128 p) 1 ;; idx NEXT_EXPONENT_10 l1 else Ret d10) ;; k d10) = k t) as K.
    { intros k. destruct (idx NEXT_EXPONENT_10 (leading_zeros U128 p)); cbn [bind] in *; try discriminate.
      destruct (unwrap_opt _); cbn [bind] in *; try discriminate. rewrite Et. reflexivity. }
    rewrite K. clear K Et HL. rewrite neg_ok by (apply fits_i32; lia). cbn [bind].
    set (d := Z.min t (- E)). assert (1 <= d <= 38 /\ d <= - E /\ (d = t \/ d = - E /\ d <= t)) as Hd by lia.
    clearbody d. rewrite wrap_fits by (unfold fits; change (imin USize) with 0; change (imax USize) with 18446744073709551615; lia).
    destruct (p10_table d ltac:(lia)) as (r & Er & Hr). rewrite (idx_nth _ _ _ (proj1 (conj (ltac:(lia) : 0 <= d) I)) Er). cbn [bind].
    pose proof (round_div b N d r HN ltac:(lia) Hr) as R.
    destruct (div U128 N (10 ^ d)) as [x| | |]; cbn [bind] in *; try discriminate.
    destruct (rem U128 N (10 ^ d)) as [y| | |]; cbn [bind] in *; try discriminate.
    rewrite R. cbn [bind]. rewrite add_ok by (apply fits_i32; lia). cbn [bind].
    exists d. split; [lia|]. split; [lia|]. split; [reflexivity|].
    assert (10 ^ (d - 1) <= p) as Hlow.
    { apply Z.le_trans with (10 ^ (t - 1)); [|lia]. apply Z.pow_le_mono_r; lia. }
    split.
    + destruct Hd as (_ & _ & [->|[-> _]]); [right|left; reflexivity]. clear - H3 Hpt. lia.
    + right. clear - H2 Hlow. lia.
Qed.

Lemma land_1 x : Z.land x 1 = x mod 2.
Proof. exact (Z.land_ones x 1 ltac:(lia)). Qed.
Lemma land_top x : 0 <= x < 2 ^ 128 -> (Z.land x (2 ^ 127) =? 0) = (x <? 2 ^ 127).
Proof.
  intros H. destruct (x <? 2 ^ 127) eqn:C.
  - apply Z.ltb_lt in C. apply Z.eqb_eq, Z.bits_inj'. intros n Hn. rewrite Z.land_spec, Z.bits_0, Z.pow2_bits_eqb by lia.
    destruct (Z.eqb_spec 127 n) as [<-|]; [|apply andb_false_r]. rewrite andb_true_r. apply Z.testbit_false; [lia|].
    rewrite Z.div_small by lia. reflexivity.
  - apply Z.ltb_ge in C. apply Z.eqb_neq. intros E. assert (Z.testbit (Z.land x (2 ^ 127)) 127 = true) as T.
    { rewrite Z.land_spec, Z.pow2_bits_eqb by lia. rewrite andb_true_r. apply Z.testbit_true; [lia|].
      replace (x / 2 ^ 127) with 1; [reflexivity|]. apply Z.div_unique with (x - 2 ^ 127); lia. }
    rewrite E in T. now rewrite Z.bits_0 in T.
Qed.

Lemma pow2_pos_le n : 0 <= n -> 1 <= 2 ^ n.
Proof. intros H. assert (0 < 2 ^ n) by (apply Z.pow_pos_nonneg; lia). lia. Qed.
Lemma fuel_1200 : Z.of_nat float_fuel = 1200.
Proof. reflexivity. Qed.
(** ** The first loop *)
Definition Kd : Z := 2 ^ 124.
Lemma scale_down_spec b n : forall N e5 e10, 0 < N < 2 ^ 128 -> 0 <= e5 <= 1074 -> e5 < Z.of_nat n -> -2000 <= e10 -> e10 + e5 <= 0 ->
  exists N' s, scale_down b n N e5 e10 = Ret (N', 0, e10 + s) /\ 0 <= s <= e5 /\ 0 <= N' < 2 ^ 128 /\
    (Kd - e5) * (N * 5 ^ e5) <= Kd * (N' * 10 ^ s) <= Kd * (N * 5 ^ e5).
Proof.
  assert (HK : 1074 < Kd) by reflexivity.
  induction n as [|n IH]; intros N e5 e10 HN He Hn Hl Hs; [lia|]. cbn [scale_down].
  destruct (Z.eq_dec e5 0) as [->|H0].
  { change (0 <? 0) with false. cbv iota. exists N, 0. rewrite Z.add_0_r. change (5 ^ 0) with 1. change (10 ^ 0) with 1.
    split; [reflexivity|]. clear - HN. split; [lia|]. split; [lia|]. lia. }
  replace (0 <? e5) with true by lia. rewrite land_1.
  assert (P5 : 5 ^ e5 = 5 * 5 ^ (e5 - 1)) by (rewrite <- Z.pow_succ_r by lia; f_equal; lia).
  assert (G5 : 0 < 5 ^ (e5 - 1)) by (apply Z.pow_pos_nonneg; lia).
  rewrite P5. set (F := 5 ^ (e5 - 1)) in *.
  assert (S10 : forall s, 0 <= s -> 10 ^ (s + 1) = 10 * 10 ^ s) by (intros; rewrite <- Z.pow_succ_r by lia; f_equal; lia).
  pose proof (Z.div_mod N 2 ltac:(lia)) as D2. pose proof (Z.mod_pos_bound N 2 ltac:(lia)) as M2.
  assert (halve : N <> 1 -> (e <- add b I32 e10 1 ;; f <- sub b I32 e5 1 ;; m <- Base.shr b U128 N 1 ;; scale_down b n m f e) =
    scale_down b n (N / 2) (e5 - 1) (e10 + 1)).
  { intros _. rewrite add_ok by (apply fits_i32; lia). cbn [bind]. rewrite sub_ok by (apply fits_i32; lia). reflexivity. }
  destruct (N mod 2 =? 0) eqn:C.
  - apply Z.eqb_eq in C. rewrite halve by lia.
    destruct (IH (N / 2) (e5 - 1) (e10 + 1)) as (N' & s & E & Hs' & HN' & B1 & B2); [lia..|].
    fold F in B1, B2. exists N', (s + 1). replace (e10 + (s + 1)) with (e10 + 1 + s) by lia. rewrite S10 by lia.
    split; [exact E|]. split; [lia|]. split; [exact HN'|].
    set (T := 10 ^ s) in *. set (h := N / 2) in *. assert (EN : N = 2 * h) by lia. clearbody h. subst N.
    replace (2 * h * (5 * F)) with (10 * (h * F)) by ring. replace (N' * (10 * T)) with (10 * (N' * T)) by ring.
    assert (Hh : 0 < h * F) by (apply Z.mul_pos_pos; lia). clear - B1 B2 Hh HK He H0. revert B1 B2 Hh. generalize (h * F). intros w B1 B2 Hh. set (v := N' * T) in *. clearbody v. lia.
  - apply Z.eqb_neq in C. unfold checked_mul, chk.
    destruct (fitsb U128 (N * 5)) eqn:Cf.
    + apply fitsb_fits in Cf. unfold fits in Cf. change (imax U128) with (2 ^ 128 - 1) in Cf.
      rewrite sub_ok by (apply fits_i32; lia). cbn [bind].
      destruct (IH (N * 5) (e5 - 1) e10) as (N' & s & E & Hs' & HN' & B1 & B2); [lia..|].
      fold F in B1, B2. exists N', s. split; [exact E|]. split; [lia|]. split; [exact HN'|].
      set (T := 10 ^ s) in *. replace (N * 5 * F) with (N * (5 * F)) in B1, B2 by ring.
      assert (Hw : 0 < N * (5 * F)) by (apply Z.mul_pos_pos; lia). clear - B1 B2 Hw HK He H0. set (w := N * (5 * F)) in *. clearbody w. set (v := N' * T) in *. clearbody v. lia.
    + assert (2 ^ 128 <= N * 5) as Hbig.
      { apply Z.le_ngt. intros K. rewrite fitsb_true in Cf; [discriminate|]. apply fits_u128. lia. }
      rewrite halve by lia.
      destruct (IH (N / 2) (e5 - 1) (e10 + 1)) as (N' & s & E & Hs' & HN' & B1 & B2); [lia..|].
      fold F in B1, B2. exists N', (s + 1). replace (e10 + (s + 1)) with (e10 + 1 + s) by lia. rewrite S10 by lia.
      split; [exact E|]. split; [lia|]. split; [exact HN'|].
      set (T := 10 ^ s) in *. set (h := N / 2) in *. assert (N = 2 * h + 1) as EN by lia.
      assert (Kd <= 2 * h) as Hh by (unfold Kd; lia). clearbody h. subst N.
      replace ((2 * h + 1) * (5 * F)) with (5 * ((2 * h + 1) * F)) by ring. replace (N' * (10 * T)) with (10 * (N' * T)) by ring.
      split.
      * apply Z.le_trans with (10 * ((Kd - (e5 - 1)) * (h * F))); [|clear - B1; lia].
        replace ((Kd - e5) * (5 * ((2 * h + 1) * F))) with (5 * F * ((Kd - e5) * (2 * h + 1))) by ring.
        replace (10 * ((Kd - (e5 - 1)) * (h * F))) with (5 * F * ((Kd - e5 + 1) * (2 * h))) by ring.
        apply Z.mul_le_mono_nonneg_l; [lia|].
        replace ((Kd - e5) * (2 * h + 1)) with ((Kd - e5) * (2 * h) + (Kd - e5)) by ring.
        replace ((Kd - e5 + 1) * (2 * h)) with ((Kd - e5) * (2 * h) + 2 * h) by ring. lia.
      * apply Z.le_trans with (10 * (Kd * (h * F))); [clear - B2; lia|].
        replace (Kd * (5 * ((2 * h + 1) * F))) with (10 * (Kd * (h * F)) + 5 * Kd * F) by ring.
        assert (0 < 5 * Kd * F) by (apply Z.mul_pos_pos; lia). lia.
Qed.

(** ** Trailing zeros *)
Lemma ctz_spec p : 0 <= ctz p /\ exists q, Zpos p = q * 2 ^ ctz p /\ q mod 2 = 1.
Proof.
  induction p as [p IH|p IH|]; cbn [ctz].
  - split; [lia|]. exists (Zpos p~1). split; [change (2 ^ 0) with 1; lia|]. rewrite Pos2Z.inj_xI, Z.add_comm, Z.mul_comm. now rewrite Z.mod_add.
  - destruct IH as [H0 (q & E & Hq)]. split; [lia|]. exists q. split; [|assumption].
    rewrite Z.pow_add_r by lia. change (2 ^ 1) with 2. rewrite Pos2Z.inj_xO, E. ring.
  - split; [lia|]. exists 1. now split.
Qed.
Lemma ctz_max p n k : 0 <= n -> Zpos p = k * 2 ^ n -> n <= ctz p.
Proof.
  intros Hn E. destruct (ctz_spec p) as [H0 (q & Eq & Hq)]. apply Z.le_ngt. intros H.
  assert (q = k * 2 ^ (n - ctz p - 1) * 2) as K.
  { apply (Z.mul_cancel_r _ _ (2 ^ ctz p)); [apply Z.pow_nonzero; lia|]. rewrite <- Eq, E.
    replace n with (n - ctz p - 1 + 1 + ctz p) at 1 by lia. rewrite !Z.pow_add_r by lia. change (2 ^ 1) with 2. ring. }
  rewrite K, Z.mod_mul in Hq by lia. discriminate.
Qed.

Lemma absorb5_spec b m e5 e10 : 0 < m < 2 ^ 53 -> 0 < e5 <= 1074 -> e10 = - e5 ->
  exists N s, absorb5 b m e5 e10 = Ret (N, 0, e10 + s) /\ 0 <= s <= e5 /\ 0 <= N < 2 ^ 128 /\
    (Kd - 1074) * (m * 5 ^ e5) <= Kd * (N * 10 ^ s) <= Kd * (m * 5 ^ e5) /\
    (forall k, m = k * 2 ^ e5 -> N = k /\ s = e5).
Proof.
  assert (HK : 1074 < Kd) by reflexivity.
  intros Hm He E10. unfold absorb5. replace (0 <? e5) with true by lia.
  destruct m as [|p|p]; try lia. cbn [trailing_zeros]. destruct (ctz_spec p) as [H0 (q & Eq & Hq)].
  rewrite (wrap_fits U32 e5) by (unfold fits; change (imin U32) with 0; change (imax U32) with 4294967295; lia).
  set (x := Z.min (ctz p) e5). assert (0 <= x <= e5 /\ x <= ctz p) as Hx by lia.
  rewrite (wrap_fits I32 x) by (apply fits_i32; lia). cbv zeta.
  rewrite add_ok by (apply fits_i32; lia). cbn [bind]. rewrite sub_ok by (apply fits_i32; lia). cbn [bind].
  assert (0 < 2 ^ x) as G2 by (apply Z.pow_pos_nonneg; lia).
  assert (exists m, Zpos p = m * 2 ^ x /\ 0 < m) as (m & Em & Hm0).
  { exists (q * 2 ^ (ctz p - x)). split.
    - rewrite <- Z.mul_assoc, <- Z.pow_add_r by lia. replace (ctz p - x + x) with (ctz p) by lia. exact Eq.
    - assert (0 < 2 ^ ctz p) by (apply Z.pow_pos_nonneg; lia). assert (0 < q) by (clear - Eq H; nia).
      apply Z.mul_pos_pos; [assumption|]. apply Z.pow_pos_nonneg; lia. }
  assert (m <= Zpos p) as Hmp. { rewrite Em. rewrite <- (Z.mul_1_r m) at 1. apply Z.mul_le_mono_nonneg_l; lia. }
  assert (x <= 1074) as Hx2 by lia.
  assert (x < 53) as Hx3.
  { apply Z.lt_nge. intros K. pose proof (Z.pow_le_mono_r 2 53 x ltac:(lia) K).
    assert (1 * 2 ^ x <= m * 2 ^ x) by (apply Z.mul_le_mono_nonneg_r; lia). lia. }
  assert (Base.shr b U128 (Zpos p) x = Ret m) as Es.
  { unfold Base.shr. cbn [width]. replace (0 <=? x) with true by lia. replace (x <? 128) with true by lia. cbn [andb].
    rewrite Em, Z.div_mul by lia. reflexivity. }
  rewrite Es. cbn [bind].
  assert (T10 : forall s, 0 <= s -> 10 ^ (x + s) = 2 ^ x * 5 ^ x * 10 ^ s).
  { intros s Hs. rewrite Z.pow_add_r by lia. change 10 with (2 * 5) at 1. rewrite Z.pow_mul_l. reflexivity. }
  assert (F5 : 5 ^ e5 = 5 ^ x * 5 ^ (e5 - x)) by (rewrite <- Z.pow_add_r by lia; f_equal; lia).
  assert (GF : 0 < 5 ^ (e5 - x)) by (apply Z.pow_pos_nonneg; lia).
  assert (G5x : 0 < 5 ^ x) by (apply Z.pow_pos_nonneg; lia).
  destruct (Z.eq_dec x e5) as [Exe|Exe].
  { replace (0 <? e5 - x) with false by lia. exists m, x. rewrite Exe in *.
    replace (e5 - e5) with 0 by lia. split; [reflexivity|]. split; [lia|]. split; [lia|]. split.
    - rewrite Em. specialize (T10 0 ltac:(lia)). rewrite Z.add_0_r in T10. rewrite T10. change (10 ^ 0) with 1.
      replace (m * (2 ^ e5 * 5 ^ e5 * 1)) with (m * 2 ^ e5 * 5 ^ e5) by ring. set (Y := m * 2 ^ e5 * 5 ^ e5) in *.
      assert (0 < Y) by (unfold Y; apply Z.mul_pos_pos; [apply Z.mul_pos_pos|]; lia). clearbody Y. clear - HK H. lia.
    - intros k Ek. split; [|reflexivity]. rewrite Em in Ek. apply Z.mul_cancel_r in Ek; lia. }
  replace (0 <? e5 - x) with true by lia.
  assert (Hint : forall k, Zpos p = k * 2 ^ e5 -> False).
  { intros k Ek. pose proof (ctz_max p e5 k ltac:(lia) Ek). lia. }
  pose proof (Z.log2_spec m Hm0) as [L1 L2]. pose proof (Z.log2_nonneg m) as L0.
  assert (Z.log2 m < 53) as L3 by (apply Z.log2_lt_pow2; lia). set (l := Z.log2 m) in *.
  assert (leading_zeros U128 m = 127 - l) as El.
  { unfold leading_zeros. replace (m <? 0) with false by lia. replace (m =? 0) with false by lia. fold l. cbn [width]. lia. }
  rewrite El. clearbody l. replace (127 - l =? 0) with false by lia.
  rewrite sub_ok by (unfold fits; change (imin USize) with 0; change (imax USize) with 18446744073709551615; lia). cbn [bind].
  destruct (m5_table (127 - l - 1) ltac:(lia)) as (m5 & E5 & Hm5 & Hp5). rewrite E5. cbn [bind].
  replace (127 - l - 1 + 1) with (127 - l) in Hp5 by lia.
  set (u := Z.min (e5 - x) m5). assert (1 <= u <= e5 - x /\ u <= m5) as Hu by lia. clearbody u.
  rewrite wrap_fits by (unfold fits; change (imin USize) with 0; change (imax USize) with 18446744073709551615; lia).
  rewrite p5_table by lia. cbn [bind].
  assert (0 < 5 ^ u) as Gu by (apply Z.pow_pos_nonneg; lia).
  assert (0 < m * 5 ^ u < 2 ^ 128) as HN0.
  { split; [apply Z.mul_pos_pos; lia|]. apply Z.lt_le_trans with (2 ^ Z.succ l * 2 ^ (127 - l)).
    - apply Z.lt_le_trans with (2 ^ Z.succ l * 5 ^ u); [apply Z.mul_lt_mono_pos_r; assumption|].
      apply Z.mul_le_mono_nonneg_l; [apply Z.pow_nonneg; lia|].
      apply Z.le_trans with (5 ^ m5); [apply Z.pow_le_mono_r; lia|assumption].
    - rewrite <- Z.pow_add_r by lia. apply Z.pow_le_mono_r; lia. }
  rewrite mul_ok by (apply fits_u128; lia). cbn [bind].
  assert (exists w, (if u <? e5 - x then
       match checked_mul U128 (m * 5 ^ u) 5 with
       | Some b5 => m1 <- add b I32 u 1 ;; Ret (b5, m1)
       | None => Ret (m * 5 ^ u, u)
       end
      else Ret (m * 5 ^ u, u)) = Ret (m * 5 ^ w, w) /\ 1 <= w <= e5 - x /\ 0 < m * 5 ^ w < 2 ^ 128) as (w & Ew & Hw & HNw).
  { destruct (u <? e5 - x) eqn:Cu; [|exists u; split; [reflexivity|]; lia]. apply Z.ltb_lt in Cu.
    unfold checked_mul, chk. destruct (fitsb U128 (m * 5 ^ u * 5)) eqn:Cf; [|exists u; split; [reflexivity|]; lia].
    apply fitsb_fits in Cf. unfold fits in Cf. change (imax U128) with (2 ^ 128 - 1) in Cf.
    rewrite add_ok by (apply fits_i32; lia). cbn [bind]. exists (u + 1). rewrite Z.pow_add_r by lia. change (5 ^ 1) with 5.
    rewrite Z.mul_assoc. split; [reflexivity|]. lia. }
  rewrite Ew. cbn [bind]. clear Ew HN0 Gu Hu u. rename w into u. replace (u =? 0) with false by lia.
  rewrite sub_ok by (apply fits_i32; lia). cbn [bind].
  destruct (scale_down_spec b float_fuel (m * 5 ^ u) (e5 - x - u) (e10 + x)) as (N' & s & E & Hs & HN' & B1 & B2); try lia.
  { rewrite fuel_1200. lia. }
  exists N', (x + s). replace (e10 + (x + s)) with (e10 + x + s) by lia. split; [exact E|].
  split; [lia|]. split; [exact HN'|]. split; [|intros k Ek; destruct (Hint k Ek)].
  rewrite T10 by lia. rewrite F5, Em.
  assert (5 ^ (e5 - x) = 5 ^ u * 5 ^ (e5 - x - u)) as F6 by (rewrite <- Z.pow_add_r by lia; f_equal; lia).
  rewrite <- Z.mul_assoc, <- F6 in B1, B2. set (F := 5 ^ (e5 - x)) in *. set (T := 10 ^ s) in *.
  assert (0 < 2 ^ x * 5 ^ x) as Gx by (apply Z.mul_pos_pos; lia). set (c := 2 ^ x * 5 ^ x) in *.
  replace (m * 2 ^ x * (5 ^ x * F)) with (c * (m * F)) by (unfold c; ring).
  replace (N' * (c * T)) with (c * (N' * T)) by ring. clearbody c.
  assert (0 < m * F) as GmF by (apply Z.mul_pos_pos; lia). set (w := m * F) in *. set (v := N' * T) in *. clearbody w v.
  split.
  - replace ((Kd - 1074) * (c * w)) with (c * ((Kd - 1074) * w)) by ring. replace (Kd * (c * v)) with (c * (Kd * v)) by ring.
    apply Z.mul_le_mono_nonneg_l; [lia|]. apply Z.le_trans with ((Kd - (e5 - x - u)) * w); [|exact B1].
    apply Z.mul_le_mono_nonneg_r; lia.
  - replace (Kd * (c * w)) with (c * (Kd * w)) by ring. replace (Kd * (c * v)) with (c * (Kd * v)) by ring.
    apply Z.mul_le_mono_nonneg_l; [lia|]. exact B2.
Qed.

(** ** The second loop *)
Lemma scale_up_step b n N e5 e10 : 0 <= N < 2 ^ 128 -> -1100 <= e5 < 0 -> -3000 <= e10 <= 3000 ->
  scale_up b (S n) N e5 e10 = if N <? 2 ^ 127 then scale_up b n (N * 2) (e5 + 1) (e10 - 1) else scale_up b n (N / 5) (e5 + 1) e10.
Proof.
  intros HN H5 H10. cbn [scale_up]. replace (e5 <? 0) with true by lia. rewrite land_top by assumption.
  destruct (N <? 2 ^ 127) eqn:C.
  - rewrite sub_ok by (apply fits_i32; lia). cbn [bind]. rewrite add_ok by (apply fits_i32; lia). cbn [bind].
    unfold shl. cbn [width]. change (0 <=? 1) with true. change (1 <? 128) with true. cbn [andb bind].
    change (2 ^ 1) with 2. rewrite wrap_fits; [reflexivity|]. apply Z.ltb_lt in C. apply fits_u128. lia.
  - rewrite add_ok by (apply fits_i32; lia). cbn [bind]. 
    assert (fits U128 (N / 5)) as Hf by (apply fits_u128; split; [apply Z.div_pos|apply Z.div_lt_upper_bound]; lia).
    assert (N ÷ 5 = N / 5) as Eq by (apply Z.quot_div_nonneg; lia).
    rewrite div_ok by (rewrite ?Eq; trivial; lia). rewrite Eq. reflexivity.
Qed.
Lemma scale_up_done b n N e10 : scale_up b (S n) N 0 e10 = Ret (N, 0, e10).
Proof. reflexivity. Qed.
Lemma scale_up_small b n : forall N e5 e10, 0 <= N -> N * 2 ^ (- e5) < 2 ^ 128 -> -1100 <= e5 <= 0 -> - e5 < Z.of_nat n -> -3000 <= e10 + e5 -> e10 <= 3000 ->
  scale_up b n N e5 e10 = Ret (N * 2 ^ (- e5), 0, e10 + e5).
Proof.
  induction n as [|n IH]; intros N e5 e10 HN HB H5 Hn Hl Hu; [lia|].
  destruct (Z.eq_dec e5 0) as [->|H0].
  { rewrite scale_up_done. change (- 0) with 0. change (2 ^ 0) with 1. now rewrite Z.mul_1_r, Z.add_0_r. }
  assert (2 ^ (- e5) = 2 * 2 ^ (- (e5 + 1))) as E2 by (rewrite <- Z.pow_succ_r by lia; f_equal; lia).
  assert (1 <= 2 ^ (- (e5 + 1))) as G by (apply pow2_pos_le; lia).
  set (w := 2 ^ (- (e5 + 1))) in *.
  assert (N * 2 < 2 ^ 128) as HN2.
  { apply Z.le_lt_trans with (N * 2 ^ (- e5)); [|assumption]. rewrite E2. apply Z.mul_le_mono_nonneg_l; lia. }
  rewrite scale_up_step by lia. replace (N <? 2 ^ 127) with true by lia.
  rewrite IH; try lia.
  - unfold w in *. rewrite E2. f_equal. f_equal; [f_equal; ring|lia].
Qed.
Lemma scale_up_big b n : forall N e5 e10, 2 ^ 124 <= N < 2 ^ 128 -> -1100 <= e5 <= 0 -> - e5 < Z.of_nat n -> -1000 <= e10 + e5 -> e10 <= 1100 ->
  exists N' E, scale_up b n N e5 e10 = Ret (N', 0, E) /\ 2 ^ 124 <= N' < 2 ^ 128 /\ e10 + e5 <= E <= 1100.
Proof.
  induction n as [|n IH]; intros N e5 e10 HN H5 Hn Hl Hu; [lia|].
  destruct (Z.eq_dec e5 0) as [->|H0].
  { rewrite scale_up_done. exists N, e10. split; [reflexivity|]. lia. }
  rewrite scale_up_step by lia. destruct (N <? 2 ^ 127) eqn:C.
  - destruct (IH (N * 2) (e5 + 1) (e10 - 1)) as (N' & E & Ee & HN' & HE); [lia..|]. exists N', E. split; [exact Ee|]. lia.
  - destruct (IH (N / 5) (e5 + 1) e10) as (N' & E & Ee & HN' & HE); [|lia..|].
    + apply Z.ltb_ge in C. split; [apply Z.div_le_lower_bound; lia|apply Z.div_lt_upper_bound; lia].
    + exists N', E. split; [exact Ee|]. lia.
Qed.
Lemma scale_up_large b n : forall N e5 e10, 0 < N < 2 ^ 128 -> 2 ^ 128 <= N * 2 ^ (- e5) -> -1100 <= e5 <= 0 -> - e5 < Z.of_nat n -> -1000 <= e10 + e5 -> e10 <= 1100 ->
  exists N' E, scale_up b n N e5 e10 = Ret (N', 0, E) /\ 2 ^ 124 <= N' < 2 ^ 128 /\ e10 + e5 + 1 <= E <= 1100.
Proof.
  induction n as [|n IH]; intros N e5 e10 HN HB H5 Hn Hl Hu; [lia|].
  destruct (Z.eq_dec e5 0) as [->|H0].
  { change (2 ^ (- 0)) with 1 in HB. lia. }
  assert (2 ^ (- e5) = 2 * 2 ^ (- (e5 + 1))) as E2 by (rewrite <- Z.pow_succ_r by lia; f_equal; lia).
  rewrite scale_up_step by lia. destruct (N <? 2 ^ 127) eqn:C.
  - destruct (IH (N * 2) (e5 + 1) (e10 - 1)) as (N' & E & Ee & HN' & HE); try lia.
    exists N', E. split; [exact Ee|]. lia.
  - destruct (scale_up_big b n (N / 5) (e5 + 1) e10) as (N' & E & Ee & HN' & HE); [|lia..|].
    + apply Z.ltb_ge in C. split; [apply Z.div_le_lower_bound; lia|apply Z.div_lt_upper_bound; lia].
    + exists N', E. split; [exact Ee|]. lia.
Qed.
