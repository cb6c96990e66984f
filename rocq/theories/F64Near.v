(** * F64Near: the operations of the conversion to f64 round to nearest, ties to even; monotonicity. *)
From Coq Require Import SpecFloat QArith Qabs Qpower.
From Verif Require Import Base PowerTable ConstFn Sqrt Promo Ops Fixed Float Spec SpecF64 BaseFacts SimpleProofs FloatFacts F64Facts F64Rel F64Proofs ToF64.
From Verif Require Import Fixed.
Open Scope Z_scope.
Ltac Zify.zify_post_hook ::= idtac.

(** [F] is [n / d] rounded to 53 bits, ties to even; positive numbers only. *)
Definition rne (n d F : Z) : Prop :=
  0 < d /\ exists N j, 0 <= j /\ F = N * 2 ^ j /\ 2 ^ 52 * 2 ^ j * d <= n < 2 ^ 53 * 2 ^ j * d /\
    2 * Z.abs (F * d - n) <= 2 ^ j * d /\ (2 * Z.abs (F * d - n) = 2 ^ j * d -> Z.even N = true).
Definition rne0 (n d F : Z) : Prop := 0 < d /\ n = 0 /\ F = 0 \/ rne n d F.

Lemma rne_even n d x : near_rec n d x ->
  let N := round_nearest_even (shr_m x) (loc_of_shr_record x) in
  2 * Z.abs (N * d - n) = d -> Z.even N = true.
Proof.
  destruct x as [m r s]. intros (Hm & Hd & e & He & E & S). cbn [shr_m shr_r shr_s] in *.
  destruct r, s; cbn [loc_of_shr_record round_nearest_even Z.b2z] in *; cbv zeta; intros K.
  - assert (e <> 0) by (intros ->; assert (true = false) by (apply S; reflexivity); discriminate). exfalso.
    replace ((m + 1) * d) with (m * d + d) in K by ring. replace ((2 * m + 1) * d) with (2 * (m * d) + d) in E by ring. lia.
  - destruct (Z.even m) eqn:Em; [assumption|]. rewrite Z.add_1_r, Z.even_succ, <- Z.negb_even, Em. reflexivity.
  - exfalso. replace ((2 * m + 0) * d) with (2 * (m * d)) in E by ring. lia.
  - exfalso. assert (e = 0) by (apply S; reflexivity). replace ((2 * m + 0) * d) with (2 * (m * d)) in E by ring. lia.
Qed.
Lemma near_bounds n d x : near_rec n d x -> shr_m x * d <= n < (shr_m x + 1) * d.
Proof.
  destruct x as [m r s]. intros (Hm & Hd & e & He & E & S). cbn [shr_m shr_r shr_s] in *.
  replace ((m + 1) * d) with (m * d + d) by ring. replace ((2 * m + Z.b2z r) * d) with (2 * (m * d) + Z.b2z r * d) in E by ring.
  destruct r; cbn [Z.b2z] in E; lia.
Qed.

Lemma round_even s n d m e l : located n d m l -> 2 ^ 52 <= m -> -1074 <= e -> Zdigits2 m + e <= 1023 ->
  exists M k, binary_round_aux f64prec f64emax s m e l = S754_finite s M (e + k) /\ normal (Zpos M) /\
    Zdigits2 m - 53 <= k <= Zdigits2 m - 52 /\ 0 <= k /\
    rne (n * 2 ^ (e + K0)) d (Zpos M * 2 ^ (e + k + K0)).
Proof.
  intros Hl Hm He Hmax. assert (HK : K0 = 1074) by reflexivity.
  destruct (digits2_pos_spec m ltac:(lia)) as [Hd0 Hd]. set (D := Zdigits2 m) in *.
  assert (53 <= D) as HD. { apply Z.le_ngt. intros H. pose proof (pow2_le D 52 ltac:(lia)). lia. }
  unfold binary_round_aux, shr_fexp. fold D. rewrite fexp_normal by lia.
  replace (D + e - 53 - e) with (D - 53) by lia.
  pose proof Hl as Hl0. destruct Hl0 as (_ & Hdpos & _).
  destruct (shr_near n d (shr_record_of_loc m l) e (D - 53) Hl ltac:(lia)) as (x & E & Hx & Hsm).
  rewrite E. rewrite shr_m_of_loc in Hsm.
  pose proof (rne_near _ _ _ Hx) as HN. pose proof (rne_even _ _ _ Hx) as HV. pose proof (near_bounds _ _ _ Hx) as HB. cbv zeta in HN, HV.
  set (N := round_nearest_even (shr_m x) (loc_of_shr_record x)) in *. clearbody N.
  pose proof (pow2_pos (D - 53) ltac:(lia)) as Hp.
  assert (2 ^ 52 <= shr_m x < 2 ^ 53) as Hsx.
  { rewrite Hsm. split.
    - apply Z.div_le_lower_bound; [lia|]. rewrite <- Z.pow_add_r by lia. replace (D - 53 + 52) with (D - 1) by lia. lia.
    - apply Z.div_lt_upper_bound; [lia|]. rewrite <- Z.pow_add_r by lia. replace (D - 53 + 53) with D by lia. lia. }
  assert (2 ^ 52 <= N <= 2 ^ 53) as Hn by lia. destruct HN as [_ HN].
  assert (0 < 2 ^ (e + K0)) as Gg by (apply pow2_pos; lia).
  assert (R : rne (n * 2 ^ (e + K0)) d (N * 2 ^ (D - 53 + (e + K0)))).
  { split; [assumption|]. exists N, (D - 53 + (e + K0)). split; [lia|]. split; [reflexivity|].
    rewrite Z.pow_add_r by lia. set (g := 2 ^ (e + K0)) in *. set (w := 2 ^ (D - 53) * d) in *.
    assert (0 < w) as Gw by (apply Z.mul_pos_pos; assumption).
    replace (2 ^ 52 * (2 ^ (D - 53) * g) * d) with (2 ^ 52 * w * g) by (unfold w; ring).
    replace (2 ^ 53 * (2 ^ (D - 53) * g) * d) with (2 ^ 53 * w * g) by (unfold w; ring).
    replace (N * (2 ^ (D - 53) * g) * d) with (N * w * g) by (unfold w; ring).
    replace (2 ^ (D - 53) * g * d) with (w * g) by (unfold w; ring).
    rewrite <- Z.mul_sub_distr_r, Z.abs_mul, (Z.abs_eq g), Z.mul_assoc by lia.
    assert (2 ^ 52 * w <= shr_m x * w) by (apply Z.mul_le_mono_nonneg_r; lia).
    assert ((shr_m x + 1) * w <= 2 ^ 53 * w) by (apply Z.mul_le_mono_nonneg_r; lia).
    split; [split; [apply Z.mul_le_mono_nonneg_r; lia|apply Z.mul_lt_mono_pos_r; lia]|].
    split; [apply Z.mul_le_mono_nonneg_r; lia|]. intros K. apply HV. apply Z.mul_reg_r with g; lia. }
  assert (N < 2 ^ 53 \/ N = 2 ^ 53) as [Hc|Hc] by lia.
  - rewrite (digits2_eq N 53) by (change (53 - 1) with 52; lia).
    rewrite fexp_normal by lia. replace (53 + (e + (D - 53)) - 53 - (e + (D - 53))) with 0 by lia.
    cbn [SpecFloat.shr shr_record_of_loc shr_m].
    destruct N as [|p|p]; [lia| |lia]. unfold f64prec, f64emax.
    replace (Zle_bool (e + (D - 53)) (1024 - 53)) with true by lia.
    exists p, (D - 53). split; [reflexivity|]. split; [split; lia|]. split; [lia|]. split; [lia|].
    replace (e + (D - 53) + K0) with (D - 53 + (e + K0)) by lia. exact R.
  - rewrite (digits2_eq N 54) by (change (54 - 1) with 53; lia).
    rewrite fexp_normal by lia. replace (54 + (e + (D - 53)) - 53 - (e + (D - 53))) with 1 by lia.
    subst N. destruct (shr_near _ _ _ (e + (D - 53)) 1 (located_exact (2 ^ 53) ltac:(lia)) ltac:(lia)) as (x' & E' & Hx' & Hs').
    rewrite E'. rewrite shr_m_of_loc in Hs'. rewrite Hs'.
    change (2 ^ 53 / 2 ^ 1) with (Zpos 4503599627370496). cbv beta iota.
    unfold f64prec, f64emax. replace (Zle_bool (e + (D - 53) + 1) (1024 - 53)) with true by lia.
    exists 4503599627370496%positive, (D - 52). replace (e + (D - 53) + 1) with (e + (D - 52)) by lia.
    split; [reflexivity|]. split; [split; [lia|reflexivity]|]. split; [lia|]. split; [lia|].
    replace (Zpos 4503599627370496 * 2 ^ (e + (D - 52) + K0)) with (2 ^ 53 * 2 ^ (D - 53 + (e + K0))); [exact R|].
    change (2 ^ 53) with (Zpos 4503599627370496 * 2 ^ 1). rewrite <- Z.mul_assoc, <- Z.pow_add_r by lia. f_equal. f_equal. lia.
Qed.

Lemma binary_round_even s p e : let D := Zpos (digits2_pos p) in -1021 <= D + e <= 1023 -> -1074 <= e ->
  exists M E, binary_round f64prec f64emax s p e = S754_finite s M E /\ normal (Zpos M) /\ D + e - 53 <= E <= D + e - 52 /\
    rne (Zpos p * 2 ^ (e + K0)) 1 (Zpos M * 2 ^ (E + K0)).
Proof.
  intros D HDe He. assert (HK : K0 = 1074) by reflexivity. unfold binary_round. fold D. pose proof (digits2_spec p) as Hd. fold D in Hd.
  assert (0 < D) as HD by reflexivity. rewrite fexp_normal by lia. unfold shl_align.
  destruct (Z_lt_le_dec D 53) as [Hs|Hs].
  - destruct (D + e - 53 - e) as [|q|q] eqn:Eq; try lia.
    assert (Zpos (shift_pos q p) = Zpos p * 2 ^ (53 - D)) as Em
      by (rewrite shift_pos_correct; rewrite Z.mul_comm; f_equal; replace (53 - D) with (Zpos q) by lia; reflexivity).
    set (m := Zpos (shift_pos q p)) in *. clearbody m.
    assert (2 ^ 52 <= m < 2 ^ 53) as Hm.
    { rewrite Em. pose proof (pow2_pos (53 - D) ltac:(lia)).
      replace (2 ^ 52) with (2 ^ (D - 1) * 2 ^ (53 - D)) by (rewrite <- Z.pow_add_r by lia; f_equal; lia).
      replace (2 ^ 53) with (2 ^ D * 2 ^ (53 - D)) by (rewrite <- Z.pow_add_r by lia; f_equal; lia).
      split; [apply Z.mul_le_mono_nonneg_r; lia|apply Z.mul_lt_mono_pos_r; lia]. }
    assert (Zdigits2 m = 53) as Ed by (apply digits2_eq; [lia|exact Hm]).
    destruct (round_even s m 1 m (D + e - 53) loc_Exact) as (M & k & E & HM & Hk & Hk0 & R); try (rewrite ?Ed; lia). { apply located_exact. lia. }
    exists M, (D + e - 53 + k). split; [exact E|]. split; [exact HM|]. split; [lia|].
    replace (Zpos p * 2 ^ (e + K0)) with (m * 2 ^ (D + e - 53 + K0)); [exact R|].
    rewrite Em, <- Z.mul_assoc, <- Z.pow_add_r by lia. f_equal. f_equal. lia.
  - assert (match D + e - 53 - e with Zneg d => (shift_pos d p, D + e - 53) | _ => (p, e) end = (p, e)) as ->
      by (destruct (D + e - 53 - e) eqn:K; reflexivity || lia).
    assert (Zdigits2 (Zpos p) = D) as Ed by reflexivity.
    destruct (round_even s (Zpos p) 1 (Zpos p) e loc_Exact) as (M & k & E & HM & Hk & Hk0 & R).
    { apply located_exact. lia. } { pose proof (pow2_le 52 (D - 1) ltac:(lia)). lia. } { lia. } { rewrite Ed. lia. }
    rewrite Ed in Hk. exists M, (e + k). split; [exact E|]. split; [exact HM|]. split; [lia|exact R].
Qed.

Definition units (f : spec_float) : Z := match f with S754_finite _ M E => Zpos M * 2 ^ (E + K0) | _ => 0 end.

Lemma int_even x : 0 < x < 2 ^ 128 -> rne (x * 2 ^ K0) 1 (units (int_to_f64 x)).
Proof.
  intros Hx. assert (HK : K0 = 1074) by reflexivity. destruct x as [|p|p]; try lia.
  destruct (digits2_pos_spec (Zpos p) ltac:(lia)) as [D0 [D1 D2]]. cbn [Zdigits2] in *.
  assert (Zpos (digits2_pos p) <= 128) as D3.
  { apply Z.le_ngt. intros C. pose proof (pow2_le 128 (Zpos (digits2_pos p) - 1) ltac:(lia)). lia. }
  destruct (binary_round_even false p 0) as (M & E & Ef & _ & _ & R); try lia.
  change (int_to_f64 (Zpos p)) with (binary_round f64prec f64emax false p 0). rewrite Ef. exact R.
Qed.
Lemma int_even0 x : 0 <= x < 2 ^ 128 -> rne0 (x * 2 ^ K0) 1 (units (int_to_f64 x)).
Proof.
  intros Hx. destruct (Z.eq_dec x 0) as [->|H]; [left; split; [lia|split; reflexivity]|right]. apply int_even. lia.
Qed.
Lemma div_even M1 E1 M2 E2 : normal (Zpos M1) -> normal (Zpos M2) -> -52 <= E1 <= 76 -> -52 <= E2 <= 76 ->
  rne (Zpos M1 * 2 ^ (E1 + K0) * 2 ^ K0) (Zpos M2 * 2 ^ (E2 + K0)) (units (SFdiv f64prec f64emax (S754_finite false M1 E1) (S754_finite false M2 E2))).
Proof.
  intros H1 H2 HE1 HE2. assert (HK : K0 = 1074) by reflexivity. unfold normal in *. unfold SFdiv, SFdiv_core_binary.
  rewrite (digits2_eq (Zpos M1) 53) by (change (53 - 1) with 52; lia). rewrite (digits2_eq (Zpos M2) 53) by (change (53 - 1) with 52; lia).
  replace (53 + E1 - (53 + E2)) with (E1 - E2) by lia. rewrite fexp_normal by lia.
  replace (Z.min (E1 - E2 - 53) (E1 - E2)) with (E1 - E2 - 53) by lia.
  replace (E1 - E2 - (E1 - E2 - 53)) with 53 by lia. cbv zeta iota. rewrite Z.shiftl_mul_pow2 by lia.
  pose proof (Z_div_mod (Zpos M1 * 2 ^ 53) (Zpos M2) ltac:(lia)) as HD. destruct (Z.div_eucl (Zpos M1 * 2 ^ 53) (Zpos M2)) as [q r].
  destruct HD as [Eq Hr]. set (m1 := Zpos M1) in *. set (m2 := Zpos M2) in *. clearbody m1 m2.
  assert (2 ^ 52 <= q < 2 ^ 54) as Hq by (clear - Eq Hr H1 H2; nia).
  assert (Zdigits2 q = 53 \/ Zdigits2 q = 54) as Dq.
  { destruct (Z_lt_ge_dec q (2 ^ 53)); [left|right]; apply digits2_eq; (change (53 - 1) with 52 || change (54 - 1) with 53; lia). }
  assert (0 < m2) as Gm2 by lia. assert (0 <= q) as Gq by lia.
  destruct (round_even (xorb false false) _ _ q (E1 - E2 - 53) _ (location_near _ m2 q r Gq Gm2 Eq Hr)) as (M & k & E & HM & Hk & Hk0 & R); try lia.
  rewrite E. cbn [units]. destruct R as (_ & N & j & Hj & EF & HB & Herr & Hev).
  set (F := Zpos M * 2 ^ (E1 - E2 - 53 + k + K0)) in *. clearbody F.
  assert (0 < 2 ^ (E2 + K0)) as Gh by (apply pow2_pos; lia).
  assert (m1 * 2 ^ (E1 + K0) * 2 ^ K0 = m1 * 2 ^ 53 * 2 ^ (E1 - E2 - 53 + K0) * 2 ^ (E2 + K0)) as ->.
  { rewrite <- !Z.mul_assoc. f_equal. rewrite <- !Z.pow_add_r by lia. f_equal. lia. }
  set (n := m1 * 2 ^ 53 * 2 ^ (E1 - E2 - 53 + K0)) in *. set (h := 2 ^ (E2 + K0)) in *. clearbody n h.
  split; [apply Z.mul_pos_pos; assumption|]. exists N, j. split; [assumption|]. split; [assumption|].
  rewrite !Z.mul_assoc, <- Z.mul_sub_distr_r, Z.abs_mul, (Z.abs_eq h), Z.mul_assoc by lia.
  split; [split; [apply Z.mul_le_mono_nonneg_r; lia|apply Z.mul_lt_mono_pos_r; lia]|].
  split; [apply Z.mul_le_mono_nonneg_r; lia|]. intros K. apply Hev. apply Z.mul_reg_r with h; lia.
Qed.
Lemma add_even M1 E1 M2 E2 : normal (Zpos M1) -> normal (Zpos M2) -> -900 <= E1 <= 100 -> -900 <= E2 <= 100 ->
  rne (Zpos M1 * 2 ^ (E1 + K0) + Zpos M2 * 2 ^ (E2 + K0)) 1 (units (SFadd f64prec f64emax (S754_finite false M1 E1) (S754_finite false M2 E2))).
Proof.
  intros H1 H2 HE1 HE2. assert (HK : K0 = 1074) by reflexivity. unfold normal in *. unfold SFadd.
  set (ez := Z.min E1 E2). rewrite !shl_align_val by lia.
  set (A := Zpos M1 * 2 ^ (E1 - ez)). set (B := Zpos M2 * 2 ^ (E2 - ez)).
  pose proof (pow2_pos_le (E1 - ez) ltac:(lia)) as G1. pose proof (pow2_pos_le (E2 - ez) ltac:(lia)) as G2.
  assert (2 ^ 52 <= A) as GA.
  { apply Z.le_trans with (Zpos M1 * 1); [lia|]. apply Z.mul_le_mono_nonneg_l; lia. }
  assert (0 <= B) as GB by (apply Z.mul_nonneg_nonneg; lia).
  set (mx := Z.max E1 E2). assert (A + B < 2 ^ (mx - ez + 54)) as HU.
  { assert (A < 2 ^ (mx - ez + 53)) as UA.
    { apply Z.lt_le_trans with (2 ^ 53 * 2 ^ (E1 - ez)); [apply Z.mul_lt_mono_pos_r; lia|]. rewrite <- Z.pow_add_r by lia. apply pow2_le. lia. }
    assert (B < 2 ^ (mx - ez + 53)) as UB.
    { apply Z.lt_le_trans with (2 ^ 53 * 2 ^ (E2 - ez)); [apply Z.mul_lt_mono_pos_r; lia|]. rewrite <- Z.pow_add_r by lia. apply pow2_le. lia. }
    replace (mx - ez + 54) with (Z.succ (mx - ez + 53)) by lia. rewrite Z.pow_succ_r by lia. lia. }
  cbn [cond_Zopp]. destruct (A + B) as [|p|p] eqn:EAB; try lia. cbn [binary_normalize].
  destruct (digits2_pos_spec (Zpos p) ltac:(lia)) as [D0 [D1 D2]]. cbn [Zdigits2] in D0, D1, D2.
  assert (53 <= Zpos (digits2_pos p)) as D53 by (apply Z.le_ngt; intros C; pose proof (pow2_le (Zpos (digits2_pos p)) 52 ltac:(lia)); lia).
  assert (Zpos (digits2_pos p) <= mx - ez + 54) as Dmx.
  { apply Z.le_ngt. intros C. pose proof (pow2_le (mx - ez + 54) (Zpos (digits2_pos p) - 1) ltac:(lia)). lia. }
  destruct (binary_round_even false p ez) as (M & E & Ef & _ & _ & R); try lia. rewrite Ef. cbn [units].
  replace (Zpos M1 * 2 ^ (E1 + K0) + Zpos M2 * 2 ^ (E2 + K0)) with (Zpos p * 2 ^ (ez + K0)); [exact R|].
  rewrite <- EAB, Z.mul_add_distr_r. unfold A, B. rewrite <- !Z.mul_assoc, <- !Z.pow_add_r by lia. do 2 f_equal; f_equal; lia.
Qed.

(** ** Facts about the relation *)
Lemma rne_bounds n d F : rne n d F -> exists j, 0 <= j /\ 2 ^ 52 * 2 ^ j * d <= n < 2 ^ 53 * 2 ^ j * d /\ 2 ^ 52 * 2 ^ j <= F <= 2 ^ 53 * 2 ^ j.
Proof.
  intros (Hd & N & j & Hj & -> & HB & Herr & _). exists j. split; [assumption|]. split; [assumption|].
  pose proof (pow2_pos j Hj) as G. set (g := 2 ^ j) in *. clearbody g. set (w := g * d) in *.
  assert (0 < w) as Gw by (apply Z.mul_pos_pos; assumption).
  replace (2 ^ 52 * g * d) with (2 ^ 52 * w) in HB by (unfold w; ring). replace (2 ^ 53 * g * d) with (2 ^ 53 * w) in HB by (unfold w; ring).
  replace (N * g * d) with (N * w) in Herr by (unfold w; ring).
  assert (2 ^ 52 <= N <= 2 ^ 53) as HN.
  { split; apply Z.le_ngt; intros C.
    - assert (N * w <= (2 ^ 52 - 1) * w) by (apply Z.mul_le_mono_nonneg_r; lia). lia.
    - assert ((2 ^ 53 + 1) * w <= N * w) by (apply Z.mul_le_mono_nonneg_r; lia). lia. }
  split; apply Z.mul_le_mono_nonneg_r; lia.
Qed.
Lemma rne_pos n d F : rne n d F -> 0 < n /\ 0 < F.
Proof.
  intros H. pose proof (rne_bounds n d F H) as (j & Hj & HB & HF). destruct H as [Hd _]. pose proof (pow2_pos j Hj) as G.
  assert (0 < 2 ^ 52 * 2 ^ j) by lia. split; [|lia]. apply Z.lt_le_trans with (2 ^ 52 * 2 ^ j * d); [|lia]. apply Z.mul_pos_pos; lia.
Qed.
Lemma half_even a a' w : 0 < w -> forall N N', 2 * Z.abs (N * w - a) <= w -> 2 * Z.abs (N' * w - a') <= w ->
  (2 * Z.abs (N * w - a) = w -> Z.even N = true) -> (2 * Z.abs (N' * w - a') = w -> Z.even N' = true) -> a <= a' -> N <= N'.
Proof.
  intros Hw N N' H H' T T' Ha. apply Z.le_ngt. intros C.
  assert ((N' + 1) * w <= N * w) as K by (apply Z.mul_le_mono_nonneg_r; lia). replace ((N' + 1) * w) with (N' * w + w) in K by ring.
  assert (N * w = N' * w + w) as E by lia. assert (N = N' + 1) as EN by (apply Z.mul_reg_r with w; lia).
  specialize (T ltac:(lia)). specialize (T' ltac:(lia)). subst N. rewrite Z.add_1_r, Z.even_succ, <- Z.negb_even, T' in T. discriminate.
Qed.
Lemma rne_mono n d F n' d' F' : rne n d F -> rne n' d' F' -> n * d' <= n' * d -> F <= F'.
Proof.
  intros H H' Hle. pose proof (rne_bounds _ _ _ H) as (i & Hi & HBi & HFi). pose proof (rne_bounds _ _ _ H') as (i' & Hi' & HBi' & HFi').
  destruct H as (Hd & N & j & Hj & EF & HB & Herr & Hev). destruct H' as (Hd' & N' & j' & Hj' & EF' & HB' & Herr' & Hev').
  clear i Hi HBi HFi i' Hi' HBi' HFi'.
  assert (j <= j') as Hjj.
  { apply Z.le_ngt. intros C. pose proof (pow2_pos j' Hj') as G'.
    assert (2 ^ 53 * 2 ^ j' <= 2 ^ 52 * 2 ^ j) as K.
    { change (2 ^ 53) with (2 ^ 52 * 2 ^ 1). rewrite <- Z.mul_assoc, <- Z.pow_add_r by lia. apply Z.mul_le_mono_nonneg_l; [lia|]. apply pow2_le. lia. }
    assert (2 ^ 52 * 2 ^ j * d * d' <= n * d') by (apply Z.mul_le_mono_nonneg_r; lia).
    assert (n' * d < 2 ^ 53 * 2 ^ j' * d' * d) by (apply Z.mul_lt_mono_pos_r; lia).
    assert (2 ^ 53 * 2 ^ j' * (d' * d) <= 2 ^ 52 * 2 ^ j * (d' * d)) by (apply Z.mul_le_mono_nonneg_r; [apply Z.mul_nonneg_nonneg; lia|assumption]).
    replace (2 ^ 52 * 2 ^ j * (d' * d)) with (2 ^ 52 * 2 ^ j * d * d') in * by ring.
    replace (2 ^ 53 * 2 ^ j' * (d' * d)) with (2 ^ 53 * 2 ^ j' * d' * d) in * by ring. lia. }
  pose proof (pow2_pos j Hj) as G. pose proof (pow2_pos j' Hj') as G'.
  destruct (Z.eq_dec j j') as [<-|Hne].
  - subst F F'. apply Z.mul_le_mono_nonneg_r; [lia|]. set (g := 2 ^ j) in *. clearbody g.
    assert (0 < g * d * d') as Gw by (repeat apply Z.mul_pos_pos; assumption).
    apply (half_even (n * d') (n' * d) (g * d * d') Gw).
    + replace (N * (g * d * d') - n * d') with ((N * g * d - n) * d') by ring. rewrite Z.abs_mul, (Z.abs_eq d'), Z.mul_assoc by lia. apply Z.mul_le_mono_nonneg_r; lia.
    + replace (N' * (g * d * d') - n' * d) with ((N' * g * d' - n') * d) by ring. rewrite Z.abs_mul, (Z.abs_eq d), Z.mul_assoc by lia.
      replace (g * d * d') with (g * d' * d) by ring. apply Z.mul_le_mono_nonneg_r; lia.
    + replace (N * (g * d * d') - n * d') with ((N * g * d - n) * d') by ring. rewrite Z.abs_mul, (Z.abs_eq d'), Z.mul_assoc by lia. intros K. apply Hev. apply Z.mul_reg_r with d'; lia.
    + replace (N' * (g * d * d') - n' * d) with ((N' * g * d' - n') * d) by ring. rewrite Z.abs_mul, (Z.abs_eq d), Z.mul_assoc by lia.
      replace (g * d * d') with (g * d' * d) by ring. intros K. apply Hev'. apply Z.mul_reg_r with d; lia.
    + assumption.
  - destruct (rne_bounds n d F) as (i & Hi & HBi & HFi). { split; [assumption|]. exists N, j. auto. }
    destruct (rne_bounds n' d' F') as (i' & Hi' & HBi' & HFi'). { split; [assumption|]. exists N', j'. auto. }
    assert (forall a k i d, 0 <= k -> 0 <= i -> 0 < d -> 2 ^ 52 * 2 ^ k * d <= a < 2 ^ 53 * 2 ^ k * d -> 2 ^ 52 * 2 ^ i * d <= a < 2 ^ 53 * 2 ^ i * d -> k = i) as U.
    { clear. intros a k i d Hk Hi Hd H1 H2.
      assert (forall k i, 0 <= k -> 2 ^ 52 * 2 ^ k * d <= a -> a < 2 ^ 53 * 2 ^ i * d -> k <= i) as V.
      { clear - Hd. intros k i Hk H1 H2. apply Z.le_ngt. intros C.
        assert (2 ^ 53 * 2 ^ i <= 2 ^ 52 * 2 ^ k) as K.
        { change (2 ^ 53) with (2 ^ 52 * 2 ^ 1). destruct (Z_lt_le_dec i 0) as [Ci|Ci].
          - rewrite (Z.pow_neg_r 2 i) by assumption. rewrite Z.mul_0_r. apply Z.mul_nonneg_nonneg; [lia|]. apply Z.pow_nonneg. lia.
          - rewrite <- Z.mul_assoc, <- Z.pow_add_r by lia. apply Z.mul_le_mono_nonneg_l; [lia|]. apply pow2_le. lia. }
        assert (2 ^ 53 * 2 ^ i * d <= 2 ^ 52 * 2 ^ k * d) by (apply Z.mul_le_mono_nonneg_r; lia). lia. }
      apply Z.le_antisymm; apply V; lia. }
    rewrite <- (U n j i d Hj Hi Hd HB HBi) in HFi. rewrite <- (U n' j' i' d' Hj' Hi' Hd' HB' HBi') in HFi'.
    apply Z.le_trans with (2 ^ 53 * 2 ^ j); [lia|]. apply Z.le_trans with (2 ^ 52 * 2 ^ j'); [|lia].
    change (2 ^ 53) with (2 ^ 52 * 2 ^ 1). rewrite <- Z.mul_assoc, <- Z.pow_add_r by lia. apply Z.mul_le_mono_nonneg_l; [lia|]. apply pow2_le. lia.
Qed.
Lemma rne0_mono n d F n' d' F' : rne0 n d F -> rne0 n' d' F' -> n * d' <= n' * d -> F <= F'.
Proof.
  intros [(Hd & -> & ->)|H] [(Hd' & -> & ->)|H'] Hle; try lia.
  - apply rne_pos in H'. lia.
  - pose proof (rne_pos _ _ _ H). assert (0 < n * d') by (apply Z.mul_pos_pos; lia). lia.
  - exact (rne_mono _ _ _ _ _ _ H H' Hle).
Qed.
Lemma rne_exact N j d : 0 <= j -> 0 < d -> normal N -> rne (N * 2 ^ j * d) d (N * 2 ^ j).
Proof.
  intros Hj Hd [H1 H2]. split; [assumption|]. exists N, j. split; [assumption|]. split; [reflexivity|]. rewrite Z.sub_diag. change (2 * Z.abs 0) with 0.
  pose proof (pow2_pos j Hj) as G. assert (0 < 2 ^ j * d) by (apply Z.mul_pos_pos; lia).
  split; [split; [apply Z.mul_le_mono_nonneg_r; [lia|]; apply Z.mul_le_mono_nonneg_r; lia|apply Z.mul_lt_mono_pos_r; [lia|]; apply Z.mul_lt_mono_pos_r; lia]|].
  lia.
Qed.
(** Results are representable. *)
Lemma rne_normal n d F : rne n d F -> exists N j, 0 <= j /\ normal N /\ F = N * 2 ^ j.
Proof.
  intros H. pose proof (rne_bounds _ _ _ H) as (i & Hi & HBi & HFi). destruct H as (Hd & N & j & Hj & -> & HB & Herr & Hev).
  assert (2 ^ 52 <= N <= 2 ^ 53) as HN.
  { pose proof (pow2_pos j Hj) as G. set (g := 2 ^ j) in *. clearbody g. set (w := g * d) in *.
    assert (0 < w) as Gw by (apply Z.mul_pos_pos; assumption).
    replace (2 ^ 52 * g * d) with (2 ^ 52 * w) in HB by (unfold w; ring). replace (2 ^ 53 * g * d) with (2 ^ 53 * w) in HB by (unfold w; ring).
    replace (N * g * d) with (N * w) in Herr by (unfold w; ring).
    split; apply Z.le_ngt; intros C.
    - assert (N * w <= (2 ^ 52 - 1) * w) by (apply Z.mul_le_mono_nonneg_r; lia). lia.
    - assert ((2 ^ 53 + 1) * w <= N * w) by (apply Z.mul_le_mono_nonneg_r; lia). lia. }
  destruct (Z.eq_dec N (2 ^ 53)) as [->|Hne].
  - exists (2 ^ 52), (1 + j). split; [lia|]. split; [split; [lia|reflexivity]|]. rewrite Z.pow_add_r by lia. rewrite Z.mul_assoc. reflexivity.
  - exists N, j. split; [assumption|]. split; [split; lia|reflexivity].
Qed.
Lemma rne_fix n d F : rne n d F -> rne F 1 F.
Proof.
  intros H. destruct (rne_normal _ _ _ H) as (N & j & Hj & HN & ->). pose proof (rne_exact N j 1 Hj ltac:(lia) HN) as R. rewrite Z.mul_1_r in R. exact R.
Qed.
Lemma rne0_fix n d F : rne0 n d F -> rne0 F 1 F.
Proof. intros [(Hd & -> & ->)|H]; [left; auto with zarith|right]. exact (rne_fix _ _ _ H). Qed.
