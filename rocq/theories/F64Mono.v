(** * F64Mono: the conversion to f64 is monotone; when it is the nearest f64. *)
From Coq Require Import SpecFloat QArith Qabs Qpower.
From Verif Require Import Base PowerTable ConstFn Sqrt Promo Ops Fixed Float Spec SpecF64 BaseFacts SimpleProofs FloatFacts F64Facts F64Rel F64Proofs ToF64.
From Verif Require Import F64Near.
From Verif Require Import Fixed.
Open Scope Z_scope.
Ltac Zify.zify_post_hook ::= idtac.

(** The five roundings of the conversion of [q + r / c]; all numbers in units of [2 ^ -1074]. *)
Definition sums (q r c S : Z) : Prop := exists A R C D,
  rne0 (q * 2 ^ K0) 1 A /\ rne0 (r * 2 ^ K0) 1 R /\ rne (c * 2 ^ K0) 1 C /\ rne0 (R * 2 ^ K0) C D /\ rne0 (A + D) 1 S.

Lemma sums_ok q r c : 0 <= q < 2 ^ 128 -> 0 <= r < c -> c < 2 ^ 128 ->
  sums q r c (units (SFadd f64prec f64emax (int_to_f64 q) (SFdiv f64prec f64emax (int_to_f64 r) (int_to_f64 c)))).
Proof.
  intros Hq Hr Hc. assert (HK : K0 = 1074) by reflexivity.
  exists (units (int_to_f64 q)), (units (int_to_f64 r)), (units (int_to_f64 c)), (units (SFdiv f64prec f64emax (int_to_f64 r) (int_to_f64 c))).
  split; [apply int_even0; lia|]. split; [apply int_even0; lia|]. split; [apply int_even; lia|].
  destruct (int_rel c ltac:(lia)) as (Mc & Ec & Fc & Nc & Bc & _ & _).
  assert (0 < units (int_to_f64 c)) as GC. { rewrite Fc. cbn [units]. apply Z.mul_pos_pos; [lia|apply pow2_pos; lia]. }
  destruct (Z.eq_dec r 0) as [->|Hr0].
  - change (int_to_f64 0) with (S754_zero false). rewrite Fc in *. cbn [SFdiv xorb units] in *. split; [left; auto|].
    destruct (Z.eq_dec q 0) as [->|Hq0]; [left; cbn; auto with zarith|right].
    destruct (int_rel q ltac:(lia)) as (Mq & Eq & Fq & Nq & Bq & _ & _). pose proof (int_even q ltac:(lia)) as R. rewrite Fq in *. cbn [SFadd units] in *.
    rewrite Z.add_0_r. exact (rne_fix _ _ _ R).
  - destruct (int_rel r ltac:(lia)) as (Mr & Er & Fr & Nr & Br & _ & _).
    destruct (div_rel false Mr Er false Mc Ec Nr Nc Br Bc) as (Md & Ed & Fd & Nd & Bd & _). cbn [xorb] in Fd.
    pose proof (div_even Mr Er Mc Ec Nr Nc Br Bc) as Rd. rewrite Fr, Fc, Fd in *. cbn [units] in *. split; [right; exact Rd|]. right.
    destruct (Z.eq_dec q 0) as [->|Hq0].
    + change (int_to_f64 0) with (S754_zero false). cbn [SFadd units Z.add]. exact (rne_fix _ _ _ Rd).
    + destruct (int_rel q ltac:(lia)) as (Mq & Eq & Fq & Nq & Bq & _ & _). rewrite Fq. cbn [units].
      apply add_even; assumption || lia.
Qed.

(** An integer rounded up does not move when one is added. *)
Lemma rounded_up_stays q A : 0 < q -> rne (q * 2 ^ K0) 1 A -> q * 2 ^ K0 < A -> rne (A + 2 ^ K0) 1 A.
Proof.
  intros Hq (_ & N & j & Hj & EA & HB & Herr & Hev) Hlt. assert (HK : K0 = 1074) by reflexivity. rewrite !Z.mul_1_r in *.
  assert (N = 2 ^ 53 \/ N < 2 ^ 53) as HN.
  { pose proof (pow2_pos j Hj) as G. destruct (Z_lt_le_dec N (2 ^ 53)); [right; assumption|left]. subst A. set (g := 2 ^ j) in *. clearbody g.
    apply Z.le_antisymm; [|assumption]. apply Z.le_ngt. intros C. assert ((2 ^ 53 + 1) * g <= N * g) by (apply Z.mul_le_mono_nonneg_r; lia). lia. }
  assert (2 ^ 52 <= N) as HN0.
  { pose proof (pow2_pos j Hj) as G. apply Z.le_ngt. intros C. subst A. set (g := 2 ^ j) in *. clearbody g.
    assert (N * g <= (2 ^ 52 - 1) * g) by (apply Z.mul_le_mono_nonneg_r; lia). lia. }
  assert (K0 < j) as HKj.
  { apply Z.lt_nge. intros C. assert (2 ^ K0 = 2 ^ (K0 - j) * 2 ^ j) as E by (rewrite <- Z.pow_add_r by lia; f_equal; lia).
    pose proof (pow2_pos j Hj) as G. subst A. rewrite E in *. set (g := 2 ^ j) in *. clearbody g. rewrite Z.mul_assoc in *. set (a := q * 2 ^ (K0 - j)) in *. clearbody a.
    clear - Hlt Herr G. assert (a < N) by (apply Z.mul_lt_mono_pos_r with g; assumption).
    assert (1 * g <= (N - a) * g) as K by (apply Z.mul_le_mono_nonneg_r; lia). rewrite Z.mul_sub_distr_r in K. lia. }
  assert (2 ^ j = 2 ^ (j - K0) * 2 ^ K0) as Ej by (rewrite <- Z.pow_add_r by lia; f_equal; lia).
  pose proof (pow2_pos K0 ltac:(lia)) as GB. pose proof (pow2_pos j Hj) as G.
  assert (2 <= 2 ^ (j - K0)) as H2 by (change 2 with (2 ^ 1) at 1; apply pow2_le; lia).
  assert (2 * 2 ^ K0 <= 2 ^ j) as H2B by (rewrite Ej; apply Z.mul_le_mono_nonneg_r; lia).
  split; [lia|]. destruct HN as [-> |HN].
  - exists (2 ^ 52), (j + 1). split; [lia|]. rewrite Z.pow_add_r by lia. change (2 ^ 1) with 2. rewrite !Z.mul_1_r.
    assert (A = 2 ^ 52 * (2 ^ j * 2)) as EA' by (rewrite EA; change (2 ^ 53) with (2 ^ 52 * 2); ring). split; [exact EA'|].
    clear - EA' GB G H2B. set (B := 2 ^ K0) in *. set (g := 2 ^ j) in *. clearbody B g. split; [lia|]. split; [lia|]. intros K. lia.
  - exists N, j. split; [assumption|]. split; [assumption|]. rewrite !Z.mul_1_r.
    assert (N * 2 ^ j <= (2 ^ 53 - 1) * 2 ^ j) by (apply Z.mul_le_mono_nonneg_r; lia).
    assert (2 ^ 52 * 2 ^ j <= N * 2 ^ j) by (apply Z.mul_le_mono_nonneg_r; lia).
    split; [lia|]. split; [lia|]. intros K. apply Hev.
    assert (2 ^ j = 2 * 2 ^ K0) as E2 by lia. assert (2 ^ (j - K0) = 2) as Ed by (apply Z.mul_reg_r with (2 ^ K0); lia).
    rewrite EA, Ej, Ed in *. set (B := 2 ^ K0) in *. clearbody B. clear - Hlt Herr GB.
    assert (q * B < (N * 2) * B) as K by lia. assert (q < N * 2) by (apply Z.mul_lt_mono_pos_r with B; assumption).
    assert (1 * B <= (N * 2 - q) * B) as K2 by (apply Z.mul_le_mono_nonneg_r; lia). rewrite Z.mul_sub_distr_r in K2. lia.
Qed.

Lemma sums_mono q r q' r' c S S' : 0 <= q < 2 ^ 128 -> 0 <= r < c -> 0 <= q' < 2 ^ 128 -> 0 <= r' < c -> q * c + r <= q' * c + r' ->
  sums q r c S -> sums q' r' c S' -> S <= S'.
Proof.
  intros Hq Hr Hq' Hr' Hle (A & R & C & D & HA & HR & HC & HD & HS) (A' & R' & C' & D' & HA' & HR' & HC' & HD' & HS').
  assert (HK : K0 = 1074) by reflexivity. pose proof (pow2_pos K0 ltac:(lia)) as GB.
  assert (C = C') as <- by (apply Z.le_antisymm; [apply (rne_mono _ _ _ _ _ _ HC HC')|apply (rne_mono _ _ _ _ _ _ HC' HC)]; lia).
  assert (0 < C) as GC by (apply (rne_pos _ _ _ HC)).
  assert (q <= q') as Hqq. { apply Z.le_ngt. intros K. assert ((q' + 1) * c <= q * c) by (apply Z.mul_le_mono_nonneg_r; lia). lia. }
  destruct (Z.eq_dec q q') as [<-|Hne].
  - assert (A = A') as <- by (apply Z.le_antisymm; [apply (rne0_mono _ _ _ _ _ _ HA HA')|apply (rne0_mono _ _ _ _ _ _ HA' HA)]; lia).
    assert (r * 2 ^ K0 <= r' * 2 ^ K0) by (apply Z.mul_le_mono_nonneg_r; lia).
    assert (R <= R') as HRR by (apply (rne0_mono _ _ _ _ _ _ HR HR'); lia).
    assert (D <= D') as HDD. { apply (rne0_mono _ _ _ _ _ _ HD HD'). apply Z.mul_le_mono_nonneg_r; [lia|]. apply Z.mul_le_mono_nonneg_r; lia. }
    apply (rne0_mono _ _ _ _ _ _ HS HS'). lia.
  - assert (r * 2 ^ K0 <= c * 2 ^ K0) by (apply Z.mul_le_mono_nonneg_r; lia).
    assert (R <= C) as HRC by (apply (rne0_mono _ _ _ _ _ _ HR (or_intror HC)); lia).
    assert (rne (2 ^ K0 * C) C (2 ^ K0)) as ROne.
    { replace (2 ^ K0) with (2 ^ 52 * 2 ^ (K0 - 52)) by (rewrite <- Z.pow_add_r by lia; f_equal; lia). apply rne_exact; [lia|lia|split; [lia|reflexivity]]. }
    assert (D <= 2 ^ K0) as HD1.
    { apply (rne0_mono _ _ _ _ _ _ HD (or_intror ROne)). apply Z.mul_le_mono_nonneg_r; [lia|]. rewrite Z.mul_comm. apply Z.mul_le_mono_nonneg_l; lia. }
    assert (0 <= D) as GD by (destruct HD as [(_ & _ & ->)|HD]; [lia|apply rne_pos in HD; lia]).
    assert (0 <= D') as GD' by (destruct HD' as [(_ & _ & ->)|HD']; [lia|apply rne_pos in HD'; lia]).
    assert (A' <= S') as HAS by (apply (rne0_mono _ _ _ _ _ _ (rne0_fix _ _ _ HA') HS'); lia).
    apply Z.le_trans with A'; [|assumption].
    assert ((q + 1) * 2 ^ K0 <= q' * 2 ^ K0) as Hq1 by (apply Z.mul_le_mono_nonneg_r; lia). replace ((q + 1) * 2 ^ K0) with (q * 2 ^ K0 + 2 ^ K0) in Hq1 by ring.
    destruct (Z_le_gt_dec A (q * 2 ^ K0)) as [CA|CA].
    + apply (rne0_mono _ _ _ _ _ _ HS HA'). lia.
    + destruct HA as [(_ & _ & ->)|HA]; [exfalso; assert (0 <= q * 2 ^ K0) by (apply Z.mul_nonneg_nonneg; lia); lia|].
      pose proof (rne_pos _ _ _ HA) as [GQ _]. assert (0 < q) as Gq by (apply Z.mul_pos_cancel_r with (2 ^ K0); assumption).
      pose proof (rounded_up_stays q A Gq HA ltac:(lia)) as RS.
      apply Z.le_trans with A; [apply (rne0_mono _ _ _ _ _ _ HS (or_intror RS)); lia|].
      apply (rne0_mono _ _ _ _ _ _ (or_intror HA) HA'). lia.
Qed.

Lemma abs_parts x c : 0 < c -> Z.abs (Z.quot x c) = Z.abs x / c /\ Z.abs (Z.rem x c) = Z.abs x mod c.
Proof.
  intros Hc. rewrite <- Z.quot_abs, <- Z.rem_abs, (Z.abs_eq c) by lia. split; [apply Z.quot_div_nonneg|apply Z.rem_mod_nonneg]; lia.
Qed.
Lemma to_f64_sums b L P x : valid b L P -> in_range L x ->
  exists f, to_f64 b L P x = Ret f /\ sums (Z.abs x / 10 ^ P) (Z.abs x mod 10 ^ P) (10 ^ P) (f64_units (f64_to_bits f)) /\
    f64_finite (f64_to_bits f) /\ (x <> 0 -> f64_sign (f64_to_bits f) = (x <? 0)) /\ (x = 0 -> f64_units (f64_to_bits f) = 0).
Proof.
  intros HV Hx. pose proof (valid_prec_38 _ _ (proj2 HV)) as HP. unfold to_f64. rewrite COEF_ok by assumption. cbn [bind].
  pose proof (pow10_pos P ltac:(lia)) as GP. pose proof (lty_hi L) as [Hh Hl]. pose proof (lo_hi L) as HLH. pose proof (hi_127 L) as H127.
  assert (10 ^ P <= hi L) as HC by (exact (proj2 (proj2 HV))). set (c := 10 ^ P) in *. unfold in_range in Hx.
  destruct (abs_parts x c GP) as [EQ ER]. pose proof (Z.div_mod (Z.abs x) c ltac:(lia)) as EA. pose proof (Z.mod_pos_bound (Z.abs x) c GP) as BR.
  pose proof (Z.div_pos (Z.abs x) c ltac:(lia) GP) as BQ0.
  assert (Z.abs x / c <= Z.abs x) as BQ by (apply Z.div_le_upper_bound; [assumption|]; assert (1 * Z.abs x <= c * Z.abs x) by (apply Z.mul_le_mono_nonneg_r; lia); lia).
  assert (fits (lty L) (Z.quot x c)) as Fq.
  { unfold fits. rewrite Hh, Hl. destruct (Z_le_gt_dec 0 x) as [C|C].
    - pose proof (Z.quot_pos x c C GP). lia.
    - pose proof (Z.quot_pos (- x) c ltac:(lia) GP) as Q1. rewrite Z.quot_opp_l in Q1 by lia. lia. }
  rewrite div_ok by (assumption || lia). cbn [bind]. rewrite rem_ok by (assumption || lia). cbn [bind]. cbv zeta.
  set (q := Z.quot x c) in *. set (r := Z.rem x c) in *.
  assert (2 ^ 127 < 2 ^ 128) as Gpow by (apply Z.pow_lt_mono_r; lia).
  assert (HS : sums (Z.abs q) (Z.abs r) c (units (SFadd f64prec f64emax (int_to_f64 (Z.abs q)) (SFdiv f64prec f64emax (int_to_f64 (Z.abs r)) (int_to_f64 c))))).
  { apply sums_ok; rewrite ?EQ, ?ER; lia. }
  eexists. split; [reflexivity|]. rewrite <- EQ, <- ER.
  destruct (Z.eq_dec x 0) as [Hx0|Hx0].
  - assert (q = 0) as Eq0 by (unfold q; rewrite Hx0; apply Z.quot_0_l; lia).
    assert (r = 0) as Er0 by (unfold r; rewrite Hx0; apply Z.rem_0_l; lia).
    rewrite Eq0, Er0 in *. change (Z.abs 0) with 0 in HS. destruct (int_rel c ltac:(lia)) as (Mc & Ec & Fc & _). rewrite Fc in *.
    change (f64_units _) with 0. split; [exact HS|]. split; [|split; [lia|reflexivity]]. split; [split; [reflexivity || apply Z.le_refl|reflexivity]|discriminate].
  - destruct (sum_pos (Z.abs q) (Z.abs r) c) as (M & E & Fs & Ns & Bs & Rs & Xs); try (rewrite ?EQ, ?ER; lia).
    assert (SFadd f64prec f64emax (int_to_f64 q) (SFdiv f64prec f64emax (int_to_f64 r) (int_to_f64 c)) = S754_finite (x <? 0) M E) as Ef.
    { destruct (x <? 0) eqn:Cx.
      - apply Z.ltb_lt in Cx. pose proof (Z.quot_pos (- x) c ltac:(lia) GP) as Q1. rewrite Z.quot_opp_l in Q1 by lia. fold q in Q1.
        pose proof (Z.rem_nonneg (- x) c ltac:(lia) ltac:(lia)) as Q2. rewrite Z.rem_opp_l in Q2 by lia. fold r in Q2.
        rewrite <- (Z.opp_involutive q), <- (Z.opp_involutive r). rewrite (Z.abs_neq q), (Z.abs_neq r) in Fs by lia.
        rewrite Z.abs_neq in EQ, ER by lia. rewrite sum_neg by (rewrite ?EQ, ?ER; lia). rewrite Fs. reflexivity.
      - apply Z.ltb_ge in Cx. pose proof (Z.quot_pos x c Cx GP) as Q1. fold q in Q1. pose proof (Z.rem_nonneg x c ltac:(lia) Cx) as Q2. fold r in Q2.
        rewrite (Z.abs_eq q), (Z.abs_eq r) in Fs by lia. exact Fs. }
    rewrite Ef. destruct (bits_fields (x <? 0) M E Ns Bs) as (B1 & B2 & B3). rewrite B3. rewrite Fs in HS.
    split; [exact HS|]. split; [exact B1|]. split; [intros _; exact B2|lia].
Qed.

(** ** Monotonicity *)
Lemma val_le raw raw' : sval raw <= sval raw' -> (f64_val raw <= f64_val raw')%Q.
Proof.
  intros H. unfold f64_val. fold (sval raw) (sval raw'). apply Qmult_le_compat_r; [|discriminate]. rewrite <- Zle_Qle. exact H.
Qed.
Lemma to_mono b b' L P x y f g : valid b L P -> valid b' L P -> in_range L x -> in_range L y -> x <= y ->
  to_f64 b L P x = Ret f -> to_f64 b' L P y = Ret g -> (f64_val (f64_to_bits f) <= f64_val (f64_to_bits g))%Q.
Proof.
  intros HV HV' Hx Hy Hle Ef Eg. apply val_le. unfold sval.
  destruct (to_f64_sums b L P x HV Hx) as (f' & Ef' & Sx & Fx & Gx & Zx). rewrite Ef in Ef'. injection Ef' as <-.
  destruct (to_f64_sums b' L P y HV' Hy) as (g' & Eg' & Sy & Fy & Gy & Zy). rewrite Eg in Eg'. injection Eg' as <-.
  pose proof (valid_prec_38 _ _ (proj2 HV)) as HP. pose proof (pow10_pos P ltac:(lia)) as GP. pose proof (lo_hi L) as HLH. pose proof (hi_127 L) as H127.
  assert (2 ^ 127 < 2 ^ 128) as Gpow by (apply Z.pow_lt_mono_r; lia). unfold in_range in Hx, Hy.
  set (c := 10 ^ P) in *.
  assert (forall z, lo L <= z <= hi L -> 0 <= Z.abs z / c < 2 ^ 128 /\ 0 <= Z.abs z mod c < c /\ Z.abs z / c * c + Z.abs z mod c = Z.abs z) as K.
  { intros z Hz. pose proof (Z.div_mod (Z.abs z) c ltac:(lia)). pose proof (Z.mod_pos_bound (Z.abs z) c GP). pose proof (Z.div_pos (Z.abs z) c ltac:(lia) GP).
    assert (Z.abs z / c <= Z.abs z). { apply Z.div_le_upper_bound; [assumption|]. assert (1 * Z.abs z <= c * Z.abs z) by (apply Z.mul_le_mono_nonneg_r; lia). lia. }
    lia. }
  destruct (K x Hx) as (Q1 & R1 & E1). destruct (K y Hy) as (Q2 & R2 & E2).
  assert (0 <= f64_units (f64_to_bits f) /\ 0 <= f64_units (f64_to_bits g)) as [P1 P2].
  { assert (forall q r S, sums q r c S -> 0 <= S) as KS.
    { intros q r S (A1 & A2 & A3 & A4 & _ & _ & _ & _ & [(_ & _ & ->)|H]); [lia|apply rne_pos in H; lia]. }
    split; eapply KS; eassumption. }
  destruct (Z.eq_dec x 0) as [X0|X0]; destruct (Z.eq_dec y 0) as [Y0|Y0].
  - rewrite (Zx X0), (Zy Y0). now destruct (f64_sign _), (f64_sign _).
  - rewrite (Zx X0), (Gy Y0). replace (y <? 0) with false by lia. destruct (f64_sign _); exact P2.
  - rewrite (Zy Y0), (Gx X0). replace (x <? 0) with true by lia. destruct (f64_sign (f64_to_bits g)); lia.
  - rewrite (Gx X0), (Gy Y0). destruct (Z.ltb_spec x 0), (Z.ltb_spec y 0); try lia.
    + apply -> Z.opp_le_mono. eapply (sums_mono _ _ _ _ c); [exact Q2|exact R2|exact Q1|exact R1|rewrite E1, E2; lia|exact Sy|exact Sx].
    + eapply (sums_mono _ _ _ _ c); [exact Q1|exact R1|exact Q2|exact R2|rewrite E1, E2; lia|exact Sx|exact Sy].
Qed.

(** ** The nearest f64 *)
Lemma units_form raw : f64_finite raw -> exists N j, 0 <= j /\ 0 <= N < 2 ^ 53 /\ f64_units raw = N * 2 ^ j.
Proof.
  intros [Hr He]. unfold f64_units. assert (0 <= f64_fraction raw < 2 ^ 52) as HF by (apply Z.mod_pos_bound; reflexivity).
  assert (0 <= f64_exponent raw) as HE by (apply Z.mod_pos_bound; reflexivity).
  destruct (Z.eqb_spec (f64_exponent raw) 0) as [C|C].
  - exists (f64_fraction raw), 0. change (2 ^ 0) with 1. lia.
  - exists (2 ^ 52 + f64_fraction raw), (f64_exponent raw - 1). lia.
Qed.
Lemma rne_nearest n d F N' j' : rne n d F -> 0 <= j' -> N' < 2 ^ 53 -> Z.abs (F * d - n) <= Z.abs (N' * 2 ^ j' * d - n).
Proof.
  intros (Hd & N & j & Hj & -> & HB & Herr & _) Hj' HN'.
  pose proof (pow2_pos j Hj) as G. pose proof (pow2_pos j' Hj') as G'.
  assert (forall T, Z.abs (N * 2 ^ j * d - n) <= Z.abs (T * 2 ^ j * d - n)) as KT.
  { intros T. destruct (Z.eq_dec T N) as [->|Hne]; [lia|]. assert (0 < 2 ^ j * d) as Gw by (apply Z.mul_pos_pos; assumption). rewrite <- !Z.mul_assoc in *.
    set (w := 2 ^ j * d) in *. clearbody w. destruct (Z_lt_le_dec T N).
    - assert (T * w <= (N - 1) * w) by (apply Z.mul_le_mono_nonneg_r; lia). rewrite Z.mul_sub_distr_r in *. lia.
    - assert ((N + 1) * w <= T * w) by (apply Z.mul_le_mono_nonneg_r; lia). rewrite Z.mul_add_distr_r in *. lia. }
  destruct (Z_le_gt_dec j j') as [C|C].
  - replace (2 ^ j') with (2 ^ (j' - j) * 2 ^ j) by (rewrite <- Z.pow_add_r by lia; f_equal; lia). rewrite (Z.mul_assoc N'). apply KT.
  - apply Z.le_trans with (Z.abs (2 ^ 52 * 2 ^ j * d - n)); [apply KT|].
    assert (N' * 2 ^ j' <= 2 ^ 52 * 2 ^ j) as K.
    { apply Z.le_trans with (2 ^ 53 * 2 ^ j'); [apply Z.mul_le_mono_nonneg_r; lia|]. change (2 ^ 53) with (2 ^ 52 * 2 ^ 1).
      rewrite <- Z.mul_assoc, <- Z.pow_add_r by lia. apply Z.mul_le_mono_nonneg_l; [lia|]. apply pow2_le. lia. }
    assert (N' * 2 ^ j' * d <= 2 ^ 52 * 2 ^ j * d) by (apply Z.mul_le_mono_nonneg_r; lia). lia.
Qed.
Lemma nearest_val P x raw : 0 <= P -> f64_finite raw -> x <> 0 -> f64_sign raw = (x <? 0) -> rne (Z.abs x * 2 ^ K0) (10 ^ P) (f64_units raw) ->
  f64_nearest (dec P x) raw.
Proof.
  intros HP HF Hx Hs HR. split; [exact HF|]. intros raw' HF'. pose proof (pow10_pos P HP) as GP. pose proof (pow2_pos K0 ltac:(discriminate)) as GB.
  destruct (units_form raw' HF') as (N' & j' & Hj' & HN' & EU').
  pose proof (rne_nearest _ _ _ N' j' HR Hj' ltac:(lia)) as H1.
  pose proof (rne_nearest _ _ _ (- N') j' HR Hj' ltac:(lia)) as H2. replace (- N' * 2 ^ j') with (- (N' * 2 ^ j')) in H2 by ring. rewrite <- EU' in H1, H2.
  assert (Z.abs (sval raw * 10 ^ P - x * 2 ^ K0) <= Z.abs (sval raw' * 10 ^ P - x * 2 ^ K0)) as K.
  { unfold sval. rewrite Hs. destruct (Z.ltb_spec x 0) as [Cx|Cx].
    - rewrite (Z.abs_neq x) in H1, H2 by lia.
      assert (forall u, Z.abs (- u * 10 ^ P - x * 2 ^ K0) = Z.abs (u * 10 ^ P - - x * 2 ^ K0)) as S.
      { intros u. rewrite <- Z.abs_opp. f_equal. ring. }
      rewrite S. destruct (f64_sign raw'); [rewrite S; exact H1|]. rewrite <- (Z.opp_involutive (f64_units raw')), S. exact H2.
    - rewrite (Z.abs_eq x) in H1, H2 by lia. destruct (f64_sign raw'); assumption. }
  assert (0 < Zq (10 ^ P))%Q as QP by (unfold Zq; change 0%Q with (inject_Z 0); rewrite <- Zlt_Qlt; exact GP).
  assert (0 < Zq (2 ^ K0))%Q as QB by (unfold Zq; change 0%Q with (inject_Z 0); rewrite <- Zlt_Qlt; exact GB).
  assert (forall r, Qabs (f64_val r - dec P x) * Zq (2 ^ K0 * 10 ^ P) == Zq (Z.abs (sval r * 10 ^ P - x * 2 ^ K0)))%Q as S.
  { intros r. apply abs_scaled. { unfold Zq. change 0%Q with (inject_Z 0). rewrite <- Zlt_Qlt. apply Z.mul_pos_pos; assumption. }
    unfold Zq. rewrite inject_Z_mult. unfold Z.sub. rewrite inject_Z_plus, inject_Z_opp, !inject_Z_mult. fold (Zq (2 ^ K0)) (Zq (10 ^ P)) (Zq (sval r)) (Zq x).
    rewrite <- (val_B r), <- (dec_c P x HP). ring. }
  apply Qmult_le_r with (Zq (2 ^ K0 * 10 ^ P)). { unfold Zq. change 0%Q with (inject_Z 0). rewrite <- Zlt_Qlt. apply Z.mul_pos_pos; assumption. }
  rewrite !S. unfold Zq. rewrite <- Zle_Qle. exact K.
Qed.
Lemma rne_small x : 0 < x <= 2 ^ 53 -> forall F, rne (x * 2 ^ K0) 1 F -> F = x * 2 ^ K0.
Proof.
  intros Hx F H. assert (HK : K0 = 1074) by reflexivity.
  assert (rne (x * 2 ^ K0) 1 (x * 2 ^ K0)) as R.
  { destruct (digits2_pos_spec x ltac:(lia)) as [D0 [D1 D2]]. set (D := Zdigits2 x) in *.
    assert (D <= 54) as D3 by (apply Z.le_ngt; intros C; pose proof (pow2_le 54 (D - 1) ltac:(lia)); lia).
    destruct (Z.eq_dec x (2 ^ 53)) as [->|Hne].
    - pose proof (rne_exact (2 ^ 52) (K0 + 1) 1 ltac:(lia) ltac:(lia) ltac:(split; [lia|reflexivity])) as R. rewrite Z.mul_1_r in R.
      rewrite Z.pow_add_r in R by lia. replace (2 ^ 53 * 2 ^ K0) with (2 ^ 52 * (2 ^ K0 * 2 ^ 1)) by (change (2 ^ 53) with (2 ^ 52 * 2 ^ 1); ring). exact R.
    - assert (D <= 53) as D4 by (apply Z.le_ngt; intros C; pose proof (pow2_le 53 (D - 1) ltac:(lia)); lia).
      assert (normal (x * 2 ^ (53 - D))) as HN.
      { pose proof (pow2_pos (53 - D) ltac:(lia)). split.
        - replace (2 ^ 52) with (2 ^ (D - 1) * 2 ^ (53 - D)) by (rewrite <- Z.pow_add_r by lia; f_equal; lia). apply Z.mul_le_mono_nonneg_r; lia.
        - replace (2 ^ 53) with (2 ^ D * 2 ^ (53 - D)) by (rewrite <- Z.pow_add_r by lia; f_equal; lia). apply Z.mul_lt_mono_pos_r; lia. }
      pose proof (rne_exact _ (K0 - (53 - D)) 1 ltac:(lia) ltac:(lia) HN) as R. rewrite Z.mul_1_r, <- Z.mul_assoc, <- Z.pow_add_r in R by lia.
      replace (53 - D + (K0 - (53 - D))) with K0 in R by lia. exact R. }
  apply Z.le_antisymm; [apply (rne_mono _ _ _ _ _ _ H R)|apply (rne_mono _ _ _ _ _ _ R H)]; lia.
Qed.
Lemma rne_coef P : 0 <= P <= 22 -> forall F, rne (10 ^ P * 2 ^ K0) 1 F -> F = 10 ^ P * 2 ^ K0.
Proof.
  intros HP F H. assert (HK : K0 = 1074) by reflexivity.
  assert (rne (10 ^ P * 2 ^ K0) 1 (10 ^ P * 2 ^ K0)) as R.
  { assert (0 < 5 ^ P <= 2 ^ 53) as H5. { split; [apply Z.pow_pos_nonneg; lia|]. clear - HP. assert (5 ^ P <= 5 ^ 22) as K by (apply Z.pow_le_mono_r; lia). apply (Z.le_trans _ _ _ K). vm_compute. discriminate. }
    assert (10 ^ P = 5 ^ P * 2 ^ P) as E10 by (rewrite <- Z.pow_mul_l; reflexivity). replace (10 ^ P * 2 ^ K0) with (5 ^ P * 2 ^ K0 * 2 ^ P) by (rewrite E10, <- !Z.mul_assoc; f_equal; apply Z.mul_comm).
    assert (exists N j, 0 <= j /\ normal N /\ 5 ^ P * 2 ^ K0 = N * 2 ^ j) as (N & j & Hj & HN & EN).
    { set (x := 5 ^ P) in *. clearbody x. destruct (digits2_pos_spec x ltac:(lia)) as [D0 [D1 D2]]. set (D := Zdigits2 x) in *.
      assert (D <= 54) as D3 by (apply Z.le_ngt; intros C; pose proof (pow2_le 54 (D - 1) ltac:(lia)); lia).
      destruct (Z.eq_dec x (2 ^ 53)) as [->|Hne].
      - exists (2 ^ 52), (K0 + 1). split; [lia|]. split; [split; [lia|reflexivity]|]. rewrite Z.pow_add_r by lia. change (2 ^ 53) with (2 ^ 52 * 2 ^ 1). ring.
      - assert (D <= 53) as D4 by (apply Z.le_ngt; intros C; pose proof (pow2_le 53 (D - 1) ltac:(lia)); lia).
        exists (x * 2 ^ (53 - D)), (K0 - (53 - D)). split; [lia|]. split.
        + pose proof (pow2_pos (53 - D) ltac:(lia)). split.
          * replace (2 ^ 52) with (2 ^ (D - 1) * 2 ^ (53 - D)) by (rewrite <- Z.pow_add_r by lia; f_equal; lia). apply Z.mul_le_mono_nonneg_r; lia.
          * replace (2 ^ 53) with (2 ^ D * 2 ^ (53 - D)) by (rewrite <- Z.pow_add_r by lia; f_equal; lia). apply Z.mul_lt_mono_pos_r; lia.
        + rewrite <- Z.mul_assoc, <- Z.pow_add_r by lia. f_equal. f_equal. lia. }
    rewrite EN, <- Z.mul_assoc, <- Z.pow_add_r by lia. pose proof (rne_exact N (j + P) 1 ltac:(lia) ltac:(lia) HN) as R. rewrite Z.mul_1_r in R. exact R. }
  apply Z.le_antisymm; [apply (rne_mono _ _ _ _ _ _ H R)|apply (rne_mono _ _ _ _ _ _ R H)]; lia.
Qed.
Lemma rne_scale n d F k : 0 < k -> rne (n * k) (d * k) F -> rne n d F.
Proof.
  intros Hk (Hd & N & j & Hj & EF & HB & Herr & Hev). assert (0 < d) as Hd' by (apply Z.mul_pos_cancel_r with k; assumption).
  rewrite !Z.mul_assoc, <- Z.mul_sub_distr_r, Z.abs_mul, (Z.abs_eq k), Z.mul_assoc in * by lia.
  split; [assumption|]. exists N, j. split; [assumption|]. split; [assumption|].
  split; [split; [apply Z.mul_le_mono_pos_r with k; lia|apply Z.mul_lt_mono_pos_r with k; lia]|].
  split; [apply Z.mul_le_mono_pos_r with k; lia|]. intros K. apply Hev. now rewrite K.
Qed.
Lemma rne_unscale n d F k : 0 < k -> rne n d F -> rne (n * k) (d * k) F.
Proof.
  intros Hk (Hd & N & j & Hj & EF & HB & Herr & Hev). split; [apply Z.mul_pos_pos; assumption|]. exists N, j. split; [assumption|]. split; [assumption|].
  rewrite !Z.mul_assoc, <- Z.mul_sub_distr_r, Z.abs_mul, (Z.abs_eq k), Z.mul_assoc by lia.
  split; [split; [apply Z.mul_le_mono_nonneg_r; lia|apply Z.mul_lt_mono_pos_r; lia]|].
  split; [apply Z.mul_le_mono_nonneg_r; lia|]. intros K. apply Hev. apply Z.mul_reg_r with k; lia.
Qed.
Lemma rne_same n d F F' : rne n d F -> rne n d F' -> F = F'.
Proof. intros H H'. apply Z.le_antisymm; [apply (rne_mono _ _ _ _ _ _ H H')|apply (rne_mono _ _ _ _ _ _ H' H)]; lia. Qed.

Lemma to_nearest b L P x f : valid b L P -> in_range L x -> to_f64 b L P x = Ret f ->
  (10 ^ P | x) \/ (P <= 22 /\ Z.abs x < 10 ^ P /\ Z.abs x <= 2 ^ 53) -> f64_nearest (dec P x) (f64_to_bits f).
Proof.
  intros HV Hx Ef Hc. pose proof (valid_prec_38 _ _ (proj2 HV)) as HP. pose proof (pow10_pos P ltac:(lia)) as GP.
  pose proof (pow2_pos K0 ltac:(discriminate)) as GB.
  destruct (to_f64_sums b L P x HV Hx) as (f' & Ef' & Sx & Fx & Gx & Zx). rewrite Ef in Ef'. injection Ef' as <-.
  destruct (Z.eq_dec x 0) as [->|X0].
  { split; [exact Fx|]. intros raw' _. assert (f64_val (f64_to_bits f) - dec P 0 == 0)%Q as ->.
    { unfold f64_val, dec, Zq. rewrite (Zx eq_refl). destruct (f64_sign _); [change (inject_Z (- 0)) with 0%Q|]; change (inject_Z 0) with 0%Q; ring. } apply Qabs_nonneg. }
  apply nearest_val; try assumption; [lia|apply Gx; assumption|].
  destruct Sx as (A & R & C & D & HA & HR & HC & HD & HS).
  destruct Hc as [[n En]|(HP22 & Hlt & H53)].
  - assert (Z.abs x = Z.abs n * 10 ^ P) as Ea by (rewrite En, Z.abs_mul, (Z.abs_eq (10 ^ P)) by lia; reflexivity). rewrite Ea in *.
    rewrite Z.mod_mul, Z.div_mul in * by lia.
    assert (R = 0) as -> by (destruct HR as [(_ & _ & H)|H]; [exact H|apply rne_pos in H; lia]).
    assert (D = 0) as -> by (destruct HD as [(_ & _ & H)|H]; [exact H|apply rne_pos in H; lia]).
    rewrite Z.add_0_r in HS. assert (n <> 0) as Hn0 by (intros ->; lia).
    destruct HA as [(_ & H & _)|HA]; [assert (0 < Z.abs n * 2 ^ K0) by (apply Z.mul_pos_pos; lia); lia|].
    destruct HS as [(_ & H & _)|HS]; [apply rne_pos in HA; lia|].
    rewrite <- (rne_same _ _ _ _ (rne_fix _ _ _ HA) HS). apply (rne_unscale _ _ _ (10 ^ P) GP) in HA. rewrite Z.mul_1_l in HA.
    replace (Z.abs n * 10 ^ P * 2 ^ K0) with (Z.abs n * 2 ^ K0 * 10 ^ P) by ring. exact HA.
  - rewrite Z.div_small, Z.mod_small in * by lia. apply rne_coef in HC; [|lia]. subst C.
    destruct HR as [(_ & H & _)|HR]; [assert (0 < Z.abs x * 2 ^ K0) by (apply Z.mul_pos_pos; lia); lia|].
    apply rne_small in HR; [|lia]. subst R.
    assert (A = 0) as -> by (destruct HA as [(_ & _ & H)|H]; [exact H|apply rne_pos in H; lia]).
    rewrite Z.add_0_l in HS.
    assert (0 < Z.abs x * 2 ^ K0 * 2 ^ K0) as G2 by (apply Z.mul_pos_pos; [apply Z.mul_pos_pos; lia|lia]).
    destruct HD as [(_ & H & _)|HD]; [lia|]. destruct HS as [(_ & H & _)|HS]; [apply rne_pos in HD; lia|].
    rewrite <- (rne_same _ _ _ _ (rne_fix _ _ _ HD) HS). apply rne_scale in HD; [exact HD|assumption].
Qed.
Lemma not_nearest : exists f, valid dev L16 2 /\ in_range L16 114 /\ to_f64 dev L16 2 114 = Ret f /\
  ~ f64_nearest (dec 2 114) (f64_to_bits f).
Proof.
  exists (S754_finite false 5134103575202366 (-52)). split; [split; [discriminate|split; vm_compute; discriminate]|].
  split; [split; vm_compute; discriminate|]. split; [vm_compute; reflexivity|]. intros [_ H].
  specialize (H (f64_to_bits (S754_finite false 5134103575202365 (-52)))).
  assert (f64_finite (f64_to_bits (S754_finite false 5134103575202365 (-52)))) as HF by (split; [split; vm_compute; [discriminate|reflexivity]|vm_compute; discriminate]).
  specialize (H HF). apply Qle_bool_iff in H. vm_compute in H. discriminate H.
Qed.
