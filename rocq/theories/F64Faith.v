(** * F64Faith: with up to fifteen places no f64 lies between a number and its conversion. *)
From Coq Require Import SpecFloat QArith Qabs Qpower.
From Verif Require Import Base PowerTable ConstFn Sqrt Promo Ops Fixed Float Spec SpecF64 BaseFacts SimpleProofs FloatFacts F64Facts F64Rel F64Proofs ToF64.
From Verif Require Import F64Near F64Mono.
From Verif Require Import Fixed.
Open Scope Z_scope.
Ltac Zify.zify_post_hook ::= idtac.

Lemma rne_rep N j d : 0 < N < 2 ^ 53 -> 52 <= j -> 0 < d -> rne (N * 2 ^ j * d) d (N * 2 ^ j).
Proof.
  intros HN Hj Hd. destruct (digits2_pos_spec N ltac:(lia)) as [D0 [D1 D2]]. set (D := Zdigits2 N) in *.
  assert (D <= 53) as D4 by (apply Z.le_ngt; intros C; pose proof (pow2_le 53 (D - 1) ltac:(lia)); lia).
  assert (normal (N * 2 ^ (53 - D))) as HM.
  { pose proof (pow2_pos (53 - D) ltac:(lia)). split.
    - replace (2 ^ 52) with (2 ^ (D - 1) * 2 ^ (53 - D)) by (rewrite <- Z.pow_add_r by lia; f_equal; lia). apply Z.mul_le_mono_nonneg_r; lia.
    - replace (2 ^ 53) with (2 ^ D * 2 ^ (53 - D)) by (rewrite <- Z.pow_add_r by lia; f_equal; lia). apply Z.mul_lt_mono_pos_r; lia. }
  pose proof (rne_exact _ (j - (53 - D)) d ltac:(lia) Hd HM) as R. rewrite <- (Z.mul_assoc N), <- Z.pow_add_r in R by lia.
  replace (53 - D + (j - (53 - D))) with j in R by lia. exact R.
Qed.
Lemma units_cases raw : f64_finite raw -> 0 <= f64_units raw < 2 ^ 52 \/ exists N j, 0 <= j /\ normal N /\ f64_units raw = N * 2 ^ j.
Proof.
  intros [Hr He]. unfold f64_units. assert (0 <= f64_fraction raw < 2 ^ 52) as HF by (apply Z.mod_pos_bound; reflexivity).
  assert (0 <= f64_exponent raw) as HE by (apply Z.mod_pos_bound; reflexivity).
  destruct (Z.eqb_spec (f64_exponent raw) 0) as [C|C]; [left; exact HF|right].
  exists (2 ^ 52 + f64_fraction raw), (f64_exponent raw - 1). split; [lia|]. split; [split; lia|reflexivity].
Qed.

Section Steps.
Variables (q r c A D S : Z).
Hypothesis Hq : 0 <= q < 2 ^ 128.
Hypothesis Hr : 0 <= r < c.
Hypothesis Hc : 0 < c <= 2 ^ 53.
Hypothesis HA : rne0 (q * 2 ^ K0) 1 A.
Hypothesis HD : rne0 (r * 2 ^ K0) c D.
Hypothesis HS : rne0 (A + D) 1 S.
Hypothesis Hpos : 0 < q * c + r.

Let GB : 0 < 2 ^ K0. Proof. apply pow2_pos. discriminate. Qed.
Let HK : K0 = 1074. Proof. reflexivity. Qed.
Let GA : 0 <= A. Proof. destruct HA as [(_ & _ & ->)|H]; [lia|apply rne_pos in H; lia]. Qed.
Let GD : 0 <= D. Proof. destruct HD as [(_ & _ & ->)|H]; [lia|apply rne_pos in H; lia]. Qed.
Let one : rne (2 ^ K0 * c) c (2 ^ K0).
Proof.
  replace (2 ^ K0) with (2 ^ 52 * 2 ^ (K0 - 52)) by (rewrite <- Z.pow_add_r by lia; f_equal; lia).
  apply rne_exact; [lia|lia|split; [lia|reflexivity]].
Qed.
Let D_one : D <= 2 ^ K0.
Proof.
  apply (rne0_mono _ _ _ _ _ _ HD (or_intror one)). apply Z.mul_le_mono_nonneg_r; [lia|].
  rewrite (Z.mul_comm (2 ^ K0)). apply Z.mul_le_mono_nonneg_r; lia.
Qed.
Let A_le_S : A <= S.
Proof. apply (rne0_mono _ _ _ _ _ _ (rne0_fix _ _ _ HA) HS). lia. Qed.

(** A float of at least 2^53 and not below is an integer. *)
Let big_float N j : normal N -> 0 <= j -> 2 ^ 53 * 2 ^ K0 <= N * 2 ^ j -> exists k, N * 2 ^ j = k * 2 ^ K0.
Proof.
  intros [HN1 HN2] Hj H. assert (K0 <= j) as HKj.
  { apply Z.le_ngt. intros C. assert (2 ^ j <= 2 ^ K0) by (apply pow2_le; lia). pose proof (pow2_pos j Hj).
    assert (N * 2 ^ j < 2 ^ 53 * 2 ^ j) by (apply Z.mul_lt_mono_pos_r; lia).
    assert (2 ^ 53 * 2 ^ j <= 2 ^ 53 * 2 ^ K0) by (apply Z.mul_le_mono_nonneg_l; lia). lia. }
  exists (N * 2 ^ (j - K0)). rewrite <- Z.mul_assoc, <- Z.pow_add_r by lia. do 2 f_equal. lia.
Qed.
Let A_small : q <= 2 ^ 53 -> A = q * 2 ^ K0.
Proof.
  intros H. destruct HA as [(_ & E & ->)|HR]; [lia|]. apply rne_small; [|exact HR]. split; [|assumption].
  apply rne_pos in HR. apply Z.mul_pos_cancel_r with (2 ^ K0); lia.
Qed.
Let A_float N j : normal N -> 0 <= j -> N * 2 ^ j = q * 2 ^ K0 -> A = q * 2 ^ K0.
Proof.
  intros HN Hj E. pose proof (rne_exact N j 1 Hj ltac:(lia) HN) as R. rewrite Z.mul_1_r, E in R.
  destruct HA as [(_ & E0 & ->)|HR]; [lia|]. exact (rne_same _ _ _ _ HR R).
Qed.
(** The distance from the integral part to a float less than one above it. *)
Let gap N j V : normal N -> 0 <= j -> 1 <= q -> N * 2 ^ j = q * 2 ^ K0 + V -> 0 < V < 2 ^ K0 -> rne (V * c) c V.
Proof.
  intros [HN1 HN2] Hj Hq1 E HV. pose proof (pow2_pos j Hj) as G.
  assert (K0 - 52 <= j) as H1.
  { apply Z.le_ngt. intros C. assert (2 ^ 53 * 2 ^ j <= 2 ^ K0).
    { rewrite <- Z.pow_add_r by lia. apply pow2_le. lia. }
    assert (N * 2 ^ j < 2 ^ 53 * 2 ^ j) by (apply Z.mul_lt_mono_pos_r; lia).
    assert (1 * 2 ^ K0 <= q * 2 ^ K0) by (apply Z.mul_le_mono_nonneg_r; lia). lia. }
  assert (j <= K0) as H2.
  { apply Z.le_ngt. intros C. assert (N * 2 ^ j = N * 2 ^ (j - K0) * 2 ^ K0) as E1 by (rewrite <- Z.mul_assoc, <- Z.pow_add_r by lia; do 2 f_equal; lia).
    rewrite E1 in E. assert (V = (N * 2 ^ (j - K0) - q) * 2 ^ K0) as EV by (rewrite Z.mul_sub_distr_r; lia). set (B := 2 ^ K0) in *. clearbody B.
    set (k := N * 2 ^ (j - K0) - q) in *. clearbody k. clear - EV HV. subst V.
    assert (0 < k) by (apply Z.mul_pos_cancel_r with B; lia). assert (1 * B <= k * B) by (apply Z.mul_le_mono_nonneg_r; lia). lia. }
  assert (2 ^ K0 = 2 ^ (K0 - j) * 2 ^ j) as EB by (rewrite <- Z.pow_add_r by lia; f_equal; lia).
  assert (V = (N - q * 2 ^ (K0 - j)) * 2 ^ j) as EV by (rewrite Z.mul_sub_distr_r, <- Z.mul_assoc, <- EB; lia).
  assert (2 ^ (K0 - j) <= 2 ^ 52) as H3 by (apply pow2_le; lia).
  set (n := N - q * 2 ^ (K0 - j)) in *. clearbody n.
  assert (0 < n < 2 ^ (K0 - j)) as Hn.
  { rewrite EV in HV. split; [apply Z.mul_pos_cancel_r with (2 ^ j); lia|]. apply Z.mul_lt_mono_pos_r with (2 ^ j); lia. }
  rewrite EV. apply rne_rep; lia.
Qed.

Lemma faith_below N j : normal N -> 0 <= j -> N * 2 ^ j * c <= (q * c + r) * 2 ^ K0 -> N * 2 ^ j <= S.
Proof.
  intros HN Hj H. pose proof (rne_exact N j 1 Hj ltac:(lia) HN) as RU. rewrite Z.mul_1_r in RU.
  pose proof (rne_exact N j c Hj ltac:(lia) HN) as RUc.
  replace ((q * c + r) * 2 ^ K0) with (q * 2 ^ K0 * c + r * 2 ^ K0) in H by ring.
  assert (r * 2 ^ K0 <= (c - 1) * 2 ^ K0) as HrB by (apply Z.mul_le_mono_nonneg_r; lia). rewrite Z.mul_sub_distr_r in HrB.
  set (U := N * 2 ^ j) in *.
  assert (U < q * 2 ^ K0 + 2 ^ K0) as HU by (apply Z.mul_lt_mono_pos_r with c; lia).
  destruct (Z_le_gt_dec U (q * 2 ^ K0)) as [C|C].
  { apply Z.le_trans with A; [|assumption]. apply (rne0_mono _ _ _ _ _ _ (or_intror RU) HA). lia. }
  assert (A = q * 2 ^ K0) as EA.
  { destruct (Z_le_gt_dec q (2 ^ 53)) as [C53|C53]; [exact (A_small C53)|exfalso].
    assert (2 ^ 53 * 2 ^ K0 <= q * 2 ^ K0) by (apply Z.mul_le_mono_nonneg_r; lia).
    destruct (big_float N j HN Hj ltac:(fold U; lia)) as [k Ek]. fold U in Ek. rewrite Ek in *. clear - C HU GB. set (B := 2 ^ K0) in *. clearbody B.
    assert (q < k) by (apply Z.mul_lt_mono_pos_r with B; lia). assert ((q + 1) * B <= k * B) as K by (apply Z.mul_le_mono_nonneg_r; lia). lia. }
  destruct (Z.eq_dec q 0) as [Q0|Q0].
  - rewrite Q0 in *. rewrite Z.mul_0_l in *. rewrite EA, Z.add_0_l in HS.
    assert (U <= D) as HUD. { apply (rne0_mono _ _ _ _ _ _ (or_intror RUc) HD). apply Z.mul_le_mono_nonneg_r; lia. }
    apply (rne0_mono _ _ _ _ _ _ (or_intror RU) HS). lia.
  - set (V := U - q * 2 ^ K0). pose proof (gap N j V HN Hj ltac:(lia) ltac:(unfold V, U; lia) ltac:(unfold V; lia)) as RV.
    assert (V <= D) as HVD. { apply (rne0_mono _ _ _ _ _ _ (or_intror RV) HD). apply Z.mul_le_mono_nonneg_r; [lia|]. unfold V. rewrite Z.mul_sub_distr_r. lia. }
    apply (rne0_mono _ _ _ _ _ _ (or_intror RU) HS). unfold V in HVD. lia.
Qed.
Lemma faith_above N j : normal N -> 0 <= j -> (q * c + r) * 2 ^ K0 <= N * 2 ^ j * c -> S <= N * 2 ^ j.
Proof.
  intros HN Hj H. pose proof (rne_exact N j 1 Hj ltac:(lia) HN) as RU. rewrite Z.mul_1_r in RU.
  pose proof (rne_exact N j c Hj ltac:(lia) HN) as RUc.
  replace ((q * c + r) * 2 ^ K0) with (q * 2 ^ K0 * c + r * 2 ^ K0) in H by ring.
  assert (0 <= r * 2 ^ K0) as HrB by (apply Z.mul_nonneg_nonneg; lia).
  set (U := N * 2 ^ j) in *.
  assert (q * 2 ^ K0 <= U) as HU by (apply Z.mul_le_mono_pos_r with c; lia).
  destruct (Z_le_gt_dec (A + D) U) as [CU|CU]; [apply (rne0_mono _ _ _ _ _ _ HS (or_intror RU)); lia|].
  assert (A <= U) as HAU by (apply (rne0_mono _ _ _ _ _ _ HA (or_intror RU)); lia).
  destruct (Z.lt_trichotomy A (q * 2 ^ K0)) as [CA|[EA|CA]].
  - exfalso. assert (2 ^ 53 < q) as C53 by (apply Z.lt_nge; intros C; rewrite (A_small C) in CA; lia).
    assert (2 ^ 53 * 2 ^ K0 <= q * 2 ^ K0) by (apply Z.mul_le_mono_nonneg_r; lia).
    destruct (big_float N j HN Hj ltac:(fold U; lia)) as [k Ek]. fold U in Ek.
    assert (U <> q * 2 ^ K0) as Hne by (intros E; rewrite (A_float N j HN Hj E) in CA; lia).
    assert (q < k) as Hk. { apply Z.mul_lt_mono_pos_r with (2 ^ K0); lia. }
    assert ((q + 1) * 2 ^ K0 <= k * 2 ^ K0) as K by (apply Z.mul_le_mono_nonneg_r; lia). rewrite Z.mul_add_distr_r in K. lia.
  - exfalso. set (V := U - q * 2 ^ K0). assert (0 <= V < 2 ^ K0) as HV by (unfold V; lia).
    assert (r * 2 ^ K0 <= V * c) as HVc by (unfold V; rewrite Z.mul_sub_distr_r; lia).
    destruct (Z.eq_dec V 0) as [V0|V0].
    + assert (r * 2 ^ K0 = 0) as Er by (rewrite V0 in HVc; lia). destruct HD as [(_ & _ & ED)|RD]; [unfold V in *; lia|]. apply rne_pos in RD. lia.
    + assert (D <= V); [|unfold V in *; lia].
      destruct (Z.eq_dec q 0) as [Q0|Q0].
      * assert (V = U) as EVU by (unfold V; rewrite Q0; lia). rewrite EVU. apply (rne0_mono _ _ _ _ _ _ HD (or_intror RUc)). apply Z.mul_le_mono_nonneg_r; [lia|]. unfold V in HVc. rewrite Q0, Z.mul_0_l, Z.sub_0_r in HVc. exact HVc.
      * pose proof (gap N j V HN Hj ltac:(lia) ltac:(unfold V, U; lia) ltac:(lia)) as RV.
        apply (rne0_mono _ _ _ _ _ _ HD (or_intror RV)). apply Z.mul_le_mono_nonneg_r; lia.
  - destruct HA as [(_ & _ & E)|RA]; [exfalso; assert (0 <= q * 2 ^ K0) by (apply Z.mul_nonneg_nonneg; lia); lia|].
    pose proof (rne_pos _ _ _ RA) as [GQ _]. assert (0 < q) as Gq by (apply Z.mul_pos_cancel_r with (2 ^ K0); assumption).
    pose proof (rounded_up_stays q A Gq RA ltac:(lia)) as RS.
    apply Z.le_trans with A; [|assumption]. apply (rne0_mono _ _ _ _ _ _ HS (or_intror RS)). lia.
Qed.
End Steps.


Lemma val_dec P x raw : 0 <= P -> (f64_val raw * Zq (2 ^ K0 * 10 ^ P) == Zq (sval raw * 10 ^ P))%Q /\
  (dec P x * Zq (2 ^ K0 * 10 ^ P) == Zq (x * 2 ^ K0))%Q.
Proof.
  intros HP. unfold Zq. rewrite !inject_Z_mult. fold (Zq (2 ^ K0)) (Zq (10 ^ P)) (Zq (sval raw)) (Zq x).
  rewrite <- (val_B raw), <- (dec_c P x HP). split; ring.
Qed.
Lemma scale_pos P : 0 <= P -> (0 < Zq (2 ^ K0 * 10 ^ P))%Q.
Proof.
  intros HP. unfold Zq. change 0%Q with (inject_Z 0). rewrite <- Zlt_Qlt. apply Z.mul_pos_pos; [apply pow2_pos; discriminate|apply pow10_pos; assumption].
Qed.
Lemma val_le_dec P x raw : 0 <= P -> (f64_val raw <= dec P x)%Q -> sval raw * 10 ^ P <= x * 2 ^ K0.
Proof.
  intros HP H. destruct (val_dec P x raw HP) as [E1 E2]. apply (Qmult_le_compat_r _ _ (Zq (2 ^ K0 * 10 ^ P))) in H; [|apply Qlt_le_weak, scale_pos, HP].
  rewrite E1, E2 in H. unfold Zq in H. rewrite <- Zle_Qle in H. exact H.
Qed.
Lemma dec_le_val P x raw : 0 <= P -> (dec P x <= f64_val raw)%Q -> x * 2 ^ K0 <= sval raw * 10 ^ P.
Proof.
  intros HP H. destruct (val_dec P x raw HP) as [E1 E2]. apply (Qmult_le_compat_r _ _ (Zq (2 ^ K0 * 10 ^ P))) in H; [|apply Qlt_le_weak, scale_pos, HP].
  rewrite E1, E2 in H. unfold Zq in H. rewrite <- Zle_Qle in H. exact H.
Qed.

(** The magnitudes, for any finite float. *)
Lemma faith_units q r c S raw : 0 <= q < 2 ^ 128 -> 0 <= r < c -> c <= 2 ^ 53 -> 0 < q * c + r -> sums q r c S -> f64_finite raw ->
  (f64_units raw * c <= (q * c + r) * 2 ^ K0 -> f64_units raw <= S) /\ ((q * c + r) * 2 ^ K0 <= f64_units raw * c -> S <= f64_units raw).
Proof.
  intros Hq Hr Hc Hpos (A & R & C & D & HA & HR & HC & HD & HS) HF. pose proof (pow2_pos K0 ltac:(discriminate)) as GB.
  assert (C = c * 2 ^ K0) as EC by (apply rne_small; [lia|exact HC]). subst C.
  assert (R = r * 2 ^ K0) as ER. { destruct HR as [(_ & E & ->)|HR]; [lia|]. apply rne_small; [|exact HR]. apply rne_pos in HR. split; [apply Z.mul_pos_cancel_r with (2 ^ K0); lia|lia]. }
  subst R. assert (rne0 (r * 2 ^ K0) c D) as HD'.
  { destruct HD as [(E1 & E2 & ->)|HD]; [left; split; [lia|split; [|reflexivity]]|right; apply rne_scale in HD; [exact HD|assumption]].
    apply Z.mul_eq_0_l in E2; lia. }
  assert (2 ^ 105 < 2 ^ K0) as G105 by (apply Z.pow_lt_mono_r; [lia|discriminate|reflexivity]).
  assert (1 * 2 ^ K0 <= (q * c + r) * 2 ^ K0) as H1 by (apply Z.mul_le_mono_nonneg_r; lia).
  destruct (units_cases raw HF) as [Hs|(N & j & Hj & HN & ->)].
  - assert (f64_units raw * c <= f64_units raw * 2 ^ 53) as H2 by (apply Z.mul_le_mono_nonneg_l; lia).
    change (2 ^ 105) with (2 ^ 52 * 2 ^ 53) in G105. split; [intros _|intros H; exfalso; lia].
    apply Z.le_trans with (2 ^ 52 * 2 ^ 0); [rewrite Z.mul_1_r; lia|].
    assert (normal (2 ^ 52)) as N52 by (split; [lia|reflexivity]). apply (faith_below q r c A D S); try assumption; try lia.
  - split; intros H; [apply (faith_below q r c A D S)|apply (faith_above q r c A D S)]; try assumption; lia.
Qed.

Lemma to_faithful b L P x f : valid b L P -> P <= 15 -> in_range L x -> to_f64 b L P x = Ret f -> f64_faithful (dec P x) (f64_to_bits f).
Proof.
  intros HV HP15 Hx Ef. pose proof (valid_prec_38 _ _ (proj2 HV)) as HP. pose proof (pow10_pos P ltac:(lia)) as GP. pose proof (lo_hi L) as HLH. pose proof (hi_127 L) as H127.
  assert (2 ^ 127 < 2 ^ 128) as Gpow by (apply Z.pow_lt_mono_r; lia). unfold in_range in Hx.
  destruct (to_f64_sums b L P x HV Hx) as (f' & Ef' & Sx & Fx & Gx & Zx). rewrite Ef in Ef'. injection Ef' as <-.
  split; [exact Fx|]. intros raw' HF'. pose proof (pow2_pos K0 ltac:(discriminate)) as GB. pose proof (units_nonneg raw' HF') as GU. pose proof (units_nonneg _ Fx) as GS.
  assert (10 ^ P <= 2 ^ 53) as Hc by (apply Z.le_trans with (10 ^ 15); [apply Z.pow_le_mono_r; lia|vm_compute; discriminate]).
  set (c := 10 ^ P) in *.
  pose proof (Z.div_mod (Z.abs x) c ltac:(lia)) as EA. pose proof (Z.mod_pos_bound (Z.abs x) c GP) as BR. pose proof (Z.div_pos (Z.abs x) c ltac:(lia) GP) as BQ0.
  assert (Z.abs x / c <= Z.abs x) as BQ by (apply Z.div_le_upper_bound; [assumption|]; assert (1 * Z.abs x <= c * Z.abs x) by (apply Z.mul_le_mono_nonneg_r; lia); lia).
  assert (x <> 0 -> (f64_units raw' * c <= Z.abs x * 2 ^ K0 -> f64_units raw' <= f64_units (f64_to_bits f)) /\
                    (Z.abs x * 2 ^ K0 <= f64_units raw' * c -> f64_units (f64_to_bits f) <= f64_units raw')) as K.
  { intros X0. rewrite EA, (Z.mul_comm c). apply faith_units; try assumption; lia. }
  assert (0 <= f64_units raw' * c) as GUc by (apply Z.mul_nonneg_nonneg; lia).
  split; intros H; apply val_le; [apply val_le_dec in H; [|lia]|apply dec_le_val in H; [|lia]]; fold c in H; unfold sval in *.
  - destruct (Z.lt_trichotomy x 0) as [C|[C|C]].
    + rewrite (Gx ltac:(lia)). destruct (Z.ltb_spec x 0); [|lia]. destruct (K ltac:(lia)) as [_ K2]. rewrite Z.abs_neq, Z.mul_opp_l in K2 by lia.
      assert (x * 2 ^ K0 < 0) by (apply Z.mul_neg_pos; lia).
      destruct (f64_sign raw'); [rewrite Z.mul_opp_l in H; lia|lia].
    + rewrite (Zx C). subst x. rewrite Z.mul_0_l in H. apply Z.le_trans with 0; [|destruct (f64_sign _); lia].
      apply Z.mul_le_mono_pos_r with c; lia.
    + rewrite (Gx ltac:(lia)). destruct (Z.ltb_spec x 0); [lia|]. destruct (K ltac:(lia)) as [K1 _]. rewrite Z.abs_eq in K1 by lia.
      destruct (f64_sign raw'); lia.
  - destruct (Z.lt_trichotomy x 0) as [C|[C|C]].
    + rewrite (Gx ltac:(lia)). destruct (Z.ltb_spec x 0); [|lia]. destruct (K ltac:(lia)) as [K1 _]. rewrite Z.abs_neq, Z.mul_opp_l in K1 by lia.
      destruct (f64_sign raw'); [rewrite Z.mul_opp_l in H; lia|lia].
    + rewrite (Zx C). subst x. rewrite Z.mul_0_l in H. apply Z.le_trans with 0; [destruct (f64_sign _); lia|].
      apply Z.mul_le_mono_pos_r with c; lia.
    + rewrite (Gx ltac:(lia)). destruct (Z.ltb_spec x 0); [lia|]. destruct (K ltac:(lia)) as [_ K2]. rewrite Z.abs_eq in K2 by lia.
      assert (0 < x * 2 ^ K0) by (apply Z.mul_pos_pos; lia).
      destruct (f64_sign raw'); [rewrite Z.mul_opp_l in H; lia|lia].
Qed.
Lemma sixteen_not_faithful : exists x f, valid dev L64 16 /\ in_range L64 x /\ to_f64 dev L64 16 x = Ret f /\ ~ f64_faithful (dec 16 x) (f64_to_bits f).
Proof.
  exists 9585006193642145, (S754_finite false 8633406064406131 (-53)). split; [split; [discriminate|split; vm_compute; discriminate]|].
  split; [split; vm_compute; discriminate|]. split; [vm_compute; reflexivity|]. intros [_ H].
  specialize (H (f64_to_bits (S754_finite false 8633406064406132 (-53)))).
  assert (f64_finite (f64_to_bits (S754_finite false 8633406064406132 (-53)))) as HF by (split; [split; vm_compute; [discriminate|reflexivity]|vm_compute; discriminate]).
  destruct (H HF) as [K _]. assert (f64_val (f64_to_bits (S754_finite false 8633406064406132 (-53))) <= dec 16 9585006193642145)%Q as HL by (apply Qle_bool_iff; vm_compute; reflexivity).
  specialize (K HL). apply Qle_bool_iff in K. vm_compute in K. discriminate K.
Qed.
