(** * U256OpsFacts: the remaining operators of four-word integers, and signed arithmetic at the limits. *)
From Verif Require Import Base Sqrt U256 I256 Promo Spec BaseFacts ArithProofs FloatFacts SqrtFacts WordFacts DivWord ShiftFacts
  KnuthFacts I256Facts Sqrt256 Wide.
From Verif Require Import U256Ops.
Ltac Zify.zify_post_hook ::= idtac.

Lemma small_word v : 0 <= v < 2 ^ 64 -> unsigned4 (u256_of_u64 v) v.
Proof. intros H. exists v, 0, 0, 0. repeat split; try lia. Qed.
Theorem of_u64 v : 0 <= v < 2 ^ 64 -> unsigned4 (u256_of_u64 v) v.
Proof. exact (small_word v). Qed.
Theorem of_u32 v : 0 <= v < 2 ^ 32 -> unsigned4 (u256_of_u32 v) v.
Proof.
  intros H. unfold u256_of_u32. rewrite wrap_u64. change B with (2 ^ 64). assert (2 ^ 32 < 2 ^ 64) by reflexivity.
  rewrite Z.mod_small by lia. apply small_word. lia.
Qed.
Theorem of_i64 v : - 2 ^ 63 <= v < 2 ^ 63 ->
  (0 <= v -> exists z, u256_of_i64 v = Ret z /\ unsigned4 z v) /\ (v < 0 -> u256_of_i64 v = Panic).
Proof.
  intros H. unfold u256_of_i64. split; intros H0.
  - replace (0 <=? v) with true by lia. rewrite wrap_u64. change B with (2 ^ 64). assert (2 ^ 63 < 2 ^ 64) by reflexivity.
    rewrite Z.mod_small by lia. eexists. split; [reflexivity|]. apply small_word. lia.
  - replace (0 <=? v) with false by lia. reflexivity.
Qed.
Lemma fits_word_spec x : wf 4 x -> fits_word x = (lval x <? B).
Proof.
  intros Hx. destruct (wf4_inv x Hx) as (w0 & w1 & w2 & w3 & -> & H0 & H1 & H2 & H3). unfold fits_word. cbn [tl forallb].
  rewrite lval4. unfold word in *. pose proof B_pos as HB.
  destruct (Z.eqb_spec w1 0) as [->|N1]; cbn [andb].
  - destruct (Z.eqb_spec w2 0) as [->|N2]; cbn [andb].
    + destruct (Z.eqb_spec w3 0) as [->|N3]; cbn [andb].
      * symmetry. apply Z.ltb_lt. lia.
      * symmetry. apply Z.ltb_ge. assert (1 <= B * w3) by nia. assert (B <= B * (B * w3)) by nia. nia.
    + symmetry. apply Z.ltb_ge. assert (1 <= w2 + B * w3) by nia. nia.
  - symmetry. apply Z.ltb_ge. assert (0 <= B * (w2 + B * w3)) by nia. nia.
Qed.
Theorem to_usize x a : unsigned4 x a -> as_usize x = if a <? 2 ^ 64 then Ret a else Panic.
Proof.
  rewrite unsigned4_wf. intros [W <-]. unfold as_usize. pose proof (fits_word_spec x W) as F.
  destruct (wf4_inv x W) as (w0 & w1 & w2 & w3 & -> & H0 & H1 & H2 & H3).
  change (idx [w0; w1; w2; w3] 0) with (Ret w0). cbn [bind]. rewrite F. change (2 ^ 64) with B. clear F.
  replace (imax USize <? w0) with false by (symmetry; apply Z.ltb_ge; change (imax USize) with (B - 1); unfold word in H0; lia).
  rewrite orb_false_r. destruct (Z.ltb_spec (lval [w0; w1; w2; w3]) B) as [C|C]; cbn [negb]; [|reflexivity].
  rewrite lval4 in *. unfold word in *. pose proof B_pos.
  assert (w1 + B * (w2 + B * w3) = 0) as E by nia. rewrite E. change (wrap USize w0) with (w0 mod B). rewrite Z.mod_small by lia. f_equal. lia.
Qed.
Theorem of_u128 b v : 0 <= v < 2 ^ 128 -> exists z, u256_of_u128 b v = Ret z /\ unsigned4 z v /\ u128_of_u256 b z = Ret (Some v).
Proof.
  intros H. change (2 ^ 128) with (B * B) in H. destruct (u256_of_u128_ok b v H) as (z & E & W & V). exists z. split; [exact E|].
  rewrite unsigned4_wf. split; [auto|]. rewrite u128_of_u256_ok, V by assumption. replace (v <? B * B) with true by lia. reflexivity.
Qed.
Theorem low_word x a : unsigned4 x a -> low_u64 x = Ret (a mod 2 ^ 64).
Proof.
  rewrite unsigned4_wf. intros [W <-]. destruct (wf4_inv x W) as (w0 & w1 & w2 & w3 & -> & H0 & H1 & H2 & H3).
  change (low_u64 [w0; w1; w2; w3]) with (Ret w0). f_equal. rewrite lval4. change (2 ^ 64) with B.
  rewrite Z.mul_comm, Z.mod_add by (pose proof B_pos; lia). symmetry. apply Z.mod_small. exact H0.
Qed.
Theorem mul_machine b x a c : unsigned4 x a -> 0 <= c < 2 ^ 64 ->
  (a * c < 2 ^ 256 -> exists z, u256_mul_u64 b x c = Ret z /\ unsigned4 z (a * c)) /\
  (2 ^ 256 <= a * c -> u256_mul_u64 b x c = Panic).
Proof.
  rewrite unsigned4_wf. intros [W <-] Hc. change (2 ^ 64) with B in Hc. change (2 ^ 256) with (Bp 4). unfold u256_mul_u64.
  rewrite wrap_u64, Z.mod_small by assumption.
  pose proof W as [Lx Fx]. destruct (ov_mul_u64_spec b x c 0 Fx Hc word0) as (r & k & -> & Wr & Wk & E). cbn [bind].
  rewrite Lx in *. pose proof (wf_bound _ _ Wr) as Br. pose proof (Bp_pos 4) as BP. unfold word in Wk. split; intros H.
  - assert (k = 0) as -> by nia. cbn. exists r. split; [reflexivity|]. rewrite unsigned4_wf. split; [assumption|lia].
  - replace (0 <? k) with true; [reflexivity|]. symmetry. apply Z.ltb_lt. nia.
Qed.

(** ** Shifts by any amount *)
Lemma divmod64 k r : 0 <= r < 64 -> (64 * k + r) / 64 = k /\ (64 * k + r) mod 64 = r.
Proof.
  intros Hr. split; symmetry; [apply (Z.div_unique_pos _ _ _ r)|apply (Z.mod_unique_pos _ _ k)]; lia.
Qed.
Lemma shl_any b x s : wf 4 x -> 0 <= s -> exists z, u256_shl b x s = Ret z /\ wf 4 z /\ lval z = (lval x * 2 ^ s) mod Bp 4.
Proof.
  intros Hx Hs.
  destruct (Z_lt_le_dec s 64) as [C0|C0]; [apply u256_shl_spec; [assumption|lia]|].
  destruct (Z.le_gt_cases 256 s) as [C4|C4].
  { assert (4 <= s / 64) as K by (apply Z.div_le_lower_bound; lia). unfold u256_shl.
    replace (Z.to_nat (4 - s / 64)) with 0%nat by lia. replace (Z.to_nat (4 - (s / 64 + 1))) with 0%nat by lia. cbn [for_ bind].
    assert ((lval x * 2 ^ s) mod Bp 4 = 0) as ->.
    { replace s with (256 + (s - 256)) by lia. rewrite Z.pow_add_r by lia. change (2 ^ 256) with (Bp 4).
      replace (lval x * (Bp 4 * 2 ^ (s - 256))) with (lval x * 2 ^ (s - 256) * Bp 4) by ring. apply Z.mod_mul. pose proof (Bp_pos 4). lia. }
    destruct (0 <? s mod 64); exists zero; (split; [reflexivity|]; split; [apply wf4; apply word0|reflexivity]). }
  destruct (wf4_inv x Hx) as (w0 & w1 & w2 & w3 & -> & H0 & H1 & H2 & H3).
  assert (exists k r, s = 64 * k + r /\ 0 <= r < 64 /\ 1 <= k <= 3) as (k & r & -> & Hr & Hk).
  { exists (s / 64), (s mod 64). split; [apply Z.div_mod; lia|]. split; [apply Z.mod_pos_bound; lia|].
    split; [apply Z.div_le_lower_bound; lia|]. assert (s / 64 < 4) by (apply Z.div_lt_upper_bound; lia). lia. }
  destruct (divmod64 k r Hr) as [Ed Em]. rewrite Z.pow_add_r by lia.
  destruct (pow_split r ltac:(lia)) as (E & Hp & Hq).
  destruct (word_split w0 _ _ H0 E Hp Hq) as (h0 & l0 & D0 & M0 & E0 & L0 & K0).
  destruct (word_split w1 _ _ H1 E Hp Hq) as (h1 & l1 & D1 & M1 & E1 & L1 & K1).
  destruct (word_split w2 _ _ H2 E Hp Hq) as (h2 & l2 & D2 & M2 & E2 & L2 & K2).
  unfold u256_shl. rewrite Ed, Em. clear Ed Em C0 C4 Hs. unfold zero.
  assert (k = 1 \/ k = 2 \/ k = 3) as [->|[->| ->]] by lia; clear Hk.
  - change (Z.to_nat (4 - 1)) with 3%nat. change (Z.to_nat (4 - (1 + 1))) with 2%nat. cbn [for_].
    st. rewrite M0, M1, M2. change (2 ^ (64 * 1)) with B. set (p := 2 ^ r) in *. set (q := 2 ^ (64 - r)) in *.
    assert (forall c0 c1, c0 = h0 -> c1 = h1 ->
      wf 4 [0; l0 * p; l1 * p + c0; l2 * p + c1] /\ lval [0; l0 * p; l1 * p + c0; l2 * p + c1] = (lval [w0; w1; w2; w3] * (B * p)) mod Bp 4) as Fin.
    { intros c0 c1 -> ->. assert (wf 4 [0; l0 * p; l1 * p + h0; l2 * p + h1]) as W.
      { apply wf4; try exact word0; try (eapply shl_word; eassumption). rewrite <- (Z.add_0_r (l0 * p)). eapply shl_word; try eassumption. lia. }
      split; [exact W|]. symmetry. apply mod_eq_small; [apply wf_bound, W|].
      exists (h2 + w3 * p). rewrite !lval4, Bp4. rewrite E0, E1, E2. rewrite <- E. ring. }
    destruct (Z.ltb_spec 0 r) as [Hs0|Hs0].
    + assert (0 <= 64 - r < 64) as Hs' by lia. assert (0 <= r <= 64) as Hs2 by lia. st. fold q. rewrite D0, D1.
      do 2 (rewrite add_ok by (apply fits_u64; eapply shl_word; eassumption); st).
      eexists. split; [reflexivity|]. apply Fin; reflexivity.
    + assert (p = 1) as Ep by (unfold p; replace r with 0 by lia; reflexivity).
      eexists. split; [reflexivity|]. specialize (Fin 0 0). rewrite !Z.add_0_r in Fin.
      apply Fin; [clear - K0 Ep|clear - K1 Ep]; lia.
  - change (Z.to_nat (4 - 2)) with 2%nat. change (Z.to_nat (4 - (2 + 1))) with 1%nat. cbn [for_].
    st. rewrite M0, M1. change (2 ^ (64 * 2)) with (B * B). set (p := 2 ^ r) in *. set (q := 2 ^ (64 - r)) in *.
    assert (forall c0, c0 = h0 ->
      wf 4 [0; 0; l0 * p; l1 * p + c0] /\ lval [0; 0; l0 * p; l1 * p + c0] = (lval [w0; w1; w2; w3] * (B * B * p)) mod Bp 4) as Fin.
    { intros c0 ->. assert (wf 4 [0; 0; l0 * p; l1 * p + h0]) as W.
      { apply wf4; try exact word0; try (eapply shl_word; eassumption). rewrite <- (Z.add_0_r (l0 * p)). eapply shl_word; try eassumption. lia. }
      split; [exact W|]. symmetry. apply mod_eq_small; [apply wf_bound, W|].
      exists (h1 + p * (w2 + B * w3)). rewrite !lval4, Bp4. rewrite E0, E1. rewrite <- E. ring. }
    destruct (Z.ltb_spec 0 r) as [Hs0|Hs0].
    + assert (0 <= 64 - r < 64) as Hs' by lia. assert (0 <= r <= 64) as Hs2 by lia. st. fold q. rewrite D0.
      rewrite add_ok by (apply fits_u64; eapply shl_word; eassumption). st.
      eexists. split; [reflexivity|]. apply Fin; reflexivity.
    + assert (p = 1) as Ep by (unfold p; replace r with 0 by lia; reflexivity).
      eexists. split; [reflexivity|]. specialize (Fin 0). rewrite !Z.add_0_r in Fin.
      apply Fin. clear - K0 Ep; lia.
  - change (Z.to_nat (4 - 3)) with 1%nat. change (Z.to_nat (4 - (3 + 1))) with 0%nat. cbn [for_].
    st. rewrite M0. change (2 ^ (64 * 3)) with (B * B * B). set (p := 2 ^ r) in *. set (q := 2 ^ (64 - r)) in *.
    assert (wf 4 [0; 0; 0; l0 * p] /\ lval [0; 0; 0; l0 * p] = (lval [w0; w1; w2; w3] * (B * B * B * p)) mod Bp 4) as Fin.
    { assert (wf 4 [0; 0; 0; l0 * p]) as W.
      { apply wf4; try exact word0. rewrite <- (Z.add_0_r (l0 * p)). eapply shl_word; try eassumption. lia. }
      split; [exact W|]. symmetry. apply mod_eq_small; [apply wf_bound, W|].
      exists (h0 + p * (w1 + B * (w2 + B * w3))). rewrite !lval4, Bp4. rewrite E0. rewrite <- E. ring. }
    destruct (0 <? r); (eexists; split; [reflexivity|]; exact Fin).
Qed.
Lemma shr_any b x s : wf 4 x -> 0 <= s -> exists z, u256_shr b x s = Ret z /\ wf 4 z /\ lval z = lval x / 2 ^ s.
Proof.
  intros Hx Hs.
  destruct (Z_lt_le_dec s 64) as [C0|C0]; [apply u256_shr_spec; [assumption|lia]|].
  destruct (Z.le_gt_cases 256 s) as [C4|C4].
  { assert (4 <= s / 64) as K by (apply Z.div_le_lower_bound; lia). unfold u256_shr.
    replace (Z.to_nat (4 - s / 64)) with 0%nat by lia. replace (Z.to_nat (4 - (s / 64 + 1))) with 0%nat by lia. cbn [for_ bind].
    assert (lval x / 2 ^ s = 0) as ->.
    { apply Z.div_small. pose proof (wf_bound _ _ Hx) as Hb. split; [lia|]. apply (Z.lt_le_trans _ (2 ^ 256)); [exact (proj2 Hb)|]. apply Z.pow_le_mono_r; lia. }
    destruct (0 <? s mod 64); exists zero; (split; [reflexivity|]; split; [apply wf4; apply word0|reflexivity]). }
  destruct (wf4_inv x Hx) as (w0 & w1 & w2 & w3 & -> & H0 & H1 & H2 & H3).
  assert (exists k r, s = 64 * k + r /\ 0 <= r < 64 /\ 1 <= k <= 3) as (k & r & -> & Hr & Hk).
  { exists (s / 64), (s mod 64). split; [apply Z.div_mod; lia|]. split; [apply Z.mod_pos_bound; lia|].
    split; [apply Z.div_le_lower_bound; lia|]. assert (s / 64 < 4) by (apply Z.div_lt_upper_bound; lia). lia. }
  destruct (divmod64 k r Hr) as [Ed Em]. rewrite Z.pow_add_r by lia.
  destruct (pow_split r ltac:(lia)) as (E & Hp & Hq). rewrite Z.mul_comm in E.
  destruct (word_split w1 _ _ H1 E Hq Hp) as (h1 & l1 & D1 & M1 & E1 & L1 & K1).
  destruct (word_split w2 _ _ H2 E Hq Hp) as (h2 & l2 & D2 & M2 & E2 & L2 & K2).
  destruct (word_split w3 _ _ H3 E Hq Hp) as (h3 & l3 & D3 & M3 & E3 & L3 & K3).
  unfold u256_shr. rewrite Ed, Em. clear Ed Em C0 C4 Hs. unfold zero. pose proof B_pos as HB. unfold word in H0, H1, H2.
  assert (k = 1 \/ k = 2 \/ k = 3) as [->|[->| ->]] by lia; clear Hk.
  - change (Z.to_nat (4 - 1)) with 3%nat. change (Z.to_nat (4 - (1 + 1))) with 2%nat. cbn [for_].
    st. rewrite D1, D2, D3. change (2 ^ (64 * 1)) with B. set (p := 2 ^ r) in *. set (q := 2 ^ (64 - r)) in *. rewrite Z.mul_comm in E.
    assert (forall c2 c3, c2 = l2 * q -> c3 = l3 * q ->
      wf 4 [h1 + c2; h2 + c3; h3; 0] /\ lval [h1 + c2; h2 + c3; h3; 0] = lval [w0; w1; w2; w3] / (B * p)) as Fin.
    { intros c2 c3 -> ->. split.
      - apply wf4; try exact word0; try (eapply shr_word; eassumption).
        rewrite <- (Z.add_0_r h3). change 0 with (0 * q). eapply shr_word; try eassumption. lia.
      - rewrite !lval4. apply (Z.div_unique_pos _ _ _ (w0 + B * l1)); [nia|].
        rewrite E1, E2, E3. rewrite <- E. ring. }
    destruct (Z.ltb_spec 0 r) as [Hs0|Hs0].
    + assert (0 <= 64 - r < 64) as Hs' by lia. assert (0 <= r <= 64) as Hs2 by lia. st. fold q. rewrite M2, M3.
      do 2 (rewrite add_ok by (apply fits_u64; eapply shr_word; eassumption); st).
      eexists. split; [reflexivity|]. apply Fin; reflexivity.
    + assert (p = 1) as Ep by (unfold p; replace r with 0 by lia; reflexivity).
      eexists. split; [reflexivity|].
      assert (l2 = 0) by (clear - L2 Ep; lia). assert (l3 = 0) by (clear - L3 Ep; lia). subst l2 l3.
      specialize (Fin 0 0). rewrite !Z.add_0_r in Fin. apply Fin; reflexivity.
  - change (Z.to_nat (4 - 2)) with 2%nat. change (Z.to_nat (4 - (2 + 1))) with 1%nat. cbn [for_].
    st. rewrite D2, D3. change (2 ^ (64 * 2)) with (B * B). set (p := 2 ^ r) in *. set (q := 2 ^ (64 - r)) in *. rewrite Z.mul_comm in E.
    assert (forall c3, c3 = l3 * q ->
      wf 4 [h2 + c3; h3; 0; 0] /\ lval [h2 + c3; h3; 0; 0] = lval [w0; w1; w2; w3] / (B * B * p)) as Fin.
    { intros c3 ->. split.
      - apply wf4; try exact word0; try (eapply shr_word; eassumption).
        rewrite <- (Z.add_0_r h3). change 0 with (0 * q). eapply shr_word; try eassumption. lia.
      - rewrite !lval4. apply (Z.div_unique_pos _ _ _ (w0 + B * w1 + B * B * l2)).
        + pose proof (low2 w0 w1 H0 H1) as T. clear - T L2 HB. assert (0 < B * B) by nia. nia.
        + rewrite E2, E3. rewrite <- E. ring. }
    destruct (Z.ltb_spec 0 r) as [Hs0|Hs0].
    + assert (0 <= 64 - r < 64) as Hs' by lia. assert (0 <= r <= 64) as Hs2 by lia. st. fold q. rewrite M3.
      rewrite add_ok by (apply fits_u64; eapply shr_word; eassumption). st.
      eexists. split; [reflexivity|]. apply Fin; reflexivity.
    + assert (p = 1) as Ep by (unfold p; replace r with 0 by lia; reflexivity).
      eexists. split; [reflexivity|]. assert (l3 = 0) by (clear - L3 Ep; lia). subst l3.
      specialize (Fin 0). rewrite !Z.add_0_r in Fin. apply Fin; reflexivity.
  - change (Z.to_nat (4 - 3)) with 1%nat. change (Z.to_nat (4 - (3 + 1))) with 0%nat. cbn [for_].
    st. rewrite D3. change (2 ^ (64 * 3)) with (B * B * B). set (p := 2 ^ r) in *. set (q := 2 ^ (64 - r)) in *. rewrite Z.mul_comm in E.
    assert (wf 4 [h3; 0; 0; 0] /\ lval [h3; 0; 0; 0] = lval [w0; w1; w2; w3] / (B * B * B * p)) as Fin.
    { split.
      - apply wf4; try exact word0. rewrite <- (Z.add_0_r h3). change 0 with (0 * q). eapply shr_word; try eassumption. lia.
      - rewrite !lval4. apply (Z.div_unique_pos _ _ _ (w0 + B * (w1 + B * w2) + B * B * B * l3)).
        + pose proof (low3 w0 w1 w2 H0 H1 H2) as T. clear - T L3 HB. assert (0 < B * B * B) by nia. nia.
        + rewrite E3. ring. }
    destruct (0 <? r); (eexists; split; [reflexivity|]; exact Fin).
Qed.
Theorem shift_by b x y a s : unsigned4 x a -> unsigned4 y s ->
  (s < 2 ^ 64 -> (exists z, u256_shl_by b x y = Ret z /\ unsigned4 z ((a * 2 ^ s) mod 2 ^ 256)) /\
                 (exists z, u256_shr_by b x y = Ret z /\ unsigned4 z (a / 2 ^ s))) /\
  (2 ^ 64 <= s -> u256_shl_by b x y = Panic /\ u256_shr_by b x y = Panic).
Proof.
  intros Hx Hy. unfold u256_shl_by, u256_shr_by. rewrite (to_usize y s Hy). rewrite unsigned4_wf in Hx. destruct Hx as [Wx <-].
  rewrite unsigned4_wf in Hy. destruct Hy as [Wy Vy]. pose proof (wf_bound _ _ Wy) as By. change (2 ^ 256) with (Bp 4). split; intros H.
  - replace (s <? 2 ^ 64) with true by lia. cbn [bind]. split.
    + destruct (shl_any b x s Wx ltac:(lia)) as (z & E & W & V). exists z. rewrite unsigned4_wf. auto.
    + destruct (shr_any b x s Wx ltac:(lia)) as (z & E & W & V). exists z. rewrite unsigned4_wf. auto.
  - replace (s <? 2 ^ 64) with false by lia. split; reflexivity.
Qed.

(** ** Sums and differences with their flags, bit lengths *)
Theorem add_flag x y a c : unsigned4 x a -> unsigned4 y c -> exists z, overflowing_add x y = (z, 2 ^ 256 <=? a + c) /\ unsigned4 z ((a + c) mod 2 ^ 256).
Proof.
  rewrite !unsigned4_wf. intros [Wx <-] [Wy <-]. change (2 ^ 256) with (Bp 4). destruct (add_mod x y Wx Wy) as [W V].
  exists (fst (overflowing_add x y)). rewrite unsigned4_wf. split; [|auto].
  pose proof (wf_bound _ _ Wx). pose proof (wf_bound _ _ Wy). destruct Wx as [Lx Fx], Wy as [Ly Fy]. unfold overflowing_add in *.
  pose proof (ov_add_spec x y 0 Fx Fy ltac:(congruence) ltac:(lia)) as S. destruct (ov_binop ovadd64 x y 0) as [l c]. rewrite Lx in S.
  destruct S as (Wl & C & E). cbn [fst] in *. f_equal. pose proof (wf_bound _ _ Wl).
  destruct (Z.ltb_spec 0 c), (Z.leb_spec (Bp 4) (lval x + lval y)); try reflexivity; nia.
Qed.
Theorem sub_flag x y a c : unsigned4 x a -> unsigned4 y c -> exists z, overflowing_sub x y = (z, a <? c) /\ unsigned4 z ((a - c) mod 2 ^ 256).
Proof.
  rewrite !unsigned4_wf. intros [Wx <-] [Wy <-]. change (2 ^ 256) with (Bp 4). destruct (sub_mod x y Wx Wy) as [W V].
  exists (fst (overflowing_sub x y)). rewrite unsigned4_wf. split; [|auto].
  pose proof (wf_bound _ _ Wx). pose proof (wf_bound _ _ Wy). destruct Wx as [Lx Fx], Wy as [Ly Fy]. unfold overflowing_sub in *.
  pose proof (ov_sub_spec x y 0 Fx Fy ltac:(congruence) ltac:(lia)) as S. destruct (ov_binop ovsub64 x y 0) as [l c]. rewrite Lx in S.
  destruct S as (Wl & C & E). cbn [fst] in *. f_equal. pose proof (wf_bound _ _ Wl).
  destruct (Z.ltb_spec 0 c), (Z.ltb_spec (lval x) (lval y)); try reflexivity; nia.
Qed.
Theorem bit_length x a : unsigned4 x a -> exists n, U256.bits x = Ret n /\ 0 <= n <= 256 /\ 0 <= a < 2 ^ n /\ (0 < n -> 2 ^ (n - 1) <= a).
Proof. rewrite unsigned4_wf. intros [W <-]. destruct (bits_spec x W) as (n & E & Hn & [H1 H2]). exists n. auto. Qed.
