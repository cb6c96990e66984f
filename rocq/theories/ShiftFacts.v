(** * ShiftFacts: bit length and shifts of four-word integers. *)
From Verif Require Import Base Sqrt U256 BaseFacts WordFacts DivWord.
Ltac Zify.zify_post_hook ::= idtac.

(** Evaluate a list access at a closed index. *)
Ltac ix := match goal with
  | |- context [idx ?l ?i] =>
      let k := eval vm_compute in (Z.to_nat i) in
      rewrite (idx_ok l k 0 i eq_refl ltac:(apply Nat.ltb_lt; reflexivity)); cbn [nth bind]
  | |- context [set_idx ?l ?i ?v] =>
      let k := eval vm_compute in (Z.to_nat i) in
      rewrite (set_idx_ok l k v i eq_refl ltac:(apply Nat.ltb_lt; reflexivity)); cbn [upd bind]
  end.

Lemma sub64 b t s : t = USize \/ t = U32 -> 0 <= s <= 64 -> sub b t 64 s = Ret (64 - s).
Proof. intros Ht Hs. apply sub_ok. destruct Ht as [-> | ->]; [bounds USize|bounds U32]; unfold fits; lia. Qed.
(** Run the straight-line word code; shift amounts are settled by hypotheses. *)
Ltac st := repeat first
  [ ix | rewrite shl_u64 by assumption | rewrite shr_u64 by assumption
  | rewrite sub64 by (auto; assumption) | progress cbn [bind] ].

Lemma lval4 w0 w1 w2 w3 : lval [w0; w1; w2; w3] = w0 + B * (w1 + B * (w2 + B * w3)).
Proof. cbn [lval]. ring. Qed.
Lemma lval5 w0 w1 w2 w3 w4 : lval [w0; w1; w2; w3; w4] = w0 + B * (w1 + B * (w2 + B * (w3 + B * w4))).
Proof. cbn [lval]. ring. Qed.
Lemma word0 : word 0. Proof. split; [lia|exact B_pos]. Qed.
Lemma Bp4 : Bp 4 = B * B * B * B. Proof. rewrite !Bp_S, Bp_0. ring. Qed.

(** ** Bit length *)
(** [z] has [n] bits. *)
Definition nbits (z n : Z) : Prop := 0 <= z < 2 ^ n /\ (0 < n -> 2 ^ (n - 1) <= z).

Lemma lz_nbits w : 0 < w < B -> let n := 64 - leading_zeros U64 w in 0 < n <= 64 /\ nbits w n.
Proof.
  intros Hw. cbv zeta. unfold leading_zeros. replace (w <? 0) with false by lia.
  replace (w =? 0) with false by lia. change (width U64) with 64.
  pose proof (Z.log2_spec w ltac:(lia)) as H. pose proof (Z.log2_nonneg w) as H0.
  assert (Z.log2 w < 64) as H1 by (apply Z.log2_lt_pow2; [lia|]; change (2 ^ 64) with B; lia).
  unfold nbits. replace (64 - (64 - 1 - Z.log2 w)) with (Z.succ (Z.log2 w)) by lia.
  replace (Z.succ (Z.log2 w) - 1) with (Z.log2 w) by lia. lia.
Qed.
Lemma nbits_hi w k lowv n : 0 <= k -> nbits w n -> 0 < n -> 0 <= lowv < 2 ^ k ->
  nbits (lowv + 2 ^ k * w) (k + n).
Proof.
  intros Hk [H1 H2] Hn Hl. specialize (H2 Hn). unfold nbits.
  replace (k + n - 1) with (k + (n - 1)) by lia. rewrite !Z.pow_add_r by lia. nia.
Qed.
Lemma pow64 : 2 ^ 64 = B. Proof. reflexivity. Qed.
Lemma pow128 : 2 ^ 128 = B * B. Proof. reflexivity. Qed.
Lemma pow192 : 2 ^ 192 = B * B * B. Proof. reflexivity. Qed.
Lemma pow256 : 2 ^ 256 = B * B * B * B. Proof. reflexivity. Qed.

Lemma low2 w0 w1 : word w0 -> word w1 -> 0 <= w0 + B * w1 < B * B.
Proof. unfold word. nia. Qed.
Lemma low3 w0 w1 w2 : word w0 -> word w1 -> word w2 -> 0 <= w0 + B * (w1 + B * w2) < B * B * B.
Proof. intros H0 H1 H2. pose proof (low2 w1 w2 H1 H2). unfold word in *. nia. Qed.

(** [bits] returns the number of bits; the top word is non-zero. *)
Lemma bits_spec x : wf 4 x -> exists n, bits x = Ret n /\ 0 <= n <= 256 /\ nbits (lval x) n.
Proof.
  intros Hx. destruct (wf4_inv x Hx) as (w0 & w1 & w2 & w3 & -> & H0 & H1 & H2 & H3).
  rewrite lval4. pose proof (low2 w0 w1 H0 H1) as L2. pose proof (low3 w0 w1 w2 H0 H1 H2) as L3.
  pose proof H0 as H0'. pose proof H1 as H1'. pose proof H2 as H2'. pose proof H3 as H3'.
  unfold word in H0', H1', H2', H3'.
  unfold bits. cbn [bits_from].
  ix. destruct (Z.ltb_spec 0 w3) as [Hp|Hp].
  { destruct (lz_nbits w3 ltac:(lia)) as [N1 N2]. eexists. split; [reflexivity|].
    split; [cbn [Z.of_nat]; lia|].
    replace (64 * (Z.of_nat 3 + 1) - leading_zeros U64 w3) with (192 + (64 - leading_zeros U64 w3))
      by (cbn [Z.of_nat]; lia).
    replace (w0 + B * (w1 + B * (w2 + B * w3))) with ((w0 + B * (w1 + B * w2)) + 2 ^ 192 * w3)
      by (rewrite pow192; ring).
    apply nbits_hi; [lia|assumption|lia|rewrite pow192; exact L3]. }
  assert (w3 = 0) as -> by lia.
  ix. destruct (Z.ltb_spec 0 w2) as [Hp2|Hp2].
  { destruct (lz_nbits w2 ltac:(lia)) as [N1 N2]. eexists. split; [reflexivity|].
    split; [cbn [Z.of_nat]; lia|].
    replace (64 * (Z.of_nat 2 + 1) - leading_zeros U64 w2) with (128 + (64 - leading_zeros U64 w2))
      by (cbn [Z.of_nat]; lia).
    replace (w0 + B * (w1 + B * (w2 + B * 0))) with ((w0 + B * w1) + 2 ^ 128 * w2)
      by (rewrite pow128; ring).
    apply nbits_hi; [lia|assumption|lia|rewrite pow128; exact L2]. }
  assert (w2 = 0) as -> by lia.
  ix. destruct (Z.ltb_spec 0 w1) as [Hp1|Hp1].
  { destruct (lz_nbits w1 ltac:(lia)) as [N1 N2]. eexists. split; [reflexivity|].
    split; [cbn [Z.of_nat]; lia|].
    replace (64 * (Z.of_nat 1 + 1) - leading_zeros U64 w1) with (64 + (64 - leading_zeros U64 w1))
      by (cbn [Z.of_nat]; lia).
    replace (w0 + B * (w1 + B * (0 + B * 0))) with (w0 + 2 ^ 64 * w1) by (rewrite pow64; ring).
    apply nbits_hi; [lia|assumption|lia|rewrite pow64; exact H0]. }
  assert (w1 = 0) as -> by lia.
  ix. eexists. split; [reflexivity|].
  replace (w0 + B * (0 + B * (0 + B * 0))) with w0 by ring.
  destruct (Z.eq_dec w0 0) as [->|Hn].
  - change (leading_zeros U64 0) with 64. split; [lia|]. split; [change (2 ^ (64 - 64)) with 1; lia|lia].
  - destruct (lz_nbits w0 ltac:(lia)) as [N1 N2]. split; [lia|assumption].
Qed.
Lemma nbits_mono x y n m : nbits x n -> nbits y m -> 0 <= n -> 0 <= m -> n < m -> x < y.
Proof.
  intros [H1 _] [_ H2] Hn Hm Hlt. specialize (H2 ltac:(lia)).
  assert (2 ^ n <= 2 ^ (m - 1)) by (apply Z.pow_le_mono_r; lia). lia.
Qed.
Lemma nbits_zero x : nbits x 0 <-> x = 0.
Proof. unfold nbits. change (2 ^ 0) with 1. lia. Qed.

(** ** Shifts *)
(** Splitting a word at a bit position: [w = q h + l] with [p q = B]. *)
Lemma word_split w p q : word w -> p * q = B -> 0 < p -> 0 < q ->
  exists h l, w / q = h /\ (w * p) mod B = l * p /\ w = q * h + l /\ 0 <= l < q /\ 0 <= h < p.
Proof.
  intros Hw E Hp Hq. destruct (divmod_ex w q Hq) as (h & l & Eh & El & Ew & Hl).
  exists h, l. unfold word in Hw.
  assert (0 <= h < p) as Hh by (apply (div_nonneg_lt h l q w p Ew Hl); lia).
  repeat split; try assumption; try lia.
  apply mod_eq_small; [nia|]. exists h. rewrite Ew, <- E. ring.
Qed.

Lemma shl_word l p h q : p * q = B -> 0 <= l < q -> 0 <= h < p -> word (l * p + h).
Proof. intros E Hl Hh. unfold word. nia. Qed.

Lemma u256_shl_spec b x s : wf 4 x -> 0 <= s < 64 ->
  exists r, u256_shl b x s = Ret r /\ wf 4 r /\ lval r = (lval x * 2 ^ s) mod Bp 4.
Proof.
  intros Hx Hs. destruct (wf4_inv x Hx) as (w0 & w1 & w2 & w3 & -> & H0 & H1 & H2 & H3).
  destruct (pow_split s ltac:(lia)) as (E & Hp & Hq).
  destruct (word_split w0 _ _ H0 E Hp Hq) as (h0 & l0 & D0 & M0 & E0 & L0 & K0).
  destruct (word_split w1 _ _ H1 E Hp Hq) as (h1 & l1 & D1 & M1 & E1 & L1 & K1).
  destruct (word_split w2 _ _ H2 E Hp Hq) as (h2 & l2 & D2 & M2 & E2 & L2 & K2).
  destruct (word_split w3 _ _ H3 E Hp Hq) as (h3 & l3 & D3 & M3 & E3 & L3 & K3).
  unfold u256_shl. rewrite (Z.div_small s 64) by lia. rewrite (Z.mod_small s 64) by lia.
  change (Z.to_nat (4 - 0)) with 4%nat. change (Z.to_nat (4 - (0 + 1))) with 3%nat.
  unfold zero. cbn [for_].
  st. rewrite M0, M1, M2, M3.
  set (p := 2 ^ s) in *. set (q := 2 ^ (64 - s)) in *.
  assert (forall c0 c1 c2, c0 = h0 -> c1 = h1 -> c2 = h2 ->
    wf 4 [l0 * p; l1 * p + c0; l2 * p + c1; l3 * p + c2] /\
    lval [l0 * p; l1 * p + c0; l2 * p + c1; l3 * p + c2] = (lval [w0; w1; w2; w3] * p) mod Bp 4) as Fin.
  { intros c0 c1 c2 -> -> ->.
    assert (wf 4 [l0 * p; l1 * p + h0; l2 * p + h1; l3 * p + h2]) as W.
    { apply wf4; try (eapply shl_word; eassumption).
      rewrite <- (Z.add_0_r (l0 * p)). eapply shl_word; try eassumption. lia. }
    split; [exact W|]. symmetry. apply mod_eq_small; [apply wf_bound, W|].
    exists h3. rewrite !lval4, Bp4. rewrite E0, E1, E2, E3. rewrite <- E. ring. }
  destruct (Z.ltb_spec 0 s) as [Hs0|Hs0].
  - assert (0 <= 64 - s < 64) as Hs' by lia. assert (0 <= s <= 64) as Hs2 by lia. st. fold q. rewrite D0, D1, D2.
    do 3 (rewrite add_ok by (apply fits_u64; eapply shl_word; eassumption); st).
    eexists. split; [reflexivity|]. apply Fin; reflexivity.
  - assert (p = 1) as Ep by (unfold p; replace s with 0 by lia; reflexivity).
    eexists. split; [reflexivity|].
    specialize (Fin 0 0 0). rewrite !Z.add_0_r in Fin.
    apply Fin; [clear - K0 Ep|clear - K1 Ep|clear - K2 Ep]; lia.
Qed.

Lemma shr_word h l p q : p * q = B -> 0 <= l < p -> 0 <= h < q -> word (h + l * q).
Proof. intros E Hl Hh. unfold word. nia. Qed.

Lemma u256_shr_spec b x s : wf 4 x -> 0 <= s <= 64 ->
  exists r, u256_shr b x s = Ret r /\ wf 4 r /\ lval r = lval x / 2 ^ s.
Proof.
  intros Hx Hs. destruct (wf4_inv x Hx) as (w0 & w1 & w2 & w3 & -> & H0 & H1 & H2 & H3).
  destruct (Z.eq_dec s 64) as [->|Hs64].
  { unfold u256_shr. change (64 / 64) with 1. change (64 mod 64) with 0.
    change (Z.to_nat (4 - 1)) with 3%nat. unfold zero. cbn [for_ Z.ltb Z.compare].
    assert (0 <= 0 < 64) by lia. st. rewrite !Z.div_1_r.
    eexists. split; [reflexivity|]. split; [apply wf4; auto using word0|].
    rewrite !lval4, pow64. apply (Z.div_unique_pos _ _ _ w0); [exact H0|]. ring. }
  destruct (pow_split s ltac:(lia)) as (E & Hp & Hq). rewrite Z.mul_comm in E.
  destruct (word_split w0 _ _ H0 E Hq Hp) as (h0 & l0 & D0 & M0 & E0 & L0 & K0).
  destruct (word_split w1 _ _ H1 E Hq Hp) as (h1 & l1 & D1 & M1 & E1 & L1 & K1).
  destruct (word_split w2 _ _ H2 E Hq Hp) as (h2 & l2 & D2 & M2 & E2 & L2 & K2).
  destruct (word_split w3 _ _ H3 E Hq Hp) as (h3 & l3 & D3 & M3 & E3 & L3 & K3).
  unfold u256_shr. rewrite (Z.div_small s 64) by lia. rewrite (Z.mod_small s 64) by lia.
  change (Z.to_nat (4 - 0)) with 4%nat. change (Z.to_nat (4 - (0 + 1))) with 3%nat.
  unfold zero. cbn [for_].
  assert (0 <= s < 64) as Hs1 by lia. st. rewrite D0, D1, D2, D3.
  set (p := 2 ^ s) in *. set (q := 2 ^ (64 - s)) in *.
  rewrite Z.mul_comm in E.
  assert (forall c1 c2 c3, c1 = l1 * q -> c2 = l2 * q -> c3 = l3 * q ->
    wf 4 [h0 + c1; h1 + c2; h2 + c3; h3] /\
    lval [h0 + c1; h1 + c2; h2 + c3; h3] = lval [w0; w1; w2; w3] / p) as Fin.
  { intros c1 c2 c3 -> -> ->. split.
    - apply wf4; try (eapply shr_word; eassumption).
      rewrite <- (Z.add_0_r h3). change 0 with (0 * q). eapply shr_word; try eassumption. lia.
    - rewrite !lval4. apply (Z.div_unique_pos _ _ _ l0); [exact L0|].
      rewrite E0, E1, E2, E3. rewrite <- E. ring. }
  destruct (Z.ltb_spec 0 s) as [Hs0|Hs0].
  - assert (0 <= 64 - s < 64) as Hs' by lia. assert (0 <= s <= 64) as Hs2 by lia. st. fold q. rewrite M1, M2, M3.
    do 3 (rewrite add_ok by (apply fits_u64; eapply shr_word; eassumption); st).
    eexists. split; [reflexivity|]. apply Fin; reflexivity.
  - assert (p = 1) as Ep by (unfold p; replace s with 0 by lia; reflexivity).
    eexists. split; [reflexivity|].
    assert (l1 = 0) by (clear - L1 Ep; lia). assert (l2 = 0) by (clear - L2 Ep; lia).
    assert (l3 = 0) by (clear - L3 Ep; lia). subst l1 l2 l3.
    specialize (Fin 0 0 0). rewrite !Z.add_0_r in Fin. apply Fin; reflexivity.
Qed.

Lemma full_shl_spec b x s : wf 4 x -> 0 <= s < 64 ->
  exists u, full_shl b x s = Ret u /\ wf 5 u /\ lval u = lval x * 2 ^ s.
Proof.
  intros Hx Hs. unfold full_shl. rewrite dassert_ok by lia. cbn [bind].
  destruct (u256_shr_spec b x (64 - s) Hx ltac:(lia)) as (r & Er & [Lr Wr] & Vr).
  destruct (wf4_inv x Hx) as (w0 & w1 & w2 & w3 & -> & H0 & H1 & H2 & H3).
  ix. rewrite shl_u64 by assumption. cbn [bind].
  rewrite sub64 by (auto; lia). cbn [bind]. rewrite Er. cbn [bind].
  destruct (pow_split s ltac:(lia)) as (E & Hp & Hq).
  destruct (word_split w0 _ _ H0 E Hp Hq) as (h0 & l0 & D0 & M0 & E0 & L0 & K0). rewrite M0.
  eexists. split; [reflexivity|]. split.
  - split; [simpl; congruence|]. constructor; [|assumption]. unfold word. nia.
  - cbn [lval]. rewrite Vr. rewrite lval4.
    set (p := 2 ^ s) in *. set (q := 2 ^ (64 - s)) in *.
    replace (w0 + B * (w1 + B * (w2 + B * w3))) with (l0 + (h0 + p * (w1 + B * (w2 + B * w3))) * q)
      by (rewrite E0, <- E; ring).
    rewrite Z.div_add by lia. rewrite (Z.div_small l0 q) by lia.
    rewrite E0, <- E. ring.
Qed.

Lemma lor_hi_lo h l s : 0 <= s -> 0 <= h < 2 ^ s -> Z.lor h (l * 2 ^ s) = h + l * 2 ^ s.
Proof. intros Hs Hh. rewrite Z.lor_comm, lor_disjoint by assumption. lia. Qed.

Lemma wf5_inv x : wf 5 x -> exists w0 w1 w2 w3 w4,
  x = [w0; w1; w2; w3; w4] /\ word w0 /\ word w1 /\ word w2 /\ word w3 /\ word w4.
Proof.
  intros [Hl Hf]. do 6 (destruct x as [|? x]; try discriminate Hl).
  inversion Hf as [|a l Ha Hf1 [Ea El]]. inversion Hf1 as [|a' l' Ha' Hf2 [Ea' El']].
  inversion Hf2 as [|a2 l2 Ha2 Hf3 [Ea2 El2]]. inversion Hf3 as [|a3 l3 Ha3 Hf4 [Ea3 El3]].
  inversion Hf4 as [|a4 l4 Ha4 Hf5 [Ea4 El4]]. subst. do 5 eexists. split; [reflexivity|]. auto.
Qed.

Lemma full_shr_spec b u s : wf 5 u -> 0 <= s < 64 -> lval u / 2 ^ s < Bp 4 ->
  exists r, full_shr b u s = Ret r /\ wf 4 r /\ lval r = lval u / 2 ^ s.
Proof.
  intros Hu Hs Hlt. destruct (wf5_inv u Hu) as (w0 & w1 & w2 & w3 & w4 & -> & H0 & H1 & H2 & H3 & H4).
  destruct (pow_split s ltac:(lia)) as (E & Hp & Hq). rewrite Z.mul_comm in E.
  destruct (word_split w0 _ _ H0 E Hq Hp) as (h0 & l0 & D0 & M0 & E0 & L0 & K0).
  destruct (word_split w1 _ _ H1 E Hq Hp) as (h1 & l1 & D1 & M1 & E1 & L1 & K1).
  destruct (word_split w2 _ _ H2 E Hq Hp) as (h2 & l2 & D2 & M2 & E2 & L2 & K2).
  destruct (word_split w3 _ _ H3 E Hq Hp) as (h3 & l3 & D3 & M3 & E3 & L3 & K3).
  destruct (word_split w4 _ _ H4 E Hq Hp) as (h4 & l4 & D4 & M4 & E4 & L4 & K4).
  rewrite Z.mul_comm in E.
  assert (forall c1 c2 c3 c4, c1 = h0 + l1 * 2 ^ (64 - s) -> c2 = h1 + l2 * 2 ^ (64 - s) ->
    c3 = h2 + l3 * 2 ^ (64 - s) -> c4 = h3 + l4 * 2 ^ (64 - s) ->
    wf 4 [c1; c2; c3; c4] /\ lval [c1; c2; c3; c4] = lval [w0; w1; w2; w3; w4] / 2 ^ s) as Fin.
  { set (p := 2 ^ s) in *. set (q := 2 ^ (64 - s)) in *.
    intros c1 c2 c3 c4 -> -> -> ->.
    assert (wf 4 [h0 + l1 * q; h1 + l2 * q; h2 + l3 * q; h3 + l4 * q]) as W
      by (apply wf4; eapply shr_word; eassumption).
    split; [exact W|]. pose proof (wf_bound _ _ W) as Wb.
    assert (lval [w0; w1; w2; w3; w4] / p = lval [h0 + l1 * q; h1 + l2 * q; h2 + l3 * q; h3 + l4 * q] + Bp 4 * h4) as V.
    { symmetry. apply (Z.div_unique_pos _ _ _ l0); [exact L0|].
      rewrite lval4, lval5, Bp4, E0, E1, E2, E3, E4, <- E. ring. }
    rewrite V in *. clear - Hlt Wb K4. assert (h4 = 0) as -> by nia. ring. }
  unfold full_shr. rewrite dassert_ok by lia. cbn [bind]. unfold zero. cbn [for_].
  st. rewrite D0, D1, D2, D3.
  destruct (Z.ltb_spec 0 s) as [Hs0|Hs0].
  - assert (0 <= 64 - s < 64) as Hs' by lia. assert (0 <= s <= 64) as Hs2 by lia.
    assert (0 <= 64 - s) as Hs3 by lia. st.
    rewrite M1, M2, M3, M4. rewrite !lor_hi_lo by assumption.
    eexists. split; [reflexivity|]. apply Fin; reflexivity.
  - assert (2 ^ s = 1) as Ep by (replace s with 0 by lia; reflexivity).
    assert (l1 = 0) by (clear - L1 Ep; lia). assert (l2 = 0) by (clear - L2 Ep; lia).
    assert (l3 = 0) by (clear - L3 Ep; lia). assert (l4 = 0) by (clear - L4 Ep; lia). subst l1 l2 l3 l4.
    eexists. split; [reflexivity|]. apply Fin; rewrite Z.add_0_r; reflexivity.
Qed.
