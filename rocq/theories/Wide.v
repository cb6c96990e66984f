(** * Wide: the 256-bit operations in the vocabulary of [Spec]. *)
From Verif Require Import Base Sqrt U256 I256 Promo Spec BaseFacts FloatFacts SqrtFacts WordFacts DivWord ShiftFacts
  KnuthFacts I256Facts Sqrt256.
Ltac Zify.zify_post_hook ::= idtac.

Lemma unsigned4_wf ws v : unsigned4 ws v <-> wf 4 ws /\ lval ws = v.
Proof.
  split.
  - intros (w0 & w1 & w2 & w3 & -> & H0 & H1 & H2 & H3 & ->). split; [apply wf4; assumption|].
    rewrite lval4. change (2 ^ 64) with B. change (2 ^ 128) with (B * B). change (2 ^ 192) with (B * B * B). ring.
  - intros [W <-]. destruct (wf4_inv ws W) as (w0 & w1 & w2 & w3 & -> & H0 & H1 & H2 & H3).
    exists w0, w1, w2, w3. repeat split; try (apply H0 || apply H1 || apply H2 || apply H3).
    rewrite lval4. change (2 ^ 64) with B. change (2 ^ 128) with (B * B). change (2 ^ 192) with (B * B * B). ring.
Qed.
Lemma signed4_wf ws v : signed4 ws v <-> wf 4 ws /\ sval ws = v.
Proof.
  unfold signed4, sval. change (2 ^ 255) with H255. change (2 ^ 256) with (Bp 4). split.
  - intros (u & Hu & ->). apply unsigned4_wf in Hu as [W <-]. auto.
  - intros [W <-]. exists (lval ws). split; [apply unsigned4_wf; auto|reflexivity].
Qed.
Lemma signed4_R256 ws v : signed4 ws v -> Z.abs v < 2 ^ 255 -> R256 ws v.
Proof. intros H Hb. apply signed4_wf in H as [W E]. split; [exact W|]. split; [exact E|exact Hb]. Qed.
Lemma R256_signed4 ws v : R256 ws v -> signed4 ws v.
Proof. intros (W & E & _). apply signed4_wf. auto. Qed.

Theorem wide_mul b x y a c : unsigned4 x a -> unsigned4 y c ->
  (a * c < 2 ^ 256 -> exists z, u256_mul b x y = Ret z /\ unsigned4 z (a * c)) /\
  (2 ^ 256 <= a * c -> u256_mul b x y = Panic).
Proof.
  rewrite !unsigned4_wf. intros [Wx <-] [Wy <-]. change (2 ^ 256) with (Bp 4). split; intros H.
  - destruct (u256_mul_spec b x y Wx Wy H) as (z & E & W & V). exists z. rewrite unsigned4_wf. auto.
  - destruct (overflowing_mul_spec b x y Wx Wy) as (r & E & _). unfold u256_mul. rewrite E. cbn [bind].
    pose proof (Bp_pos 4). assert (1 <= lval x * lval y / Bp 4) by (apply Z.div_le_lower_bound; lia).
    now replace (lval x * lval y / Bp 4 =? 0) with false by lia.
Qed.
Lemma bits_zero v : wf 4 v -> lval v = 0 -> U256.bits v = Ret 0.
Proof.
  intros W E. destruct (wf4_inv v W) as (w0 & w1 & w2 & w3 & -> & H0 & H1 & H2 & H3). rewrite lval4 in E.
  pose proof B_pos. unfold word in *. assert (w3 = 0) by nia. subst. assert (w2 = 0) by nia. subst.
  assert (w1 = 0) by nia. subst. assert (w0 = 0) by lia. subst. reflexivity.
Qed.
Theorem wide_div_mod b x y a c : unsigned4 x a -> unsigned4 y c ->
  (c <> 0 -> exists q r, div_mod b x y = Ret (q, r) /\ unsigned4 q (a / c) /\ unsigned4 r (a mod c)) /\
  (c = 0 -> div_mod b x y = Panic).
Proof.
  rewrite !unsigned4_wf. intros [Wx <-] [Wy <-]. split; intros H.
  - destruct (div_mod_spec b x y Wx Wy H) as (q & r & E & Wq & Wr & Vq & Vr). exists q, r.
    rewrite !unsigned4_wf. auto.
  - unfold div_mod. destruct (bits_spec x Wx) as (n & E & _). rewrite E, (bits_zero y Wy H). reflexivity.
Qed.
Theorem wide_shift b x a s : unsigned4 x a ->
  (0 <= s < 64 -> exists z, u256_shl b x s = Ret z /\ unsigned4 z ((a * 2 ^ s) mod 2 ^ 256)) /\
  (0 <= s <= 64 -> exists z, u256_shr b x s = Ret z /\ unsigned4 z (a / 2 ^ s)).
Proof.
  rewrite unsigned4_wf. intros [Wx <-]. change (2 ^ 256) with (Bp 4). split; intros H.
  - destruct (u256_shl_spec b x s Wx H) as (z & E & W & V). exists z. rewrite unsigned4_wf. auto.
  - destruct (u256_shr_spec b x s Wx H) as (z & E & W & V). exists z. rewrite unsigned4_wf. auto.
Qed.
Theorem wide_sqrt b x a : unsigned4 x a ->
  exists z s, u256_sqrt b sqrt_fuel x = Ret z /\ unsigned4 z s /\ 0 <= s /\ s * s <= a < (s + 1) * (s + 1).
Proof.
  rewrite unsigned4_wf. intros [Wx <-]. pose proof (wf_bound _ _ Wx) as Hb.
  destruct (u256_sqrt_ok b sqrt_fuel x Wx) as (z & E & Wz & Vz).
  - eapply Z.lt_le_trans; [apply Hb|]. unfold sqrt_fuel. vm_compute. discriminate.
  - unfold sqrt_fuel. lia.
  - exists z, (Z.sqrt (lval x)). split; [exact E|]. rewrite unsigned4_wf. split; [auto|]. apply sqrt_facts. lia.
Qed.
Theorem wide_cmp b x y a c : unsigned4 x a -> unsigned4 y c ->
  u256_cmp x y = (a ?= c) /\
  u128_of_u256 b x = Ret (if a <? 2 ^ 128 then Some a else None).
Proof.
  rewrite !unsigned4_wf. intros [Wx <-] [Wy <-]. split; [now apply u256_cmp_spec|]. now apply u128_of_u256_ok.
Qed.

(** Signed. *)
Theorem signed_of_i128 x : - 2 ^ 127 <= x < 2 ^ 127 -> signed4 (from_i128 x) x.
Proof. intros H. apply signed4_wf. now apply lval_from_i128. Qed.
Theorem signed_add_sub x y a c : signed4 x a -> signed4 y c -> Z.abs a < 2 ^ 255 -> Z.abs c < 2 ^ 255 ->
  (Z.abs (a + c) < 2 ^ 255 -> signed4 (i256_add x y) (a + c)) /\
  (Z.abs (a - c) < 2 ^ 255 -> signed4 (i256_sub x y) (a - c)).
Proof.
  intros Hx Hy Ha Hc. pose proof (signed4_R256 _ _ Hx Ha) as Rx. pose proof (signed4_R256 _ _ Hy Hc) as Ry.
  split; intros H; apply R256_signed4; [apply i256_add_spec|apply i256_sub_spec]; assumption.
Qed.
Theorem signed_mul b x y a c : signed4 x a -> signed4 y c -> Z.abs a < 2 ^ 255 -> Z.abs c < 2 ^ 255 ->
  Z.abs (a * c) < 2 ^ 255 -> exists z, i256_mul b x y = Ret z /\ signed4 z (a * c).
Proof.
  intros Hx Hy Ha Hc H. pose proof (signed4_R256 _ _ Hx Ha) as Rx. pose proof (signed4_R256 _ _ Hy Hc) as Ry.
  destruct (i256_mul_spec b x y a c Rx Ry H) as (z & E & Rz). exists z. split; [exact E|]. now apply R256_signed4.
Qed.
Theorem signed_div b x y a c : signed4 x a -> signed4 y c -> Z.abs a < 2 ^ 255 -> Z.abs c < 2 ^ 255 -> c <> 0 ->
  exists z, i256_div b x y = Ret z /\ signed4 z (Z.quot a c).
Proof.
  intros Hx Hy Ha Hc H. pose proof (signed4_R256 _ _ Hx Ha) as Rx. pose proof (signed4_R256 _ _ Hy Hc) as Ry.
  destruct (i256_div_spec b x y a c Rx Ry H) as (z & E & Rz). exists z. split; [exact E|]. now apply R256_signed4.
Qed.
Theorem signed_neg b x a : signed4 x a -> a <> - 2 ^ 255 -> exists z, i256_neg b x = Ret z /\ signed4 z (- a).
Proof.
  rewrite signed4_wf. intros [W <-] H. destruct (neg_spec b x W H) as (z & E & Wz & Vz). exists z.
  rewrite signed4_wf. auto.
Qed.
Theorem signed_cmp b x y a c : signed4 x a -> signed4 y c ->
  i256_cmp x y = Ret (a ?= c) /\
  (Z.abs a < 2 ^ 255 -> i128_of_i256 b x = Ret (if (- 2 ^ 127 <=? a) && (a <=? 2 ^ 127 - 1) then Some a else None)).
Proof.
  intros Hx Hy. split.
  - apply signed4_wf in Hx as [Wx <-]. apply signed4_wf in Hy as [Wy <-]. now apply i256_cmp_spec.
  - intros Ha. rewrite (i128_of_i256_spec b x a (signed4_R256 _ _ Hx Ha)). reflexivity.
Qed.
Theorem signed_sqrt b x a : signed4 x a -> 0 <= a < 2 ^ 255 ->
  exists z s, i256_sqrt b x = Ret z /\ signed4 z s /\ 0 <= s /\ s * s <= a < (s + 1) * (s + 1).
Proof.
  intros Hx Ha. apply signed4_wf in Hx as [W V]. unfold i256_sqrt.
  destruct (lval_from_i128 0 ltac:(split; [discriminate|reflexivity])) as [W0 V0]. change (from_i128 0) with I256_ZERO in *.
  rewrite (i256_cmp_spec x I256_ZERO W W0), V, V0. cbn [bind].
  rewrite dassert_ok by (destruct (Z.compare_spec a 0); reflexivity || lia). cbn [bind].
  assert (lval x = a) as Vx by (rewrite <- V; apply sval_nonneg; [assumption|lia]).
  destruct (wide_sqrt b x a ltac:(apply unsigned4_wf; auto)) as (z & s & E & Uz & Hs & Hb).
  exists z, s. split; [exact E|]. apply unsigned4_wf in Uz as [Wz Vz]. split; [|auto].
  apply signed4_wf. split; [exact Wz|]. rewrite <- Vz. apply sval_small; [exact Wz|]. rewrite Vz.
  change H255 with (2 ^ 255). nia.
Qed.

(** ** The roots of the primitive types *)
Theorem sqrt_types b t n : t <> I128 -> 0 <= n <= imax t ->
  exists s, sqrt_prim b t n = Ret s /\ 0 <= s /\ s * s <= n < (s + 1) * (s + 1).
Proof.
  intros Ht Hn. exists (Z.sqrt n). split; [|apply sqrt_facts; lia].
  destruct t; try (apply sqrt_prim_small; [cbn; lia|assumption]); [congruence|].
  apply sqrt_prim_u128. change (imax U128) with (2 ^ 128 - 1) in Hn. lia.
Qed.
Theorem sqrt_i128_ok b n : 0 <= n < 2 ^ 126 ->
  exists s, sqrt_prim b I128 n = Ret s /\ 0 <= s /\ s * s <= n < (s + 1) * (s + 1).
Proof. intros Hn. exists (Z.sqrt n). split; [now apply sqrt_prim_i128|apply sqrt_facts; lia]. Qed.
(** All of i128: the candidate is one more than twice the root of the quarter. *)
Theorem sqrt_i128_cases b n r : 0 <= n <= imax I128 -> 0 <= r -> r * r <= n / 4 < (r + 1) * (r + 1) ->
  ((2 * r + 1) * (2 * r + 1) <= imax I128 ->
    exists s, sqrt_prim b I128 n = Ret s /\ 0 <= s /\ s * s <= n < (s + 1) * (s + 1)) /\
  (imax I128 < (2 * r + 1) * (2 * r + 1) ->
    (ovf b = true -> sqrt_prim b I128 n = Panic) /\
    (ovf b = false -> sqrt_prim b I128 n = Ret (2 * r + 1) /\ n < (2 * r + 1) * (2 * r + 1))).
Proof.
  intros Hn H0 Hr. assert (Z.sqrt (n / 4) = r) as E by (apply Z.sqrt_unique; unfold Z.succ; lia).
  pose proof (sqrt_i128_val b n Hn) as V. cbv zeta in V. rewrite E in V. split; intros C.
  - replace (_ <=? _) with true in V by lia. exists (Z.sqrt n). split; [exact V|]. apply sqrt_facts. lia.
  - replace (_ <=? _) with false in V by lia. split; intros O; rewrite O in V; [exact V|]. split; [exact V|]. lia.
Qed.
Lemma sqrt_i128_refuted : exists n, 0 <= n <= imax I128 /\ sqrt_prim dev I128 n = Panic /\
  exists s, sqrt_prim release I128 n = Ret s /\ n < s * s.
Proof.
  exists 170141183460469231731687303715884105727. split; [split; vm_compute; discriminate|].
  split; [vm_compute; reflexivity|]. exists 13043817825332782213. split; vm_compute; reflexivity.
Qed.
