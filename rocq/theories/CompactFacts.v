(** * CompactFacts *)
From Coq Require Import ZArith List Bool Lia.
From Verif Require Import Base Promo Ops Str Float Codec Spec SpecText BaseFacts CodecFacts.
From Verif Require Import Compact SpecCompact.
From Verif Require Import Fixed.
Import ListNotations.
Open Scope Z_scope.

Lemma le_small n v : 0 <= v < 256 ^ Z.of_nat n -> length (le_bytes n v) = n /\ Forall byte (le_bytes n v) /\ leval (le_bytes n v) = v.
Proof. intros H. destruct (le_bytes_spec n v (proj1 H)) as (A & B & C). rewrite C, Z.mod_small by assumption. auto. Qed.
Lemma needed_bytes L n : 2 ^ 30 <= n < 2 ^ bits L -> L = L64 \/ L = L128 ->
  let k := Z.of_nat (size_of L) - leading_zeros (repr_ty L) n / 8 in
  4 <= k <= 16 /\ 256 ^ (k - 1) <= n < 256 ^ k.
Proof.
  intros [H1 H2] HL. cbv zeta. unfold leading_zeros. assert (0 < n) as Hn by lia. replace (n <? 0) with false by lia. replace (n =? 0) with false by lia.
  destruct (Z.log2_spec n Hn) as [G1 G2]. assert (30 <= Z.log2 n) as K1 by (apply Z.log2_le_pow2; assumption).
  assert (Z.log2 n < bits L) as K2 by (apply Z.log2_lt_pow2; assumption).
  set (g := Z.log2 n) in *. clearbody g.
  assert (width (repr_ty L) = bits L /\ Z.of_nat (size_of L) * 8 = bits L /\ bits L <= 128) as (W1 & W2 & W3) by (destruct HL as [-> | ->]; cbn; lia).
  rewrite W1. assert (Z.of_nat (size_of L) - (bits L - 1 - g) / 8 = g / 8 + 1) as ->.
  { rewrite <- W2. set (s := Z.of_nat (size_of L)). replace (s * 8 - 1 - g) with (- (g + 1) + s * 8) by lia.
    rewrite Z.div_add by lia. pose proof (Z.div_mod g 8 ltac:(lia)). pose proof (Z.mod_pos_bound g 8 ltac:(lia)).
    pose proof (Z.div_mod (- (g + 1)) 8 ltac:(lia)). pose proof (Z.mod_pos_bound (- (g + 1)) 8 ltac:(lia)). lia. }
  pose proof (Z.div_mod g 8 ltac:(lia)) as D. pose proof (Z.mod_pos_bound g 8 ltac:(lia)) as M. split; [lia|].
  change 256 with (2 ^ 8). rewrite <- !Z.pow_mul_r by lia. split.
  - apply Z.le_trans with (2 ^ g); [apply Z.pow_le_mono_r; lia|assumption].
  - apply Z.lt_le_trans with (2 ^ Z.succ g); [assumption|apply Z.pow_le_mono_r; lia].
Qed.
Lemma encode_uint_ok L n : 0 <= n < 2 ^ bits L -> exists l, compact_encode_uint L n = Ret l /\ compact n l.
Proof.
  intros Hn. unfold compact_encode_uint, compact.
  destruct (Z.leb_spec n 63) as [H1|H1].
  { eexists. split; [reflexivity|]. destruct (le_small 1 (n * 4) ltac:(change (256 ^ Z.of_nat 1) with 256; lia)) as (A & B & C). split; [exact B|]. left. change (2 ^ 6) with 64. auto with zarith. }
  destruct (Z.leb_spec n 16383) as [H2|H2].
  { eexists. split; [reflexivity|]. destruct (le_small 2 (n * 4 + 1) ltac:(change (256 ^ Z.of_nat 2) with 65536; lia)) as (A & B & C). split; [exact B|]. right. left.
    change (2 ^ 6) with 64. change (2 ^ 14) with 16384. split; [lia|]. split; assumption. }
  destruct (Z.leb_spec n 1073741823) as [H3|H3].
  { eexists. split; [reflexivity|]. destruct (le_small 4 (n * 4 + 2) ltac:(change (256 ^ Z.of_nat 4) with 4294967296; lia)) as (A & B & C). split; [exact B|]. right. right. left.
    change (2 ^ 30) with 1073741824. change (2 ^ 14) with 16384. split; [lia|]. split; assumption. }
  assert (2 ^ 30 <= n) as H4 by (change (2 ^ 30) with 1073741824; lia).
  destruct L.
  - exfalso. change (2 ^ bits L16) with 65536 in Hn. lia.
  - eexists. split; [reflexivity|]. change (2 ^ bits L32) with 4294967296 in Hn. destruct (le_small 4 n Hn) as (A & B & C). split; [constructor; [unfold byte; lia|exact B]|].
    right. right. right. split; [exact H4|]. exists 4%nat. cbn [leval]. rewrite C. change (Z.of_nat 4 - 1) with 3. change (256 ^ 3) with 16777216. change (256 ^ Z.of_nat 4) with 4294967296.
    cbn [length]. rewrite A. repeat split; lia.
  - pose proof (needed_bytes L64 n ltac:(lia) (or_introl eq_refl)) as N. cbv zeta in N |- *. set (k := Z.of_nat (size_of L64) - leading_zeros (repr_ty L64) n / 8) in *. clearbody k.
    destruct N as [K [N1 N2]]. replace (4 <=? k) with true by lia. cbn [assert_ bind].
    replace (n / 2 ^ (8 * k) =? 0) with true; [|symmetry; apply Z.eqb_eq, Z.div_small; rewrite Z.pow_mul_r by lia; change (2 ^ 8) with 256; lia]. cbn [assert_ bind].
    eexists. split; [reflexivity|]. assert (Z.of_nat (Z.to_nat k) = k) as Ek by lia. destruct (le_small (Z.to_nat k) n ltac:(rewrite Ek; lia)) as (A & B & C).
    split; [constructor; [unfold byte; lia|exact B]|]. right. right. right. split; [exact H4|]. exists (Z.to_nat k). rewrite Ek. cbn [leval length]. rewrite C, A. repeat split; lia.
  - pose proof (needed_bytes L128 n ltac:(lia) (or_intror eq_refl)) as N. cbv zeta in N |- *. set (k := Z.of_nat (size_of L128) - leading_zeros (repr_ty L128) n / 8) in *. clearbody k.
    destruct N as [K [N1 N2]]. replace (4 <=? k) with true by lia. cbn [assert_ bind].
    replace (n / 2 ^ (8 * k) =? 0) with true; [|symmetry; apply Z.eqb_eq, Z.div_small; rewrite Z.pow_mul_r by lia; change (2 ^ 8) with 256; lia]. cbn [assert_ bind].
    eexists. split; [reflexivity|]. assert (Z.of_nat (Z.to_nat k) = k) as Ek by lia. destruct (le_small (Z.to_nat k) n ltac:(rewrite Ek; lia)) as (A & B & C).
    split; [constructor; [unfold byte; lia|exact B]|]. right. right. right. split; [exact H4|]. exists (Z.to_nat k). rewrite Ek. cbn [leval length]. rewrite C, A. repeat split; lia.
Qed.

(** Reading back. *)
Lemma take_app l rest : take (length l) (l ++ rest) = Ok (leval l, rest).
Proof.
  unfold take. rewrite app_length. replace (Nat.ltb _ _) with false by (symmetry; apply Nat.ltb_ge; lia).
  now rewrite firstn_app, Nat.sub_diag, firstn_all, firstn_O, app_nil_r, skipn_app, Nat.sub_diag, skipn_all, skipn_O, le_value_leval.
Qed.
Lemma take_inv n input w rest : take n input = Ok (w, rest) -> exists l, input = l ++ rest /\ length l = n /\ w = leval l.
Proof.
  unfold take. destruct (Nat.ltb_spec (length input) n) as [H|H]; [discriminate|]. intros E. injection E as <- <-.
  exists (firstn n input). rewrite firstn_skipn, firstn_length, le_value_leval. split; [reflexivity|]. split; [lia|reflexivity].
Qed.
Lemma take_in_app l s low high rest : low < leval l / 2 ^ s <= high -> take_in (length l) s low high (l ++ rest) = Ok (leval l / 2 ^ s, rest).
Proof. intros H. unfold take_in. rewrite take_app. cbv zeta. replace (low <? _) with true by lia. replace (_ <=? high) with true by lia. reflexivity. Qed.
Lemma take_in_inv n s low high input x rest : take_in n s low high input = Ok (x, rest) ->
  exists l, input = l ++ rest /\ length l = n /\ x = leval l / 2 ^ s /\ low < x <= high.
Proof.
  unfold take_in. destruct (take n input) as [[w r]|] eqn:T; [|discriminate]. cbv zeta. destruct (_ && _) eqn:C; [|discriminate].
  intros E. injection E as <- <-. apply andb_prop in C. destruct (take_inv _ _ _ _ T) as (l & E & N & ->). exists l. repeat split; try assumption; lia.
Qed.
Lemma leval_mod l c : Forall byte (c :: l) -> c = leval (c :: l) mod 256 /\ leval l = leval (c :: l) / 256.
Proof.
  intros H. inversion H as [|? ? Hc _]; subst. unfold byte in Hc. cbn [leval]. rewrite (Z.mul_comm 256), Z.mod_add, Z.div_add by lia.
  rewrite Z.mod_small, Z.div_small by assumption. lia.
Qed.
Lemma mod4 c l : Forall byte (c :: l) -> c mod 4 = leval (c :: l) mod 4.
Proof. intros H. cbn [leval]. replace (c + 256 * leval l) with (c + (64 * leval l) * 4) by lia. now rewrite Z.mod_add by lia. Qed.
Lemma low_two n r : 0 <= r < 4 -> (n * 4 + r) mod 4 = r /\ (n * 4 + r) / 4 = n.
Proof. intros H. split; [symmetry; apply Z.mod_unique with n; lia|symmetry; apply Z.div_unique with r; lia]. Qed.
Lemma high_check L k : (L = L64 \/ L = L128) -> 4 <= k <= Z.of_nat (size_of L) ->
  imax (repr_ty L) / 2 ^ ((Z.of_nat (size_of L) - k + 1) * 8) = 256 ^ (k - 1) - 1.
Proof.
  intros HL Hk. assert (imax (repr_ty L) = 256 ^ Z.of_nat (size_of L) - 1) as -> by (destruct HL as [-> | ->]; reflexivity).
  set (s := Z.of_nat (size_of L)) in *. clearbody s. rewrite Z.mul_comm, Z.pow_mul_r by lia. change (2 ^ 8) with 256.
  replace s with ((k - 1) + (s - k + 1)) at 1 by lia. rewrite Z.pow_add_r by lia.
  assert (0 < 256 ^ (s - k + 1)) by (apply Z.pow_pos_nonneg; lia). set (c := 256 ^ (s - k + 1)) in *. clearbody c.
  symmetry. apply Z.div_unique with (c - 1); lia.
Qed.

Lemma big_decode L k rest : (L = L64 \/ L = L128) -> 4 <= k ->
  if k <=? Z.of_nat (size_of L)
  then exists high, 256 ^ k - 1 <= high /\
    compact_decode_uint L ((k - 4) * 4 + 3 :: rest) = take_in (Z.to_nat k) 0 (if k =? 4 then 1073741823 else 256 ^ (k - 1) - 1) high rest
  else compact_decode_uint L ((k - 4) * 4 + 3 :: rest) = Err ConvertError.
Proof.
  intros HL Hk. destruct (low_two (k - 4) 3 ltac:(lia)) as [M D]. unfold compact_decode_uint. rewrite M, D. replace (k - 4 + 4) with k by lia. cbv zeta.
  change (3 =? 0) with false. change (3 =? 1) with false. change (3 =? 2) with false. cbn iota.
  assert ((8 =? Z.of_nat (size_of L)) = true \/ (16 =? Z.of_nat (size_of L)) = true) as HS by (destruct HL as [-> | ->]; auto).
  set (body := if k =? 4 then _ else _).
  assert ((match L with L16 => Err ConvertError | L32 => (if k - 4 =? 0 then take_in 4 0 1073741823 (imax U32) rest else Err ConvertError) | _ => body end) = body) as EB by (destruct HL as [-> | ->]; reflexivity).
  rewrite EB. clear EB. unfold body; clear body.
  assert (imax (repr_ty L) = 256 ^ Z.of_nat (size_of L) - 1) as EM by (destruct HL as [-> | ->]; reflexivity).
  destruct (Z.leb_spec k (Z.of_nat (size_of L))) as [H|H].
  - destruct (Z.eqb_spec k 4) as [->|N4]; [exists (imax U32); split; [vm_compute; discriminate|reflexivity]|].
    destruct (Z.eqb_spec k 8) as [->|N8]; [exists (imax U64); split; [vm_compute; discriminate|reflexivity]|].
    destruct (Z.eqb_spec k (Z.of_nat (size_of L))) as [E|N].
    + exists (imax (repr_ty L)). rewrite EM. split; [rewrite E; lia|]. rewrite E, Nat2Z.id. f_equal. rewrite <- EM, <- (high_check L (Z.of_nat (size_of L)) HL) by lia.
      do 2 f_equal. lia.
    + replace (Z.of_nat (size_of L) <? k) with false by lia. exists (imax (repr_ty L)). split; [|f_equal; apply high_check; [assumption|lia]].
      rewrite EM. assert (256 ^ k <= 256 ^ Z.of_nat (size_of L)) by (apply Z.pow_le_mono_r; lia). lia.
  - replace (k =? 4) with false by lia. replace (k =? 8) with false by lia. replace (k =? Z.of_nat (size_of L)) with false by lia.
    now replace (Z.of_nat (size_of L) <? k) with true by lia.
Qed.
Lemma small_decode L c l r : Forall byte (c :: l) -> c mod 4 = r -> r <> 3 ->
  compact_decode_uint L (c :: l) =
    (if r =? 0 then Ok (c / 4, l) else if r =? 1 then take_in 2 2 63 16383 (c :: l)
     else take_in 4 2 16383 (match L with L16 => 65535 | _ => 1073741823 end) (c :: l)).
Proof.
  intros Hb <- Hr. unfold compact_decode_uint. destruct (Z.eqb_spec (c mod 4) 0); [reflexivity|]. destruct (Z.eqb_spec (c mod 4) 1); [reflexivity|].
  pose proof (Z.mod_pos_bound c 4 ltac:(lia)). now replace (c mod 4 =? 2) with true by lia.
Qed.
Lemma decode_uint_ok L n l rest : 0 <= n < 2 ^ bits L -> compact n l -> compact_decode_uint L (l ++ rest) = Ok (n, rest).
Proof.
  intros Hn [Hb H]. destruct l as [|c l]; [exfalso; destruct H as [(_ & K & _)|[(_ & K & _)|[(_ & K & _)|(_ & k & K & _ & E & _)]]]; discriminate|].
  pose proof (mod4 c l Hb) as M4. destruct (leval_mod l c Hb) as [Ec El].
  destruct H as [(R & K & V)|[(R & K & V)|[(R & K & V)|(R & k & Hk & B & K & V)]]].
  - injection K as K. apply length_zero_iff_nil in K. subst l. cbn [leval] in V. assert (c = n * 4) as -> by lia. unfold compact_decode_uint. cbn [app].
    rewrite Z.mod_mul, Z.div_mul by lia. reflexivity.
  - rewrite V in M4. rewrite (proj1 (low_two n 1 ltac:(lia))) in M4. unfold compact_decode_uint. change ((c :: l) ++ rest) with (c :: l ++ rest). cbn iota. rewrite M4. cbn [Z.eqb Pos.eqb].
    change (c :: l ++ rest) with ((c :: l) ++ rest). rewrite <- K. pose proof (proj2 (low_two n 1 ltac:(lia))) as D. rewrite take_in_app; rewrite V; change (2 ^ 2) with 4; rewrite D; [reflexivity|].
    change (2 ^ 6) with 64 in R. change (2 ^ 14) with 16384 in R. lia.
  - rewrite V in M4. rewrite (proj1 (low_two n 2 ltac:(lia))) in M4. unfold compact_decode_uint. change ((c :: l) ++ rest) with (c :: l ++ rest). cbn iota. rewrite M4. cbn [Z.eqb Pos.eqb].
    change (c :: l ++ rest) with ((c :: l) ++ rest). rewrite <- K. pose proof (proj2 (low_two n 2 ltac:(lia))) as D. rewrite take_in_app; rewrite V; change (2 ^ 2) with 4; rewrite D; [reflexivity|].
    change (2 ^ 14) with 16384 in R. change (2 ^ 30) with 1073741824 in R. destruct L; try lia. change (2 ^ bits L16) with 65536 in Hn. lia.
  - set (kz := Z.of_nat k) in *. assert (4 <= kz) as Hkz by lia.
    rewrite V in M4. replace ((kz - 4) * 4 + 3 + 256 * n) with ((kz - 4 + 64 * n) * 4 + 3) in M4 by lia. rewrite (proj1 (low_two _ 3 ltac:(lia))) in M4.
    assert (0 <= c < 256) as Hc by (inversion Hb; assumption). cbn [leval] in V.
    assert (256 * leval l + c = 256 * n + ((kz - 4) * 4 + 3)) as V' by lia.
    assert (256 ^ kz <= 2 ^ bits L * 256) as KB.
    { replace kz with (kz - 1 + 1) by lia. rewrite Z.pow_add_r by lia. change (256 ^ 1) with 256. lia. }
    assert (kz <= 17) as K17.
    { apply Z.nlt_ge. intros C. assert (256 ^ 18 <= 256 ^ kz) by (apply Z.pow_le_mono_r; lia).
      assert (2 ^ bits L <= 256 ^ 16) by (destruct L; vm_compute; discriminate). change (256 ^ 18) with (256 ^ 16 * 256 * 256) in *. assert (0 < 256 ^ 16) by reflexivity. lia. }
    assert (c = (kz - 4) * 4 + 3 /\ leval l = n) as [Ec' EL] by lia. injection K as K.
    assert (length l = Z.to_nat kz) as KL by lia.
    assert (take_in (Z.to_nat kz) 0 (if kz =? 4 then 1073741823 else 256 ^ (kz - 1) - 1) (256 ^ kz - 1) (l ++ rest) = Ok (n, rest)) as T.
    { rewrite <- KL. rewrite take_in_app; change (2 ^ 0) with 1; rewrite Z.div_1_r, EL; [reflexivity|]. change (2 ^ 30) with 1073741824 in R. destruct (kz =? 4); lia. }
    destruct L.
    + exfalso. change (2 ^ bits L16) with 65536 in Hn. change (2 ^ 30) with 1073741824 in R. lia.
    + assert (kz = 4) as E4.
      { assert (~ 4 < kz); [intros C|lia]. assert (256 ^ 4 <= 256 ^ (kz - 1)) as P4 by (apply Z.pow_le_mono_r; lia). change (256 ^ 4) with 4294967296 in P4. change (2 ^ bits L32) with 4294967296 in Hn. lia. }
      rewrite E4 in *. change ((c :: l) ++ rest) with (c :: l ++ rest). rewrite Ec'. exact T.
    + pose proof (big_decode L64 kz (l ++ rest) (or_introl eq_refl) Hkz) as BD. replace (kz <=? Z.of_nat (size_of L64)) with true in BD.
      2:{ symmetry. apply Z.leb_le. apply Z.nlt_ge. intros C. assert (256 ^ Z.of_nat (size_of L64) <= 256 ^ (kz - 1)) as P4 by (apply Z.pow_le_mono_r; lia). change (256 ^ Z.of_nat (size_of L64)) with (2 ^ bits L64) in P4. lia. }
      destruct BD as (high & Hh & BD). change ((c :: l) ++ rest) with (c :: l ++ rest). rewrite Ec', BD. rewrite <- T. rewrite <- KL.
      unfold take_in. rewrite take_app. cbv zeta. change (2 ^ 0) with 1. rewrite Z.div_1_r, EL. replace (n <=? high) with true by lia. replace (n <=? 256 ^ kz - 1) with true by lia. reflexivity.
    + pose proof (big_decode L128 kz (l ++ rest) (or_intror eq_refl) Hkz) as BD. replace (kz <=? Z.of_nat (size_of L128)) with true in BD.
      2:{ symmetry. apply Z.leb_le. apply Z.nlt_ge. intros C. assert (256 ^ Z.of_nat (size_of L128) <= 256 ^ (kz - 1)) as P4 by (apply Z.pow_le_mono_r; lia). change (256 ^ Z.of_nat (size_of L128)) with (2 ^ bits L128) in P4. lia. }
      destruct BD as (high & Hh & BD). change ((c :: l) ++ rest) with (c :: l ++ rest). rewrite Ec', BD. rewrite <- T. rewrite <- KL.
      unfold take_in. rewrite take_app. cbv zeta. change (2 ^ 0) with 1. rewrite Z.div_1_r, EL. replace (n <=? high) with true by lia. replace (n <=? 256 ^ kz - 1) with true by lia. reflexivity.
Qed.
Lemma split_forall (l rest : list Z) : Forall byte (l ++ rest) -> Forall byte l.
Proof. intros H. apply Forall_app in H. apply H. Qed.
(** A long form that was accepted. *)
Lemma long_form L c input x rest k : Forall byte (c :: input) -> c = (Z.of_nat k - 4) * 4 + 3 -> (4 <= k)%nat -> Z.of_nat k <= Z.of_nat (size_of L) -> forall low high,
  2 ^ 30 - 1 <= low -> 256 ^ (Z.of_nat k - 1) - 1 <= low -> take_in k 0 low high input = Ok (x, rest) ->
  0 <= x < 2 ^ bits L /\ exists l, c :: input = l ++ rest /\ compact x l.
Proof.
  intros Hb Hc Hk HkL low high Hl1 Hl2 T. destruct (take_in_inv _ _ _ _ _ _ _ T) as (l & E & Hn & Hx & HR). change (2 ^ 0) with 1 in Hx. rewrite Z.div_1_r in Hx.
  assert (Forall byte l) as Hbl by (apply (split_forall l rest); rewrite <- E; now inversion Hb). pose proof (leval_bound l Hbl) as B. rewrite Hn in B. rewrite <- Hx in B.
  split.
  - split; [lia|]. apply Z.lt_le_trans with (256 ^ Z.of_nat k); [lia|]. rewrite <- (pow_size L (size_of L) (size_bits L)). apply Z.pow_le_mono_r; lia.
  - exists (c :: l). split; [rewrite E; reflexivity|]. split; [constructor; [now inversion Hb|exact Hbl]|]. right. right. right.
    split; [lia|]. exists k. cbn [length leval]. rewrite Hn, <- Hx. repeat split; lia.
Qed.
Lemma decode_uint_inv L input n rest : Forall byte input -> compact_decode_uint L input = Ok (n, rest) ->
  0 <= n < 2 ^ bits L /\ exists l, input = l ++ rest /\ compact n l.
Proof.
  intros Hb E. destruct input as [|c input]; [discriminate|]. pose proof (Z.mod_pos_bound c 4 ltac:(lia)) as HM.
  assert (0 <= c < 256) as Hc by (inversion Hb; assumption). pose proof (Z.div_mod c 4 ltac:(lia)) as DM.
  assert (65536 <= 2 ^ bits L) as HB by (destruct L; vm_compute; discriminate).
  destruct (Z.eq_dec (c mod 4) 3) as [M|M].
  2:{ rewrite (small_decode L c input _ Hb eq_refl M) in E. destruct (Z.eqb_spec (c mod 4) 0) as [M0|M0].
      - injection E as <- <-. split; [lia|]. exists [c]. split; [reflexivity|]. split; [constructor; [exact Hc|constructor]|]. left. change (2 ^ 6) with 64. cbn [leval length]. repeat split; lia.
      - destruct (Z.eqb_spec (c mod 4) 1) as [M1|M1].
        + destruct (take_in_inv _ _ _ _ _ _ _ E) as (l & EL & Hn & Hx & HR). assert (Forall byte l) as Hbl by (apply (split_forall l rest); now rewrite <- EL).
          split; [lia|]. exists l. split; [assumption|]. split; [assumption|]. right. left. change (2 ^ 6) with 64. change (2 ^ 14) with 16384. split; [lia|]. split; [assumption|].
          destruct l as [|c' l]; [discriminate|]. injection EL as <- _. pose proof (mod4 c l Hbl) as M4. change (2 ^ 2) with 4 in Hx. pose proof (Z.div_mod (leval (c :: l)) 4 ltac:(lia)). lia.
        + destruct (take_in_inv _ _ _ _ _ _ _ E) as (l & EL & Hn & Hx & HR). assert (Forall byte l) as Hbl by (apply (split_forall l rest); now rewrite <- EL).
          assert (n <= 1073741823 /\ n < 2 ^ bits L) as [HN1 HN2] by (destruct L; [change (2 ^ bits L16) with 65536 in *|change (2 ^ bits L32) with 4294967296 in *| change (2 ^ bits L64) with 18446744073709551616 in *|change (2 ^ bits L128) with 340282366920938463463374607431768211456 in *]; lia).
          split; [lia|]. exists l. split; [assumption|]. split; [assumption|]. right. right. left. change (2 ^ 30) with 1073741824. change (2 ^ 14) with 16384. split; [lia|]. split; [assumption|].
          destruct l as [|c' l]; [discriminate|]. injection EL as <- _. pose proof (mod4 c l Hbl) as M4. change (2 ^ 2) with 4 in Hx. pose proof (Z.div_mod (leval (c :: l)) 4 ltac:(lia)). lia. }
  assert (exists kz, 4 <= kz /\ c = (kz - 4) * 4 + 3) as (kz & Hkz & Ec) by (exists (c / 4 + 4); lia).
  assert (forall L, L = L64 \/ L = L128 -> compact_decode_uint L (c :: input) = Ok (n, rest) -> 0 <= n < 2 ^ bits L /\ exists l, c :: input = l ++ rest /\ compact n l) as Big.
  { clear L E HB. intros L HL E. pose proof (big_decode L kz input HL Hkz) as BD. destruct (Z.leb_spec kz (Z.of_nat (size_of L))) as [Hle|Hgt]; [|rewrite <- Ec in BD; congruence].
    destruct BD as (high & _ & BD). rewrite <- Ec in BD. rewrite BD in E. assert (Z.of_nat (Z.to_nat kz) = kz) as Ek by lia.
    refine (long_form L c input n rest (Z.to_nat kz) Hb _ _ _ _ high _ _ E); rewrite ?Ek; try assumption; try lia; destruct (Z.eqb_spec kz 4) as [->|N]; try (vm_compute; discriminate); try lia.
    assert (256 ^ 4 <= 256 ^ (kz - 1)) as P4 by (apply Z.pow_le_mono_r; lia). change (256 ^ 4) with 4294967296 in P4. change (2 ^ 30) with 1073741824. lia. }
  destruct L; [| |apply Big; auto|apply Big; auto].
  - exfalso. unfold compact_decode_uint in E. rewrite M in E. discriminate.
  - unfold compact_decode_uint in E. rewrite M in E. cbn [Z.eqb Pos.eqb] in E. destruct (Z.eqb_spec (c / 4) 0) as [D|D]; [|discriminate].
    refine (long_form L32 c input n rest 4 Hb _ _ _ _ _ _ _ E); try (vm_compute; discriminate); try lia.
Qed.

(** ** Numbers *)
Theorem compact_enc L x : in_range L x -> exists l, compact_encode L x = Ret l /\ compact (x mod 2 ^ bits L) l.
Proof. intros _. unfold compact_encode. rewrite encode_as_mod. apply encode_uint_ok, mod_range. Qed.
Theorem compact_dec L x l rest : in_range L x -> compact (x mod 2 ^ bits L) l -> compact_decode L (l ++ rest) = Ok (x, rest).
Proof.
  intros Hx H. unfold compact_decode. rewrite (decode_uint_ok L _ _ _ (mod_range L x) H). cbn [rmap]. do 2 f_equal. rewrite <- encode_as_mod. now apply compact_to.
Qed.
Theorem compact_dec_inv L input x rest : Forall byte input -> compact_decode L input = Ok (x, rest) ->
  in_range L x /\ exists l, input = l ++ rest /\ compact (x mod 2 ^ bits L) l.
Proof.
  intros Hb E. unfold compact_decode in E. destruct (compact_decode_uint L input) as [[v r]|] eqn:D; [|discriminate]. cbn [rmap] in E. injection E as <- <-.
  destruct (decode_uint_inv L input v r Hb D) as [Hv Hl]. destruct (compact_from L v Hv) as [R Ev]. split; [exact R|]. rewrite encode_as_mod in Ev. now rewrite Ev.
Qed.
Theorem compact_trip L x rest : in_range L x -> exists l, compact_encode L x = Ret l /\ compact_decode L (l ++ rest) = Ok (x, rest).
Proof. intros Hx. destruct (compact_enc L x Hx) as (l & E & C). exists l. split; [assumption|]. now apply compact_dec. Qed.
Theorem compact_canonical L input x rest : Forall byte input -> compact_decode L input = Ok (x, rest) ->
  in_range L x /\ exists l, compact_encode L x = Ret l /\ input = l ++ rest.
Proof.
  intros Hb E. destruct (compact_dec_inv L input x rest Hb E) as (R & l & EI & C). split; [assumption|]. destruct (compact_enc L x R) as (l' & E' & C'). exists l'. split; [assumption|].
  enough (l' = l) as -> by assumption. clear - C C'. destruct C as [B C], C' as [B' C'].
  apply leval_inj; try assumption.
  - destruct C as [(R & K & V)|[(R & K & V)|[(R & K & V)|(R & k & Hk & BB & K & V)]]], C' as [(R' & K' & V')|[(R' & K' & V')|[(R' & K' & V')|(R' & k' & Hk' & BB' & K' & V')]]]; try congruence; try lia.
    assert (k = k'); [|congruence]. destruct (Nat.lt_trichotomy k k') as [Q|[Q|Q]]; [exfalso|assumption|exfalso].
    + assert (256 ^ Z.of_nat k <= 256 ^ (Z.of_nat k' - 1)) by (apply Z.pow_le_mono_r; lia). lia.
    + assert (256 ^ Z.of_nat k' <= 256 ^ (Z.of_nat k - 1)) by (apply Z.pow_le_mono_r; lia). lia.
  - destruct C as [(R & K & V)|[(R & K & V)|[(R & K & V)|(R & k & Hk & BB & K & V)]]], C' as [(R' & K' & V')|[(R' & K' & V')|[(R' & K' & V')|(R' & k' & Hk' & BB' & K' & V')]]]; try congruence; try lia.
    assert (k = k'); [|subst; congruence]. destruct (Nat.lt_trichotomy k k') as [Q|[Q|Q]]; [exfalso|assumption|exfalso].
    + assert (256 ^ Z.of_nat k <= 256 ^ (Z.of_nat k' - 1)) by (apply Z.pow_le_mono_r; lia). lia.
    + assert (256 ^ Z.of_nat k' <= 256 ^ (Z.of_nat k - 1)) by (apply Z.pow_le_mono_r; lia). lia.
Qed.
(** Negative numbers take the longest form, one byte more than the fixed-width one (two for i16). *)
Theorem compact_negative L x l : in_range L x -> x < 0 -> compact_encode L x = Ret l ->
  length l = match L with L16 => 4%nat | L32 => 5%nat | L64 => 9%nat | L128 => 17%nat end.
Proof.
  intros Hx Hneg E. destruct (compact_enc L x Hx) as (l' & E' & C). rewrite E in E'. injection E' as <-.
  assert (x mod 2 ^ bits L = x + 2 ^ bits L /\ 2 ^ (bits L - 1) <= x + 2 ^ bits L < 2 ^ bits L) as [EM B].
  { assert (2 ^ bits L = 2 * 2 ^ (bits L - 1)) as P2 by (destruct L; reflexivity). unfold in_range, lo, hi in Hx.
    assert (0 < 2 ^ (bits L - 1)) by (destruct L; reflexivity). split; [|lia].
    rewrite <- (Z.mod_add x 1), Z.mul_1_l by lia. apply Z.mod_small. lia. }
  rewrite EM in C. clear EM. set (n := x + 2 ^ bits L) in *. clearbody n. clear - B C. destruct C as [_ C]. change (2 ^ 6) with 64 in C. change (2 ^ 14) with 16384 in C. change (2 ^ 30) with 1073741824 in C.
  assert (forall k, (4 <= k)%nat -> 256 ^ (Z.of_nat k - 1) <= n < 256 ^ Z.of_nat k -> L <> L16 -> k = size_of L) as KS.
  { intros k Hk K NL. assert (256 ^ (Z.of_nat (size_of L) - 1) <= 2 ^ (bits L - 1) /\ 2 ^ bits L = 256 ^ Z.of_nat (size_of L)) as [Q1 Q2] by (destruct L; split; vm_compute; (reflexivity || discriminate)).
    rewrite Q2 in B. assert (4 <= Z.of_nat (size_of L)) by (destruct L; [contradiction|..]; cbn; lia).
    destruct (Nat.lt_trichotomy k (size_of L)) as [Q|[Q|Q]]; [exfalso|assumption|exfalso].
    + assert (256 ^ Z.of_nat k <= 256 ^ (Z.of_nat (size_of L) - 1)) by (apply Z.pow_le_mono_r; lia). lia.
    + assert (256 ^ Z.of_nat (size_of L) <= 256 ^ (Z.of_nat k - 1)) by (apply Z.pow_le_mono_r; lia). lia. }
  destruct C as [(R & K & V)|[(R & K & V)|[(R & K & V)|(R & k & Hk & BB & K & V)]]].
  1-2: exfalso; assert (32768 <= 2 ^ (bits L - 1)) by (destruct L; vm_compute; discriminate); lia.
  - destruct L; [assumption|..]; exfalso; [change (2 ^ (bits L32 - 1)) with 2147483648 in B|change (2 ^ (bits L64 - 1)) with 9223372036854775808 in B|change (2 ^ (bits L128 - 1)) with 170141183460469231731687303715884105728 in B]; lia.
  - destruct L; [exfalso; change (2 ^ bits L16) with 65536 in B; lia|..]; rewrite K, (KS k Hk BB) by discriminate; reflexivity.
Qed.
