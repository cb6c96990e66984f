(** * Sqrt256: the 256-bit square root, and [rsqrt] in every layout and mode. *)
From Verif Require Import Base Sqrt U256 I256 Promo Fixed Spec BaseFacts RoundFacts FloatFacts SqrtFacts
  ArithProofs PrimPromo WordFacts DivWord ShiftFacts I256Facts MulDiv.
Ltac Zify.zify_post_hook ::= idtac.

Lemma lz_bounds w : word w -> 0 <= leading_zeros U64 w <= 64 /\ (w <> 0 -> leading_zeros U64 w < 64).
Proof.
  intros Hw. unfold word in Hw. destruct (Z.eq_dec w 0) as [->|Hn]; [split; [vm_compute; split; discriminate|congruence]|].
  destruct (lz_nbits w ltac:(lia)) as [H _]. cbv zeta in H. lia.
Qed.
Lemma u128_of_u256_ok b x : wf 4 x -> u128_of_u256 b x = Ret (if lval x <? B * B then Some (lval x) else None).
Proof.
  intros Hx. destruct (wf4_inv x Hx) as (w0 & w1 & w2 & w3 & -> & H0 & H1 & H2 & H3).
  unfold u128_of_u256, u256_lz. cbn [rev app fold_left].
  destruct (lz_bounds w0 H0) as [Z0 N0]. destruct (lz_bounds w1 H1) as [Z1 N1].
  destruct (lz_bounds w2 H2) as [Z2 N2]. destruct (lz_bounds w3 H3) as [Z3 N3].
  rewrite lval4. bounds U32. pose proof B_pos as HB. unfold word in *.
  destruct (Z.eqb_spec w3 0) as [E3|E3]; cbn [negb fst].
  2:{ rewrite sub_ok by (unfold fits; lia). cbn [bind]. replace (128 <? 256 - (0 + leading_zeros U64 w3)) with true by lia.
      replace (w0 + B * (w1 + B * (w2 + B * w3)) <? B * B) with false; [reflexivity|].
      symmetry. apply Z.ltb_ge. assert (1 <= w2 + B * w3) as T by (clear - HB H2 H3 E3; nia). clear - HB H0 H1 T. nia. }
  subst w3. change (leading_zeros U64 0) with 64.
  destruct (Z.eqb_spec w2 0) as [E2|E2]; cbn [negb fst].
  2:{ rewrite sub_ok by (unfold fits; lia). cbn [bind]. replace (128 <? 256 - (0 + 64 + leading_zeros U64 w2)) with true by lia.
      replace (w0 + B * (w1 + B * (w2 + B * 0)) <? B * B) with false; [reflexivity|].
      symmetry. apply Z.ltb_ge. clear - HB H0 H1 H2 E2. nia. }
  subst w2. change (leading_zeros U64 0) with 64.
  replace (w0 + B * (w1 + B * (0 + B * 0))) with (w0 + B * w1) by ring.
  replace (w0 + B * w1 <? B * B) with true by (symmetry; apply Z.ltb_lt; clear - HB H0 H1; nia).
  assert (forall z, 128 <= z <= 256 -> (d <- sub b U32 256 z ;;
    (if 128 <? d then Ret None else w2 <- idx [w0; w1; 0; 0] 0 ;; w3 <- idx [w0; w1; 0; 0] 1 ;;
      h <- shl b U128 w3 64 ;; Ret (Some (Z.lor w2 h)))) = Ret (Some (w0 + B * w1))) as K.
  { intros z Hz. rewrite sub_ok by (unfold fits; lia). cbn [bind]. replace (128 <? 256 - z) with false by lia.
    ix. ix. unfold shl. change (width U128) with 128. change ((0 <=? 64) && (64 <? 128)) with true. cbn [bind].
    rewrite wrap_fits by (apply fits_u128; change (2 ^ 64) with B; clear - HB H1; nia).
    rewrite lor_hi_lo by (change (2 ^ 64) with B; lia). change (2 ^ 64) with B. do 2 f_equal. ring. }
  destruct (Z.eqb_spec w1 0) as [E1|E1]; cbn [negb fst]; apply K; [|lia].
  subst w1. change (leading_zeros U64 0) with 64. lia.
Qed.
Lemma u256_of_u128_ok b v : 0 <= v < B * B -> exists z, u256_of_u128 b v = Ret z /\ wf 4 z /\ lval z = v.
Proof.
  intros Hv. pose proof B_pos as HB. unfold u256_of_u128, shr. change (width U128) with 128.
  change ((0 <=? 64) && (64 <? 128)) with true. cbn [bind]. change (2 ^ 64) with B.
  eexists. split; [reflexivity|]. rewrite !wrap_u64.
  assert (0 <= v / B < B) as Hd by (split; [apply Z.div_pos; lia|apply Z.div_lt_upper_bound; lia]).
  rewrite (Z.mod_small (v / B)) by assumption. pose proof (Z.mod_pos_bound v B HB).
  split; [apply wf4; unfold word; lia|]. rewrite lval4. pose proof (Z.div_mod v B ltac:(lia)). lia.
Qed.

Lemma u256_sqrt_ok b : forall fuel x, wf 4 x -> lval x < 2 ^ (126 + 2 * Z.of_nat fuel) -> (0 < fuel)%nat ->
  exists z, u256_sqrt b fuel x = Ret z /\ wf 4 z /\ lval z = Z.sqrt (lval x).
Proof.
  induction fuel as [|fuel IH]; intros x Hx Hf H0; [lia|]. cbn [u256_sqrt].
  rewrite u128_of_u256_ok by assumption. cbn [bind]. pose proof (wf_bound _ _ Hx) as Hb.
  pose proof B_pos as HB.
  destruct (Z.ltb_spec (lval x) (B * B)) as [K|K].
  - rewrite sqrt_prim_u128 by (change (2 ^ 128) with (B * B); lia). cbn [bind]. apply u256_of_u128_ok.
    pose proof (Z.sqrt_nonneg (lval x)). pose proof (Z.sqrt_le_lin (lval x) ltac:(lia)). lia.
  - assert (0 < fuel)%nat as Hfu. { destruct fuel; [|lia]. change (2 ^ (126 + 2 * Z.of_nat 1)) with (B * B) in Hf. lia. }
    destruct (u256_shr_spec b x 2 Hx ltac:(lia)) as (s2 & E2 & W2 & V2). rewrite E2. cbn [bind].
    change (2 ^ 2) with 4 in V2.
    destruct (IH s2 W2) as (r & Er & Wr & Vr); [|assumption|].
    { rewrite V2. apply Z.div_lt_upper_bound; [lia|]. change 4 with (2 ^ 2). rewrite <- Z.pow_add_r by lia.
      replace (2 + (126 + 2 * Z.of_nat fuel)) with (126 + 2 * Z.of_nat (S fuel)) by lia. exact Hf. }
    rewrite Er. cbn [bind]. rewrite V2 in Vr.
    destruct (sqrt_quarter (lval x) ltac:(lia)) as [Hr0 Hr]. rewrite <- Vr in Hr0, Hr.
    assert (lval r < 2 ^ 127) as Hr127.
    { rewrite Vr. apply (sqrt_lt_pow _ 127); [lia|]. split; [apply Z.div_pos; lia|].
      apply Z.div_lt_upper_bound; [lia|]. change (4 * 2 ^ (2 * 127)) with (Bp 4). lia. }
    destruct (u256_shl_spec b r 1 Wr ltac:(lia)) as (lo & El & Wl & Vl). rewrite El. cbn [bind].
    change (2 ^ 1) with 2 in Vl.
    assert (Bp 4 = 2 ^ 128 * 2 ^ 128) as EB by reflexivity.
    assert (2 * 2 ^ 127 = 2 ^ 128) as E128 by reflexivity. assert (1 < 2 ^ 127) as E127 by reflexivity.
    rewrite Z.mod_small in Vl by nia.
    destruct (wf4_inv lo Wl) as (w0 & w1 & w2 & w3 & -> & H00 & H1 & H2 & H3).
    ix. ix.
    assert (w0 mod 2 = 0) as Heven.
    { rewrite lval4 in Vl. replace w0 with (2 * (lval r - 2 ^ 63 * (w1 + B * (w2 + B * w3)))).
      - rewrite Z.mul_comm. apply Z_mod_mult.
      - change B with (2 * 2 ^ 63) in Vl at 1. lia. }
    assert (Z.lor w0 1 = w0 + 1) as Elor.
    { pose proof (lor_hi_lo 1 (w0 / 2) 1 ltac:(lia) ltac:(lia)) as Q. change (2 ^ 1) with 2 in Q.
      assert (w0 / 2 * 2 = w0) as E0 by (pose proof (Z.div_mod w0 2 ltac:(lia)); lia).
      rewrite E0 in Q. rewrite Z.lor_comm, Q. lia. }
    rewrite Elor.
    assert (word (w0 + 1)) as Hw0.
    { unfold word in *. split; [lia|]. assert (w0 + 1 <> B); [|lia]. intros E. replace w0 with (B - 1) in Heven by lia.
      vm_compute in Heven. discriminate. }
    assert (wf 4 [w0 + 1; w1; w2; w3]) as Wh by (apply wf4; assumption).
    assert (lval [w0 + 1; w1; w2; w3] = 2 * lval r + 1) as Vh by (rewrite lval4 in *; lia).
    destruct (overflowing_mul_spec b _ _ Wh Wh) as (sq & Eq & Wq & Vq). rewrite Eq. cbn [bind].
    rewrite Vh in Vq. rewrite Z.mod_small in Vq by (split; [apply Z.square_nonneg|rewrite EB; apply Z.mul_lt_mono_nonneg; lia]).
    rewrite u256_cmp_spec by assumption. rewrite Vq.
    destruct (Z.compare_spec ((2 * lval r + 1) * (2 * lval r + 1)) (lval x)) as [C|C|C].
    + replace (_ <=? _) with true in Hr by lia. eexists. split; [reflexivity|]. split; [assumption|]. congruence.
    + replace (_ <=? _) with true in Hr by lia. eexists. split; [reflexivity|]. split; [assumption|]. congruence.
    + replace (_ <=? _) with false in Hr by lia. eexists. split; [reflexivity|]. split; [assumption|]. lia.
Qed.

(** ** The square roots of the promoted types *)
Lemma sqrt_ok_prim b l t H E1 E2 E3 E4 : width t <= 64 -> sqrt_ok (prim_ok b l t H E1 E2 E3 E4).
Proof.
  intros Hw x a [-> Fa] Ha _. exists (Z.sqrt a). cbn [prim_promo p_sqrt].
  unfold fits in *. split; [apply sqrt_prim_small; lia|]. split; [reflexivity|].
  pose proof (Z.sqrt_nonneg a). pose proof (Z.sqrt_le_lin a Ha). pose proof (imin_le0 t). unfold fits in *. lia.
Qed.
Lemma sqrt_ok64 b : sqrt_ok (promo64 b).
Proof.
  intros x a [-> Fa] Ha H2. exists (Z.sqrt a). cbn [promo_of prim_promo p_sqrt].
  split; [apply sqrt_prim_i128|].
  - change (cap L64) with (2 * 2 ^ 126) in H2. lia.
  - split; [reflexivity|]. pose proof (Z.sqrt_nonneg a). pose proof (Z.sqrt_le_lin a Ha). pose proof (imin_le0 I128). unfold fits in *. lia.
Qed.
Lemma sqrt_ok128 b : sqrt_ok (promo128 b).
Proof.
  intros x a Hx Ha H2. change (R256 x a) in Hx. pose proof Hx as (W & V & Hab).
  change (p_sqrt (promo_of b L128)) with (i256_sqrt b). unfold i256_sqrt.
  destruct (lval_from_i128 0 ltac:(split; [discriminate|reflexivity])) as [W0 V0].
  change (from_i128 0) with I256_ZERO in *.
  rewrite (i256_cmp_spec x I256_ZERO W W0), V, V0. cbn [bind].
  rewrite dassert_ok by (destruct (Z.compare_spec a 0); reflexivity || lia). cbn [bind].
  assert (lval x = a) as Vx by (rewrite <- V; apply sval_nonneg; [assumption|lia]).
  destruct (u256_sqrt_ok b sqrt_fuel x W) as (z & E & Wz & Vz).
  - pose proof (wf_bound _ _ W). eapply Z.lt_le_trans; [apply H|]. unfold sqrt_fuel. vm_compute. discriminate.
  - unfold sqrt_fuel. lia.
  - exists z. split; [exact E|]. pose proof (Z.sqrt_nonneg a). pose proof (Z.sqrt_le_lin a Ha). rewrite Vx in Vz.
    change (R256 z (Z.sqrt a)). unfold R256. split; [assumption|]. split; [|lia].
    rewrite <- Vz. apply sval_small; [assumption|]. rewrite Vz. lia.
Qed.

(** ** [rsqrt] *)
Definition sqrt_all (b : build) (L : layout) : sqrt_ok (promo_all b L) :=
  match L with
  | L16 => sqrt_ok_prim b I16 I32 _ _ _ _ _ ltac:(discriminate)
  | L32 => sqrt_ok_prim b I32 I64 _ _ _ _ _ ltac:(discriminate)
  | L64 => sqrt_ok64 b
  | L128 => sqrt_ok128 b
  end.

(** The rounded root of an integer. *)
Definition srt (m : mode) (n : Z) : Z :=
  let s := Z.sqrt n in
  match m with
  | Floor => s
  | Ceil => if s * s =? n then s else s + 1
  | Nearest => if s * s + s + 1 <=? n then s + 1 else s
  end.
Lemma sqrt_facts n : 0 <= n -> 0 <= Z.sqrt n /\ Z.sqrt n * Z.sqrt n <= n < (Z.sqrt n + 1) * (Z.sqrt n + 1).
Proof. intros H. pose proof (Z.sqrt_nonneg n). pose proof (Z.sqrt_spec n H) as Hs. cbv zeta in Hs. unfold Z.succ in Hs. lia. Qed.
Lemma srt_bound m n h : 0 <= n <= h * h -> 0 <= h -> 0 <= srt m n <= h.
Proof.
  intros [H0 H] Hh. destruct (sqrt_facts n H0) as (S0 & S1 & S2). unfold srt.
  set (s := Z.sqrt n) in *. clearbody s.
  assert (s <= h) by nia.
  destruct m; [|destruct (Z.leb_spec (s * s + s + 1) n)|].
  - destruct (Z.eqb_spec (s * s) n); [lia|]. assert (s <> h) by nia. lia.
  - assert (s <> h) by nia. lia.
  - lia.
  - lia.
Qed.

Lemma rsqrt_val b L P x m : valid b L P -> in_range L x -> 0 <= x ->
  rsqrt b L P x m = Ret (Ok (srt m (x * 10 ^ P))).
Proof.
  intros Hv Hx H0. unfold rsqrt. replace (x <? 0) with false by lia.
  rewrite COEF_ok by assumption. cbn [bind].
  assert (0 < 10 ^ P <= hi L) as Hc by (split; [apply pow10_pos, Hv|apply Hv]).
  assert (in_range L (10 ^ P)) as Hcr by (pose proof (lo_hi L); unfold in_range; lia).
  set (c := 10 ^ P) in *. clearbody c.
  pose proof (cap_hi L) as EC. pose proof (hi_pos L) as Hhi. destruct Hx as [_ Hx].
  set (h := hi L) in *.
  assert (0 <= x * c <= h * h) as Hn. { split; [apply Z.mul_nonneg_nonneg; lia|apply Z.mul_le_mono_nonneg; lia]. }
  pose proof (promo_all b L) as p0. clear p0. set (p := promo_all b L).
  assert (in_range L x) as Hxr by (pose proof (lo_hi L); unfold in_range, h in *; lia).
  pose proof (ok_from _ _ _ p x (proj2 (fits_lty L x) Hxr)) as Rx.
  pose proof (ok_from _ _ _ p c (proj2 (fits_lty L c) Hcr)) as Rc.
  destruct (ok_mul _ _ _ p _ _ _ _ Rx Rc) as (sq & Esq & Rsq). { rewrite EC. clear - Hn Hhi. nia. }
  rewrite Esq. cbn [bind].
  destruct (sqrt_all b L sq (x * c) Rsq) as (s & Es & Rs); [lia|rewrite EC; clear - Hn Hhi; nia|].
  rewrite Es. cbn [bind].
  set (n := x * c) in *. clearbody n.
  assert (srt m n <= h) as Hb by (apply srt_bound; lia).
  destruct (sqrt_facts n ltac:(lia)) as (S0 & S1 & S2). unfold srt in *.
  set (z := Z.sqrt n) in *. clearbody z.
  assert (z <= h) as Hz by nia.
  assert (in_range L z) as Hzr by (pose proof (lo_hi L); unfold in_range, h in *; lia).
  assert (forall (f : bool) r, r = (if f then z + 1 else z) -> r <= h ->
    bind (p_try (promo_of b L) s) (fun l => bind (unwrap_opt l) (fun l => bind (if f then add b (lty L) l 1 else Ret l)
      (fun i => Ret (Ok i : result Z aerr)))) = Ret (Ok r)) as K.
  { intros f r -> Hr. rewrite (ok_try _ _ _ p s z Rs). cbn [bind]. rewrite chk_some by (apply fits_lty; exact Hzr).
    cbn [unwrap_opt bind]. destruct f; [|reflexivity]. rewrite add_ok; [reflexivity|].
    apply fits_lty. pose proof (lo_hi L). unfold in_range, h in *. lia. }
  assert (Z.abs (z * z) < cap L) as B1 by (rewrite EC; clear - S0 Hz Hhi; nia).
  destruct (ok_mul _ _ _ p _ _ _ _ Rs Rs B1) as (zz & Ezz & Rzz).
  destruct m.
  - rewrite Ezz. cbn [bind]. rewrite (ok_eq _ _ _ p zz sq _ _ Rzz Rsq).
    destruct (Z.eqb_spec (z * z) n); cbn [negb]; [apply (K false)|apply (K true)]; reflexivity || assumption.
  - rewrite Ezz. cbn [bind].
    destruct (ok_add _ _ _ p zz s _ _ Rzz Rs) as (a1 & E1 & R1). { rewrite EC. clear - S0 Hz Hhi. nia. }
    rewrite E1. cbn [bind].
    destruct (ok_add _ _ _ p a1 s _ _ R1 Rs) as (a2 & E2 & R2). { rewrite EC. clear - S0 Hz Hhi. nia. }
    rewrite E2. cbn [bind].
    destruct (ok_add _ _ _ p a2 _ _ _ R2 (ok_one _ _ _ p)) as (a3 & E3 & R3). { rewrite EC. clear - S0 Hz Hhi. nia. }
    rewrite E3. cbn [bind].
    destruct (ok_sub _ _ _ p sq zz _ _ Rsq Rzz) as (l & El & Rl). { rewrite EC. clear - S0 S1 S2 Hz Hhi. nia. }
    rewrite El. cbn [bind].
    destruct (ok_sub _ _ _ p a3 sq _ _ R3 Rsq) as (r & Er & Rr). { rewrite EC. clear - S0 S1 S2 Hz Hhi. nia. }
    rewrite Er. cbn [bind]. rewrite (ok_ge _ _ _ p l r _ _ Rl Rr). cbn [bind].
    apply (K (z * z + z + z + 1 - n <=? n - z * z)); [|assumption].
    destruct (Z.leb_spec (z * z + z + 1) n), (Z.leb_spec (z * z + z + z + 1 - n) (n - z * z)); reflexivity || lia.
  - cbn [bind]. apply (K false); reflexivity || assumption.
Qed.
Lemma rsqrt_neg b L P x m : x < 0 -> rsqrt b L P x m = Ret (Err DomainViolation).
Proof. intros H. unfold rsqrt. now replace (x <? 0) with true by lia. Qed.

(** Against rationals: everything scaled by [10^P] squared. *)
Lemma dec_sq P s : 0 <= P -> (dec P s * dec P s == Zq (s * s) / Zq (10 ^ P * 10 ^ P))%Q.
Proof.
  intros HP. rewrite !dec_alt, !Zq_mul by assumption.
  pose proof (Zq_nonzero (10 ^ P) ltac:(pose proof (pow10_pos P HP); lia)). field. assumption.
Qed.
Lemma dec_over P x : 0 <= P -> (dec P x == Zq (x * 10 ^ P) / Zq (10 ^ P * 10 ^ P))%Q.
Proof.
  intros HP. rewrite !dec_alt, !Zq_mul by assumption.
  pose proof (Zq_nonzero (10 ^ P) ltac:(pose proof (pow10_pos P HP); lia)). field. assumption.
Qed.
Lemma dec_half_sq P s k : 0 <= P ->
  ((dec P s + Zq k * ((1 # 2) * dec P 1)) * (dec P s + Zq k * ((1 # 2) * dec P 1)) ==
   Zq ((2 * s + k) * (2 * s + k)) / Zq (4 * (10 ^ P * 10 ^ P)))%Q.
Proof.
  intros HP. rewrite !dec_alt, !Zq_mul, !Zq_add, !Zq_mul by assumption.
  change (Zq 1) with 1%Q. change (Zq 2) with (2 # 1)%Q. change (Zq 4) with (4 # 1)%Q.
  pose proof (Zq_nonzero (10 ^ P) ltac:(pose proof (pow10_pos P HP); lia)). field. assumption.
Qed.
Lemma frac_lt a c d : 0 < d -> (Zq a / Zq d < Zq c / Zq d)%Q <-> a < c.
Proof. intros Hd. destruct d as [|d|]; try lia. unfold Zq, Qlt, Qdiv, Qmult, Qinv, inject_Z. cbn [Qnum Qden]. nia. Qed.
Lemma frac_le a c d : 0 < d -> (Zq a / Zq d <= Zq c / Zq d)%Q <-> a <= c.
Proof. intros Hd. destruct d as [|d|]; try lia. unfold Zq, Qle, Qdiv, Qmult, Qinv, inject_Z. cbn [Qnum Qden]. nia. Qed.
Lemma dec_over4 P x : 0 <= P -> (dec P x == Zq (4 * (x * 10 ^ P)) / Zq (4 * (10 ^ P * 10 ^ P)))%Q.
Proof.
  intros HP. rewrite !dec_alt, !Zq_mul by assumption. change (Zq 4) with (4 # 1)%Q.
  pose proof (Zq_nonzero (10 ^ P) ltac:(pose proof (pow10_pos P HP); lia)). field. assumption.
Qed.
(** Integer form of [sqrt_rounds]. *)
Definition zsqrt_rounds (m : mode) (n s : Z) : Prop :=
  0 <= s /\
  match m with
  | Floor => s * s <= n < (s + 1) * (s + 1)
  | Ceil => n <= s * s /\ (0 < s -> (s - 1) * (s - 1) < n)
  | Nearest => 4 * n < (2 * s + 1) * (2 * s + 1) /\ (0 < s -> (2 * s + -1) * (2 * s + -1) < 4 * n)
  end.
Lemma sqrt_rounds_z m P x s : 0 <= P -> sqrt_rounds m P (dec P x) s <-> zsqrt_rounds m (x * 10 ^ P) s.
Proof.
  intros HP. pose proof (pow10_pos P HP) as Hc. assert (0 < 10 ^ P * 10 ^ P) as Hcc by nia.
  unfold sqrt_rounds, zsqrt_rounds. destruct m; cbv zeta.
  - rewrite !dec_sq, (dec_over P x), !frac_lt, !frac_le by assumption. reflexivity.
  - assert (dec P s + (1 # 2) * dec P 1 == dec P s + Zq 1 * ((1 # 2) * dec P 1))%Q as E1 by (change (Zq 1) with 1%Q; ring).
    assert (dec P s - (1 # 2) * dec P 1 == dec P s + Zq (-1) * ((1 # 2) * dec P 1))%Q as E2 by (change (Zq (-1)) with (-1)%Q; ring).
    rewrite E1, E2, !dec_half_sq, (dec_over4 P x) by assumption. rewrite !frac_lt by lia. reflexivity.
  - rewrite !dec_sq, (dec_over P x), !frac_lt, !frac_le by assumption. reflexivity.
Qed.
Lemma srt_zrounds m n : 0 <= n -> zsqrt_rounds m n (srt m n).
Proof.
  intros Hn. destruct (sqrt_facts n Hn) as (S0 & S1 & S2). unfold zsqrt_rounds, srt.
  set (s := Z.sqrt n) in *. clearbody s. destruct m.
  - destruct (Z.eqb_spec (s * s) n); nia.
  - destruct (Z.leb_spec (s * s + s + 1) n); nia.
  - lia.
Qed.
Lemma zsqrt_rounds_unique m n r r' : zsqrt_rounds m n r -> zsqrt_rounds m n r' -> r = r'.
Proof.
  unfold zsqrt_rounds. intros [H0 H] [H0' H']. destruct (Z.lt_trichotomy r r') as [K|[K|K]]; [exfalso|assumption|exfalso]; destruct m; nia.
Qed.
Lemma srt_rounds m P x : 0 <= P -> 0 <= x -> sqrt_rounds m P (dec P x) (srt m (x * 10 ^ P)).
Proof.
  intros HP Hx. apply sqrt_rounds_z; [assumption|]. apply srt_zrounds. pose proof (pow10_pos P HP). nia.
Qed.

(** [rsqrt] is total, in range and correctly rounded. *)
Theorem rsqrt_spec b L P x m : valid b L P -> in_range L x -> 0 <= x ->
  exists r, rsqrt b L P x m = Ret (Ok r) /\ in_range L r /\ sqrt_rounds m P (dec P x) r.
Proof.
  intros Hv Hx H0. exists (srt m (x * 10 ^ P)). split; [now apply rsqrt_val|]. split; [|apply srt_rounds; [apply Hv|assumption]].
  destruct Hv as [_ [HP Hc]]. pose proof (pow10_pos P HP). pose proof (hi_pos L). pose proof (lo_hi L).
  assert (0 <= srt m (x * 10 ^ P) <= hi L); [|unfold in_range; lia].
  apply srt_bound; [|lia]. unfold in_range in Hx. split; [nia|]. apply Z.mul_le_mono_nonneg; lia.
Qed.
Theorem rsqrt_domain b L P x m : valid b L P -> in_range L x ->
  (rsqrt b L P x m = Ret (Err DomainViolation) <-> x < 0).
Proof.
  intros Hv Hx. split; [|apply rsqrt_neg]. intros E. destruct (Z_lt_le_dec x 0); [assumption|].
  rewrite (rsqrt_val b L P x m Hv Hx) in E by assumption. discriminate.
Qed.
(** The result is the only correctly rounded one. *)
Theorem sqrt_rounds_unique m P x r r' : 0 <= P -> sqrt_rounds m P (dec P x) r -> sqrt_rounds m P (dec P x) r' -> r = r'.
Proof. intros HP. rewrite !sqrt_rounds_z by assumption. apply zsqrt_rounds_unique. Qed.

(** Order, squares, and the three modes together. *)
Lemma srt_mono m n n' : 0 <= n <= n' -> srt m n <= srt m n'.
Proof.
  intros Hn. pose proof (srt_zrounds m n ltac:(lia)) as H. pose proof (srt_zrounds m n' ltac:(lia)) as H'.
  set (s := srt m n) in *. set (s' := srt m n') in *. clearbody s s'. unfold zsqrt_rounds in *. destruct m; nia.
Qed.
Theorem rsqrt_mono b L P x x' m : valid b L P -> in_range L x -> in_range L x' -> 0 <= x <= x' ->
  exists r r', rsqrt b L P x m = Ret (Ok r) /\ rsqrt b L P x' m = Ret (Ok r') /\ r <= r'.
Proof.
  intros Hv Hx Hx' H. do 2 eexists. split; [apply rsqrt_val; try assumption; lia|]. split; [apply rsqrt_val; try assumption; lia|].
  apply srt_mono. pose proof (pow10_pos P ltac:(apply Hv)). nia.
Qed.
Lemma srt_square m r : 0 <= r -> srt m (r * r) = r.
Proof.
  intros H. apply (zsqrt_rounds_unique m (r * r)); [apply srt_zrounds; nia|].
  unfold zsqrt_rounds. split; [assumption|]. destruct m; nia.
Qed.
(** If the root is a decimal, it is found in every mode. *)
Theorem rsqrt_exact b L P x r m : valid b L P -> in_range L x -> 0 <= r -> (dec P r * dec P r == dec P x)%Q ->
  rsqrt b L P x m = Ret (Ok r).
Proof.
  intros Hv Hx Hr E. pose proof (proj1 (proj2 Hv)) as HP. pose proof (pow10_pos P HP) as Hc.
  rewrite dec_sq, (dec_over P x) in E by assumption.
  assert (r * r = x * 10 ^ P) as E'.
  { apply Z.le_antisymm; apply (frac_le _ _ (10 ^ P * 10 ^ P)); try nia; rewrite E; apply Qle_refl. }
  rewrite rsqrt_val by (try assumption; nia). rewrite <- E'. now rewrite srt_square.
Qed.
Theorem rsqrt_brackets b L P x : valid b L P -> in_range L x -> 0 <= x ->
  exists f n c, rsqrt b L P x Floor = Ret (Ok f) /\ rsqrt b L P x Nearest = Ret (Ok n) /\ rsqrt b L P x Ceil = Ret (Ok c) /\
    f <= n <= c /\ (c = f \/ c = f + 1) /\ (n = f \/ n = c) /\
    (f = c <-> exists r, 0 <= r /\ (dec P r * dec P r == dec P x)%Q).
Proof.
  intros Hv Hx H0. pose proof (proj1 (proj2 Hv)) as HP. pose proof (pow10_pos P HP) as Hc.
  do 3 eexists. repeat (split; [apply rsqrt_val; assumption|]).
  destruct (sqrt_facts (x * 10 ^ P) ltac:(nia)) as (S0 & S1 & S2). unfold srt.
  assert ((exists r, 0 <= r /\ (dec P r * dec P r == dec P x)%Q) <-> Z.sqrt (x * 10 ^ P) * Z.sqrt (x * 10 ^ P) = x * 10 ^ P) as K.
  { split.
    - intros (r & Hr & E). rewrite dec_sq, (dec_over P x) in E by assumption.
      assert (r * r = x * 10 ^ P) as <-.
      { apply Z.le_antisymm; apply (frac_le _ _ (10 ^ P * 10 ^ P)); try nia; rewrite E; apply Qle_refl. }
      rewrite Z.sqrt_square by assumption. reflexivity.
    - intros E. exists (Z.sqrt (x * 10 ^ P)). split; [assumption|]. rewrite dec_sq, (dec_over P x), E by assumption. reflexivity. }
  rewrite K. set (s := Z.sqrt (x * 10 ^ P)) in *. clearbody s. set (n := x * 10 ^ P) in *. clearbody n.
  destruct (Z.eqb_spec (s * s) n), (Z.leb_spec (s * s + s + 1) n); repeat split; intros; nia.
Qed.
(** The result does not depend on the build or on the width of the layout. *)
Theorem rsqrt_wider b b' L L' P x m : valid b L P -> valid b' L' P -> in_range L x -> in_range L' x ->
  rsqrt b L P x m = rsqrt b' L' P x m.
Proof.
  intros Hv Hv' Hx Hx'. destruct (Z_lt_le_dec x 0).
  - rewrite !rsqrt_neg by assumption. reflexivity.
  - rewrite !rsqrt_val by assumption. reflexivity.
Qed.
