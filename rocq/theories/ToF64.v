(** * ToF64: the conversion to f64 and the round trip. *)
From Coq Require Import SpecFloat QArith Qabs Qpower.
From Verif Require Import Base PowerTable ConstFn Sqrt Promo Ops Fixed Float Spec SpecF64 BaseFacts SimpleProofs FloatFacts F64Facts F64Rel F64Proofs.
From Verif Require Import Fixed.
Open Scope Z_scope.
Ltac Zify.zify_post_hook ::= idtac.

(** ** The three operations, each rounding once *)
Definition w53 : Z := 2 ^ 53 - 1.
Definition normal (M : Z) : Prop := 2 ^ 52 <= M < 2 ^ 53.

Lemma round_rel s n d m e l : located n d m l -> 2 ^ 52 <= m -> -1074 <= e -> Zdigits2 m + e <= 1023 ->
  exists M k, binary_round_aux f64prec f64emax s m e l = S754_finite s M (e + k) /\ normal (Zpos M) /\
    w53 * Z.abs (Zpos M * (2 ^ k * d) - n) <= n /\ Zdigits2 m - 53 <= k <= Zdigits2 m - 52 /\ 0 <= k.
Proof.
  intros Hl Hm He Hx. destruct (round_aux_spec s n d m e l Hl Hm He Hx) as (M & k & E & Hk & HM & Herr & Hkb).
  exists M, k. split; [exact E|]. split; [exact HM|]. split; [|lia].
  destruct Hl as (_ & Hd & _). assert (2 ^ (Zdigits2 m - 53) * d <= 2 ^ k * d) as Hw.
  { apply Z.mul_le_mono_nonneg_r; [lia|]. apply pow2_le. lia. }
  set (w := 2 ^ k * d) in *. assert (2 ^ 52 * w <= Zpos M * w) as HMw.
  { apply Z.mul_le_mono_nonneg_r; [|lia]. unfold w. apply Z.mul_nonneg_nonneg; [apply Z.pow_nonneg|]; lia. }
  set (A := Zpos M * w) in *. clearbody A w. unfold w53. lia.
Qed.

Lemma int_rel x : 0 < x < 2 ^ 128 -> exists M E,
  int_to_f64 x = S754_finite false M E /\ normal (Zpos M) /\ -52 <= E <= 76 /\
  w53 * Z.abs (Zpos M * 2 ^ (E + K0) - x * 2 ^ K0) <= x * 2 ^ K0 /\
  (x <= 2 ^ 53 -> Zpos M * 2 ^ (E + K0) = x * 2 ^ K0).
Proof.
  intros Hx. assert (HK : K0 = 1074) by reflexivity.
  destruct (int_to_f64_pos x) as (M & E & Ef & (HM & HE0 & HE1) & HD & Hs).
  { split; [lia|]. apply Z.lt_le_trans with (2 ^ 128); [lia|]. apply pow2_le. lia. }
  exists M, E. split; [exact Ef|]. split; [exact HM|].
  destruct (digits2_pos_spec x ltac:(lia)) as [D0 [D1 D2]].
  assert (Zdigits2 x <= 128) as D3.
  { apply Z.le_ngt. intros C. pose proof (pow2_le 128 (Zdigits2 x - 1) ltac:(lia)). lia. }
  split; [lia|].
  pose proof (pow2_pos K0 ltac:(lia)) as GB.
  destruct (Z_le_gt_dec E 0) as [C|C].
  - specialize (HE0 C). assert (Zpos M * 2 ^ (E + K0) = x * 2 ^ K0) as ->.
    { rewrite HE0, <- Z.mul_assoc, <- Z.pow_add_r by lia. do 2 f_equal. lia. }
    rewrite Z.sub_diag, Z.mul_0_r. split; [|reflexivity]. apply Z.mul_nonneg_nonneg; lia.
  - specialize (HE1 ltac:(lia)). pose proof (pow2_pos E ltac:(lia)) as GE. rewrite Z.pow_add_r by lia. rewrite Z.mul_assoc. split.
    + rewrite <- Z.mul_sub_distr_r, Z.abs_mul, (Z.abs_eq (2 ^ K0)), Z.mul_assoc by lia. apply Z.mul_le_mono_nonneg_r; [lia|].
      assert (2 ^ 52 * 2 ^ E <= Zpos M * 2 ^ E) by (apply Z.mul_le_mono_nonneg_r; lia). set (A := Zpos M * 2 ^ E) in *. clearbody A. unfold w53. lia.
    + intros Hx53. f_equal. assert (x = 2 ^ 53) as -> by lia. change (Zdigits2 (2 ^ 53)) with 54 in HD.
      assert (E = 1 \/ E = 2) as [-> | ->] by lia; [change (2 ^ 1) with 2 in *; lia|].
      change (2 ^ 2) with 4 in *. unfold normal in HM. lia.
Qed.

Lemma location_near n d q r : 0 <= q -> 0 < d -> n = d * q + r -> 0 <= r < d -> located n d q (new_location d r).
Proof.
  intros Hq Hd En Hr. unfold located, new_location, new_location_even, new_location_odd.
  destruct (Z.eq_dec r 0) as [->|Hr0].
  { assert ((if Z.even d then if Zeq_bool 0 0 then loc_Exact else loc_Inexact (2 * 0 ?= d)
      else if Zeq_bool 0 0 then loc_Exact else loc_Inexact match 2 * 0 + 1 ?= d with Gt => Gt | _ => Lt end) = loc_Exact)
      as K by (now destruct (Z.even d)). unfold new_location_even in *.
    replace ((if Z.even d then fun k : Z => if Zeq_bool k 0 then loc_Exact else loc_Inexact (2 * k ?= d) else
       fun k : Z => if Zeq_bool k 0 then loc_Exact else loc_Inexact match 2 * k + 1 ?= d with Gt => Gt | _ => Lt end) 0) with loc_Exact
      by (now destruct (Z.even d)).
    cbn [shr_record_of_loc]. split; [exact Hq|]. split; [exact Hd|]. exists 0. cbn [shr_m shr_r shr_s Z.b2z]. lia. }
  assert (Zeq_bool r 0 = false) as Ez by (destruct (Zeq_bool r 0) eqn:C; [apply Zeq_bool_eq in C; congruence|reflexivity]).
  assert (near : forall l, match l with Lt => 2 * r < d | Eq => 2 * r = d | Gt => d < 2 * r end ->
    near_rec n d (shr_record_of_loc q (loc_Inexact l))).
  { intros l Hl. destruct l; cbn [shr_record_of_loc]; (split; [exact Hq|]); (split; [exact Hd|]); cbn [shr_m shr_r shr_s Z.b2z].
    - exists 0. split; [lia|]. split; [|now split]. rewrite En. replace ((2 * q + 1) * d) with (2 * (d * q) + d) by ring. lia.
    - exists (2 * r). split; [lia|]. split; [|split; [discriminate|lia]]. rewrite En. replace ((2 * q + 0) * d) with (2 * (d * q)) by ring. lia.
    - exists (2 * r - d). split; [lia|]. split; [|split; [discriminate|lia]]. rewrite En. replace ((2 * q + 1) * d) with (2 * (d * q) + d) by ring. lia. }
  destruct (Z.even d) eqn:Ev; rewrite Ez; apply near.
  - destruct (Z.compare_spec (2 * r) d); assumption.
  - assert (d mod 2 = 1) as Hodd. { rewrite Zmod_even, Ev. reflexivity. }
    pose proof (Z.div_mod d 2 ltac:(lia)) as Ed. destruct (Z.compare_spec (2 * r + 1) d); lia.
Qed.

Lemma div_rel s1 M1 E1 s2 M2 E2 : normal (Zpos M1) -> normal (Zpos M2) -> -52 <= E1 <= 76 -> -52 <= E2 <= 76 ->
  exists M E, SFdiv f64prec f64emax (S754_finite s1 M1 E1) (S754_finite s2 M2 E2) = S754_finite (xorb s1 s2) M E /\
    normal (Zpos M) /\ -182 <= E <= 100 /\
    let u1 := Zpos M1 * 2 ^ (E1 + K0) in let u2 := Zpos M2 * 2 ^ (E2 + K0) in
    w53 * Z.abs (Zpos M * 2 ^ (E + K0) * u2 - u1 * 2 ^ K0) <= u1 * 2 ^ K0.
Proof.
  intros H1 H2 HE1 HE2. assert (HK : K0 = 1074) by reflexivity. unfold normal in *. unfold SFdiv, SFdiv_core_binary.
  rewrite (digits2_eq (Zpos M1) 53) by (change (53 - 1) with 52; lia). rewrite (digits2_eq (Zpos M2) 53) by (change (53 - 1) with 52; lia).
  replace (53 + E1 - (53 + E2)) with (E1 - E2) by lia. rewrite fexp_normal by lia.
  replace (Z.min (E1 - E2 - 53) (E1 - E2)) with (E1 - E2 - 53) by lia.
  replace (E1 - E2 - (E1 - E2 - 53)) with 53 by lia. cbv zeta iota. rewrite Z.shiftl_mul_pow2 by lia.
  pose proof (Z_div_mod (Zpos M1 * 2 ^ 53) (Zpos M2) ltac:(lia)) as HD. destruct (Z.div_eucl (Zpos M1 * 2 ^ 53) (Zpos M2)) as [q r].
  destruct HD as [Eq Hr]. set (m1 := Zpos M1) in *. set (m2 := Zpos M2) in *. clearbody m1 m2.
  assert (2 ^ 52 <= q < 2 ^ 54) as Hq by (clear - Eq Hr H1 H2; nia).
  assert (Zdigits2 q = 53 \/ Zdigits2 q = 54) as Dq.
  { destruct (Z_lt_ge_dec q (2 ^ 53)); [left|right]; apply digits2_eq; (change (53 - 1) with 52 || change (54 - 1) with 53; lia). }
  assert (0 < m2) as Gm2 by lia. assert (0 <= q) as Gq by lia.
  destruct (round_rel (xorb s1 s2) _ _ q (E1 - E2 - 53) _ (location_near _ m2 q r Gq Gm2 Eq Hr)) as (M & k & E & HM & Herr & Hk & Hk0); try lia.
  exists M, (E1 - E2 - 53 + k). split; [exact E|]. split; [exact HM|]. split; [lia|].
  replace (2 ^ (E1 - E2 - 53 + k + K0)) with (2 ^ k * 2 ^ (E1 - E2 - 53 + K0)) by (rewrite <- Z.pow_add_r by lia; f_equal; lia).
  cbv zeta.
  assert (2 ^ (E1 - E2 - 53 + K0) * 2 ^ (E2 + K0) = 2 ^ (E1 - 53 + 2 * K0)) as P1 by (rewrite <- Z.pow_add_r by lia; f_equal; lia).
  assert (2 ^ (E1 + K0) * 2 ^ K0 = 2 ^ 53 * 2 ^ (E1 - 53 + 2 * K0)) as P2 by (rewrite <- !Z.pow_add_r by lia; f_equal; lia).
  replace (Zpos M * (2 ^ k * 2 ^ (E1 - E2 - 53 + K0)) * (m2 * 2 ^ (E2 + K0)))
    with (Zpos M * (2 ^ k * m2) * (2 ^ (E1 - E2 - 53 + K0) * 2 ^ (E2 + K0))) by ring. rewrite P1.
  replace (m1 * 2 ^ (E1 + K0) * 2 ^ K0) with (m1 * 2 ^ 53 * 2 ^ (E1 - 53 + 2 * K0)) by (rewrite <- !Z.mul_assoc, <- P2; ring).
  pose proof (pow2_pos (E1 - 53 + 2 * K0) ltac:(lia)) as G. set (g := 2 ^ (E1 - 53 + 2 * K0)) in *. clearbody g.
  rewrite <- Z.mul_sub_distr_r, Z.abs_mul, (Z.abs_eq g), Z.mul_assoc by lia. apply Z.mul_le_mono_nonneg_r; [lia|exact Herr].
Qed.

Lemma shl_align_val m e e' : e' <= e -> Zpos (fst (shl_align m e e')) = Zpos m * 2 ^ (e - e').
Proof.
  intros H. unfold shl_align. destruct (e' - e) as [|p|p] eqn:C; cbn [fst]; try lia.
  - replace (e - e') with 0 by lia. change (2 ^ 0) with 1. lia.
  - rewrite shift_pos_correct. replace (e - e') with (Zpos p) by lia. rewrite Z.mul_comm. reflexivity.
Qed.
Lemma add_rel s M1 E1 M2 E2 : normal (Zpos M1) -> normal (Zpos M2) -> -1000 <= E1 <= 100 -> -1000 <= E2 <= 100 ->
  exists M E, SFadd f64prec f64emax (S754_finite s M1 E1) (S754_finite s M2 E2) = S754_finite s M E /\
    normal (Zpos M) /\ -1000 <= E <= 900 /\
    let u1 := Zpos M1 * 2 ^ (E1 + K0) in let u2 := Zpos M2 * 2 ^ (E2 + K0) in
    w53 * Z.abs (Zpos M * 2 ^ (E + K0) - (u1 + u2)) <= u1 + u2.
Proof.
  intros H1 H2 HE1 HE2. assert (HK : K0 = 1074) by reflexivity. unfold normal in *. unfold SFadd.
  set (ez := Z.min E1 E2). rewrite !shl_align_val by lia.
  set (A := Zpos M1 * 2 ^ (E1 - ez)). set (B := Zpos M2 * 2 ^ (E2 - ez)).
  pose proof (pow2_pos_le (E1 - ez) ltac:(lia)) as G1. pose proof (pow2_pos_le (E2 - ez) ltac:(lia)) as G2.
  assert (2 ^ 52 <= A) as GA.
  { apply Z.le_trans with (Zpos M1 * 1); [lia|]. apply Z.mul_le_mono_nonneg_l; lia. }
  assert (0 <= B) as GB by (apply Z.mul_nonneg_nonneg; lia).
  set (mx := Z.max E1 E2). assert (A + B < 2 ^ (mx - ez + 54)) as HU.
  { assert (A < 2 ^ (mx - ez + 53)) as UA.
    { apply Z.lt_le_trans with (2 ^ 53 * 2 ^ (E1 - ez)); [apply Z.mul_lt_mono_pos_r; lia|]. rewrite <- Z.pow_add_r by lia. apply pow2_le. lia. }
    assert (B < 2 ^ (mx - ez + 53)) as UB.
    { apply Z.lt_le_trans with (2 ^ 53 * 2 ^ (E2 - ez)); [apply Z.mul_lt_mono_pos_r; lia|]. rewrite <- Z.pow_add_r by lia. apply pow2_le. lia. }
    replace (mx - ez + 54) with (Z.succ (mx - ez + 53)) by lia. rewrite Z.pow_succ_r by lia. lia. }
  assert (binary_normalize f64prec f64emax (cond_Zopp s A + cond_Zopp s B) ez false = binary_round f64prec f64emax s (Z.to_pos (A + B)) ez) as ->.
  { destruct (A + B) as [|p|p] eqn:EAB; try lia. cbn [Z.to_pos]. destruct s; cbn [cond_Zopp].
    - replace (- A + - B) with (Zneg p) by lia. reflexivity.
    - rewrite EAB. reflexivity. }
  set (p := Z.to_pos (A + B)). assert (Zpos p = A + B) as Ep by (apply Z2Pos.id; lia).
  destruct (digits2_pos_spec (Zpos p) ltac:(lia)) as [D0 [D1 D2]]. cbn [Zdigits2] in D0, D1, D2. set (D := Zpos (digits2_pos p)) in *.
  assert (53 <= D) as D53 by (apply Z.le_ngt; intros C; pose proof (pow2_le D 52 ltac:(lia)); lia).
  assert (D <= mx - ez + 54) as Dmx.
  { apply Z.le_ngt. intros C. pose proof (pow2_le (mx - ez + 54) (D - 1) ltac:(lia)). lia. }
  unfold binary_round. change (Zpos (digits2_pos p)) with D. rewrite fexp_normal by lia.
  assert (shl_align p ez (D + ez - 53) = (p, ez)) as ->.
  { unfold shl_align. destruct (D + ez - 53 - ez) eqn:C; try reflexivity. lia. }
  destruct (round_rel s (Zpos p) 1 (Zpos p) ez loc_Exact (located_exact (Zpos p) ltac:(lia))) as (M & k & E & HM & Herr & Hk & Hk0);
    cbn [Zdigits2]; fold D; try lia.
  cbn [Zdigits2] in Hk. fold D in Hk.
  exists M, (ez + k). split; [exact E|]. split; [exact HM|]. split; [lia|]. cbv zeta.
  replace (2 ^ (ez + k + K0)) with (2 ^ k * 2 ^ (ez + K0)) by (rewrite <- Z.pow_add_r by lia; f_equal; lia).
  assert (2 ^ (E1 + K0) = 2 ^ (E1 - ez) * 2 ^ (ez + K0)) as -> by (rewrite <- Z.pow_add_r by lia; f_equal; lia).
  assert (2 ^ (E2 + K0) = 2 ^ (E2 - ez) * 2 ^ (ez + K0)) as -> by (rewrite <- Z.pow_add_r by lia; f_equal; lia).
  pose proof (pow2_pos (ez + K0) ltac:(lia)) as G. set (g := 2 ^ (ez + K0)) in *. clearbody g.
  rewrite !Z.mul_assoc. fold A B. rewrite <- Z.mul_add_distr_r, <- Z.mul_sub_distr_r, Z.abs_mul, (Z.abs_eq g), Z.mul_assoc by lia.
  apply Z.mul_le_mono_nonneg_r; [lia|]. rewrite Ep, Z.mul_1_r in Herr. exact Herr.
Qed.

(** ** Composition, on non-negative numbers *)
(** [F] is the result, in units of [2^-1074]; [0 <= r < c]. *)
Lemma abs_rel w a x : 0 < w -> w * Z.abs (a - x) <= x -> w * a <= (w + 1) * x /\ (w - 1) * x <= w * a.
Proof.
  intros Hw H. assert (w * (a - x) <= w * Z.abs (a - x)) by (apply Z.mul_le_mono_nonneg_l; lia).
  assert (w * (x - a) <= w * Z.abs (a - x)) by (apply Z.mul_le_mono_nonneg_l; lia). lia.
Qed.
Lemma frac_err D c r R C B w : 0 < c -> 0 <= r -> 0 < B -> 0 < D -> 1 < w -> w * Z.abs (R - r * B) <= r * B -> w * Z.abs (C - c * B) <= c * B ->
  w * Z.abs (D * C - R * B) <= R * B -> 0 <= R ->
  w * (w - 1) * (D * c) <= (w + 1) * (w + 1) * (r * B) /\ (w - 1) * (w - 1) * (r * B) <= w * (w + 1) * (D * c).
Proof.
  intros Hc Hr HB HD Hw H1 H2 H3 HR.
  assert (R1 : w * R <= (w + 1) * (r * B) /\ (w - 1) * (r * B) <= w * R) by (apply abs_rel; [lia|exact H1]).
  assert (C1 : w * C <= (w + 1) * (c * B) /\ (w - 1) * (c * B) <= w * C) by (apply abs_rel; [lia|exact H2]).
  assert (D1 : w * (D * C) <= (w + 1) * (R * B) /\ (w - 1) * (R * B) <= w * (D * C)) by (apply abs_rel; [lia|exact H3]).
  split; apply (Z.mul_le_mono_pos_l _ _ (w * B)); try (apply Z.mul_pos_pos; lia).
  - apply Z.le_trans with (w * w * (w * (D * C))).
    + replace (w * B * (w * (w - 1) * (D * c))) with (w * w * D * ((w - 1) * (c * B))) by ring.
      replace (w * w * (w * (D * C))) with (w * w * D * (w * C)) by ring.
      apply Z.mul_le_mono_nonneg_l; [|lia]. apply Z.mul_nonneg_nonneg; [apply Z.mul_nonneg_nonneg|]; lia.
    + apply Z.le_trans with (w * w * ((w + 1) * (R * B))); [apply Z.mul_le_mono_nonneg_l; [apply Z.mul_nonneg_nonneg|]; lia|].
      replace (w * w * ((w + 1) * (R * B))) with (w * (w + 1) * B * (w * R)) by ring.
      replace (w * B * ((w + 1) * (w + 1) * (r * B))) with (w * (w + 1) * B * ((w + 1) * (r * B))) by ring.
      apply Z.mul_le_mono_nonneg_l; [|lia]. apply Z.mul_nonneg_nonneg; [apply Z.mul_nonneg_nonneg|]; lia.
  - apply Z.le_trans with (w * w * (w * (D * C))).
    + apply Z.le_trans with (w * w * ((w - 1) * (R * B))); [|apply Z.mul_le_mono_nonneg_l; [apply Z.mul_nonneg_nonneg|]; lia].
      replace (w * w * ((w - 1) * (R * B))) with (w * (w - 1) * B * (w * R)) by ring.
      replace (w * B * ((w - 1) * (w - 1) * (r * B))) with (w * (w - 1) * B * ((w - 1) * (r * B))) by ring.
      apply Z.mul_le_mono_nonneg_l; [|lia]. apply Z.mul_nonneg_nonneg; [apply Z.mul_nonneg_nonneg|]; lia.
    + replace (w * B * (w * (w + 1) * (D * c))) with (w * w * D * ((w + 1) * (c * B))) by ring.
      replace (w * w * (w * (D * C))) with (w * w * D * (w * C)) by ring.
      apply Z.mul_le_mono_nonneg_l; [|lia]. apply Z.mul_nonneg_nonneg; [apply Z.mul_nonneg_nonneg|]; lia.
Qed.

Definition err51 (F c x : Z) : Prop := 2 ^ 51 * Z.abs (F * c - x * 2 ^ K0) <= x * 2 ^ K0.

Lemma sum_pos q r c : 0 <= q < 2 ^ 128 -> 0 <= r < c -> c < 2 ^ 128 -> 0 < q * c + r ->
  exists M E, SFadd f64prec f64emax (int_to_f64 q) (SFdiv f64prec f64emax (int_to_f64 r) (int_to_f64 c)) = S754_finite false M E /\
    normal (Zpos M) /\ -1000 <= E <= 900 /\ err51 (Zpos M * 2 ^ (E + K0)) c (q * c + r) /\
    (r = 0 -> q <= 2 ^ 53 -> Zpos M * 2 ^ (E + K0) = q * 2 ^ K0).
Proof.
  intros Hq Hr Hc Hx. assert (HK : K0 = 1074) by reflexivity. pose proof (pow2_pos K0 ltac:(lia)) as GB. unfold err51.
  destruct (int_rel c ltac:(lia)) as (Mc & Ec & Fc & Nc & Bc & Rc & _).
  destruct (Z.eq_dec r 0) as [->|Hr0].
  - (* no fraction *)
    rewrite Fc. destruct (Z.eq_dec q 0) as [->|Hq0]; [lia|].
    destruct (int_rel q ltac:(lia)) as (Mq & Eq & Fq & Nq & Bq & Rq & Xq). rewrite Fq.
    exists Mq, Eq. split; [reflexivity|]. split; [exact Nq|]. split; [lia|]. split; [|intros _; exact Xq].
    rewrite Z.add_0_r. set (B := 2 ^ K0) in *. set (F := Zpos Mq * 2 ^ (Eq + K0)) in *. clearbody F B.
    replace (F * c - q * c * B) with ((F - q * B) * c) by ring. rewrite Z.abs_mul, (Z.abs_eq c) by lia.
    replace (q * c * B) with (q * B * c) by ring. rewrite Z.mul_assoc. apply Z.mul_le_mono_nonneg_r; [lia|]. unfold w53 in Rq. lia.
  - destruct (int_rel r ltac:(lia)) as (Mr & Er & Fr & Nr & Br & Rr & _). rewrite Fr, Fc.
    destruct (div_rel false Mr Er false Mc Ec Nr Nc Br Bc) as (Md & Ed & Fd & Nd & Bd & Rd). cbn [xorb] in Fd. rewrite Fd. cbv zeta in Rd.
    set (B := 2 ^ K0) in *. set (R := Zpos Mr * 2 ^ (Er + K0)) in *. set (C := Zpos Mc * 2 ^ (Ec + K0)) in *.
    set (D := Zpos Md * 2 ^ (Ed + K0)) in *.
    assert (0 < D) as GD by (apply Z.mul_pos_pos; [reflexivity|apply pow2_pos; clear - Bd HK; lia]).
    assert (0 < R) as GR by (apply Z.mul_pos_pos; [reflexivity|apply pow2_pos; clear - Br HK; lia]).
    assert (1 < w53) as Gw by reflexivity. destruct (frac_err D c r R C B w53) as [F1 F2]; try assumption; try lia.
    destruct (Z.eq_dec q 0) as [->|Hq0].
    + exists Md, Ed. split; [reflexivity|]. split; [exact Nd|]. split; [lia|]. split; [|lia]. fold D.
      change (0 * c + r) with r. set (d := D * c) in *. set (x := r * B) in *. clearbody d x. clear - F1 F2. unfold w53 in *. lia.
    + destruct (int_rel q ltac:(lia)) as (Mq & Eq & Fq & Nq & Bq & Rq & Xq). rewrite Fq.
      destruct (add_rel false Mq Eq Md Ed Nq Nd ltac:(lia) ltac:(lia)) as (M & E & Fs & Ns & Bs & Rs). cbv zeta in Rs.
      exists M, E. split; [exact Fs|]. split; [exact Ns|]. split; [exact Bs|]. split; [|lia].
      fold B in Rq, Xq. fold D in Rs. set (Qh := Zpos Mq * 2 ^ (Eq + K0)) in *. set (F := Zpos M * 2 ^ (E + K0)) in *.
      assert (0 < Qh) as GQ by (apply Z.mul_pos_pos; [reflexivity|apply pow2_pos; clear - Bq HK; lia]).
      clearbody B R C D Qh F.
      assert (w53 * Z.abs (F * c - (Qh * c + D * c)) <= Qh * c + D * c) as Rs'.
      { rewrite <- Z.mul_add_distr_r, <- Z.mul_sub_distr_r, Z.abs_mul, (Z.abs_eq c), Z.mul_assoc by lia. apply Z.mul_le_mono_nonneg_r; lia. }
      assert (w53 * Z.abs (Qh * c - q * c * B) <= q * c * B) as Rq'.
      { replace (q * c * B) with (q * B * c) by ring. rewrite <- Z.mul_sub_distr_r, Z.abs_mul, (Z.abs_eq c), Z.mul_assoc by lia. apply Z.mul_le_mono_nonneg_r; lia. }
      assert (r * B <= c * B) as Hrc by (apply Z.mul_le_mono_nonneg_r; lia).
      assert (1 * (c * B) <= q * (c * B)) as Hcq by (apply Z.mul_le_mono_nonneg_r; [apply Z.mul_nonneg_nonneg|]; clear - GB Hr Hq Hq0; lia).
      assert (Qh * c = q * c * B \/ 2 ^ 53 * (c * B) <= q * (c * B)) as Hbig.
      { destruct (Z_le_gt_dec q (2 ^ 53)) as [C53|C53].
        - left. rewrite (Xq C53). ring.
        - right. apply Z.mul_le_mono_nonneg_r; [apply Z.mul_nonneg_nonneg|]; clear - GB Hr C53; lia. }
      replace ((q * c + r) * B) with (q * c * B + r * B) by ring. replace (q * (c * B)) with (q * c * B) in * by ring.
      set (f := F * c) in *. set (qh := Qh * c) in *. set (d := D * c) in *. set (x1 := q * c * B) in *. set (x2 := r * B) in *. set (x3 := c * B) in *.
      clearbody f qh d x1 x2 x3. clear - Rs' Rq' Hrc Hcq Hbig F1 F2. unfold w53 in *. lia.
Qed.

(** ** The bit pattern *)
Lemma bits_fields s M E : normal (Zpos M) -> -1000 <= E <= 900 ->
  let raw := f64_to_bits (S754_finite s M E) in
  f64_finite raw /\ f64_sign raw = s /\ f64_units raw = Zpos M * 2 ^ (E + K0).
Proof.
  intros HM HE raw. unfold normal in HM. unfold raw, f64_to_bits. replace (Zpos M <? 2 ^ 52) with false by lia. clear raw.
  set (raw := (if s then 2 ^ 63 else 0) + (E + 1075) * 2 ^ 52 + (Zpos M - 2 ^ 52)).
  assert (raw = (Zpos M - 2 ^ 52) + (E + 1075 + (if s then 2 ^ 11 else 0)) * 2 ^ 52) as Er by (unfold raw; destruct s; lia).
  assert (raw / 2 ^ 52 = E + 1075 + (if s then 2 ^ 11 else 0)) as E1 by (rewrite Er, Z.div_add, Z.div_small by lia; reflexivity).
  assert (f64_exponent raw = E + 1075) as Ee.
  { unfold f64_exponent. rewrite E1. destruct s.
    - rewrite mod_plus by lia. apply Z.mod_small. lia.
    - rewrite Z.add_0_r. apply Z.mod_small. lia. }
  assert (f64_fraction raw = Zpos M - 2 ^ 52) as Ef by (unfold f64_fraction; rewrite Er, Z.mod_add by lia; apply Z.mod_small; lia).
  split; [|split].
  - split; [|rewrite Ee; lia]. unfold is_f64. rewrite Er. destruct s; lia.
  - unfold f64_sign. rewrite Er. destruct s; lia.
  - unfold f64_units. rewrite Ee, Ef. replace (E + 1075 =? 0) with false by lia.
    replace (E + 1075 - 1) with (E + K0) by (rewrite K0_val; lia). f_equal. lia.
Qed.

(** The sum of two negated floats of the same sign. *)
Lemma SFdiv_opp r c : r <> 0 -> 0 < c < 2 ^ 128 -> Z.abs r < 2 ^ 128 ->
  SFdiv f64prec f64emax (int_to_f64 (- r)) (int_to_f64 c) = SFopp (SFdiv f64prec f64emax (int_to_f64 r) (int_to_f64 c)).
Proof.
  intros Hr Hc Ha. rewrite int_to_f64_opp by assumption. destruct (int_rel c Hc) as (Mc & Ec & -> & _).
  destruct (int_to_f64 r) as [s|s| |s M E]; cbn [SFopp SFdiv]; rewrite ?xorb_false_r; try reflexivity.
  destruct (SFdiv_core_binary _ _ _ _ _ _) as [[m e] l]. apply SFopp_round_aux.
Qed.
Lemma SFadd_opp s M1 E1 M2 E2 : SFadd f64prec f64emax (S754_finite (negb s) M1 E1) (S754_finite (negb s) M2 E2) =
  SFopp (SFadd f64prec f64emax (S754_finite s M1 E1) (S754_finite s M2 E2)).
Proof.
  unfold SFadd. set (a := fst (shl_align M1 E1 (Z.min E1 E2))). set (c := fst (shl_align M2 E2 (Z.min E1 E2))).
  assert (K : forall p e, binary_round f64prec f64emax (negb s) p e = SFopp (binary_round f64prec f64emax s p e)).
  { intros p e. unfold binary_round. destruct (shl_align p e _). apply SFopp_round_aux. }
  destruct s; cbn [negb cond_Zopp Z.opp Z.add binary_normalize].
  - apply K.
  - apply K.
Qed.
Lemma sum_neg q r c : 0 <= q < 2 ^ 128 -> 0 <= r < c -> c < 2 ^ 128 -> 0 < q * c + r ->
  SFadd f64prec f64emax (int_to_f64 (- q)) (SFdiv f64prec f64emax (int_to_f64 (- r)) (int_to_f64 c)) =
  SFopp (SFadd f64prec f64emax (int_to_f64 q) (SFdiv f64prec f64emax (int_to_f64 r) (int_to_f64 c))).
Proof.
  intros Hq Hr Hc Hx. destruct (int_rel c ltac:(lia)) as (Mc & Ec & Fc & Nc & Bc & _).
  destruct (Z.eq_dec r 0) as [->|Hr0].
  - destruct (Z.eq_dec q 0) as [->|Hq0]; [lia|]. rewrite int_to_f64_opp by assumption. rewrite Fc.
    destruct (int_rel q ltac:(lia)) as (Mq & Eq & -> & _). reflexivity.
  - rewrite SFdiv_opp by lia. destruct (int_rel r ltac:(lia)) as (Mr & Er & Fr & Nr & Br & _). rewrite Fr, Fc.
    destruct (div_rel false Mr Er false Mc Ec Nr Nc Br Bc) as (Md & Ed & -> & _). cbn [xorb].
    destruct (Z.eq_dec q 0) as [->|Hq0]; [reflexivity|]. rewrite int_to_f64_opp by assumption.
    destruct (int_rel q ltac:(lia)) as (Mq & Eq & -> & _). exact (SFadd_opp false Mq Eq Md Ed).
Qed.

(** ** The conversion *)
Lemma to_f64_spec b L P x : valid b L P -> in_range L x ->
  exists f, to_f64 b L P x = Ret f /\
    (x = 0 -> f = S754_zero false) /\
    (x <> 0 -> let raw := f64_to_bits f in f64_finite raw /\ f64_sign raw = (x <? 0) /\
      err51 (f64_units raw) (10 ^ P) (Z.abs x) /\ (forall n, x = n * 10 ^ P -> Z.abs n <= 2 ^ 53 -> f64_units raw = Z.abs n * 2 ^ K0)).
Proof.
  intros HV Hx. pose proof (valid_prec_38 _ _ (proj2 HV)) as HP. unfold to_f64. rewrite COEF_ok by assumption. cbn [bind].
  pose proof (pow10_pos P ltac:(lia)) as GP. pose proof (lty_hi L) as [Hh Hl]. pose proof (lo_hi L) as HLH. pose proof (hi_127 L) as H127.
  assert (10 ^ P <= hi L) as HC by (exact (proj2 (proj2 HV))). set (c := 10 ^ P) in *. unfold in_range in Hx.
  assert (Hq : Z.abs (Z.quot x c) * c + Z.abs (Z.rem x c) = Z.abs x /\ Z.abs (Z.rem x c) < c).
  { pose proof (Z.quot_rem' x c) as E. pose proof (Z.rem_bound_abs x c ltac:(lia)) as B. rewrite (Z.abs_eq c) in B by lia. split; [|assumption].
    destruct (Z_le_gt_dec 0 x) as [C|C].
    - pose proof (Z.quot_pos x c C GP). pose proof (Z.rem_nonneg x c ltac:(lia) C). rewrite !Z.abs_eq by lia. lia.
    - pose proof (Z.quot_pos (- x) c ltac:(lia) GP) as Q1. pose proof (Z.rem_nonneg (- x) c ltac:(lia) ltac:(lia)) as Q2.
      rewrite Z.quot_opp_l in Q1 by lia. rewrite Z.rem_opp_l in Q2 by lia. rewrite !Z.abs_neq by lia. lia. }
  destruct Hq as [EA BR].
  assert (Z.abs (Z.quot x c) <= Z.abs x) as BQ.
  { rewrite <- EA. assert (Z.abs (Z.quot x c) * 1 <= Z.abs (Z.quot x c) * c) by (apply Z.mul_le_mono_nonneg_l; lia). lia. }
  assert (fits (lty L) (Z.quot x c)) as Fq.
  { unfold fits. rewrite Hh, Hl. destruct (Z_le_gt_dec 0 x) as [C|C].
    - pose proof (Z.quot_pos x c C GP). lia.
    - pose proof (Z.quot_pos (- x) c ltac:(lia) GP) as Q1. rewrite Z.quot_opp_l in Q1 by lia. lia. }
  rewrite div_ok by (assumption || lia). cbn [bind]. rewrite rem_ok by (assumption || lia). cbn [bind]. cbv zeta.
  eexists. split; [reflexivity|]. split.
  - intros ->. rewrite Z.quot_0_l, Z.rem_0_l by lia. destruct (int_rel c ltac:(lia)) as (Mc & Ec & -> & _). reflexivity.
  - intros Hx0. destruct (sum_pos (Z.abs (Z.quot x c)) (Z.abs (Z.rem x c)) c) as (M & E & Fs & Ns & Bs & Rs & Xs); try lia.
    set (q := Z.quot x c) in *. set (r := Z.rem x c) in *.
    assert (SFadd f64prec f64emax (int_to_f64 q) (SFdiv f64prec f64emax (int_to_f64 r) (int_to_f64 c)) = S754_finite (x <? 0) M E) as Ef.
    { destruct (x <? 0) eqn:Cx.
      - apply Z.ltb_lt in Cx. pose proof (Z.quot_pos (- x) c ltac:(lia) GP) as Q1. rewrite Z.quot_opp_l in Q1 by lia. fold q in Q1.
        pose proof (Z.rem_nonneg (- x) c ltac:(lia) ltac:(lia)) as Q2. rewrite Z.rem_opp_l in Q2 by lia. fold r in Q2.
        rewrite <- (Z.opp_involutive q), <- (Z.opp_involutive r). rewrite (Z.abs_neq q), (Z.abs_neq r) in Fs by lia.
        rewrite sum_neg by lia. rewrite Fs. reflexivity.
      - apply Z.ltb_ge in Cx. pose proof (Z.quot_pos x c Cx GP) as Q1. fold q in Q1. pose proof (Z.rem_nonneg x c ltac:(lia) Cx) as Q2. fold r in Q2.
        rewrite (Z.abs_eq q), (Z.abs_eq r) in Fs by lia. exact Fs. }
    rewrite Ef. destruct (bits_fields (x <? 0) M E Ns Bs) as (B1 & B2 & B3). split; [exact B1|]. split; [exact B2|].
    rewrite B3. rewrite EA in Rs. split; [exact Rs|]. intros n En Hn.
    assert (r = 0) as R0 by (unfold r; rewrite En; apply Z.rem_mul; lia).
    assert (q = n) as Q0 by (unfold q; rewrite En; apply Z.quot_mul; lia).
    rewrite Q0, R0 in Xs. apply Xs; [reflexivity|assumption].
Qed.

Lemma val_B raw : (f64_val raw * Zq (2 ^ K0) == Zq (sval raw))%Q.
Proof.
  assert (Qpower (2 # 1) (-1074) * Zq (2 ^ K0) == 1)%Q as E by (apply Qeq_bool_iff; vm_compute; reflexivity).
  unfold f64_val. fold (sval raw). rewrite <- Qmult_assoc, E. apply Qmult_1_r.
Qed.
Lemma dec_c P x : 0 <= P -> (dec P x * Zq (10 ^ P) == Zq x)%Q.
Proof.
  intros HP. unfold dec. rewrite RoundFacts.q10_neg by assumption. unfold Zq. field. change 0%Q with (inject_Z 0).
  rewrite inject_Z_injective. pose proof (pow10_pos P HP). lia.
Qed.
Lemma zero_bits : f64_to_bits (S754_zero false) = 0. Proof. reflexivity. Qed.
Lemma zero_finite : f64_finite 0 /\ (f64_val 0 == 0)%Q /\ f64_sign 0 = false.
Proof. split; [|split; [vm_compute; reflexivity|reflexivity]]. split; [split; [apply Z.le_refl|reflexivity]|discriminate]. Qed.

Lemma err_Q51 (A X : Z) : 2 ^ 51 * A <= X -> (Zq A <= Zq X * Qpower (2 # 1) (-51))%Q.
Proof. intros H. change (Qpower (2 # 1) (-51)) with (1 # 2251799813685248). unfold Zq, Qle, Qmult, inject_Z. cbn [Qnum Qden]. lia. Qed.
Lemma abs_scaled q t z : (0 < Zq t)%Q -> (q * Zq t == Zq z)%Q -> (Qabs q * Zq t == Zq (Z.abs z))%Q.
Proof. intros Ht E. rewrite <- (Qabs_pos (Zq t)) by (apply Qlt_le_weak; assumption). rewrite <- Qabs_Qmult, E. reflexivity. Qed.
Lemma sval_sign raw x : f64_sign raw = (x <? 0) -> sval raw = if x <? 0 then - f64_units raw else f64_units raw.
Proof. intros H. unfold sval. now rewrite H. Qed.

Lemma to_f64_error b L P x : valid b L P -> in_range L x -> exists f, to_f64 b L P x = Ret f /\
  f64_finite (f64_to_bits f) /\ (Qabs (f64_val (f64_to_bits f) - dec P x) <= Qabs (dec P x) * Qpower (2 # 1) (-51))%Q.
Proof.
  intros HV Hx. pose proof (valid_prec_38 _ _ (proj2 HV)) as HP. destruct (to_f64_spec b L P x HV Hx) as (f & E & H0 & H1). exists f.
  split; [exact E|]. destruct (Z.eq_dec x 0) as [->|Hx0].
  - rewrite (H0 eq_refl), zero_bits. destruct zero_finite as (F & V & _). split; [exact F|]. rewrite V, dec_0. discriminate.
  - destruct (H1 Hx0) as (F & S & R & _). set (raw := f64_to_bits f) in *. split; [exact F|]. unfold err51 in R.
    pose proof (pow10_pos P ltac:(lia)) as GP. pose proof (pow2_pos K0 ltac:(rewrite K0_val; lia)) as GB. pose proof (val_B raw) as VB. pose proof (dec_c P x ltac:(lia)) as DC.
    set (B := 2 ^ K0) in *. set (c := 10 ^ P) in *. clearbody B c.
    assert (0 < Zq (B * c))%Q as GT by (change 0%Q with (inject_Z 0); unfold Zq; rewrite <- Zlt_Qlt; apply Z.mul_pos_pos; lia).
    apply (Qmult_le_r _ _ (Zq (B * c)) GT).
    assert (dec P x * Zq (B * c) == Zq (x * B))%Q as E1.
    { unfold Zq in *. rewrite !inject_Z_mult. rewrite <- DC. ring. }
    assert (f64_val raw * Zq (B * c) == Zq (sval raw * c))%Q as E2.
    { unfold Zq in *. rewrite !inject_Z_mult. rewrite <- VB. ring. }
    assert ((f64_val raw - dec P x) * Zq (B * c) == Zq (sval raw * c - x * B))%Q as E3.
    { unfold Qminus. rewrite Qmult_plus_distr_l. setoid_replace (- dec P x * Zq (B * c))%Q with (- (dec P x * Zq (B * c)))%Q by ring.
      rewrite E1, E2. unfold Zq. rewrite <- inject_Z_opp, <- inject_Z_plus. reflexivity. }
    rewrite (abs_scaled _ _ _ GT E3).
    setoid_replace (Qabs (dec P x) * Qpower (2 # 1) (-51) * Zq (B * c))%Q with (Qabs (dec P x) * Zq (B * c) * Qpower (2 # 1) (-51))%Q by ring.
    rewrite (abs_scaled _ _ _ GT E1). apply err_Q51. rewrite (sval_sign raw x S), Z.abs_mul, (Z.abs_eq B) by lia.
    replace (Z.abs ((if x <? 0 then - f64_units raw else f64_units raw) * c - x * B)) with (Z.abs (f64_units raw * c - Z.abs x * B)); [exact R|].
    destruct (x <? 0) eqn:C; [|rewrite (Z.abs_eq x) by lia; reflexivity]. rewrite (Z.abs_neq x) by lia. rewrite <- Z.abs_opp. f_equal. ring.
Qed.
Lemma to_f64_sign b L P x f : valid b L P -> in_range L x -> to_f64 b L P x = Ret f ->
  (x = 0 -> f64_to_bits f = 0) /\ (0 < x -> (0 < f64_val (f64_to_bits f))%Q) /\ (x < 0 -> (f64_val (f64_to_bits f) < 0)%Q).
Proof.
  intros HV Hx Ef. pose proof (valid_prec_38 _ _ (proj2 HV)) as HP. destruct (to_f64_spec b L P x HV Hx) as (f' & E & H0 & H1).
  rewrite Ef in E. injection E as <-. split; [intros Hx0; rewrite (H0 Hx0); reflexivity|].
  assert (GBq : (0 < Zq (2 ^ K0))%Q) by (change 0%Q with (inject_Z 0); unfold Zq; rewrite <- Zlt_Qlt; apply pow2_pos; rewrite K0_val; lia).
  assert (x <> 0 -> 0 < f64_units (f64_to_bits f) /\ f64_sign (f64_to_bits f) = (x <? 0)) as U.
  { intros Hx0. destruct (H1 Hx0) as (F & S & R & _). split; [|exact S]. pose proof (units_nonneg _ F) as Hn. unfold err51 in R.
    destruct (Z.eq_dec (f64_units (f64_to_bits f)) 0) as [Z0|]; [exfalso|lia]. rewrite Z0, Z.mul_0_l, Z.sub_0_l, Z.abs_opp in R.
    pose proof (pow2_pos K0 ltac:(rewrite K0_val; lia)). assert (0 < Z.abs x * 2 ^ K0) as G by (apply Z.mul_pos_pos; lia). set (w := Z.abs x * 2 ^ K0) in *. clearbody w. lia. }
  split; intros Hs; destruct (U ltac:(lia)) as [U1 U2]; apply (Qmult_lt_r _ _ (Zq (2 ^ K0)) GBq); rewrite val_B, (sval_sign _ x U2), Qmult_0_l.
  - replace (x <? 0) with false by lia. change 0%Q with (inject_Z 0). unfold Zq. rewrite <- Zlt_Qlt. lia.
  - replace (x <? 0) with true by lia. change 0%Q with (inject_Z 0). unfold Zq. rewrite <- Zlt_Qlt. lia.
Qed.
Lemma to_f64_int b L P n f : valid b L P -> in_range L (n * 10 ^ P) -> Z.abs n <= 2 ^ 53 -> to_f64 b L P (n * 10 ^ P) = Ret f ->
  (f64_val (f64_to_bits f) == Zq n)%Q.
Proof.
  intros HV Hx Hn Ef. pose proof (valid_prec_38 _ _ (proj2 HV)) as HP. destruct (to_f64_spec b L P _ HV Hx) as (f' & E & H0 & H1).
  rewrite Ef in E. injection E as <-. pose proof (pow10_pos P ltac:(lia)) as GP.
  assert (GBq : (0 < Zq (2 ^ K0))%Q) by (change 0%Q with (inject_Z 0); unfold Zq; rewrite <- Zlt_Qlt; apply pow2_pos; rewrite K0_val; lia).
  destruct (Z.eq_dec n 0) as [->|Hn0]; [rewrite (H0 eq_refl), zero_bits; apply zero_finite|].
  destruct (H1 ltac:(intros C; apply Z.mul_eq_0 in C; lia)) as (F & S & _ & X). specialize (X n eq_refl Hn).
  apply (Qmult_inj_r _ _ (Zq (2 ^ K0))); [intros C; rewrite C in GBq; discriminate|]. rewrite val_B, (sval_sign _ _ S), X. unfold Zq.
  rewrite <- inject_Z_mult. destruct (n * 10 ^ P <? 0) eqn:C.
  - apply Z.ltb_lt in C. assert (n < 0) by (apply Z.nle_gt; intros K; assert (0 <= n * 10 ^ P) by (apply Z.mul_nonneg_nonneg; lia); lia).
    rewrite Z.abs_neq by lia. f_equiv. ring.
  - apply Z.ltb_ge in C. assert (0 <= n).
    { apply Z.nlt_ge. intros K. assert (0 < (- n) * 10 ^ P) by (apply Z.mul_pos_pos; lia). lia. }
    rewrite Z.abs_eq by lia. reflexivity.
Qed.

Lemma round_trip b L P x f : valid b L P -> in_range L x -> x <> lo L -> Z.abs x <= 10 ^ 15 -> to_f64 b L P x = Ret f ->
  try_from_f64 b L P (f64_to_bits f) = Ret (Ok x).
Proof.
  intros HV Hx Hlo H15 Ef. pose proof (valid_prec_38 _ _ (proj2 HV)) as HP. destruct (to_f64_spec b L P x HV Hx) as (f' & E & H0 & H1).
  rewrite Ef in E. injection E as <-. destruct (Z.eq_dec x 0) as [->|Hx0].
  { rewrite (H0 eq_refl), zero_bits. destruct zero_finite as (F & V & _). apply conv_zero; assumption. }
  destruct (H1 Hx0) as (F & S & R & _). set (raw := f64_to_bits f) in *. clearbody raw.
  destruct (conv b L P raw HV F) as (z & Hz & Hr & ->). unfold err51 in R.
  assert (z = Z.abs x) as ->.
  { apply (f64rel_near P _ z (Z.abs x) ltac:(lia) (V_nonneg raw F) ltac:(lia) Hr).
    pose proof (K0_val) as HK. pose proof (pow10_pos P ltac:(lia)) as GP. apply (Z.mul_le_mono_pos_r _ _ (10 ^ P) GP).
    assert (10 ^ (K0 - P) * 10 ^ P = 2 ^ K0 * 5 ^ K0) as E10 by (rewrite <- p10_split, <- p10_25 by lia; f_equal; lia).
    set (S0 := 10 ^ (K0 - P)) in *. rewrite <- (Z.abs_eq (10 ^ P)) at 1 by lia. rewrite <- Z.mul_assoc, <- Z.abs_mul.
    replace ((f64_units raw * 5 ^ K0 - Z.abs x * S0) * 10 ^ P) with ((f64_units raw * 10 ^ P - Z.abs x * 2 ^ K0) * 5 ^ K0).
    2:{ rewrite !Z.mul_sub_distr_r, <- (Z.mul_assoc (Z.abs x) S0), E10. ring. }
    pose proof five_pos as G5. rewrite Z.abs_mul, (Z.abs_eq (5 ^ K0)), <- (Z.mul_assoc (Z.abs x) S0), E10, !Z.mul_assoc by lia.
    apply Z.mul_le_mono_nonneg_r; [lia|exact R]. }
  unfold outcome_of. pose proof (lo_hi L). unfold in_range in Hx. replace (Z.abs x <=? hi L) with true by lia. rewrite S.
  destruct (x <? 0) eqn:C; do 2 f_equal; lia.
Qed.
