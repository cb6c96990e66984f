(** * DivWord: two words divided by one ([div_mod_word]). *)
From Verif Require Import Base Sqrt U256 BaseFacts WordFacts.

Ltac Zify.zify_post_hook ::= idtac.

Definition h32 : Z := 2 ^ 32.
Lemma h32_val : h32 = 4294967296. Proof. reflexivity. Qed.
Lemma B_h32 : B = h32 * h32. Proof. reflexivity. Qed.

Lemma dmw_loop_S b n yn1 yn0 un q rhat : dmw_loop b (S n) yn1 yn0 un q rhat =
  (c <- (if h32 <=? q then Ret true
         else l <- mul b U64 q yn0 ;; r <- mul b U64 h32 rhat ;; r <- add b U64 r un ;; Ret (r <? l)) ;;
   if (c : bool) then
     q <- sub b U64 q 1 ;;
     rhat <- add b U64 rhat yn1 ;;
     if h32 <=? rhat then Ret (q, rhat)
     else dmw_loop b n yn1 yn0 un q rhat
   else Ret (q, rhat)).
Proof. reflexivity. Qed.

(** The correction loop finds the exact quotient digit. *)
Lemma dmw_loop_spec b (n : nat) yn1 yn0 un q rhat un32 :
  h32 <= 2 * yn1 -> yn1 < h32 -> 0 <= yn0 < h32 -> 0 <= un < h32 ->
  q * yn1 + rhat = un32 -> 0 <= rhat < h32 -> 0 <= q <= h32 + 1 ->
  un32 * h32 + un < (yn1 * h32 + yn0) * h32 ->
  (un32 * h32 + un) / (yn1 * h32 + yn0) <= q ->
  h32 <= rhat + (Z.of_nat n) * yn1 ->
  exists r, dmw_loop b (S n) yn1 yn0 un q rhat = Ret ((un32 * h32 + un) / (yn1 * h32 + yn0), r).
Proof.
  intros Hy1 Hy1' Hy0 Hun. remember ((un32 * h32 + un) / (yn1 * h32 + yn0)) as qs eqn:Eqs.
  revert q rhat. pose proof h32_val as Hv.
  induction n as [|n IH]; intros q rhat E Hr Hq Hlt Hle Hf; [lia|].
  set (u := un32 * h32 + un) in *. set (y := yn1 * h32 + yn0) in *.
  assert (0 < y) as Hy by (unfold y; lia).
  assert (0 <= un32) as Hun32 by nia.
  assert (0 <= u) as Hu by (unfold u; nia).
  pose proof (Z.div_mod u y ltac:(lia)) as Ed. pose proof (Z.mod_pos_bound u y Hy) as Em.
  rewrite <- Eqs in Ed.
  assert (0 <= qs < h32) as Hqs.
  { subst qs. split; [apply Z.div_pos; lia|apply Z.div_lt_upper_bound; lia]. }
  assert (q * y = q * yn1 * h32 + q * yn0) as Eqy by (unfold y; ring).
  assert (u = q * yn1 * h32 + rhat * h32 + un) as Eu by (unfold u; rewrite <- E; ring).
  rewrite dmw_loop_S.
  assert (forall c : bool, (c = true -> qs < q) -> (c = false -> q <= qs) ->
    exists r, (if c then
        q <- sub b U64 q 1 ;;
        rhat <- add b U64 rhat yn1 ;;
        if h32 <=? rhat then Ret (q, rhat)
        else dmw_loop b (S n) yn1 yn0 un q rhat
      else Ret (q, rhat)) = Ret (qs, r)) as Go.
  { intros c C1 C2. destruct c.
    - specialize (C1 eq_refl).
      rewrite sub_ok by (apply fits_u64; unfold word; rewrite B_val; lia). cbn [bind].
      rewrite add_ok by (apply fits_u64; unfold word; rewrite B_val; lia). cbn [bind].
      destruct (Z.leb_spec h32 (rhat + yn1)) as [Hx|Hx].
      + exists (rhat + yn1). do 2 f_equal.
        assert (q - 1 <= qs); [|lia].
        assert ((q - 1) * y <= u).
        { assert ((q - 1) * yn0 <= (rhat + yn1) * h32) by nia.
          unfold y. nia. }
        nia.
      + apply IH; try lia.
    - specialize (C2 eq_refl). exists rhat. do 2 f_equal. lia. }
  destruct (Z.leb_spec h32 q) as [Hq2|Hq2].
  - cbn [bind]. apply (Go true); [lia|discriminate].
  - assert (0 <= q * yn0 <= (h32 - 1) * (h32 - 1)) as M1
      by (split; [apply Z.mul_nonneg_nonneg; lia|apply Z.mul_le_mono_nonneg; lia]).
    assert (0 <= h32 * rhat <= h32 * (h32 - 1)) as M2
      by (split; [apply Z.mul_nonneg_nonneg; lia|apply Z.mul_le_mono_nonneg; lia]).
    rewrite mul_ok by (apply fits_u64; unfold word; rewrite B_h32; lia). cbn [bind].
    rewrite mul_ok by (apply fits_u64; unfold word; rewrite B_h32; lia). cbn [bind].
    rewrite add_ok by (apply fits_u64; unfold word; rewrite B_h32; lia). cbn [bind].
    apply Go; intros Hc; [apply Z.ltb_lt in Hc|apply Z.ltb_ge in Hc].
    + rewrite Eqs. apply Z.div_lt_upper_bound; lia.
    + rewrite Eqs. apply Z.div_le_lower_bound; lia.
Qed.

Lemma split_spec a : 0 <= a -> split a = (a / h32, a mod h32).
Proof.
  intros Ha. unfold split. f_equal. change 4294967295 with (Z.ones 32). rewrite Z.land_ones by lia. reflexivity.
Qed.

Lemma lz_spec y : 0 < y < B ->
  0 <= leading_zeros U64 y < 64 /\ 2 ^ 63 <= y * 2 ^ leading_zeros U64 y < B.
Proof.
  intros Hy. unfold leading_zeros. replace (y <? 0) with false by lia. replace (y =? 0) with false by lia.
  change (width U64) with 64. pose proof (Z.log2_spec y ltac:(lia)) as [L1 L2].
  assert (0 <= Z.log2 y < 64) as Hl.
  { split; [apply Z.log2_nonneg|]. apply Z.log2_lt_pow2; [lia|]. change (2 ^ 64) with B. lia. }
  split; [lia|]. replace (64 - 1 - Z.log2 y) with (63 - Z.log2 y) by lia.
  assert (2 ^ Z.log2 y * 2 ^ (63 - Z.log2 y) = 2 ^ 63) as E1.
  { rewrite <- Z.pow_add_r by lia. f_equal. lia. }
  assert (2 ^ Z.succ (Z.log2 y) * 2 ^ (63 - Z.log2 y) = B) as E2.
  { rewrite <- Z.pow_add_r by lia. replace (Z.succ (Z.log2 y) + (63 - Z.log2 y)) with 64 by lia. reflexivity. }
  assert (0 < 2 ^ (63 - Z.log2 y)) by (apply Z.pow_pos_nonneg; lia).
  nia.
Qed.

Lemma shl_u64 b w s : 0 <= s < 64 -> shl b U64 w s = Ret ((w * 2 ^ s) mod B).
Proof.
  intros Hs. unfold shl. change (width U64) with 64. replace ((0 <=? s) && (s <? 64)) with true by lia.
  reflexivity.
Qed.
Lemma shr_u64 b w s : 0 <= s < 64 -> shr b U64 w s = Ret (w / 2 ^ s).
Proof.
  intros Hs. unfold shr. change (width U64) with 64. replace ((0 <=? s) && (s <? 64)) with true by lia.
  reflexivity.
Qed.

Lemma pow_split s : 0 <= s <= 64 -> 2 ^ s * 2 ^ (64 - s) = B /\ 0 < 2 ^ s /\ 0 < 2 ^ (64 - s).
Proof.
  intros Hs. split; [|split; apply Z.pow_pos_nonneg; lia].
  rewrite <- Z.pow_add_r by lia. replace (s + (64 - s)) with 64 by lia. reflexivity.
Qed.

Lemma testbit_high c s n : 0 <= s <= n -> 0 <= c < 2 ^ s -> Z.testbit c n = false.
Proof.
  intros Hn Hc. apply Z.testbit_false; [lia|]. rewrite Z.div_small; [reflexivity|]. split; [lia|].
  assert (2 ^ s <= 2 ^ n) by (apply Z.pow_le_mono_r; lia). lia.
Qed.
Lemma lor_disjoint a c s : 0 <= s -> 0 <= c < 2 ^ s -> Z.lor (a * 2 ^ s) c = a * 2 ^ s + c.
Proof.
  intros Hs Hc. rewrite <- Z.shiftl_mul_pow2 by assumption.
  assert (Z.land (Z.shiftl a s) c = 0) as E.
  { apply Z.bits_inj'. intros n Hn. rewrite Z.land_spec, Z.bits_0.
    destruct (Z_lt_dec n s) as [H|H].
    - rewrite Z.shiftl_spec_low by assumption. reflexivity.
    - rewrite (testbit_high c s n) by lia. apply andb_false_r. }
  rewrite <- Z.lxor_lor by exact E. symmetry. apply Z.add_nocarry_lxor. exact E.
Qed.

(** The second half-digit computations of [div_mod_word] share this form. *)
Lemma half_digit b yn1 yn0 un u32 :
  h32 <= 2 * yn1 -> yn1 < h32 -> 0 <= yn0 < h32 -> 0 <= un < h32 ->
  0 <= u32 < yn1 * h32 + yn0 ->
  exists r, dmw_loop b 4 yn1 yn0 un (u32 / yn1) (u32 - u32 / yn1 * yn1)
    = Ret ((u32 * h32 + un) / (yn1 * h32 + yn0), r).
Proof.
  intros Hy1 Hy1' Hy0 Hun Hu. pose proof h32_val as Hv.
  pose proof (Z.div_mod u32 yn1 ltac:(lia)) as E. pose proof (Z.mod_pos_bound u32 yn1 ltac:(lia)) as M.
  assert (u32 - u32 / yn1 * yn1 = u32 mod yn1) as -> by lia.
  apply dmw_loop_spec; try lia.
  - split; [apply Z.div_pos; lia|]. apply Z.lt_succ_r. apply Z.div_lt_upper_bound; [lia|]. nia.
  - apply Z.div_le_lower_bound; [lia|].
    set (y := yn1 * h32 + yn0) in *. assert (0 < y) by (unfold y; lia).
    pose proof (Z.div_mod (u32 * h32 + un) y ltac:(lia)) as E2.
    pose proof (Z.mod_pos_bound (u32 * h32 + un) y ltac:(lia)) as M2.
    assert (0 <= (u32 * h32 + un) / y) by (apply Z.div_pos; nia).
    set (q := (u32 * h32 + un) / y) in *.
    assert (yn1 * h32 * q <= y * q) by (apply Z.mul_le_mono_nonneg_r; unfold y; lia).
    assert (yn1 * q * h32 <= u32 * h32 + un) by lia. nia.
Qed.

Lemma mod_eq_small a c m : 0 <= c < m -> (exists k, a = c + k * m) -> a mod m = c.
Proof. intros Hc [k ->]. rewrite Z.mod_add by lia. apply Z.mod_small. assumption. Qed.

Lemma divmod_ex a y : 0 < y -> exists q r, a / y = q /\ a mod y = r /\ a = y * q + r /\ 0 <= r < y.
Proof.
  intros Hy. exists (a / y), (a mod y). split; [reflexivity|]. split; [reflexivity|].
  split; [apply Z.div_mod; lia|apply Z.mod_pos_bound; assumption].
Qed.
Lemma div_nonneg_lt q r y a n : a = y * q + r -> 0 <= r < y -> 0 <= a < y * n -> 0 <= q < n.
Proof. intros. nia. Qed.
Lemma div_nonneg_le q r y a : a = y * q + r -> 0 <= r < y -> 0 <= a -> 0 <= q <= a.
Proof. intros. nia. Qed.
Lemma scale_lt u y un h : 0 <= u < y -> 0 <= un < h -> 0 <= u * h + un < y * h.
Proof. intros. nia. Qed.
Lemma half_bound y1 y0 h : 0 <= y1 < h -> 0 <= y0 < h -> y1 * h + y0 < h * h.
Proof. intros. nia. Qed.

(** The part of [div_mod_word] after normalisation. *)
Lemma div_norm b yn1 yn0 un32 un1 un0 y' :
  h32 <= 2 * yn1 -> yn1 < h32 -> 0 <= yn0 < h32 -> 0 <= un1 < h32 -> 0 <= un0 < h32 ->
  y' = yn1 * h32 + yn0 -> 0 <= un32 < y' ->
  exists q1 q0 rem,
    (forall s (K : Z -> Z -> outcome (Z * Z)),
    (q1 <- div U64 un32 yn1 ;;
     q1y <- mul b U64 q1 yn1 ;;
     rhat <- sub b U64 un32 q1y ;;
     '(q1, _) <- dmw_loop b 4 yn1 yn0 un1 q1 rhat ;;
     let un21 := wrap U64 (wrap U64 (wrap U64 (un32 * 2 ^ 32) + un1) - wrap U64 (q1 * y')) in
     q0 <- div U64 un21 yn1 ;;
     let rhat := wrap U64 (un21 - wrap U64 (q0 * yn1)) in
     '(q0, _) <- dmw_loop b 4 yn1 yn0 un0 q0 rhat ;;
     let rem := wrap U64 (wrap U64 (wrap U64 (un21 * 2 ^ 32) + un0) - wrap U64 (y' * q0)) in
     q <- mul b U64 q1 (2 ^ 32) ;;
     q <- add b U64 q q0 ;;
     r <- shr b U64 rem s ;;
     K q r) = (r <- shr b U64 rem s ;; K (q1 * h32 + q0) r)) /\
    un32 * B + (un1 * h32 + un0) = (q1 * h32 + q0) * y' + rem /\ 0 <= rem < y'.
Proof.
  intros Hy1 Hy1' Hy0 Hun1 Hun0 Ey Hun.
  pose proof h32_val as Hv. pose proof B_h32 as EB.
  assert (0 < yn1) as P1 by lia. assert (0 < y') as Py by lia.
  assert (y' < B) as HyB by (rewrite Ey, EB; apply half_bound; lia).
  assert (yn1 <= y') as Hyy by (rewrite Ey; clear - Hv P1 Hy0; lia).
  pose proof (scale_lt un32 y' un1 h32 Hun Hun1) as S1.
  destruct (half_digit b yn1 yn0 un1 un32 Hy1 Hy1' Hy0 Hun1 ltac:(rewrite <- Ey; exact Hun)) as (r1 & L1).
  destruct (divmod_ex un32 yn1 P1) as (d1 & m1 & Ed1 & _ & E1 & M1).
  rewrite Ed1 in L1. rewrite <- Ey in L1.
  destruct (divmod_ex (un32 * h32 + un1) y' Py) as (q1 & un21 & Eq1 & Em1 & F1 & N1).
  rewrite Eq1 in L1.
  pose proof (scale_lt un21 y' un0 h32 N1 Hun0) as S0.
  destruct (half_digit b yn1 yn0 un0 un21 Hy1 Hy1' Hy0 Hun0 ltac:(rewrite <- Ey; exact N1)) as (r0 & L0).
  destruct (divmod_ex un21 yn1 P1) as (d0 & m0 & Ed0 & _ & E0 & M0).
  rewrite Ed0 in L0. rewrite <- Ey in L0.
  destruct (divmod_ex (un21 * h32 + un0) y' Py) as (q0 & rem & Eq0 & Em0 & F0 & N0).
  rewrite Eq0 in L0.
  exists q1, q0, rem.
  pose proof (div_nonneg_le d1 m1 yn1 un32 E1 M1 (proj1 Hun)) as Bd1.
  pose proof (div_nonneg_le d0 m0 yn1 un21 E0 M0 (proj1 N1)) as Bd0.
  pose proof (div_nonneg_lt q1 un21 y' (un32 * h32 + un1) h32 F1 N1 S1) as Bq1.
  pose proof (div_nonneg_lt q0 rem y' (un21 * h32 + un0) h32 F0 N0 S0) as Bq0.
  clear Hy1 Hy1' Hy0 Ey Hv.
  split; [|split; [|exact N0]].
  - intros s K. fold h32.
    rewrite div_ok by (try lia; apply fits_u64; rewrite Z.quot_div_nonneg by lia; rewrite Ed1; unfold word; lia).
    rewrite Z.quot_div_nonneg by lia. rewrite Ed1. cbn [bind].
    rewrite mul_ok by (apply fits_u64; unfold word; lia). cbn [bind].
    rewrite sub_ok by (apply fits_u64; unfold word; lia). cbn [bind].
    rewrite L1. cbn [bind]. cbv zeta. rewrite !wrap_u64.
    assert ((((un32 * h32) mod B + un1) mod B - (q1 * y') mod B) mod B = un21) as ->.
    { rewrite Zplus_mod_idemp_l, <- Zminus_mod. apply mod_eq_small; [lia|]. exists 0. lia. }
    rewrite div_ok by (try lia; apply fits_u64; rewrite Z.quot_div_nonneg by lia; rewrite Ed0; unfold word; lia).
    rewrite Z.quot_div_nonneg by lia. rewrite Ed0. cbn [bind].
    rewrite !wrap_u64.
    assert ((un21 - (d0 * yn1) mod B) mod B = un21 - d0 * yn1) as ->.
    { rewrite Zminus_mod_idemp_r. apply Z.mod_small. lia. }
    rewrite L0. cbn [bind]. cbv zeta. rewrite !wrap_u64.
    assert ((((un21 * h32) mod B + un0) mod B - (y' * q0) mod B) mod B = rem) as ->.
    { rewrite Zplus_mod_idemp_l, <- Zminus_mod. apply mod_eq_small; [lia|]. exists 0. lia. }
    assert (0 <= q1 * h32 + q0 < B) as Bq by (rewrite EB; clear - Bq1 Bq0; nia).
    rewrite mul_ok by (apply fits_u64; unfold word; clear - Bq Bq1 Bq0; nia). cbn [bind].
    rewrite add_ok by (apply fits_u64; exact Bq). cbn [bind]. reflexivity.
  - rewrite EB. replace (un32 * (h32 * h32) + (un1 * h32 + un0)) with ((un32 * h32 + un1) * h32 + un0) by ring.
    rewrite F1. replace ((y' * q1 + un21) * h32 + un0) with (y' * q1 * h32 + (un21 * h32 + un0)) by ring.
    rewrite F0. ring.
Qed.

Lemma div_mod_word_spec b hi lo y : 0 <= hi < y -> word lo -> y < B ->
  div_mod_word b hi lo y = Ret ((hi * B + lo) / y, (hi * B + lo) mod y).
Proof.
  intros Hh Hlo Hy. pose proof B_pos as HB. unfold word in Hlo.
  unfold div_mod_word. rewrite dassert_ok by lia. cbn [bind].
  destruct (lz_spec y ltac:(lia)) as [Hs Hn].
  remember (leading_zeros U64 y) as s eqn:Es. clear Es.
  rewrite shl_u64 by assumption. cbn [bind].
  rewrite (Z.mod_small (y * 2 ^ s)) by lia.
  destruct (pow_split s ltac:(lia)) as (Epq & Pp & Pq).
  rewrite split_spec by lia.
  rewrite shl_u64 by assumption. cbn [bind].
  assert (0 <= hi * 2 ^ s < y * 2 ^ s) as Hhs by nia.
  rewrite (Z.mod_small (hi * 2 ^ s)) by lia.
  rewrite sub_ok by (bounds U32; unfold fits; lia). cbn [bind].
  replace (if 64 - s <? 64 then lo / 2 ^ (64 - s) else 0) with (lo / 2 ^ (64 - s)).
  2:{ destruct (Z.ltb_spec (64 - s) 64) as [_|H]; [reflexivity|].
      apply Z.div_small. replace (64 - s) with 64 by lia. change (2 ^ 64) with B. lia. }
  destruct (divmod_ex lo (2 ^ (64 - s)) ltac:(lia)) as (l1 & l0 & El1 & El0 & Elo & Mlo).
  rewrite El1.
  assert (0 <= l1 < 2 ^ s) as Hlos by (apply (div_nonneg_lt l1 l0 (2 ^ (64 - s)) lo); lia).
  rewrite lor_disjoint by lia.
  rewrite shl_u64 by assumption. cbn [bind]. clear El1 El0.
  remember (2 ^ (64 - s)) as p' eqn:Ep'.
  assert ((lo * 2 ^ s) mod B = l0 * 2 ^ s) as ->.
  { apply mod_eq_small; [nia|]. exists l1. rewrite Elo, <- Epq. ring. }
  assert (0 <= l0 * 2 ^ s < B) as Hu10 by nia.
  assert ((hi * 2 ^ s + l1) * B + l0 * 2 ^ s = (hi * B + lo) * 2 ^ s) as EN.
  { rewrite Elo, <- Epq. ring. }
  assert (0 <= hi * 2 ^ s + l1 < y * 2 ^ s) as Hun32 by nia.
  rewrite split_spec by lia. fold h32.
  pose proof h32_val as Hv. pose proof B_h32 as EB.
  destruct (divmod_ex (y * 2 ^ s) h32 ltac:(lia)) as (yn1 & yn0 & -> & -> & Ey & My).
  destruct (divmod_ex (l0 * 2 ^ s) h32 ltac:(lia)) as (un1 & un0 & -> & -> & Eu & Mu).
  assert (h32 <= 2 * yn1 /\ yn1 < h32) as [Hy1 Hy1'].
  { change (2 ^ 63) with (h32 * 2147483648) in Hn. lia. }
  assert (0 <= un1 < h32) as Hun1 by lia.
  destruct (div_norm b yn1 yn0 (hi * 2 ^ s + l1) un1 un0 (y * 2 ^ s)) as (q1 & q0 & rem & E & EQ & Br);
    try assumption; try lia.
  etransitivity; [exact (E s (fun q r => Ret (q, r)))|]. clear E.
  rewrite shr_u64 by assumption. cbn [bind].
  replace (un1 * h32 + un0) with (l0 * 2 ^ s) in EQ by lia. rewrite EN in EQ.
  remember (q1 * h32 + q0) as q eqn:Eq. clear - EQ Br Pp Hh.
  remember (hi * B + lo) as n. remember (2 ^ s) as p.
  assert (rem = (n - q * y) * p) as -> by lia.
  assert (0 <= n - q * y < y) by nia.
  rewrite Z.div_mul by lia. do 2 f_equal.
  - apply (Z.div_unique_pos _ _ _ (n - q * y)); lia.
  - apply (Z.mod_unique_pos _ _ q); lia.
Qed.

(** [div_mod_small]. *)
Lemma dms_spec b l y : Forall word l -> 0 < y < B ->
  exists q, dms b l y = Ret (q, lval l mod y) /\ wf (length l) q /\ lval q = lval l / y.
Proof.
  intros Hl Hy. induction Hl as [|w l Hw Hl IH]; cbn [dms].
  - exists []. cbn [lval]. rewrite Z.mod_0_l, Z.div_0_l by lia. repeat split; constructor.
  - destruct IH as (q & -> & [Lq Wq] & Vq). cbn [bind].
    pose proof (Z.mod_pos_bound (lval l) y ltac:(lia)) as M.
    rewrite div_mod_word_spec by (assumption || lia). cbn [bind].
    pose proof (Z.div_mod (lval l) y ltac:(lia)) as E.
    remember (lval l mod y) as r eqn:Er. remember (lval l / y) as ql eqn:Eql.
    pose proof (Z.div_mod (r * B + w) y ltac:(lia)) as E2.
    pose proof (Z.mod_pos_bound (r * B + w) y ltac:(lia)) as M2.
    assert (word ((r * B + w) / y)) as Wd.
    { unfold word in *. pose proof B_pos. split; [apply Z.div_pos; nia|apply Z.div_lt_upper_bound; nia]. }
    remember ((r * B + w) / y) as d eqn:Ed. remember ((r * B + w) mod y) as r' eqn:Er'.
    assert (w + B * lval l = (d + B * ql) * y + r') as EE by (rewrite E; lia).
    exists (d :: q). cbn [lval].
    assert ((w + B * lval l) / y = d + B * ql) as ->.
    { symmetry. apply (Z.div_unique_pos _ _ _ r'); lia. }
    assert ((w + B * lval l) mod y = r') as ->.
    { symmetry. apply (Z.mod_unique_pos _ _ (d + B * ql)); lia. }
    split; [reflexivity|]. split; [split; [simpl; congruence|constructor; assumption]|]. congruence.
Qed.
