(** * KnuthFacts: multi-word division (Knuth's algorithm D). *)
From Verif Require Import Base Sqrt U256 BaseFacts WordFacts DivWord ShiftFacts.
Ltac Zify.zify_post_hook ::= idtac.

(** ** Word-by-multiword products *)
Lemma mul_u64_spec b a c k : word a -> word c -> word k ->
  exists r h, mul_u64 b a c k = Ret (r, h) /\ word r /\ word h /\ r + B * h = a * c + k.
Proof.
  intros Ha Hc Hk. pose proof (mul_words a c Ha Hc) as M. pose proof B_pos as HB. unfold word in *.
  assert ((B - 1) * (B - 1) + B <= B * B) as E by nia.
  unfold mul_u64. rewrite mul_ok by (apply fits_u128; lia). cbn [bind].
  rewrite add_ok by (apply fits_u128; lia). cbn [bind].
  rewrite split_u128_spec by lia.
  destruct (divmod_ex (a * c + k) B HB) as (q & r & -> & -> & Eq & Hr).
  exists r, q. split; [reflexivity|]. split; [assumption|]. split; [|lia].
  apply (div_nonneg_lt q r B (a * c + k)); lia.
Qed.

Lemma ov_mul_u64_spec b l other k : Forall word l -> word other -> word k ->
  exists r c, ov_mul_u64 b l other k = Ret (r, c) /\ wf (length l) r /\ word c /\
    lval r + Bp (length l) * c = lval l * other + k.
Proof.
  intros Hl Ho. revert k. induction Hl as [|d l Hd Hl IH]; intros k Hk; cbn [ov_mul_u64].
  - exists [], k. cbn [length lval]. rewrite Bp_0. split; [reflexivity|].
    split; [split; [reflexivity|constructor]|]. split; [assumption|lia].
  - destruct (mul_u64_spec b d other k Hd Ho Hk) as (r & h & -> & Wr & Wh & E). cbn [bind].
    destruct (IH h Wh) as (rs & c & -> & [Lr Fr] & Wc & E'). cbn [bind].
    exists (r :: rs), c. split; [reflexivity|]. split; [split; [simpl; congruence|constructor; assumption]|].
    split; [assumption|]. cbn [length lval]. rewrite Bp_S.
    replace ((d + B * lval l) * other + k) with (d * other + k + B * (lval l * other)) by ring.
    rewrite <- E. replace (lval l * other) with (lval rs + Bp (length l) * c - h) by (rewrite E'; ring). ring.
Qed.

Lemma full_mul_u64_spec b x w : wf 4 x -> word w ->
  exists r, full_mul_u64 b x w = Ret r /\ wf 5 r /\ lval r = lval x * w.
Proof.
  intros [Lx Fx] Hw. unfold full_mul_u64.
  destruct (ov_mul_u64_spec b x w 0 Fx Hw word0) as (r & c & -> & [Lr Fr] & Wc & E). cbn [bind].
  exists (r ++ [c]). split; [reflexivity|]. split.
  - split; [rewrite app_length, Lr, Lx; reflexivity|]. apply Forall_app. split; [assumption|].
    constructor; [assumption|constructor].
  - rewrite lval_app. cbn [lval]. rewrite Lr. lia.
Qed.

(** ** Slices *)
Lemma lval_split k l : (k <= length l)%nat -> lval l = lval (firstn k l) + Bp k * lval (skipn k l).
Proof.
  intros H. rewrite <- (firstn_skipn k l) at 1. rewrite lval_app, firstn_length_le by assumption.
  reflexivity.
Qed.
Lemma lval_skip k l : (k < length l)%nat -> lval (skipn k l) = nth k l 0 + B * lval (skipn (S k) l).
Proof.
  revert k. induction l as [|a l IH]; intros [|k] H; cbn [length] in H; try lia; [reflexivity|].
  cbn [skipn nth]. apply IH. lia.
Qed.
Lemma Forall_firstn k l : Forall word l -> Forall word (firstn k l).
Proof. intros H. revert k. induction H; intros [|k]; simpl; constructor; auto. Qed.
Lemma Forall_skipn k l : Forall word l -> Forall word (skipn k l).
Proof. intros H. revert k. induction H; intros [|k]; simpl; auto. Qed.
Lemma firstn_bound k l : Forall word l -> (k <= length l)%nat -> 0 <= lval (firstn k l) < Bp k.
Proof.
  intros H Hk. pose proof (lval_bound (firstn k l) (Forall_firstn k l H)) as HB.
  rewrite firstn_length_le in HB by assumption. exact HB.
Qed.

Lemma binop_carry_add x y carry : word x -> word y ->
  let '(r, c) := binop_carry x y carry ovadd64 in word r /\ r + Z.b2z c * B = x + y + Z.b2z carry.
Proof.
  intros Hx Hy. unfold binop_carry. pose proof B_pos as HB. pose proof B_val as Bv.
  assert (word (Z.b2z carry)) as Hc by (unfold word; destruct carry; simpl; lia).
  pose proof (ovadd64_spec y (Z.b2z carry) Hy Hc) as H. destruct (ovadd64 y (Z.b2z carry)) as [r1 o1].
  destruct H as [W1 E1].
  pose proof (ovadd64_spec x r1 Hx W1) as H. destruct (ovadd64 x r1) as [r2 o2].
  destruct H as [W2 E2]. split; [assumption|]. unfold word in *.
  destruct o1, o2, carry; cbn [Z.b2z orb] in *; lia.
Qed.
Lemma binop_carry_sub x y carry : word x -> word y ->
  let '(r, c) := binop_carry x y carry ovsub64 in word r /\ r - Z.b2z c * B = x - y - Z.b2z carry.
Proof.
  intros Hx Hy. unfold binop_carry. pose proof B_pos as HB. pose proof B_val as Bv.
  assert (word (Z.b2z carry)) as Hc by (unfold word; destruct carry; simpl; lia).
  pose proof (ovadd64_spec y (Z.b2z carry) Hy Hc) as H. destruct (ovadd64 y (Z.b2z carry)) as [r1 o1].
  destruct H as [W1 E1].
  pose proof (ovsub64_spec x r1 Hx W1) as H. destruct (ovsub64 x r1) as [r2 o2].
  destruct H as [W2 E2]. split; [assumption|]. unfold word in *.
  destruct o1, o2, carry; cbn [Z.b2z orb] in *; lia.
Qed.

Lemma binop_slice_add a c carry : Forall word a -> Forall word c -> (length c <= length a)%nat ->
  let '(r, cy) := binop_slice a c ovadd64 carry in
  wf (length a) r /\ skipn (length c) r = skipn (length c) a /\
  lval r + Z.b2z cy * Bp (length c) = lval a + lval c + Z.b2z carry.
Proof.
  intros Ha Hc. revert carry a Ha. induction Hc as [|y c Hy Hc IH]; intros carry a Ha Hl.
  - destruct a as [|x a]; cbn [binop_slice length skipn lval]; rewrite Bp_0;
      (split; [split; [reflexivity|assumption]|]); split; try reflexivity; lia.
  - destruct a as [|x a]; cbn [length] in Hl; [lia|]. inversion_clear Ha as [|? ? Hx Ha'].
    cbn [binop_slice]. pose proof (binop_carry_add x y carry Hx Hy) as H1.
    destruct (binop_carry x y carry ovadd64) as [res k]. destruct H1 as [Wr E1].
    pose proof (IH k a Ha' ltac:(lia)) as H2. destruct (binop_slice a c ovadd64 k) as [r cy].
    destruct H2 as ([Lr Fr] & Sk & E2). cbn [length skipn lval]. rewrite Bp_S.
    split; [split; [simpl; congruence|constructor; assumption]|]. split; [assumption|].
    replace (res + B * lval r + Z.b2z cy * (B * Bp (length c)))
      with (res + B * (lval r + Z.b2z cy * Bp (length c))) by ring.
    rewrite E2. replace (res + B * (lval a + lval c + Z.b2z k))
      with (res + Z.b2z k * B + B * (lval a + lval c)) by ring. rewrite E1. ring.
Qed.
Lemma binop_slice_sub a c carry : Forall word a -> Forall word c -> (length c <= length a)%nat ->
  let '(r, cy) := binop_slice a c ovsub64 carry in
  wf (length a) r /\ skipn (length c) r = skipn (length c) a /\
  lval r - Z.b2z cy * Bp (length c) = lval a - lval c - Z.b2z carry.
Proof.
  intros Ha Hc. revert carry a Ha. induction Hc as [|y c Hy Hc IH]; intros carry a Ha Hl.
  - destruct a as [|x a]; cbn [binop_slice length skipn lval]; rewrite Bp_0;
      (split; [split; [reflexivity|assumption]|]); split; try reflexivity; lia.
  - destruct a as [|x a]; cbn [length] in Hl; [lia|]. inversion_clear Ha as [|? ? Hx Ha'].
    cbn [binop_slice]. pose proof (binop_carry_sub x y carry Hx Hy) as H1.
    destruct (binop_carry x y carry ovsub64) as [res k]. destruct H1 as [Wr E1].
    pose proof (IH k a Ha' ltac:(lia)) as H2. destruct (binop_slice a c ovsub64 k) as [r cy].
    destruct H2 as ([Lr Fr] & Sk & E2). cbn [length skipn lval]. rewrite Bp_S.
    split; [split; [simpl; congruence|constructor; assumption]|]. split; [assumption|].
    replace (res + B * lval r - Z.b2z cy * (B * Bp (length c)))
      with (res + B * (lval r - Z.b2z cy * Bp (length c))) by ring.
    rewrite E2. replace (res + B * (lval a - lval c - Z.b2z k))
      with (res - Z.b2z k * B + B * (lval a - lval c)) by ring. rewrite E1. ring.
Qed.

Lemma slice_to_ok l n k : n = Z.of_nat k -> (k <= length l)%nat -> slice_to l n = Ret (firstn k l).
Proof.
  intros -> H. unfold slice_to. replace ((0 <=? Z.of_nat k) && (Z.of_nat k <=? Z.of_nat (length l))) with true by lia.
  rewrite Nat2Z.id. reflexivity.
Qed.
Lemma slice_from_ok l n k : n = Z.of_nat k -> (k <= length l)%nat -> slice_from l n = Ret (skipn k l).
Proof.
  intros -> H. unfold slice_from. replace ((0 <=? Z.of_nat k) && (Z.of_nat k <=? Z.of_nat (length l))) with true by lia.
  rewrite Nat2Z.id. reflexivity.
Qed.

(** ** The trial quotient *)
Lemma qhat_loop_S b n v1 v2 uk q_hat r_hat : qhat_loop b (S n) v1 v2 uk q_hat r_hat =
  (p <- mul b U128 q_hat v2 ;;
   let '(hi, lo) := split_u128 p in
   if (hi <? r_hat) || ((hi =? r_hat) && (lo <=? uk)) then Ret q_hat
   else
     q_hat <- sub b U64 q_hat 1 ;;
     let '(r_hat, o) := ovadd64 r_hat v1 in
     if (o : bool) then Ret q_hat else qhat_loop b n v1 v2 uk q_hat r_hat).
Proof. reflexivity. Qed.

Lemma lex_le h l r u p : p = B * h + l -> 0 <= l < B -> 0 <= u < B ->
  ((h <? r) || ((h =? r) && (l <=? u)) = true <-> p <= r * B + u).
Proof.
  intros -> Hl Hu. rewrite orb_true_iff, andb_true_iff, Z.ltb_lt, Z.eqb_eq, Z.leb_le. split; [nia|].
  intros H. destruct (Z_lt_dec h r); [left; assumption|right].
  assert (h = r) by nia. subst. split; [reflexivity|lia].
Qed.

Lemma qhat_loop_spec b n v1 v2 uk q qh rh u01 :
  word v1 -> word v2 -> word uk -> word rh -> 0 <= q <= qh -> qh < B ->
  qh * v1 + rh = u01 -> q * (v1 * B + v2) <= u01 * B + uk ->
  B <= rh + (Z.of_nat n - 1) * v1 ->
  exists qh', qhat_loop b n v1 v2 uk qh rh = Ret qh' /\ q <= qh' <= qh /\
    qh' * (v1 * B + v2) <= u01 * B + uk.
Proof.
  revert qh rh. induction n as [|n IH]; intros qh rh H1 H2 Hu Hr Hq HqB E N F.
  { exfalso. unfold word in *. cbn [Z.of_nat] in F. lia. }
  rewrite qhat_loop_S. assert (word qh) as Wq by (unfold word; lia).
  pose proof (mul_words qh v2 Wq H2) as M. pose proof B_pos as HB.
  assert ((B - 1) * (B - 1) < B * B) as BB by nia.
  rewrite mul_ok by (apply fits_u128; lia). cbn [bind]. rewrite split_u128_spec by lia.
  destruct (divmod_ex (qh * v2) B HB) as (h & l & -> & -> & Ep & Hl).
  pose proof (lex_le h l rh uk (qh * v2) Ep Hl Hu) as LX.
  destruct ((h <? rh) || ((h =? rh) && (l <=? uk))).
  - exists qh. split; [reflexivity|]. split; [lia|]. apply proj1 in LX. specialize (LX eq_refl).
    replace (qh * (v1 * B + v2)) with (qh * v1 * B + qh * v2) by ring. rewrite <- E. lia.
  - assert (rh * B + uk < qh * v2) as G by (apply Z.nle_gt; intros H; apply LX in H; discriminate).
    assert (q < qh) as Hlt.
    { apply Z.lt_nge. intros H. assert (q = qh) by lia. subst q. rewrite <- E in N.
      replace (qh * (v1 * B + v2)) with (qh * v1 * B + qh * v2) in N by ring. lia. }
    rewrite sub_ok by (apply fits_u64; unfold word; lia). cbn [bind].
    pose proof (ovadd64_spec rh v1 Hr H1) as A. destruct (ovadd64 rh v1) as [rh' o]. destruct A as [Wr' Er'].
    destruct o; cbn [Z.b2z] in Er'.
    + exists (qh - 1). split; [reflexivity|]. split; [lia|].
      assert ((qh - 1) * v2 <= (B - 1) * (B - 1)) as M'.
      { apply mul_words; [unfold word; lia|assumption]. }
      replace ((qh - 1) * (v1 * B + v2)) with ((qh * v1 - v1) * B + (qh - 1) * v2) by ring.
      replace (qh * v1 - v1) with (u01 - (rh + v1)) by lia.
      assert (B * B <= (rh + v1) * B) as P by (unfold word in Wr'; nia).
      replace ((u01 - (rh + v1)) * B) with (u01 * B - (rh + v1) * B) by ring.
      unfold word in Hu. lia.
    + destruct (IH (qh - 1) rh' H1 H2 Hu Wr' ltac:(lia) ltac:(lia) ltac:(lia) N) as (qh' & E' & B1 & B2).
      { rewrite Nat2Z.inj_succ in F. lia. }
      exists qh'. split; [exact E'|]. split; [lia|assumption].
Qed.

(** Bounds on the trial quotient, for three leading words of the dividend and two of the divisor. *)
Section Trial.
  Context (beta wl vl u0 u1 u2 v1 v2 W v q : Z).
  Context (Hbeta : 0 < beta) (Hwl : 0 <= wl < beta) (Hvl : 0 <= vl < beta)
    (Hu0 : word u0) (Hu1 : word u1) (Hu2 : word u2) (Hv1 : word v1) (Hv2 : word v2)
    (HW : W = wl + beta * (u2 + B * (u1 + B * u0))) (Hv : v = vl + beta * (v2 + B * v1))
    (Hn : B <= 2 * v1) (HWv : W < v * B) (Hq : 0 <= q) (Hqv : q * v <= W < (q + 1) * v).

  Lemma q_lt_B : q < B.
  Proof using All.
    assert (0 <= v2 + B * v1) by (clear - Hv1 Hv2; pose proof B_pos; unfold word in *; nia).
    assert (0 <= v) as V0 by (rewrite Hv; clear HWv HW; nia).
    apply Z.lt_nge. intros G. assert (v * B <= v * q) by (apply Z.mul_le_mono_nonneg_l; assumption).
    lia.
  Qed.
  Lemma trial_lower : q * (v1 * B + v2) <= (u0 * B + u1) * B + u2.
  Proof using All.
    assert (q * (beta * (v1 * B + v2)) <= W).
    { apply Z.le_trans with (q * v); [|lia]. apply Z.mul_le_mono_nonneg_l; [assumption|lia]. }
    remember (v1 * B + v2) as V. remember ((u0 * B + u1) * B + u2) as N.
    assert (W = wl + beta * N) as EW by (rewrite HW, HeqN; ring).
    assert (beta * (q * V) < beta * (N + 1)) by lia.
    assert (q * V < N + 1) by nia. lia.
  Qed.
  Lemma trial_upper qh : 0 <= qh < B -> qh * (v1 * B + v2) <= (u0 * B + u1) * B + u2 -> qh <= q + 1.
  Proof using All.
    intros Hqh H. pose proof B_pos. unfold word in *.
    remember ((u0 * B + u1) * B + u2) as N.
    assert (W = wl + beta * N) as EW by (rewrite HW, HeqN; ring).
    remember (v1 * B + v2) as V. assert (v = vl + beta * V) as EV by (rewrite Hv, HeqV; ring).
    assert (B <= V) as BV by nia.
    assert (qh * v < W + v) as K.
    { rewrite EV at 1. replace (qh * (vl + beta * V)) with (qh * vl + beta * (qh * V)) by ring.
      assert (beta * (qh * V) <= beta * N) by (apply Z.mul_le_mono_nonneg_l; lia).
      assert (qh * vl <= (B - 1) * (beta - 1)) by (apply Z.mul_le_mono_nonneg; lia).
      assert ((B - 1) * (beta - 1) < beta * B) by (clear - H0 Hbeta; nia).
      assert (beta * B <= beta * V) by (apply Z.mul_le_mono_nonneg_l; lia). lia. }
    assert (0 < v) by (clear K; nia).
    apply Z.le_ngt. intros G. assert ((q + 2) * v <= qh * v) by (apply Z.mul_le_mono_nonneg_r; lia). lia.
  Qed.
  Lemma trial_top : v1 <= u0 -> B - 1 <= q + 1.
  Proof using All.
    intros Hle. pose proof B_pos. unfold word in *.
    assert (v < beta * (B * (v1 + 1))) as K1 by nia.
    assert (beta * (B * (B * v1)) <= W) as K2 by nia.
    assert ((B - 2) * (v1 + 1) <= B * v1) as K3 by lia.
    assert ((B - 2) * (beta * (B * (v1 + 1))) <= W) as K4.
    { apply Z.le_trans with (beta * (B * (B * v1))); [|exact K2].
      replace ((B - 2) * (beta * (B * (v1 + 1)))) with ((beta * B) * ((B - 2) * (v1 + 1))) by ring.
      replace (beta * (B * (B * v1))) with ((beta * B) * (B * v1)) by ring.
      apply Z.mul_le_mono_nonneg_l; [lia|assumption]. }
    apply Z.le_ngt. intros G. assert (q + 1 <= B - 2) as G' by lia.
    assert ((q + 1) * v <= (B - 2) * (beta * (B * (v1 + 1)))) by (apply Z.mul_le_mono_nonneg; lia).
    lia.
  Qed.
End Trial.

(** ** One step of the main loop *)
Lemma skipn_plus {A} i j (l : list A) : skipn i (skipn j l) = skipn (j + i) l.
Proof.
  revert l. induction j as [|j IH]; intros l; [reflexivity|]. destruct l as [|a l]; [destruct i; reflexivity|].
  exact (IH l).
Qed.
Lemma slice_op_add u j n c : Forall word u -> Forall word c -> length c = n -> (j + n <= length u)%nat ->
  exists u' cy, slice_op u (Z.of_nat j) c ovadd64 = Ret (u', cy) /\ wf (length u) u' /\
    skipn (j + n) u' = skipn (j + n) u /\
    lval u' + Z.b2z cy * Bp (j + n) = lval u + Bp j * lval c.
Proof.
  intros Hu Hc <- Hl. unfold slice_op.
  rewrite (slice_to_ok u _ j eq_refl), (slice_from_ok u _ j eq_refl) by lia. cbn [bind].
  pose proof (binop_slice_add (skipn j u) c false (Forall_skipn j u Hu) Hc) as H.
  rewrite skipn_length in H. specialize (H ltac:(lia)).
  destruct (binop_slice (skipn j u) c ovadd64 false) as [r cy]. destruct H as ([Lr Fr] & Sk & E).
  eexists _, cy. split; [reflexivity|]. split; [split|].
  - rewrite app_length, firstn_length_le, Lr by lia. lia.
  - apply Forall_app. split; [apply Forall_firstn|]; assumption.
  - split.
    + rewrite skipn_app, firstn_length_le by lia.
      rewrite (skipn_all2 (firstn j u)) by (rewrite firstn_length_le; lia).
      replace (j + length c - j)%nat with (length c) by lia. cbn [app]. rewrite Sk.
      apply skipn_plus.
    + rewrite lval_app, firstn_length_le by lia. rewrite (lval_split j u) by lia. rewrite Bp_add.
      cbn [Z.b2z] in E. replace (lval r) with (lval (skipn j u) + lval c - Z.b2z cy * Bp (length c)) by lia.
      ring.
Qed.
Lemma slice_op_sub u j n c : Forall word u -> Forall word c -> length c = n -> (j + n <= length u)%nat ->
  exists u' cy, slice_op u (Z.of_nat j) c ovsub64 = Ret (u', cy) /\ wf (length u) u' /\
    skipn (j + n) u' = skipn (j + n) u /\
    lval u' - Z.b2z cy * Bp (j + n) = lval u - Bp j * lval c.
Proof.
  intros Hu Hc <- Hl. unfold slice_op.
  rewrite (slice_to_ok u _ j eq_refl), (slice_from_ok u _ j eq_refl) by lia. cbn [bind].
  pose proof (binop_slice_sub (skipn j u) c false (Forall_skipn j u Hu) Hc) as H.
  rewrite skipn_length in H. specialize (H ltac:(lia)).
  destruct (binop_slice (skipn j u) c ovsub64 false) as [r cy]. destruct H as ([Lr Fr] & Sk & E).
  eexists _, cy. split; [reflexivity|]. split; [split|].
  - rewrite app_length, firstn_length_le, Lr by lia. lia.
  - apply Forall_app. split; [apply Forall_firstn|]; assumption.
  - split.
    + rewrite skipn_app, firstn_length_le by lia.
      rewrite (skipn_all2 (firstn j u)) by (rewrite firstn_length_le; lia).
      replace (j + length c - j)%nat with (length c) by lia. cbn [app]. rewrite Sk.
      apply skipn_plus.
    + rewrite lval_app, firstn_length_le by lia. rewrite (lval_split j u) by lia. rewrite Bp_add.
      cbn [Z.b2z] in E. replace (lval r) with (lval (skipn j u) - lval c + Z.b2z cy * Bp (length c)) by lia.
      ring.
Qed.

(** The value of a list below [Bp k]: the words from [k] on are zero. *)
Lemma small_top k l : Forall word l -> (k <= length l)%nat -> lval l < Bp k ->
  lval (skipn k l) = 0 /\ lval (firstn k l) = lval l.
Proof.
  intros H Hk Hl. pose proof (firstn_bound k l H Hk) as F. pose proof (lval_split k l Hk) as E.
  pose proof (lval_bound _ (Forall_skipn k l H)) as S. pose proof (Bp_pos k) as P.
  assert (lval (skipn k l) = 0) by nia. split; [assumption|]. rewrite E. replace (lval (skipn k l)) with 0 by auto. lia.
Qed.

(** Three leading words of [l], seen from position [j + n]. *)
Lemma lead3 l k : (k + 2 < length l)%nat ->
  lval l = lval (firstn k l) + Bp k * (nth k l 0 + B * (nth (k + 1) l 0 + B * (nth (k + 2) l 0 + B * lval (skipn (k + 3) l)))).
Proof.
  intros H. rewrite (lval_split k l) at 1 by lia. rewrite (lval_skip k) by lia.
  rewrite (lval_skip (S k)) by lia. rewrite (lval_skip (S (S k))) by lia.
  replace (k + 1)%nat with (S k) by lia. replace (k + 2)%nat with (S (S k)) by lia.
  replace (k + 3)%nat with (S (S (S k))) by lia. reflexivity.
Qed.
Lemma lead2 l k : (k + 1 < length l)%nat ->
  lval l = lval (firstn k l) + Bp k * (nth k l 0 + B * (nth (k + 1) l 0 + B * lval (skipn (k + 2) l))).
Proof.
  intros H. rewrite (lval_split k l) at 1 by lia. rewrite (lval_skip k) by lia.
  rewrite (lval_skip (S k)) by lia. replace (k + 1)%nat with (S k) by lia.
  replace (k + 2)%nat with (S (S k)) by lia. reflexivity.
Qed.
Lemma nth_skipn_Z k i (l : list Z) : nth i (skipn k l) 0 = nth (k + i) l 0.
Proof.
  revert l. induction k as [|k IH]; intros l; [reflexivity|]. destruct l as [|a l]; simpl; [destruct i; reflexivity|apply IH].
Qed.

(** The trial quotient computed by the step. *)
Definition trial (b : build) (u : list Z) (n v1 v2 j : Z) : outcome Z :=
  u_jn <- idx u (j + n) ;;
  (if u_jn <? v1 then
     u1 <- idx u (j + n - 1) ;;
     '(q_hat, r_hat) <- div_mod_word b u_jn u1 v1 ;;
     u2 <- idx u (j + n - 2) ;;
     qhat_loop b 4 v1 v2 u2 q_hat r_hat
   else Ret 18446744073709551615).

Lemma trial_spec b u v (k j : nat) q :
  Forall word u -> Forall word v -> (j + k + 2 < length u)%nat -> (k + 1 < length v)%nat ->
  B <= 2 * nth (k + 1) v 0 -> lval v < Bp (k + 2) ->
  lval (skipn j u) < lval v * B -> 0 <= q -> q * lval v <= lval (skipn j u) < (q + 1) * lval v ->
  exists qh, trial b u (Z.of_nat (k + 2)) (nth (k + 1) v 0) (nth k v 0) (Z.of_nat j) = Ret qh /\
    q <= qh <= q + 1 /\ word qh.
Proof.
  intros Hu Hv Lu Lv Hn Hvb HW Hq0 Hq. pose proof B_pos as HB.
  destruct (small_top (k + 2) v Hv ltac:(lia) Hvb) as [Vz _].
  pose proof (lead2 v k ltac:(lia)) as EV. rewrite Vz, Z.mul_0_r, Z.add_0_r in EV.
  assert (lval (skipn j u) < Bp (k + 3)) as Wb.
  { replace (k + 3)%nat with (S (k + 2)) by lia. rewrite Bp_S. nia. }
  destruct (small_top (k + 3) (skipn j u) (Forall_skipn j u Hu)) as [Wz _].
  { rewrite skipn_length. lia. } { exact Wb. }
  pose proof (lead3 (skipn j u) k) as EW. rewrite skipn_length in EW. specialize (EW ltac:(lia)).
  rewrite Wz, Z.mul_0_r, Z.add_0_r in EW. rewrite !nth_skipn_Z in EW.
  pose proof (firstn_bound k v Hv ltac:(lia)) as Fv.
  assert (0 <= lval (firstn k (skipn j u)) < Bp k) as Fu.
  { apply firstn_bound; [apply Forall_skipn; assumption|rewrite skipn_length; lia]. }
  assert (word (nth (j + k) u 0)) as W2 by (apply nth_word; assumption).
  assert (word (nth (j + (k + 1)) u 0)) as W1 by (apply nth_word; assumption).
  assert (word (nth (j + (k + 2)) u 0)) as W0 by (apply nth_word; assumption).
  assert (word (nth (k + 1) v 0)) as Wv1 by (apply nth_word; assumption).
  assert (word (nth k v 0)) as Wv2 by (apply nth_word; assumption).
  pose proof (Bp_pos k) as Pk.
  pose proof (q_lt_B _ _ _ _ _ _ _ _ _ _ q Pk Fu Fv W0 W1 W2 Wv1 Wv2 EW EV Hn HW Hq0 Hq) as QB.
  pose proof (trial_lower _ _ _ _ _ _ _ _ _ _ q Pk Fu Fv W0 W1 W2 Wv1 Wv2 EW EV Hn HW Hq0 Hq) as TL.
  pose proof (fun qh => trial_upper _ _ _ _ _ _ _ _ _ _ q Pk Fu Fv W0 W1 W2 Wv1 Wv2 EW EV Hn HW Hq0 Hq qh) as TU.
  pose proof (trial_top _ _ _ _ _ _ _ _ _ _ q Pk Fu Fv W0 W1 W2 Wv1 Wv2 EW EV Hn HW Hq0 Hq) as TT.
  unfold trial. rewrite (idx_ok u (j + (k + 2)) 0) by lia. cbn [bind].
  clear EW EV Wz Vz Fv Fu Wb Hq HW Hvb.
  destruct (Z.ltb_spec (nth (j + (k + 2)) u 0) (nth (k + 1) v 0)) as [Hlt|Hge].
  - rewrite (idx_ok u (j + (k + 1)) 0) by lia. cbn [bind].
    rewrite div_mod_word_spec; [|unfold word in W0; lia|assumption|unfold word in Wv1; lia].
    cbn [bind]. rewrite (idx_ok u (j + k) 0) by lia. cbn [bind].
    generalize dependent (nth (j + (k + 2)) u 0). intros u0. generalize dependent (nth (j + (k + 1)) u 0). intros u1.
    generalize dependent (nth (j + k) u 0). intros u2. generalize dependent (nth (k + 1) v 0). intros v1.
    generalize dependent (nth k v 0). intros v2. intros. clear Hu Hv Lu Lv Pk.
    assert (0 < v1) as Pv1 by lia.
    destruct (divmod_ex (u0 * B + u1) v1 Pv1) as (qh & rh & -> & -> & E & Hr).
    assert (0 <= u0 * B + u1 < v1 * B) as Ub by (clear - W0 W1 Hlt; unfold word in *; nia).
    assert (0 <= qh < B) as Qb by (apply (div_nonneg_lt qh rh v1 (u0 * B + u1)); lia).
    assert (q <= qh) as Qle.
    { apply Z.le_ngt. intros G. assert ((qh + 1) * v1 <= q * v1) as G2 by (apply Z.mul_le_mono_nonneg_r; lia).
      assert ((qh + 1) * v1 * B <= q * v1 * B) as G3 by (apply Z.mul_le_mono_nonneg_r; lia).
      replace (q * (v1 * B + v2)) with (q * v1 * B + q * v2) in TL by ring.
      assert (0 <= q * v2) by (unfold word in Wv2; apply Z.mul_nonneg_nonneg; lia).
      assert ((u0 * B + u1) * B + B <= (qh + 1) * v1 * B).
      { replace ((u0 * B + u1) * B + B) with ((u0 * B + u1 + 1) * B) by ring.
        apply Z.mul_le_mono_nonneg_r; lia. }
      unfold word in W2. lia. }
    destruct (qhat_loop_spec b 4 v1 v2 u2 q qh rh (u0 * B + u1)) as (qh' & E' & [Q1 Q2] & Q3); try assumption.
    + unfold word in *; lia.
    + lia.
    + lia.
    + lia.
    + change (Z.of_nat 4 - 1) with 3. lia.
    + exists qh'. split; [exact E'|]. split; [split; [assumption|apply TU; [lia|assumption]]|unfold word; lia].
  - specialize (TT Hge). exists (B - 1). split; [reflexivity|]. split; [lia|unfold word; lia].
Qed.

Lemma knuth_step_trial b v n v1 v2 j u q : knuth_step b v n v1 v2 j u q =
  (q_hat <- trial b u n v1 v2 j ;;
   q_hat_v <- full_mul_u64 b v q_hat ;;
   qv <- slice_to q_hat_v (n + 1) ;;
   '(u, c) <- slice_op u j qv ovsub64 ;;
   '(u, q_hat) <-
     (if (c : bool) then
        q_hat <- sub b U64 q_hat 1 ;;
        vn <- slice_to v n ;;
        '(u, c) <- slice_op u j vn ovadd64 ;;
        w <- idx u (j + n) ;;
        u <- set_idx u (j + n) (wrap U64 (w + Z.b2z c)) ;;
        Ret (u, q_hat)
      else Ret (u, q_hat)) ;;
   q <- set_idx q j q_hat ;;
   Ret (u, q)).
Proof. unfold knuth_step, trial. destruct (idx u (j + n)); reflexivity. Qed.

(** Arithmetic of the correction step: a negative partial remainder, seen modulo [Bp (n+1)]. *)
Lemma add_back low t c Bn R : 0 <= low < Bn -> 0 <= R < Bn -> low + Bn * t + c * Bn = Bn * B + R -> t + c = B /\ low = R.
Proof. intros Hl HR E. assert (t + c = B) by nia. split; [assumption|]. nia. Qed.

Lemma knuth_step_spec b v u q (k j : nat) :
  wf 4 v -> wf 5 u -> wf 4 q -> (j + k + 2 <= 4)%nat ->
  B <= 2 * nth (k + 1) v 0 -> lval v < Bp (k + 2) ->
  lval u < lval v * Bp (j + 1) -> nth j q 0 = 0 ->
  exists u' qd, knuth_step b v (Z.of_nat (k + 2)) (nth (k + 1) v 0) (nth k v 0) (Z.of_nat j) u q
                  = Ret (u', upd q j qd) /\
    wf 5 u' /\ word qd /\ lval u = lval u' + qd * Bp j * lval v /\ lval u' < lval v * Bp j.
Proof.
  intros [Lv Fv] [Lu Fu] [Lq Fq] Hjk Hn Hvb Hub Hqj. pose proof B_pos as HB.
  pose proof (Bp_pos j) as Pj. pose proof (Bp_pos (k + 2)) as Pk.
  pose proof (lval_split j u ltac:(lia)) as ES.
  pose proof (firstn_bound j u Fu ltac:(lia)) as FB.
  pose proof (lval_bound _ (Forall_skipn j u Fu)) as SB.
  rewrite Bp_add in Hub. change (Bp 1) with (B * 1) in Hub. rewrite Z.mul_1_r in Hub.
  assert (lval (skipn j u) < lval v * B) as HW.
  { clear - ES FB Hub Pj. assert (Bp j * lval (skipn j u) < Bp j * (lval v * B)) by lia. nia. }
  assert (0 < lval v) as Pv by (clear - HW SB HB; nia).
  destruct (divmod_ex (lval (skipn j u)) (lval v) Pv) as (q0 & r0 & _ & _ & Eq & Hr).
  assert (0 <= q0) as Hq0 by (clear - Eq Hr SB; nia).
  destruct (trial_spec b u v k j q0 Fu Fv ltac:(lia) ltac:(lia) Hn Hvb HW Hq0 ltac:(lia)) as (qh & ET & Hqh & Wqh).
  rewrite knuth_step_trial, ET. cbn [bind].
  destruct (full_mul_u64_spec b v qh (conj Lv Fv) Wqh) as (qv & -> & [Lqv Fqv] & Eqv). cbn [bind].
  rewrite (slice_to_ok qv _ (k + 3)) by lia. cbn [bind].
  assert (lval qv < Bp (k + 3)) as Qb.
  { rewrite Eqv. replace (k + 3)%nat with (S (k + 2)) by lia. rewrite Bp_S. unfold word in Wqh.
    clear - Wqh Hvb Pv. nia. }
  destruct (small_top (k + 3) qv Fqv ltac:(lia) Qb) as [_ Qf].
  destruct (slice_op_sub u j (k + 3) (firstn (k + 3) qv)) as (u1 & c & -> & [L1 F1] & S1 & E1);
    [assumption|apply Forall_firstn; assumption|rewrite firstn_length_le; lia|lia|].
  rewrite Qf, Eqv in E1. cbn [bind].
  (* the words above the slice are zero *)
  assert (lval u < Bp (j + (k + 3))) as Ub.
  { replace (j + (k + 3))%nat with (S (j + (k + 2))) by lia. rewrite Bp_S, Bp_add.
    clear - Hub Hvb HB Pj. apply Z.lt_le_trans with (1 := Hub).
    replace (B * (Bp j * Bp (k + 2))) with (Bp (k + 2) * (Bp j * B)) by ring.
    apply Z.mul_le_mono_nonneg_r; [|lia]. apply Z.mul_nonneg_nonneg; lia. }
  destruct (small_top (j + (k + 3)) u Fu ltac:(lia) Ub) as [Sz _].
  assert (lval u1 = lval (firstn (j + (k + 3)) u1)) as T1.
  { rewrite (lval_split (j + (k + 3)) u1) at 1 by lia. rewrite S1, Sz. lia. }
  pose proof (firstn_bound (j + (k + 3)) u1 F1 ltac:(lia)) as B1. rewrite <- T1 in B1.
  assert (lval u = lval (firstn j u) + Bp j * r0 + q0 * Bp j * lval v) as EU.
  { rewrite ES at 1. rewrite Eq. ring. }
  assert (0 <= lval (firstn j u) + Bp j * r0 < lval v * Bp j) as RB.
  { clear - FB Hr Pj. nia. }
  destruct c; cbn [Z.b2z] in E1.
  - (* the trial quotient was one too large *)
    assert (qh = q0 + 1) as Eqh.
    { destruct (Z.eq_dec qh q0) as [->|]; [|lia]. exfalso. rewrite EU in E1.
      assert (Bp j * (lval v * q0) = q0 * Bp j * lval v) as Z1 by ring. lia. }
    rewrite sub_ok by (apply fits_u64; unfold word in *; lia). cbn [bind].
    rewrite (slice_to_ok v _ (k + 2)) by lia. cbn [bind].
    destruct (small_top (k + 2) v Fv ltac:(lia) Hvb) as [_ Vf].
    destruct (slice_op_add u1 j (k + 2) (firstn (k + 2) v)) as (u2 & c2 & -> & [L2 F2] & S2 & E2);
      [assumption|apply Forall_firstn; assumption|rewrite firstn_length_le; lia|lia|].
    rewrite Vf in E2. cbn [bind].
    rewrite (idx_ok u2 (j + (k + 2)) 0) by lia. cbn [bind].
    rewrite (set_idx_ok u2 (j + (k + 2))) by lia. cbn [bind].
    rewrite (set_idx_ok q j) by lia. cbn [bind].
    eexists _, (qh - 1). split; [reflexivity|].
    assert (lval u2 = lval (firstn (j + (k + 2)) u2) + Bp (j + (k + 2)) * nth (j + (k + 2)) u2 0) as EU2.
    { rewrite (lval_split (j + (k + 2)) u2) at 1 by lia. rewrite (lval_skip (j + (k + 2))) by lia.
      replace (S (j + (k + 2))) with (j + (k + 3))%nat by lia.
      replace (lval (skipn (j + (k + 3)) u2)) with 0; [ring|].
      replace (j + (k + 3))%nat with (j + (k + 2) + 1)%nat by lia.
      rewrite <- skipn_plus, S2, skipn_plus. replace (j + (k + 2) + 1)%nat with (j + (k + 3))%nat by lia.
      rewrite S1, Sz. reflexivity. }
    pose proof (firstn_bound (j + (k + 2)) u2 F2 ltac:(lia)) as B2.
    destruct (add_back (lval (firstn (j + (k + 2)) u2)) (nth (j + (k + 2)) u2 0) (Z.b2z c2) (Bp (j + (k + 2)))
                (lval (firstn j u) + Bp j * r0)) as [Et El].
    + exact B2.
    + rewrite Bp_add. clear - RB Hvb Pj. assert (lval v * Bp j < Bp (k + 2) * Bp j) by nia. lia.
    + rewrite <- EU2. replace (lval u2 + Z.b2z c2 * Bp (j + (k + 2))) with (lval u1 + Bp j * lval v) by lia.
      replace (lval u1) with (lval u - Bp j * (lval v * qh) + Bp (j + (k + 3))) by lia.
      rewrite EU, Eqh. replace (j + (k + 3))%nat with (S (j + (k + 2))) by lia. rewrite Bp_S. ring.
    + rewrite wrap_u64, Et, Z_mod_same_full.
      assert (lval (upd u2 (j + (k + 2)) 0) = lval (firstn j u) + Bp j * r0) as EF.
      { rewrite upd_lval by lia. rewrite EU2, El. ring. }
      split; [split; [rewrite upd_length; lia|apply upd_word; [assumption|exact word0]]|].
      split; [unfold word in *; lia|]. rewrite EF. split; [|apply RB].
      rewrite EU, Eqh. ring.
  - (* no borrow *)
    assert (qh = q0) as Eqh.
    { destruct (Z.eq_dec qh (q0 + 1)) as [->|]; [|lia]. exfalso. rewrite EU in E1.
      assert (Bp j * (lval v * (q0 + 1)) = q0 * Bp j * lval v + lval v * Bp j) as Z1 by ring. lia. }
    cbn [bind]. rewrite (set_idx_ok q j) by lia. cbn [bind].
    exists u1, qh. split; [reflexivity|]. split; [split; [lia|assumption]|]. split; [assumption|].
    replace (lval u1) with (lval u - Bp j * (lval v * qh)) by lia. split; [ring|].
    rewrite EU, Eqh. replace (Bp j * (lval v * q0)) with (q0 * Bp j * lval v) by ring. lia.
Qed.

(** ** The main loop *)
Lemma knuth_loop_spec b v (k n : nat) u q :
  wf 4 v -> wf 5 u -> wf 4 q -> (n + k + 2 <= 5)%nat ->
  B <= 2 * nth (k + 1) v 0 -> lval v < Bp (k + 2) ->
  lval u < lval v * Bp n -> (forall i, (i < n)%nat -> nth i q 0 = 0) ->
  exists u' q', knuth_loop b v (Z.of_nat (k + 2)) (nth (k + 1) v 0) (nth k v 0) n u q = Ret (u', q') /\
    wf 5 u' /\ wf 4 q' /\ lval u + lval q * lval v = lval u' + lval q' * lval v /\ lval u' < lval v.
Proof.
  intros Hv. revert u q. induction n as [|n IH]; intros u q Hu Hq Hnk Hn Hvb Hub Hz; cbn [knuth_loop].
  - exists u, q. rewrite Bp_0, Z.mul_1_r in Hub. auto.
  - destruct (knuth_step_spec b v u q k n Hv Hu Hq ltac:(lia) Hn Hvb) as (u1 & qd & -> & Wu1 & Wqd & E1 & H1).
    { replace (n + 1)%nat with (S n) by lia. exact Hub. } { apply Hz. lia. }
    cbn [bind]. destruct Hq as [Lq Fq].
    destruct (IH u1 (upd q n qd) Wu1) as (u' & q' & E & Wu' & Wq' & Ev & Hlt); try assumption.
    + split; [rewrite upd_length; assumption|apply upd_word; assumption].
    + lia.
    + intros i Hi. rewrite upd_nth by lia.
      destruct (Nat.eqb_spec i n); [lia|]. apply Hz. lia.
    + exists u', q'. split; [exact E|]. split; [assumption|]. split; [assumption|]. split; [|assumption].
      rewrite <- Ev. rewrite upd_lval by lia. rewrite (Hz n) by lia. rewrite E1. ring.
Qed.

(** ** Long division *)
Lemma nbits_words z n : nbits z n -> 0 < n -> forall k, n = 64 * (Z.of_nat k) + (n - 64 * Z.of_nat k) ->
  64 * Z.of_nat k < n <= 64 * Z.of_nat k + 64 -> Bp k <= z < Bp (S k).
Proof.
  intros [H1 H2] Hn k _ Hk. specialize (H2 Hn).
  assert (forall i, Bp i = 2 ^ (64 * Z.of_nat i)) as EB.
  { intros i. unfold Bp. change B with (2 ^ 64). rewrite <- Z.pow_mul_r by lia. reflexivity. }
  rewrite !EB. split.
  - apply Z.le_trans with (2 ^ (n - 1)); [apply Z.pow_le_mono_r; lia|assumption].
  - apply Z.lt_le_trans with (2 ^ n); [apply H1|apply Z.pow_le_mono_r; lia].
Qed.

Lemma words_spec b z n : nbits z n -> 0 < n <= 256 ->
  exists k : nat, words b n = Ret (Z.of_nat (S k)) /\ (k < 4)%nat /\ Z.of_nat k = (n - 1) / 64 /\ Bp k <= z < Bp (S k).
Proof.
  intros H Hn. unfold words. rewrite dassert_ok by lia. cbn [bind].
  assert (forall x, 0 <= x <= 1000 -> fits USize x) as FU.
  { intros x Hx. unfold fits. change (imin USize) with 0. change (imax USize) with 18446744073709551615. lia. }
  rewrite sub_ok by (apply FU; lia). cbn [bind].
  assert (Z.quot (n - 1) 64 = (n - 1) / 64) as Eq by (apply Z.quot_div_nonneg; lia).
  pose proof (Z.div_mod (n - 1) 64 ltac:(lia)) as D. pose proof (Z.mod_pos_bound (n - 1) 64 ltac:(lia)) as M.
  rewrite div_ok; [|lia|rewrite Eq; apply FU; lia]. cbn [bind]. rewrite Eq.
  rewrite add_ok by (apply FU; lia).
  exists (Z.to_nat ((n - 1) / 64)). split; [f_equal; lia|]. split; [lia|]. split; [lia|].
  apply (nbits_words z n H); lia.
Qed.

Lemma lval_top (l : list Z) k : Forall word l -> (k < length l)%nat -> Bp k <= lval l < Bp (S k) ->
  0 < nth k l 0 < B /\ lval l = lval (firstn k l) + Bp k * nth k l 0.
Proof.
  intros F Hk [H1 H2]. destruct (small_top (S k) l F ltac:(lia) H2) as [Z0 _].
  pose proof (lval_split k l ltac:(lia)) as E. rewrite (lval_skip k l Hk), Z0 in E.
  pose proof (firstn_bound k l F ltac:(lia)) as FB. pose proof (nth_word l k F) as W. unfold word in W.
  pose proof (Bp_pos k). split; [nia|lia].
Qed.

Lemma Bp_mono i j : (i <= j)%nat -> Bp i <= Bp j.
Proof. intros H. unfold Bp. apply Z.pow_le_mono_r; [reflexivity|lia]. Qed.

Lemma fits_word_ge v : wf 4 v -> B <= lval v -> fits_word v = false.
Proof.
  intros Hv H. destruct (wf4_inv v Hv) as (w0 & w1 & w2 & w3 & -> & H0 & H1 & H2 & H3).
  rewrite lval4 in H. unfold fits_word. cbn.
  unfold word in *. destruct (Z.eqb_spec w1 0), (Z.eqb_spec w2 0), (Z.eqb_spec w3 0); try reflexivity.
  subst. lia.
Qed.

Lemma div_mod_knuth_spec b x v (k m : nat) : wf 4 x -> wf 4 v ->
  Bp (k + 1) <= lval v < Bp (k + 2) -> lval x < Bp (k + m + 2) -> (k + m + 2 <= 4)%nat ->
  (forall xb vb, bits x = Ret xb -> bits v = Ret vb -> vb <= xb) ->
  exists q r, div_mod_knuth b x v (Z.of_nat (k + 2)) (Z.of_nat m) = Ret (q, r) /\
    wf 4 q /\ wf 4 r /\ lval q = lval x / lval v /\ lval r = lval x mod lval v.
Proof.
  intros Hx Hv Hvb Hxb Hkm Hbits. pose proof B_pos as HB.
  destruct (bits_spec x Hx) as (xb & Exb & _ & _). destruct (bits_spec v Hv) as (vb & Evb & _ & _).
  unfold div_mod_knuth. rewrite Exb, Evb. cbn [bind].
  rewrite fits_word_ge; [|assumption|].
  2:{ replace (k + 1)%nat with (1 + k)%nat in Hvb by lia. rewrite Bp_add in Hvb. change (Bp 1) with (B * 1) in Hvb.
      pose proof (Bp_pos k). nia. }
  pose proof (Hbits xb vb Exb Evb) as Hb2.
  rewrite dassert_ok by (cbn [negb]; lia). cbn [bind].
  rewrite add_ok. 2:{ unfold fits. change (imin USize) with 0. change (imax USize) with 18446744073709551615. lia. }
  cbn [bind]. rewrite dassert_ok by lia. cbn [bind].
  destruct Hv as [Lv Fv].
  rewrite (idx_ok v (k + 1) 0) by lia. cbn [bind].
  destruct (lval_top v (k + 1) Fv ltac:(lia)) as [Hw Etop].
  { replace (S (k + 1)) with (k + 2)%nat by lia. exact Hvb. }
  destruct (lz_spec _ Hw) as [Hs Hnorm]. set (s := leading_zeros U64 (nth (k + 1) v 0)) in *.
  assert (0 < 2 ^ s) as Ps by (apply Z.pow_pos_nonneg; lia).
  pose proof (firstn_bound (k + 1) v Fv ltac:(lia)) as FB.
  assert (2 ^ s <= 2 ^ 63) as Ps2 by (apply Z.pow_le_mono_r; lia).
  assert (2 ^ 63 * 2 = B) as E63 by reflexivity.
  assert (lval v * 2 ^ s < Bp (k + 2)) as Hvs.
  { rewrite Etop. replace (k + 2)%nat with (S (k + 1)) by lia. rewrite Bp_S.
    (* top word * 2^s <= B - 2^s as both sides are multiples of 2^s *)
    destruct (pow_split s ltac:(lia)) as (Esp & Pp & Pq).
    assert (nth (k + 1) v 0 + 1 <= 2 ^ (64 - s)) as Hw1.
    { assert (nth (k + 1) v 0 < 2 ^ (64 - s)); [|lia]. clear - Hnorm Esp Pp Pq. nia. }
    assert ((nth (k + 1) v 0 + 1) * 2 ^ s <= B) as Hw2 by (clear - Hw1 Esp Pp; nia).
    pose proof (Bp_pos (k + 1)) as PB. clear - FB Hw2 PB Ps.
    set (w := nth (k + 1) v 0) in *. set (l := lval (firstn (k + 1) v)) in *.
    apply Z.lt_le_trans with (Bp (k + 1) * (w + 1) * 2 ^ s).
    - apply Z.mul_lt_mono_pos_r; [assumption|]. lia.
    - replace (Bp (k + 1) * (w + 1) * 2 ^ s) with (Bp (k + 1) * ((w + 1) * 2 ^ s)) by ring.
      rewrite (Z.mul_comm B). apply Z.mul_le_mono_nonneg_l; lia. }
  assert (Bp (k + 2) <= Bp 4) as B4.
  { apply Bp_mono. lia. }
  destruct (u256_shl_spec b v s (conj Lv Fv) Hs) as (v' & -> & [Lv' Fv'] & Ev'). cbn [bind].
  pose proof (Bp_pos (k + 1)) as Pk1.
  rewrite Z.mod_small in Ev' by (split; [apply Z.mul_nonneg_nonneg; lia|lia]).
  destruct (full_shl_spec b x s Hx Hs) as (u & -> & Wu & Eu). cbn [bind].
  assert (lval v' < Bp (k + 2)) as Hv'b by lia.
  (* the normalised leading word *)
  assert (B <= 2 * nth (k + 1) v' 0) as Htop.
  { destruct (small_top (k + 2) v' Fv' ltac:(lia) Hv'b) as [Z0 _].
    pose proof (lval_split (k + 1) v' ltac:(lia)) as E. rewrite (lval_skip (k + 1) v' ltac:(lia)) in E.
    replace (S (k + 1)) with (k + 2)%nat in E by lia. rewrite Z0 in E.
    pose proof (firstn_bound (k + 1) v' Fv' ltac:(lia)) as FB'.
    assert (Bp (k + 1) * (nth (k + 1) v 0 * 2 ^ s) <= lval v') as G.
    { rewrite Ev', Etop. clear - FB Ps Pk1.
      replace ((lval (firstn (k + 1) v) + Bp (k + 1) * nth (k + 1) v 0) * 2 ^ s)
        with (lval (firstn (k + 1) v) * 2 ^ s + Bp (k + 1) * (nth (k + 1) v 0 * 2 ^ s)) by ring.
      assert (0 <= lval (firstn (k + 1) v) * 2 ^ s) by (apply Z.mul_nonneg_nonneg; lia). lia. }
    assert (Bp (k + 1) * 2 ^ 63 <= Bp (k + 1) * (nth (k + 1) v 0 * 2 ^ s)) as G2.
    { apply Z.mul_le_mono_nonneg_l; lia. }
    clear - E FB' G G2 Pk1 E63.
    assert (Bp (k + 1) * 2 ^ 63 < Bp (k + 1) * (nth (k + 1) v' 0 + 1)) as G3 by lia.
    assert (2 ^ 63 < nth (k + 1) v' 0 + 1) by (apply Z.mul_lt_mono_pos_l in G3; assumption). lia. }
  rewrite (idx_ok v' (k + 1) 0) by lia. cbn [bind].
  rewrite (idx_ok v' k 0) by lia. cbn [bind].
  replace (Z.to_nat (Z.of_nat m + 1)) with (m + 1)%nat by lia.
  destruct (knuth_loop_spec b v' k (m + 1) u zero (conj Lv' Fv') Wu) as (u' & q & -> & Wu' & Wq & Eq & Hlt).
  - split; [reflexivity|]. repeat (apply Forall_cons; [exact word0|]). constructor.
  - lia.
  - assumption.
  - assumption.
  - rewrite Eu, Ev'. replace (lval v * 2 ^ s * Bp (m + 1)) with (2 ^ s * (lval v * Bp (m + 1))) by ring.
    rewrite (Z.mul_comm (lval x)). 
    (* x < B^(k+m+2), and v * 2^s >= 2^63 B^(k+1) *)
    apply Z.lt_le_trans with (Bp (k + m + 2) * 2 ^ s).
    + rewrite (Z.mul_comm (2 ^ s)). apply Z.mul_lt_mono_pos_r; lia.
    + replace (k + m + 2)%nat with ((k + 1) + (m + 1))%nat by lia. rewrite Bp_add.
      rewrite (Z.mul_comm _ (2 ^ s)). apply Z.mul_le_mono_nonneg_l; [lia|].
      apply Z.mul_le_mono_nonneg_r; [pose proof (Bp_pos (m + 1)); lia|apply Hvb].
  - intros i Hi. do 4 (destruct i; [reflexivity|]). destruct i; reflexivity.
  - cbn [bind]. change (lval zero) with 0 in Eq. rewrite Z.mul_0_l, Z.add_0_r in Eq.
    pose proof (wf_bound _ _ Wu') as Ub'. pose proof (wf_bound _ _ Wq) as Qb.
    (* divide the invariant by 2^s *)
    rewrite Eu, Ev' in Eq. rewrite Ev' in Hlt.
    assert (lval u' mod 2 ^ s = 0) as Em.
    { replace (lval u') with ((lval x - lval q * lval v) * 2 ^ s) by lia. apply Z_mod_mult. }
    pose proof (Z.div_mod (lval u') (2 ^ s) ltac:(lia)) as Ed. rewrite Em, Z.add_0_r in Ed.
    set (r := lval u' / 2 ^ s) in *.
    assert (0 <= r < lval v) as Hr by (clear - Ed Hlt Ub' Ps; nia).
    assert (lval x = lval q * lval v + r) as Ex.
    { clear - Ed Eq Ps. rewrite Ed in Eq. assert (2 ^ s * (lval x - (lval q * lval v + r)) = 0) as H by lia.
      apply Z.mul_eq_0 in H. lia. }
    destruct (full_shr_spec b u' s Wu' Hs) as (rr & -> & Wr & Er).
    { pose proof (wf_bound _ _ (conj Lv Fv)). fold r. lia. }
    cbn [bind]. exists q, rr. split; [reflexivity|]. split; [assumption|]. split; [assumption|].
    rewrite Er. fold r. split.
    + apply (Z.div_unique_pos (lval x) (lval v) (lval q) r); lia.
    + apply (Z.mod_unique_pos (lval x) (lval v) (lval q) r); lia.
Qed.

Lemma div_mod_small_spec b x w : wf 4 x -> 0 < w < B ->
  exists q r, div_mod_small b x w = Ret (q, r) /\ wf 4 q /\ wf 4 r /\ lval q = lval x / w /\ lval r = lval x mod w.
Proof.
  intros [Lx Fx] Hw. destruct (dms_spec b x w Fx Hw) as (q & E & Wq & Eq).
  unfold div_mod_small. rewrite E. cbn [bind]. rewrite Lx in Wq.
  pose proof (Z.mod_pos_bound (lval x) w ltac:(lia)) as M.
  eexists _, _. split; [reflexivity|]. split; [assumption|]. split; [|split; [assumption|]].
  - apply wf4; try exact word0. unfold word. lia.
  - rewrite lval4. ring.
Qed.

Theorem div_mod_spec b x v : wf 4 x -> wf 4 v -> lval v <> 0 ->
  exists q r, div_mod b x v = Ret (q, r) /\ wf 4 q /\ wf 4 r /\
    lval q = lval x / lval v /\ lval r = lval x mod lval v.
Proof.
  intros Hx Hv Hv0. destruct (bits_spec x Hx) as (xb & Exb & Bx & Nx).
  destruct (bits_spec v Hv) as (vb & Evb & Bv & Nv).
  pose proof (wf_bound _ _ Hx) as Xb. pose proof (wf_bound _ _ Hv) as Vb.
  unfold div_mod. rewrite Exb, Evb. cbn [bind].
  assert (vb <> 0) as Hvb0.
  { intros ->. apply Hv0. apply nbits_zero. assumption. }
  replace (vb =? 0) with false by lia. cbn [negb assert_ bind].
  destruct (Z.ltb_spec xb vb) as [Hlt|Hge].
  - pose proof (nbits_mono _ _ _ _ Nx Nv ltac:(lia) ltac:(lia) Hlt) as H.
    exists zero, x. split; [reflexivity|]. split.
    { split; [reflexivity|]. repeat (apply Forall_cons; [exact word0|]). constructor. }
    split; [assumption|]. change (lval zero) with 0. rewrite Z.div_small, Z.mod_small by lia. auto.
  - destruct (Z.leb_spec vb 64) as [Hs|Hl].
    + assert (lval v < B) as VB.
      { destruct Nv as [N _]. apply Z.lt_le_trans with (2 ^ vb); [apply N|]. change B with (2 ^ 64).
        apply Z.pow_le_mono_r; lia. }
      destruct Hv as [Lv Fv]. rewrite (idx_ok v 0 0) by lia. cbn [bind].
      destruct (small_top 1 v Fv ltac:(lia) VB) as [Z0 _].
      pose proof (lval_skip 0 v ltac:(lia)) as E. cbn [skipn] in E, Z0. rewrite Z0 in E.
      rewrite Z.mul_0_r, Z.add_0_r in E. rewrite E in *. apply div_mod_small_spec; [assumption|lia].
    + destruct (words_spec b _ xb Nx ltac:(lia)) as (kx & -> & Hkx & Ekx & HX).
      destruct (words_spec b _ vb Nv ltac:(lia)) as (kv & -> & Hkv & Ekv & HV). cbn [bind].
      assert (kv <= kx)%nat as Hk.
      { pose proof (Z.div_le_mono (vb - 1) (xb - 1) 64 ltac:(lia) ltac:(lia)). lia. }
      assert (1 <= kv)%nat as K1.
      { pose proof (Z.div_le_mono 64 (vb - 1) 64 ltac:(lia) ltac:(lia)) as H.
        change (64 / 64) with 1 in H. lia. }
      rewrite sub_ok.
      2:{ unfold fits. change (imin USize) with 0. change (imax USize) with 18446744073709551615. lia. }
      cbn [bind]. replace (Z.of_nat (S kx) - Z.of_nat (S kv)) with (Z.of_nat (kx - kv)) by lia.
      replace (S kv) with (kv - 1 + 2)%nat by lia.
      apply div_mod_knuth_spec; try assumption.
      * replace (kv - 1 + 1)%nat with kv by lia. replace (kv - 1 + 2)%nat with (S kv) by lia. exact HV.
      * replace (kv - 1 + (kx - kv) + 2)%nat with (S kx) by lia. apply HX.
      * lia.
      * intros xb' vb' E1 E2. congruence.
Qed.

Theorem u256_div_spec b x v : wf 4 x -> wf 4 v -> lval v <> 0 ->
  exists q, u256_div b x v = Ret q /\ wf 4 q /\ lval q = lval x / lval v.
Proof.
  intros Hx Hv H0. destruct (div_mod_spec b x v Hx Hv H0) as (q & r & E & Wq & _ & Eq & _).
  unfold u256_div. rewrite E. cbn [bind]. eauto.
Qed.
