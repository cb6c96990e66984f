(** * SqrtFacts: the integer square roots of src/ops/sqrt.rs. *)
From Coq Require Import SpecFloat.
From Verif Require Import Base Sqrt BaseFacts FloatFacts.
Ltac Zify.zify_post_hook ::= idtac.

(** ** The floating point guess *)
Lemma locate m l : 0 <= m -> exists n d, located n d m l /\ d * m <= n < d * (m + 1).
Proof.
  intros H. destruct l as [|[]].
  - exists m, 1. split; [now apply located_exact|lia].
  - exists (2 * m + 1), 2. split; [|lia]. unfold located, near_rec. cbn [shr_record_of_loc shr_m shr_r shr_s Z.b2z]. split; [assumption|]. split; [lia|]. exists 0. lia.
  - exists (4 * m + 1), 4. split; [|lia]. unfold located, near_rec. cbn [shr_record_of_loc shr_m shr_r shr_s Z.b2z]. split; [assumption|]. split; [lia|]. exists 2. lia.
  - exists (4 * m + 3), 4. split; [|lia]. unfold located, near_rec. cbn [shr_record_of_loc shr_m shr_r shr_s Z.b2z]. split; [assumption|]. split; [lia|]. exists 2. lia.
Qed.

(** Rounding a 53-bit mantissa keeps it or adds one. *)
Lemma round_aux_53 s m e l : 2 ^ 52 <= m < 2 ^ 53 -> -1074 <= e <= 970 ->
  exists M k, binary_round_aux f64prec f64emax s m e l = S754_finite s M (e + k) /\
    0 <= k <= 1 /\ 2 ^ 52 <= Zpos M < 2 ^ 53 /\ m <= Zpos M * 2 ^ k <= m + 1.
Proof.
  intros Hm He. assert (Zdigits2 m = 53) as Ed by (apply digits2_eq; [lia|exact Hm]).
  destruct (locate m l ltac:(lia)) as (n & d & Hl & Hn).
  destruct (round_aux_spec s n d m e l Hl) as (M & k & E & Hk & HM & Herr & Hkb); rewrite ?Ed; try lia.
  rewrite Ed in *. change (2 ^ (53 - 53)) with 1 in Herr. rewrite Z.mul_1_l in Herr.
  exists M, k. split; [exact E|]. split; [lia|]. split; [exact HM|].
  destruct Hl as (_ & Hd & _). set (v := Zpos M * 2 ^ k). replace (Zpos M * (2 ^ k * d)) with (v * d) in Herr by (unfold v; ring).
  clearbody v. clear - Herr Hd Hn. nia.
Qed.

Lemma sqrt_float M E : 2 ^ 52 <= Zpos M < 2 ^ 53 -> -900 <= E <= 900 -> exists R k,
  SFsqrt f64prec f64emax (S754_finite false M E) = S754_finite false R (E / 2 - 26 + k) /\
  0 <= k <= 1 /\ 2 ^ 52 <= Zpos R /\ Zpos R * 2 ^ k <= 2 ^ 53.
Proof.
  intros HM HE. unfold SFsqrt, SFsqrt_core_binary. rewrite (digits2_eq (Zpos M) 53) by (try lia; exact HM).
  rewrite !Z.div2_div. assert ((53 + E + 1) / 2 = 27 + E / 2) as ->.
  { replace (53 + E + 1) with (E + 27 * 2) by lia. rewrite Z.div_add by lia. lia. }
  pose proof (Z.div_mod E 2 ltac:(lia)) as He. pose proof (Z.mod_pos_bound E 2 ltac:(lia)) as Hr.
  set (h := E / 2) in *. clearbody h. set (r := E mod 2) in *. clearbody r.
  rewrite fexp_normal by lia. replace (Z.min (27 + h - 53) h) with (h - 26) by lia.
  replace (E - 2 * (h - 26)) with (52 + r) by lia.
  replace (match 52 + r with 0 => Zpos M | Zpos _ => Z.shiftl (Zpos M) (52 + r) | Zneg _ => 0 end)
    with (Zpos M * 2 ^ (52 + r)) by (rewrite <- Z.shiftl_mul_pow2 by lia; destruct (52 + r) eqn:K; lia || reflexivity).
  set (m' := Zpos M * 2 ^ (52 + r)).
  assert (2 ^ 52 * 2 ^ 52 <= m' < 2 ^ 53 * 2 ^ 53) as Hm'.
  { unfold m'. assert (r = 0 \/ r = 1) as [-> | ->] by lia.
    - change (2 ^ (52 + 0)) with (2 ^ 52). lia.
    - change (2 ^ (52 + 1)) with (2 ^ 53). lia. }
  clearbody m'. pose proof (Z.sqrtrem_sqrt m') as Hq. destruct (Z.sqrtrem m') as [q rr]. cbn [fst] in Hq. subst q.
  assert (2 ^ 52 <= Z.sqrt m' < 2 ^ 53) as Hs.
  { split; [apply Z.sqrt_le_square; lia|apply Z.sqrt_lt_square; lia]. }
  set (q := Z.sqrt m') in *. clearbody q.
  destruct (round_aux_53 false q (h - 26) (if Zeq_bool rr 0 then loc_Exact else loc_Inexact (if Zle_bool rr q then Lt else Gt)) Hs ltac:(lia))
    as (R & k & E1 & Hk & HR & Hb).
  exists R, k. split; [exact E1|]. lia.
Qed.

Lemma imin_le0 t : imin t <= 0. Proof. destruct t; vm_compute; discriminate. Qed.
Definition small_guess (t : ity) (x : Z) : bool :=
  implb (4 <=? x) ((2 <=? guess_std t x) && (2 * guess_std t x <=? x)).
Lemma small_guesses t : forallb (small_guess t) (zrange 16) = true.
Proof. destruct t; vm_compute; reflexivity. Qed.

Lemma guess_std_ok t x : 4 <= x <= imax t -> x < 2 ^ 64 -> 2 <= guess_std t x /\ 2 * guess_std t x <= x.
Proof.
  intros Hx Hx64. destruct (Z_lt_le_dec x 16) as [Hs|Hs].
  { pose proof (forall_range _ 16 (small_guesses t) x ltac:(lia)) as H. unfold small_guess in H. lia. }
  unfold guess_std. destruct (int_to_f64_pos x) as (M & E & EM & (HM & Hlo & Hhi) & HE & _).
  { split; [lia|]. eapply Z.lt_trans; [exact Hx64|]. reflexivity. }
  destruct (digits2_pos_spec x ltac:(lia)) as [HD0 HD]. set (D := Zdigits2 x) in *. clearbody D.
  assert (5 <= D <= 64) as HDb.
  { split; apply Z.le_ngt; intros H.
    - pose proof (pow2_le D 4 ltac:(lia)). lia.
    - pose proof (pow2_le 64 (D - 1) ltac:(lia)). lia. }
  destruct (sqrt_float M E HM ltac:(lia)) as (R & k & ER & Hk & HR & HRk).
  rewrite EM, ER. cbn [f64_to_int].
  pose proof (Z.div_mod E 2 ltac:(lia)) as He. pose proof (Z.mod_pos_bound E 2 ltac:(lia)) as Hr.
  set (h := E / 2) in *. clearbody h. set (r := E mod 2) in *. clearbody r.
  replace (0 <=? h - 26 + k) with false by lia.
  set (w := - (h - 26 + k)). assert (0 < w <= 51) as Hw by (unfold w; lia).
  pose proof (pow2_pos w ltac:(lia)) as Hpw.
  assert (2 ^ (52 - w) <= Zpos R / 2 ^ w <= 2 ^ (27 + h)) as Hg.
  { split.
    - apply Z.div_le_lower_bound; [lia|]. rewrite <- Z.pow_add_r by lia. replace (w + (52 - w)) with 52 by lia. lia.
    - apply Z.div_le_upper_bound; [lia|]. rewrite <- Z.pow_add_r by (unfold w in *; lia).
      replace (w + (27 + h)) with (53 - k) by (unfold w; lia).
      apply (Z.mul_le_mono_pos_r _ _ (2 ^ k)); [apply pow2_pos; lia|]. rewrite <- Z.pow_add_r by lia.
      replace (53 - k + k) with 53 by lia. lia. }
  set (g := Zpos R / 2 ^ w) in *. clearbody g.
  assert (2 <= g) as Hg2. { pose proof (pow2_le 1 (52 - w) ltac:(lia)). change (2 ^ 1) with 2 in *. lia. }
  assert (2 * g <= x) as Hgx.
  { assert (2 * 2 ^ (27 + h) <= x); [|lia]. rewrite <- (Z.pow_succ_r 2 (27 + h)) by (unfold w in *; lia).
    destruct (Z_lt_le_dec E 0) as [Hn|Hn].
    - specialize (Hlo ltac:(lia)).
      assert (2 ^ (52 + E) <= x).
      { apply (Z.mul_le_mono_pos_r _ _ (2 ^ (- E))); [apply pow2_pos; lia|]. rewrite <- Hlo, <- Z.pow_add_r by lia.
        replace (52 + E + - E) with 52 by lia. lia. }
      pose proof (pow2_le (Z.succ (27 + h)) (52 + E) ltac:(lia)). lia.
    - pose proof (pow2_le (Z.succ (27 + h)) (D - 1) ltac:(lia)). lia. }
  pose proof (imin_le0 t). unfold sat. replace (g <? imin t) with false by lia. replace (imax t <? g) with false by lia. lia.
Qed.

(** ** The bit-length guess *)
Lemma guess_nostd_ok b t x : 4 <= x <= imax t -> x < 2 ^ 64 -> exists g, guess_nostd b t x = Ret g /\ 2 <= g /\ 2 * g <= x.
Proof.
  intros Hx Hx64. unfold guess_nostd. rewrite dassert_ok by lia. cbn [bind].
  bounds U32. pose proof (width_pos t) as Hw0. assert (width t <= 128) as Hw1 by (destruct t; cbn; lia).
  rewrite sub_ok by (unfold fits; lia). cbn [bind].
  unfold leading_zeros. replace (x <? 0) with false by lia. replace (x =? 0) with false by lia.
  pose proof (Z.log2_spec x ltac:(lia)) as Hl. set (l := Z.log2 x) in *.
  assert (2 <= l) as Hl2 by (apply (Z.log2_le_pow2 x 2); lia).
  assert (l < width t) as Hlw.
  { unfold l. apply Z.log2_lt_pow2; [lia|]. unfold imax in Hx. pose proof (pow2_le (width t - 1) (width t) ltac:(lia)).
    destruct (is_signed t); lia. }
  clearbody l. rewrite sub_ok by (unfold fits; lia). cbn [bind].
  replace (width t - 1 - (width t - 1 - l)) with l by lia.
  rewrite add_ok by (unfold fits; lia). cbn [bind].
  assert (Z.quot (l + 1) 2 = (l + 1) / 2) as Eq by (apply Z.quot_div_nonneg; lia).
  assert (1 <= (l + 1) / 2 <= l - 1) as Hh.
  { split; [apply Z.div_le_lower_bound; lia|]. apply Z.lt_succ_r, Z.div_lt_upper_bound; lia. }
  rewrite div_ok by (rewrite ?Eq; unfold fits; lia). cbn [bind]. rewrite Eq.
  set (h := (l + 1) / 2) in *. clearbody h.
  unfold shl. replace ((0 <=? h) && (h <? width t)) with true by lia.
  pose proof (pow2_le 1 h ltac:(lia)) as H1. change (2 ^ 1) with 2 in H1.
  assert (2 * 2 ^ h <= 2 ^ l) as H2. { rewrite <- Z.pow_succ_r by lia. apply pow2_le. lia. }
  rewrite Z.mul_1_l, wrap_fits by (pose proof (imin_le0 t); unfold fits; lia).
  eexists. split; [reflexivity|]. lia.
Qed.
Lemma guess_ok b t x : 4 <= x <= imax t -> x < 2 ^ 64 -> exists g, guess b t x = Ret g /\ 2 <= g /\ 2 * g <= x.
Proof.
  intros Hx H. unfold guess. destruct (std b).
  - eexists. split; [reflexivity|]. now apply guess_std_ok.
  - now apply guess_nostd_ok.
Qed.

(** ** Newton's iteration *)
Definition nxt (n x : Z) : Z := (n / x + x) / 2.
Lemma step_room n x : 4 <= n -> 2 <= x -> 2 * x <= n -> 0 <= n / x /\ n / x + x <= n.
Proof.
  intros Hn H1 H2. split; [apply Z.div_pos; lia|].
  pose proof (Z.mul_div_le n x ltac:(lia)) as Hd. set (q := n / x) in *. clearbody q.
  assert (2 <= q \/ q < 2) as [Hq|Hq] by lia; [|lia]. clear - Hn H1 H2 Hd Hq. nia.
Qed.
Lemma next_ok b t n x : 4 <= n <= imax t -> 2 <= x -> 2 * x <= n -> next b t n x = Ret (nxt n x).
Proof.
  intros Hn H1 H2. destruct (step_room n x ltac:(lia) H1 H2) as [Hp Hr]. unfold next. pose proof (imin_le0 t).
  assert (Z.quot n x = n / x) as Eq by (apply Z.quot_div_nonneg; lia).
  rewrite div_ok by (rewrite ?Eq; unfold fits; lia). cbn [bind]. rewrite Eq.
  rewrite add_ok by (unfold fits; lia). cbn [bind]. unfold Base.shr. pose proof (width_pos t).
  replace ((0 <=? 1) && (1 <? width t)) with true by lia. reflexivity.
Qed.
(** Every iterate is at least the root. *)
Lemma nxt_ge n x : 0 <= n -> 0 < x -> Z.sqrt n <= nxt n x.
Proof.
  intros Hn Hx. pose proof (Z.sqrt_spec n Hn) as Hs. cbv zeta in Hs. pose proof (Z.sqrt_nonneg n). set (s := Z.sqrt n) in *. clearbody s.
  unfold nxt. apply Z.div_le_lower_bound; [lia|].
  pose proof (Z.div_mod n x ltac:(lia)) as Hd. pose proof (Z.mod_pos_bound n x Hx) as Hr.
  set (q := n / x) in *. clearbody q. set (r := n mod x) in *. clearbody r.
  apply Z.le_ngt. intros K. assert (s * s < x * (q + 1)) by lia.
  assert (q + 1 <= 2 * s - x) by lia. assert (x * (q + 1) <= x * (2 * s - x)) by (apply Z.mul_le_mono_nonneg_l; lia).
  pose proof (Z.square_nonneg (x - s)). lia.
Qed.
(** From above the root the error at least halves. *)
Lemma nxt_le n e : 0 <= n -> 0 < Z.sqrt n -> 0 < e -> nxt n (Z.sqrt n + e) <= Z.sqrt n + e / 2.
Proof.
  intros Hn Hp He. pose proof (Z.sqrt_spec n Hn) as Hs. cbv zeta in Hs. set (s := Z.sqrt n) in *. clearbody s.
  assert (n / (s + e) <= s) as Hq. { apply Z.lt_succ_r, Z.div_lt_upper_bound; [lia|]. nia. }
  unfold nxt. assert ((n / (s + e) + (s + e)) / 2 <= (s * 2 + e) / 2) by (apply Z.div_le_mono; lia).
  rewrite (Z.add_comm (s * 2)), Z.div_add in H by lia. lia.
Qed.
Lemma nxt_root n : 4 <= n -> Z.sqrt n <= nxt n (Z.sqrt n) <= Z.sqrt n + 1.
Proof.
  intros Hn. assert (2 <= Z.sqrt n) as H2 by (apply (Z.sqrt_le_square n 2); lia).
  split; [apply nxt_ge; lia|]. pose proof (Z.sqrt_spec n ltac:(lia)) as Hs. cbv zeta in Hs. set (s := Z.sqrt n) in *. clearbody s.
  assert (n / s <= s + 2) as Hq. { apply Z.lt_succ_r, Z.div_lt_upper_bound; [lia|]. nia. }
  unfold nxt. apply Z.lt_succ_r, Z.div_lt_upper_bound; lia.
Qed.
Lemma nxt_room n x : 4 <= n -> 2 <= x -> 2 * x <= n -> 2 <= nxt n x /\ 2 * nxt n x <= n.
Proof.
  intros Hn H1 H2. destruct (step_room n x Hn H1 H2) as [H3 H4]. split.
  - assert (2 <= Z.sqrt n) by (apply (Z.sqrt_le_square n 2); lia). pose proof (nxt_ge n x ltac:(lia) ltac:(lia)). lia.
  - unfold nxt. pose proof (Z.mul_div_le (n / x + x) 2 ltac:(lia)). lia.
Qed.

(** The second loop stops at the root. *)
Lemma fix_down_ok b t n : 4 <= n <= imax t -> forall fuel x, Z.sqrt n <= x -> 2 <= x -> 2 * x <= n ->
  x - Z.sqrt n < 2 ^ (Z.of_nat fuel - 1) -> (0 < fuel)%nat ->
  fix_down b t n fuel x (nxt n x) = Ret (Z.sqrt n).
Proof.
  intros Hn. assert (2 <= Z.sqrt n) as H2 by (apply (Z.sqrt_le_square n 2); lia).
  induction fuel as [|fuel IH]; intros x Hs Hx Hx2 Hf H1; [lia|]. cbn [fix_down].
  destruct (nxt_room n x ltac:(lia) Hx Hx2) as [Hr1 Hr2].
  assert (x = Z.sqrt n \/ 0 < x - Z.sqrt n) as [E|E] by lia.
  - pose proof (nxt_root n ltac:(lia)) as K. rewrite <- E in K. replace (nxt n x <? x) with false by lia. now rewrite E.
  - pose proof (nxt_le n (x - Z.sqrt n) ltac:(lia) ltac:(lia) E) as K.
    replace (Z.sqrt n + (x - Z.sqrt n)) with x in K by lia.
    assert ((x - Z.sqrt n) / 2 < x - Z.sqrt n) as Hh by (apply Z.div_lt; lia).
    replace (nxt n x <? x) with true by lia. rewrite next_ok by assumption. cbn [bind].
    assert (0 < fuel)%nat as Hfu.
    { destruct fuel; [|lia]. change (2 ^ (Z.of_nat 1 - 1)) with 1 in Hf. lia. }
    apply IH; try assumption.
    + apply nxt_ge; lia.
    + assert ((x - Z.sqrt n) / 2 < 2 ^ (Z.of_nat fuel - 1)); [|lia].
      apply Z.div_lt_upper_bound; [lia|]. rewrite <- Z.pow_succ_r by lia.
      replace (Z.succ (Z.of_nat fuel - 1)) with (Z.of_nat (S fuel) - 1) by lia. exact Hf.
Qed.

(** [fixpoint] from any guess between 2 and half the operand. *)
Lemma fixpoint_ok b t n g : 4 <= n <= imax t -> n < 2 ^ 64 -> 2 <= g -> 2 * g <= n ->
  fixpoint b t n g = Ret (Z.sqrt n).
Proof.
  intros Hn H64 Hg Hg2. assert (2 <= Z.sqrt n) as H2 by (apply (Z.sqrt_le_square n 2); lia).
  unfold fixpoint. rewrite next_ok by assumption. cbn [bind].
  assert (forall f x, Z.sqrt n <= x -> 2 <= x -> 2 * x <= n ->
    exists y, fix_up b t n (S (S f)) x (nxt n x) = Ret (y, nxt n y) /\ Z.sqrt n <= y /\ 2 <= y /\ 2 * y <= n) as Hup.
  { intros f x Hs Hx Hx2. cbn [fix_up]. destruct (nxt_room n x ltac:(lia) Hx Hx2) as [Hr1 Hr2].
    destruct (Z.ltb_spec x (nxt n x)) as [K|K].
    - assert (x = Z.sqrt n) as Ex.
      { assert (x = Z.sqrt n \/ 0 < x - Z.sqrt n) as [E|E] by lia; [assumption|]. exfalso.
        pose proof (nxt_le n (x - Z.sqrt n) ltac:(lia) ltac:(lia) E) as K'.
        replace (Z.sqrt n + (x - Z.sqrt n)) with x in K' by lia.
        assert ((x - Z.sqrt n) / 2 < x - Z.sqrt n) by (apply Z.div_lt; lia). lia. }
      pose proof (nxt_root n ltac:(lia)) as Kr. rewrite <- Ex in Kr.
      rewrite next_ok by assumption. cbn [bind].
      pose proof (nxt_le n 1 ltac:(lia) ltac:(lia) ltac:(lia)) as K1. rewrite <- Ex in K1.
      change (1 / 2) with 0 in K1. replace (nxt n x) with (x + 1) in * by lia.
      replace (x + 1 <? nxt n (x + 1)) with false by lia.
      exists (x + 1). split; [reflexivity|]. lia.
    - exists x. split; [reflexivity|]. lia. }
  change sqrt_fuel with (S (S (S 97))). destruct (nxt_room n g ltac:(lia) Hg Hg2) as [Hr1 Hr2].
  pose proof (nxt_ge n g ltac:(lia) ltac:(lia)) as Hge.
  assert (exists y, fix_up b t n (S (S (S 97))) g (nxt n g) = Ret (y, nxt n y) /\ Z.sqrt n <= y /\ 2 <= y /\ 2 * y <= n) as (y & E & Hy1 & Hy2 & Hy3).
  { destruct (Z_lt_le_dec g (Z.sqrt n)) as [K|K].
    - cbn [fix_up]. replace (g <? nxt n g) with true by lia. rewrite next_ok by assumption. cbn [bind].
      apply (Hup 97%nat); assumption.
    - apply (Hup 98%nat); assumption. }
  rewrite E. cbn [bind]. apply fix_down_ok; try assumption; [|lia].
  change (Z.of_nat (S (S (S 97))) - 1) with 99. pose proof (pow2_le 64 99 ltac:(lia)). lia.
Qed.

Theorem sqrt_small_ok b t n : 0 <= n <= imax t -> n < 2 ^ 64 -> sqrt_small b t n = Ret (Z.sqrt n).
Proof.
  intros Hn H64. unfold sqrt_small. rewrite dassert_ok by lia. cbn [bind].
  destruct (Z.ltb_spec n 4) as [K|K].
  - assert (n = 0 \/ n = 1 \/ n = 2 \/ n = 3) as [->|[->|[->| ->]]] by lia; reflexivity.
  - destruct (guess_ok b t n ltac:(lia) H64) as (g & E & Hg1 & Hg2). rewrite E. cbn [bind].
    apply fixpoint_ok; assumption || lia.
Qed.

(** ** Roots by quarters *)
Lemma sqrt_quarter n : 0 <= n -> let r := Z.sqrt (n / 4) in
  0 <= r /\ Z.sqrt n = if (2 * r + 1) * (2 * r + 1) <=? n then 2 * r + 1 else 2 * r.
Proof.
  intros Hn. cbv zeta. pose proof (Z.sqrt_nonneg (n / 4)) as H0.
  pose proof (Z.sqrt_spec (n / 4) ltac:(apply Z.div_pos; lia)) as Hr. cbv zeta in Hr.
  pose proof (Z.div_mod n 4 ltac:(lia)) as Hd. pose proof (Z.mod_pos_bound n 4 ltac:(lia)) as Hm.
  set (r := Z.sqrt (n / 4)) in *. clearbody r. set (q := n / 4) in *. clearbody q.
  set (k := n mod 4) in *. clearbody k.
  split; [assumption|]. destruct (Z.leb_spec ((2 * r + 1) * (2 * r + 1)) n); apply Z.sqrt_unique; unfold Z.succ in *; lia.
Qed.
Lemma sqrt_lt_pow n k : 0 <= k -> 0 <= n < 2 ^ (2 * k) -> 0 <= Z.sqrt n < 2 ^ k.
Proof.
  intros Hk [H0 H]. split; [apply Z.sqrt_nonneg|]. apply Z.sqrt_lt_square; [assumption|apply Z.pow_nonneg; lia|].
  rewrite <- Z.pow_add_r by lia. now replace (k + k) with (2 * k) by lia.
Qed.

Lemma sqrt_big_ok b t k : width t = 128 -> 1 <= k <= 64 -> 2 ^ (2 * k) <= imax t + 1 ->
  forall fuel n, 0 <= n < 2 ^ (2 * k) -> n < 2 ^ (62 + 2 * Z.of_nat fuel) -> (0 < fuel)%nat ->
  sqrt_big b t fuel n = Ret (Z.sqrt n).
Proof.
  intros Hw Hk Hmax. pose proof (imin_le0 t) as Hmin.
  induction fuel as [|fuel IH]; intros n Hn Hf H0; [lia|]. cbn [sqrt_big].
  rewrite dassert_ok by lia. cbn [bind]. pose proof (sqrt_lt_pow n k ltac:(lia) Hn) as Hs.
  pose proof (pow2_le k (2 * k) ltac:(lia)) as Hkk.
  unfold try_from. destruct (fits_dec U64 n) as [Hfit|Hfit].
  - rewrite chk_some by assumption. bounds U64. unfold fits in Hfit.
    rewrite sqrt_small_ok by (try lia; change (2 ^ 64) with 18446744073709551616; lia). cbn [bind].
    rewrite wrap_fits; [reflexivity|]. unfold fits. lia.
  - rewrite chk_none by assumption. bounds U64. unfold fits in Hfit.
    unfold Base.shr at 1. rewrite Hw. cbn [Z.leb Z.ltb Z.compare Pos.compare Pos.compare_cont andb bind].
    change (2 ^ 2) with 4.
    assert (0 < fuel)%nat as Hfu. { destruct fuel; [|lia]. change (62 + 2 * Z.of_nat 1) with 64 in Hf. change (2 ^ 64) with 18446744073709551616 in Hf. lia. }
    assert (0 <= n / 4 <= n) as Hq by (split; [apply Z.div_pos; lia|apply Z.div_le_upper_bound; lia]).
    rewrite IH; [|lia| |assumption].
    2:{ apply Z.div_lt_upper_bound; [lia|]. change 4 with (2 ^ 2). rewrite <- Z.pow_add_r by lia.
        replace (2 + (62 + 2 * Z.of_nat fuel)) with (62 + 2 * Z.of_nat (S fuel)) by lia. exact Hf. }
    cbn [bind]. destruct (sqrt_quarter n ltac:(lia)) as [Hr0 Hr]. set (r := Z.sqrt (n / 4)) in *.
    assert (2 * r + 1 < 2 ^ k) as Hh.
    { assert (r < 2 ^ (k - 1)).
      { apply (sqrt_lt_pow (n / 4) (k - 1)); [lia|]. split; [lia|]. apply Z.div_lt_upper_bound; [lia|].
        change 4 with (2 ^ 2). rewrite <- Z.pow_add_r by lia. now replace (2 + 2 * (k - 1)) with (2 * k) by lia. }
      replace k with (Z.succ (k - 1)) by lia. rewrite Z.pow_succ_r by lia. lia. }
    clearbody r. unfold shl. rewrite Hw. cbn [Z.leb Z.ltb Z.compare Pos.compare Pos.compare_cont andb bind].
    change (2 ^ 1) with 2. rewrite wrap_fits by (unfold fits; lia). rewrite add_ok by (unfold fits; lia). cbn [bind].
    assert ((r * 2 + 1) * (r * 2 + 1) < 2 ^ (2 * k)) as Hsq.
    { replace (2 * k) with (k + k) by lia. rewrite Z.pow_add_r by lia. apply Z.mul_lt_mono_nonneg; lia. }
    rewrite mul_ok by (unfold fits; nia). cbn [bind]. rewrite Hr, (Z.mul_comm r 2). reflexivity.
Qed.

(** The roots the promotions use. *)
Lemma sqrt_prim_small b t n : width t <= 64 -> 0 <= n <= imax t -> sqrt_prim b t n = Ret (Z.sqrt n).
Proof.
  intros Hw Hn. unfold sqrt_prim. replace (64 <? width t) with false by lia. apply sqrt_small_ok; [assumption|].
  unfold imax in Hn. pose proof (pow2_le (width t - 1) 64 ltac:(lia)). pose proof (pow2_le (width t) 64 ltac:(lia)).
  destruct (is_signed t); lia.
Qed.
Lemma sqrt_prim_u128 b n : 0 <= n < 2 ^ 128 -> sqrt_prim b U128 n = Ret (Z.sqrt n).
Proof.
  intros Hn. unfold sqrt_prim. change (64 <? width U128) with true. cbv iota. unfold sqrt_fuel.
  apply (sqrt_big_ok b U128 64); try reflexivity; lia.
Qed.
Lemma sqrt_prim_i128 b n : 0 <= n < 2 ^ 126 -> sqrt_prim b I128 n = Ret (Z.sqrt n).
Proof.
  intros Hn. unfold sqrt_prim. change (64 <? width I128) with true. cbv iota. unfold sqrt_fuel.
  apply (sqrt_big_ok b I128 63); try reflexivity; try lia. vm_compute; discriminate.
Qed.

Lemma sqrt_big_S b t fuel n : sqrt_big b t (S fuel) n =
  (_ <- dassert b (0 <=? n) ;;
   match try_from U64 n with
   | Some x => r <- sqrt_small b U64 x ;; Ret (wrap t r)
   | None =>
       s2 <- Base.shr b t n 2 ;;
       r <- sqrt_big b t fuel s2 ;;
       lo <- shl b t r 1 ;;
       hi <- add b t lo 1 ;;
       hh <- mul b t hi hi ;;
       Ret (if hh <=? n then hi else lo)
   end).
Proof. reflexivity. Qed.
(** i128 near its maximum: the candidate square may leave the type. *)
Lemma sqrt_i128_val b n : 0 <= n <= imax I128 ->
  let h := 2 * Z.sqrt (n / 4) + 1 in
  sqrt_prim b I128 n =
    (if h * h <=? imax I128 then Ret (Z.sqrt n) else if ovf b then Panic else Ret h).
Proof.
  intros Hn. cbv zeta. bounds I128.
  destruct (Z_lt_le_dec n (2 ^ 126)) as [Hs|Hs].
  - rewrite sqrt_prim_i128 by lia. destruct (sqrt_quarter n ltac:(lia)) as [Hr0 _].
    assert (Z.sqrt (n / 4) < 2 ^ 62) as K.
    { apply (sqrt_lt_pow (n / 4) 62); [lia|]. split; [apply Z.div_pos; lia|]. apply Z.div_lt_upper_bound; [lia|].
      change (4 * 2 ^ (2 * 62)) with (2 ^ 126). exact Hs. }
    replace (_ <=? _) with true; [reflexivity|]. symmetry. apply Z.leb_le.
    set (r := Z.sqrt (n / 4)) in *. clearbody r. change (2 ^ 62) with 4611686018427387904 in K. nia.
  - unfold sqrt_prim. change (64 <? width I128) with true. cbv iota. unfold sqrt_fuel.
    change 100%nat with (S 99). rewrite sqrt_big_S. rewrite dassert_ok by lia. cbn [bind].
    change (2 ^ 126) with 85070591730234615865843651857942052864 in Hs. bounds U64.
    unfold try_from. rewrite chk_none by (unfold fits; lia).
    unfold Base.shr at 1. change (width I128) with 128. change ((0 <=? 2) && (2 <? 128)) with true. cbn [bind].
    change (2 ^ 2) with 4.
    assert (0 <= n / 4 < 2 ^ 126) as Hq.
    { split; [apply Z.div_pos; lia|]. apply Z.div_lt_upper_bound; [lia|].
      change (4 * 2 ^ 126) with 340282366920938463463374607431768211456. lia. }
    rewrite (sqrt_big_ok b I128 63 eq_refl ltac:(lia) ltac:(vm_compute; discriminate) 99 (n / 4) Hq); [|eapply Z.lt_le_trans; [apply Hq|apply pow2_le; lia]|lia].
    cbn [bind]. destruct (sqrt_quarter n ltac:(lia)) as [Hr0 Hr].
    assert (Z.sqrt (n / 4) < 2 ^ 63) as K by (apply (sqrt_lt_pow (n / 4) 63); [lia|exact Hq]).
    assert (2 ^ 62 <= Z.sqrt (n / 4)) as K'.
    { apply (Z.sqrt_le_square (n / 4) (2 ^ 62)); [lia|apply Z.pow_nonneg; lia|]. apply Z.div_le_lower_bound; [lia|].
      change (4 * (2 ^ 62 * 2 ^ 62)) with 85070591730234615865843651857942052864. lia. }
    pose proof (Z.sqrt_spec (n / 4) ltac:(lia)) as Hsq. cbv zeta in Hsq. unfold Z.succ in Hsq.
    pose proof (Z.mul_div_le n 4 ltac:(lia)) as Hdl.
    set (r := Z.sqrt (n / 4)) in *. clearbody r. set (q := n / 4) in *. clearbody q.
    change (2 ^ 63) with 9223372036854775808 in K. change (2 ^ 62) with 4611686018427387904 in K'.
    unfold shl. change (width I128) with 128. change ((0 <=? 1) && (1 <? 128)) with true. cbn [bind].
    change (2 ^ 1) with 2. rewrite wrap_fits by (unfold fits; lia). rewrite add_ok by (unfold fits; lia). cbn [bind].
    rewrite (Z.mul_comm r 2). unfold mul, fit, fitsb.
    assert ((imin I128 <=? (2 * r + 1) * (2 * r + 1)) = true) as -> by (apply Z.leb_le; nia). cbn [andb].
    destruct (Z.leb_spec ((2 * r + 1) * (2 * r + 1)) (imax I128)) as [C|C].
    + cbn [bind]. rewrite Hr. reflexivity.
    + destruct (ovf b); [reflexivity|]. cbn [bind].
      assert (wrap I128 ((2 * r + 1) * (2 * r + 1)) < 0) as Hneg.
      { destruct (wrap_mod I128 ((2 * r + 1) * (2 * r + 1))) as [k Ek]. pose proof (fits_wrap I128 ((2 * r + 1) * (2 * r + 1))) as Hf.
        unfold fits in Hf. change (width I128) with 128 in Ek. change (2 ^ 128) with 340282366920938463463374607431768211456 in Ek.
        set (w := wrap I128 ((2 * r + 1) * (2 * r + 1))) in *. clearbody w.
        assert ((2 * r + 1) * (2 * r + 1) < 170141183460469231731687303715884105728 * 2) as Hub by nia.
        lia. }
      replace (wrap I128 ((2 * r + 1) * (2 * r + 1)) <=? n) with true by lia. reflexivity.
Qed.
(** Where it does, the returned value is one too large. *)
Lemma sqrt_i128_wrong n : 0 <= n <= imax I128 -> let h := 2 * Z.sqrt (n / 4) + 1 in
  imax I128 < h * h -> h = Z.sqrt n + 1.
Proof.
  intros Hn. cbv zeta. intros Hh. destruct (sqrt_quarter n ltac:(lia)) as [Hr0 Hr]. rewrite Hr.
  destruct (Z.leb_spec ((2 * Z.sqrt (n / 4) + 1) * (2 * Z.sqrt (n / 4) + 1)) n); lia.
Qed.
