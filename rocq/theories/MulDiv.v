(** * MulDiv: property-level facts about multiplication, division and rounding to integers. *)
From Coq Require Import Lqa.
From Verif Require Import Base Promo Ops Fixed Spec BaseFacts RoundFacts ArithProofs PrimPromo I256Facts SimpleProofs.
Open Scope Z_scope.

(** Every layout computes in a promoted type that is wide enough. *)
Definition promo_all (b : build) (L : layout) : promotes b L :=
  match L with L16 => promo16 b | L32 => promo32 b | L64 => promo64 b | L128 => promo128 b end.

Lemma rounds_compat m q q' z : (q == q')%Q -> rounds m q z -> rounds m q' z.
Proof. intros E. destruct m; unfold rounds; rewrite E; auto. Qed.

Lemma mul_scaled P x y : 0 <= P -> (dec P x * dec P y * q10 P == Zq (x * y) / Zq (10 ^ P))%Q.
Proof.
  intros HP. rewrite !dec_alt, q10_pos, Zq_mul by assumption.
  pose proof (Zq_nonzero (10 ^ P) ltac:(pose proof (pow10_pos P HP); lia)). field. assumption.
Qed.
Lemma div_scaled P x y : 0 <= P -> y <> 0 -> (dec P x / dec P y * q10 P == Zq (x * 10 ^ P) / Zq y)%Q.
Proof.
  intros HP Hy. rewrite !dec_alt, q10_pos, Zq_mul by assumption.
  pose proof (Zq_nonzero (10 ^ P) ltac:(pose proof (pow10_pos P HP); lia)).
  pose proof (Zq_nonzero y Hy). field. auto.
Qed.
Lemma q10_cancel P q : 0 <= P -> (q * q10 (- P) * q10 P == q)%Q.
Proof.
  intros HP. rewrite (q10_pos P), (q10_neg P) by assumption.
  pose proof (Zq_nonzero (10 ^ P) ltac:(pose proof (pow10_pos P HP); lia)). field. assumption.
Qed.
Lemma dec_scaled P x : 0 <= P -> (dec P x * q10 P == Zq x)%Q.
Proof. intros HP. unfold dec. apply q10_cancel. assumption. Qed.

Lemma chkr_rounded L P m d n k : k <> 0 -> (d * q10 P == Zq n / Zq k)%Q ->
  rounded_or_overflow L P m d (Ret (chkr L (rnd m n k))).
Proof.
  intros Hk E. exists (rnd m n k). split; [|apply chkr_spec].
  unfold rounds_to. eapply rounds_compat; [symmetry; exact E|]. apply rnd_rounds. assumption.
Qed.

(** ** rmul *)
Section RMul.
  Context (b : build) (L : layout) (P : Z) (Hv : valid b L P) (x y : Z) (Hx : in_range L x) (Hy : in_range L y).

  Lemma prec_nonneg : 0 <= P.
  Proof using Hv. apply Hv. Qed.

  Lemma rmul_rounded m : (m = Nearest -> in_range L (2 * Z.rem (x * y) (10 ^ P))) ->
    rounded_or_overflow L P m (dec P x * dec P y) (rmul b L P x y m).
  Proof.
    intros Hg. rewrite (rmul_spec b L P (promo_all b L) Hv) by assumption.
    pose proof (pow10_pos P prec_nonneg).
    apply chkr_rounded; [lia|]. apply mul_scaled. apply prec_nonneg.
  Qed.
  Lemma rmul_directed m : m <> Nearest -> rounded_or_overflow L P m (dec P x * dec P y) (rmul b L P x y m).
  Proof. intros Hm. apply rmul_rounded. congruence. Qed.

  (** Only at precision 38 can twice the loss leave the range. *)
  Lemma loss_small : ~ (L = L128 /\ P = 38) -> 2 * (10 ^ P - 1) <= hi L.
  Proof using Hv.
    clear Hx Hy x y. intros Hn. pose proof Hv as [_ HP]. pose proof (valid_prec_38 L P HP) as HP38.
    destruct HP as [_ HP].
    assert (forallb (fun p => (2 * (10 ^ p - 1) <=? hi L) || negb (10 ^ p <=? hi L)
        || ((match L with L128 => true | _ => false end) && (p =? 38))) (zrange 39) = true) as T
      by (destruct L; vm_compute; reflexivity).
    rewrite forallb_forall in T. specialize (T P (zrange_in 39 P ltac:(lia))).
    rewrite !orb_true_iff, andb_true_iff, negb_true_iff, Z.leb_le, Z.leb_gt, Z.eqb_eq in T.
    destruct T as [[T|T]|[T1 T2]]; [assumption|lia|]. exfalso. apply Hn. destruct L; try discriminate. auto.
  Qed.
  Lemma rmul_nearest : ~ (L = L128 /\ P = 38) ->
    rounded_or_overflow L P Nearest (dec P x * dec P y) (rmul b L P x y Nearest).
  Proof.
    intros Hn. apply rmul_rounded. intros _. pose proof (loss_small Hn) as H.
    pose proof (pow10_pos P prec_nonneg).
    destruct (quot_rem_facts (x * y) (10 ^ P) ltac:(lia)) as (_ & A & _). unfold in_range. rewrite lo_hi. lia.
  Qed.
  Lemma rmul_any m : (m = Nearest -> ~ (L = L128 /\ P = 38)) ->
    rounded_or_overflow L P m (dec P x * dec P y) (rmul b L P x y m).
  Proof.
    intros Hg. destruct m; [apply rmul_directed; discriminate|apply rmul_nearest; auto|apply rmul_directed; discriminate].
  Qed.
  Lemma rmul_any_val m : (m = Nearest -> ~ (L = L128 /\ P = 38)) ->
    rmul b L P x y m = Ret (chkr L (rnd m (x * y) (10 ^ P))).
  Proof.
    intros Hg. apply (rmul_spec b L P (promo_all b L) Hv); try assumption. intros Hm. specialize (Hg Hm).
    pose proof (loss_small Hg) as H. pose proof (pow10_pos P prec_nonneg).
    destruct (quot_rem_facts (x * y) (10 ^ P) ltac:(lia)) as (_ & A & _). unfold in_range. rewrite lo_hi. lia.
  Qed.
  Lemma rmul_dir_val m : m <> Nearest -> rmul b L P x y m = Ret (chkr L (rnd m (x * y) (10 ^ P))).
  Proof. intros Hm. apply rmul_any_val. congruence. Qed.
End RMul.

(** The full behaviour of [Nearest] at precision 38 when twice the loss overflows. *)
Lemma rmul38_panic b x y : valid b L128 38 -> in_range L128 x -> in_range L128 y -> ovf b = true ->
  in_range L128 (Z.quot (x * y) (10 ^ 38)) -> ~ in_range L128 (2 * Z.rem (x * y) (10 ^ 38)) ->
  rmul b L128 38 x y Nearest = Panic.
Proof.
  intros Hv Hx Hy Ho Hq Hl. rewrite (rmul_val b L128 38 (promo_all b L128) Hv) by assumption.
  rewrite chk_some by (apply fits_lty; exact Hq). unfold mul_tail. cbn [mode_eqb].
  assert (forall l, ~ in_range L128 (2 * l) -> add b (lty L128) l l = Panic) as EA.
  { intros l H. unfold add, fit. rewrite fitsb_false; [rewrite Ho; reflexivity|].
    rewrite fits_lty. replace (l + l) with (2 * l) by lia. exact H. }
  rewrite EA by exact Hl. destruct (0 <=? Z.sgn (x * y)); reflexivity.
Qed.
Lemma rmul38_wrap b x y : valid b L128 38 -> in_range L128 x -> in_range L128 y -> ovf b = false ->
  in_range L128 (Z.quot (x * y) (10 ^ 38)) -> ~ in_range L128 (2 * Z.rem (x * y) (10 ^ 38)) ->
  rmul b L128 38 x y Nearest =
  Ret (if 0 <? x * y then chkr L128 (rnd Nearest (x * y) (10 ^ 38)) else Ok (Z.quot (x * y) (10 ^ 38))).
Proof.
  intros Hv Hx Hy Ho Hq Hl. rewrite (rmul_val b L128 38 (promo_all b L128) Hv) by assumption.
  rewrite chk_some by (apply fits_lty; exact Hq). unfold mul_tail. cbn [mode_eqb].
  assert (0 < 10 ^ 38) as Hc by reflexivity.
  destruct (quot_rem_facts (x * y) (10 ^ 38) ltac:(lia)) as (El & Bl & Sp & Sn).
  rewrite rnd_trunc by lia. unfold up. rewrite (Z.sgn_pos (10 ^ 38)), Z.mul_1_r by lia.
  remember (Z.rem (x * y) (10 ^ 38)) as l eqn:Eql. remember (Z.quot (x * y) (10 ^ 38)) as q eqn:Eqq.
  assert (10 ^ 38 = 100000000000000000000000000000000000000) as Ec by reflexivity.
  assert (hi L128 = 170141183460469231731687303715884105727) as Eh by reflexivity.
  assert (lo L128 = -170141183460469231731687303715884105728) as El' by reflexivity.
  unfold in_range in Hl.
  assert (forall k s, l + l + k * 340282366920938463463374607431768211456 = s -> in_range L128 s -> add b (lty L128) l l = Ret s) as EA.
  { intros k s Es Hs. unfold add, fit. rewrite fitsb_false.
    - rewrite Ho. f_equal. rewrite <- Es. change (lty L128) with I128. unfold wrap. cbn [is_signed width].
      change (2 ^ (128 - 1)) with 170141183460469231731687303715884105728.
      change (2 ^ 128) with 340282366920938463463374607431768211456.
      unfold in_range in Hs. rewrite Eh, El' in Hs.
      assert ((l + l + 170141183460469231731687303715884105728) mod 340282366920938463463374607431768211456
         = s + 170141183460469231731687303715884105728) as ->; [|lia].
      symmetry. apply (Z.mod_unique_pos _ _ (- k)); lia.
    - rewrite fits_lty. unfold in_range. replace (l + l) with (2 * l) by lia. exact Hl. }
  rewrite Ec in Bl. rewrite Eh, El' in Hl.
  destruct (Z.ltb_spec 0 (x * y)) as [Hpos|Hneg].
  - rewrite (EA (-1) _ eq_refl) by (unfold in_range; rewrite Eh, El'; lia). cbn [bind].
    replace (0 <=? Z.sgn (x * y)) with true by lia. cbn [bind].
    replace (10 ^ 38 <=? _) with false by lia. cbn [bind].
    replace (l + l + _ <=? - 10 ^ 38) with true by lia.
    unfold checked_add. rewrite ok_or_chk. f_equal. f_equal. f_equal.
    replace (negb (l =? 0)) with true by lia. cbn [andb].
    replace (Z.abs (10 ^ 38) <=? 2 * Z.abs l) with true by lia. reflexivity.
  - rewrite (EA 1 _ eq_refl) by (unfold in_range; rewrite Eh, El'; lia). cbn [bind].
    replace (0 <=? Z.sgn (x * y)) with false by lia. cbn [bind].
    replace (l + l + _ <=? - 10 ^ 38) with false by lia. reflexivity.
Qed.
(** In the last case the result is not the nearest number. *)
Lemma rmul38_wrong x y r : ~ in_range L128 (2 * Z.rem (x * y) (10 ^ 38)) ->
  rounds_to Nearest 38 (dec 38 x * dec 38 y) r -> r <> Z.quot (x * y) (10 ^ 38).
Proof.
  intros Hl Hr ->. unfold rounds_to in Hr.
  apply (rounds_compat _ _ _ _ (mul_scaled 38 x y ltac:(lia))) in Hr.
  apply rounds_rnd in Hr; [|discriminate]. rewrite rnd_trunc in Hr by discriminate. unfold up in Hr.
  assert (0 < 10 ^ 38) as Hc by reflexivity.
  destruct (quot_rem_facts (x * y) (10 ^ 38) ltac:(lia)) as (El & Bl & Sp & Sn).
  remember (Z.rem (x * y) (10 ^ 38)) as l eqn:Eql. rewrite (Z.sgn_pos (10 ^ 38)), Z.mul_1_r in Hr by lia.
  assert (10 ^ 38 = 100000000000000000000000000000000000000) as Ec by reflexivity.
  assert (hi L128 = 170141183460469231731687303715884105727) as Eh by reflexivity.
  assert (lo L128 = -170141183460469231731687303715884105728) as El' by reflexivity.
  unfold in_range in Hl. rewrite Eh, El' in Hl. rewrite Ec in Bl.
  replace (negb (l =? 0)) with true in Hr by lia. cbn [andb] in Hr.
  replace (Z.abs (10 ^ 38) <=? 2 * Z.abs l) with true in Hr by lia. lia.
Qed.

Lemma rmul_comm b L P x y m : valid b L P -> in_range L x -> in_range L y ->
  rmul b L P x y m = rmul b L P y x m.
Proof.
  intros Hv Hx Hy. rewrite !(rmul_val b L P (promo_all b L) Hv) by assumption.
  rewrite (Z.mul_comm y x). reflexivity.
Qed.
Lemma rnd_exact m n d : d <> 0 -> rnd m (n * d) d = n.
Proof.
  intros Hd. rewrite rnd_trunc by assumption. unfold up. rewrite Z.rem_mul, Z.quot_mul by assumption. cbn. lia.
Qed.
Lemma rmul_one b L P x m : valid b L P -> in_range L x ->
  exists one, ONE b L P = Ret one /\ rmul b L P x one m = Ret (Ok x) /\ rmul b L P one x m = Ret (Ok x).
Proof.
  intros Hv Hx. exists (10 ^ P). split; [apply COEF_ok; assumption|].
  pose proof (coef_bounds b L P Hv) as Hc.
  assert (in_range L (10 ^ P)) as Rc by (unfold in_range; rewrite lo_hi; pose proof (hi_pos L); lia).
  assert (rmul b L P x (10 ^ P) m = Ret (Ok x)) as E.
  { rewrite (rmul_spec b L P (promo_all b L) Hv) by
      (try assumption; intros _; rewrite Z.rem_mul by lia; unfold in_range; rewrite lo_hi; pose proof (hi_pos L); lia).
    rewrite rnd_exact by lia. rewrite chkr_ok by assumption. reflexivity. }
  split; [exact E|]. rewrite rmul_comm by assumption. exact E.
Qed.
Lemma rmul_zero b L P x m : valid b L P -> in_range L x ->
  rmul b L P x ZERO m = Ret (Ok ZERO) /\ rmul b L P ZERO x m = Ret (Ok ZERO).
Proof.
  intros Hv Hx. unfold ZERO. assert (in_range L 0) as R0 by (unfold in_range; rewrite lo_hi; pose proof (hi_pos L); lia).
  pose proof (coef_bounds b L P Hv) as Hc.
  assert (rmul b L P x 0 m = Ret (Ok 0)) as E.
  { rewrite (rmul_spec b L P (promo_all b L) Hv) by
      (try assumption; intros _; rewrite Z.mul_0_r, Z.rem_0_l by lia; assumption).
    rewrite Z.mul_0_r. change 0 with (0 * 10 ^ P) at 1. rewrite rnd_exact by lia. rewrite chkr_ok by assumption. reflexivity. }
  split; [exact E|]. rewrite rmul_comm by assumption. exact E.
Qed.

Lemma rnd_flip m n d : rnd (flip m) (- n) d = - rnd m n d.
Proof.
  destruct m; cbn [flip rnd].
  - lia.
  - rewrite Z.abs_opp, Z.sgn_opp. ring.
  - rewrite Z.opp_involutive. reflexivity.
Qed.
Lemma rmul_neg b L P x y r m : valid b L P -> in_range L x -> in_range L (- x) -> in_range L y ->
  in_range L r -> in_range L (- r) -> m <> Nearest ->
  (rmul b L P (- x) y (flip m) = Ret (Ok (- r)) <-> rmul b L P x y m = Ret (Ok r)).
Proof.
  intros Hv Hx Hnx Hy Hr Hnr Hm.
  rewrite !rmul_dir_val by (assumption || (destruct m; congruence || discriminate)).
  rewrite <- Z.mul_opp_l, rnd_flip || (replace (- x * y) with (- (x * y)) by ring; rewrite rnd_flip).
  destruct (chkr_spec L (rnd m (x * y) (10 ^ P))) as [[H1 E1]|[H1 E1]]; injection E1 as E1; rewrite E1.
  - split; intros E.
    + destruct (chkr_spec L (- rnd m (x * y) (10 ^ P))) as [[H2 E2]|[H2 E2]]; injection E2 as E2; rewrite E2 in E; [|discriminate].
      f_equal. f_equal. injection E as E. lia.
    + injection E as ->. rewrite chkr_ok by assumption. reflexivity.
  - split; intros E; [|discriminate].
    destruct (chkr_spec L (- rnd m (x * y) (10 ^ P))) as [[H2 E2]|[H2 E2]]; injection E2 as E2; rewrite E2 in E; [|discriminate].
    injection E as E. exfalso. apply H1. replace (rnd m (x * y) (10 ^ P)) with r by lia. assumption.
Qed.

(** ** Saturation *)
Lemma rounds_above m (q : Q) z k : rounds m q z -> k < z -> (Zq k < q)%Q.
Proof.
  intros Hr Hk. destruct (Qfrac q) as (n & d & Hd & E). rewrite E.
  apply (rounds_compat _ _ _ _ E) in Hr. apply rounds_zrounds in Hr; [|assumption].
  apply Qlt_div_l; [assumption|]. destruct m; unfold zrounds in Hr; nia.
Qed.
Lemma rounds_below m (q : Q) z k : rounds m q z -> z < k -> (q < Zq k)%Q.
Proof.
  intros Hr Hk. destruct (Qfrac q) as (n & d & Hd & E). rewrite E.
  apply (rounds_compat _ _ _ _ E) in Hr. apply rounds_zrounds in Hr; [|assumption].
  apply Qlt_div_r; [assumption|]. destruct m; unfold zrounds in Hr; nia.
Qed.
Lemma dec_lt_scaled P d k : 0 <= P -> ((dec P k < d)%Q <-> (Zq k < d * q10 P)%Q).
Proof.
  intros HP. rewrite <- (dec_scaled P k HP). symmetry. apply Qmult_lt_r. apply q10_gt0.
Qed.
Lemma dec_gt_scaled P d k : 0 <= P -> ((d < dec P k)%Q <-> (d * q10 P < Zq k)%Q).
Proof.
  intros HP. rewrite <- (dec_scaled P k HP). symmetry. apply Qmult_lt_r. apply q10_gt0.
Qed.

Lemma saturating_rmul_spec b L P x y m : valid b L P -> in_range L x -> in_range L y ->
  (m = Nearest -> ~ (L = L128 /\ P = 38)) ->
  exists r, saturating_rmul b L P x y m = Ret r /\
    (exists v, rmul b L P x y m = Ret v /\
       match v with
       | Ok v => r = v
       | Err _ => ((dec P (hi L) < dec P x * dec P y)%Q /\ r = hi L) \/
                  ((dec P x * dec P y < dec P (lo L))%Q /\ r = lo L)
       end).
Proof.
  intros Hv Hx Hy Hg. destruct (rmul_any b L P Hv x y Hx Hy m Hg) as (r & Hr & Ho).
  unfold saturating_rmul, default_saturating_mul.
  assert (MIN L = lo L) as -> by apply imin_lty. assert (MAX L = hi L) as -> by apply imax_lty.
  assert (0 <= P) as HP by apply Hv.
  destruct Ho as [[Rr E]|[Rr E]]; rewrite E; cbn [bind].
  - exists r. split; [reflexivity|]. exists (Ok r). split; reflexivity.
  - eexists. split; [reflexivity|]. eexists. split; [reflexivity|]. cbn beta iota.
    unfold rounds_to in Hr. pose proof (lo_hi L) as LH. pose proof (hi_pos L) as HH.
    assert (hi L < r \/ r < lo L) as [H|H] by (unfold in_range in Rr; lia).
    + left. pose proof (rounds_above _ _ _ _ Hr H) as Hab. split; [apply dec_lt_scaled; assumption|].
      pose proof (rounds_above _ _ _ 0 Hr ltac:(lia)) as H0.
      rewrite (mul_scaled P x y HP) in H0. apply (Qlt_div_l _ _ _ (pow10_pos P HP)) in H0.
      replace (Bool.eqb (x <? 0) (y <? 0)) with true; [reflexivity|].
      destruct (Z.ltb_spec x 0), (Z.ltb_spec y 0); cbn; try reflexivity; exfalso; nia.
    + right. pose proof (rounds_below _ _ _ _ Hr H) as Hab. split; [apply dec_gt_scaled; assumption|].
      pose proof (rounds_below _ _ _ 0 Hr ltac:(lia)) as H0.
      rewrite (mul_scaled P x y HP) in H0. apply (Qlt_div_r _ _ _ (pow10_pos P HP)) in H0.
      replace (Bool.eqb (x <? 0) (y <? 0)) with false; [reflexivity|].
      destruct (Z.ltb_spec x 0), (Z.ltb_spec y 0); cbn; try reflexivity; exfalso; nia.
Qed.

(** ** rdiv *)
Lemma rdiv_rounded b L P x y m : valid b L P -> in_range L x -> in_range L y -> y <> 0 ->
  div_guard (lty L) m (x * 10 ^ P) y ->
  rounded_or_overflow L P m (dec P x / dec P y) (rdiv b L P x y m).
Proof.
  intros Hv Hx Hy Hy0 Hg. rewrite (rdiv_spec b L P (promo_all b L) Hv) by assumption.
  apply chkr_rounded; [assumption|]. apply div_scaled; [apply Hv|assumption].
Qed.
Lemma rdiv_directed b L P x y m : valid b L P -> in_range L x -> in_range L y -> y <> 0 -> m <> Nearest ->
  rounded_or_overflow L P m (dec P x / dec P y) (rdiv b L P x y m).
Proof. intros. apply rdiv_rounded; try assumption. intros E. congruence. Qed.
Lemma rdiv_dir_val b L P x y m : valid b L P -> in_range L x -> in_range L y -> y <> 0 -> m <> Nearest ->
  rdiv b L P x y m = Ret (chkr L (rnd m (x * 10 ^ P) y)).
Proof. intros. apply (rdiv_spec b L P (promo_all b L)); try assumption. intros E. congruence. Qed.

Lemma guard_range L n y m : (m = Nearest -> Z.rem n y <> 0 -> 2 * Z.abs (Z.rem n y) <= hi L /\ y <> lo L) ->
  div_guard (lty L) m n y.
Proof. intros H Hm Hr. rewrite imax_lty, imin_lty. auto. Qed.

(** The overflowing cases of [Nearest], for any signed type. *)
Lemma div_tail_panic b t q l sg d : is_signed t = true -> ovf b = true -> l <> 0 -> Z.abs l < Z.abs d -> fits t d ->
  (imax t < 2 * Z.abs l \/ d = imin t) -> div_tail b t q l sg d Nearest = Panic.
Proof.
  intros Ht Ho Hl Hld Fd Hc. unfold div_tail. pose proof (signed_min t Ht). pose proof (signed_max t Ht).
  unfold fits in Fd.
  replace (l =? 0) with false by lia. cbn [mode_eqb].
  rewrite iabs_ok by (unfold fits; lia). cbn [bind].
  assert (forall z, ~ fits t z -> fit b t z = Panic) as FP.
  { intros z Hz. unfold fit. rewrite fitsb_false by assumption. rewrite Ho. reflexivity. }
  destruct (Z_le_dec (2 * Z.abs l) (imax t)) as [H1|H1].
  - rewrite add_ok by (unfold fits; lia). cbn [bind]. unfold iabs. rewrite FP; [reflexivity|].
    unfold fits. lia.
  - unfold add. rewrite FP; [reflexivity|]. unfold fits. lia.
Qed.
Lemma wrap_signed t z k : is_signed t = true -> fits t (z + k * (2 * (imax t + 1))) -> wrap t z = z + k * (2 * (imax t + 1)).
Proof.
  intros Ht Hf. rewrite <- (wrap_fits t (z + _)) by assumption. unfold wrap. rewrite Ht.
  assert (2 * (imax t + 1) = 2 ^ width t) as -> by (destruct t; discriminate || reflexivity).
  f_equal. replace (z + k * 2 ^ width t + 2 ^ (width t - 1)) with (z + 2 ^ (width t - 1) + k * 2 ^ width t) by ring.
  rewrite Z.mod_add; [reflexivity|]. destruct t; discriminate.
Qed.
Lemma div_tail_wrap b t q l sg d : is_signed t = true -> ovf b = false -> l <> 0 -> Z.abs l < Z.abs d -> fits t d ->
  (imax t < 2 * Z.abs l \/ d = imin t) ->
  div_tail b t q l sg d Nearest =
  Ret (if d =? imin t then ok_or (checked_add t q sg) Overflow else Ok q).
Proof.
  intros Ht Ho Hl Hld Fd Hc. unfold div_tail. pose proof (signed_min t Ht) as EM. pose proof (signed_max t Ht).
  unfold fits in Fd.
  replace (l =? 0) with false by lia. cbn [mode_eqb].
  rewrite iabs_ok by (unfold fits; lia). cbn [bind].
  assert (forall z k, ~ fits t z -> fits t (z + k * (2 * (imax t + 1))) -> fit b t z = Ret (z + k * (2 * (imax t + 1)))) as FW.
  { intros z k Hz Hk. unfold fit. rewrite fitsb_false by assumption. rewrite Ho.
    rewrite (wrap_signed t z k) by assumption. reflexivity. }
  assert (exists s, add b t (Z.abs l) (Z.abs l) = Ret s /\ imin t <= s /\ (imax t < 2 * Z.abs l -> s < 0)) as (s & -> & Hs & Hs2).
  { destruct (Z_le_dec (2 * Z.abs l) (imax t)) as [H1|H1].
    - exists (Z.abs l + Z.abs l). rewrite add_ok by (unfold fits; lia). split; [reflexivity|]. lia.
    - unfold add. rewrite (FW _ (-1)) by (unfold fits; lia). eexists. split; [reflexivity|]. lia. }
  cbn [bind]. destruct (Z.eqb_spec d (imin t)) as [Ed|Ed].
  - unfold iabs. rewrite (FW (Z.abs d) (-1)) by (unfold fits; lia). cbn [bind].
    replace (_ <=? s) with true by lia. reflexivity.
  - rewrite iabs_ok by (unfold fits; lia). cbn [bind]. replace (_ <=? s) with false by lia. reflexivity.
Qed.

Section RDivNearest.
  Context (b : build) (L : layout) (P : Z) (Hv : valid b L P) (x y : Z) (Hx : in_range L x) (Hy : in_range L y)
    (Hy0 : y <> 0) (Hq : in_range L (Z.quot (x * 10 ^ P) y)) (Hl : Z.rem (x * 10 ^ P) y <> 0)
    (Hc : hi L < 2 * Z.abs (Z.rem (x * 10 ^ P) y) \/ y = lo L).

  Lemma rdiv_nearest_panic : ovf b = true -> rdiv b L P x y Nearest = Panic.
  Proof using All.
    intros Ho. rewrite (rdiv_val b L P (promo_all b L) Hv) by assumption.
    rewrite chk_some by (apply fits_lty; assumption).
    apply div_tail_panic; try assumption; [apply signed_lty|apply quot_rem_facts; assumption|apply fits_lty; assumption|].
    rewrite imax_lty, imin_lty. assumption.
  Qed.
  Lemma rdiv_nearest_wrap : ovf b = false ->
    rdiv b L P x y Nearest =
    Ret (if y =? lo L then chkr L (Z.quot (x * 10 ^ P) y + Z.sgn (x * 10 ^ P) * Z.sgn y) else Ok (Z.quot (x * 10 ^ P) y)).
  Proof using All.
    intros Ho. rewrite (rdiv_val b L P (promo_all b L) Hv) by assumption.
    rewrite chk_some by (apply fits_lty; assumption).
    rewrite div_tail_wrap; try assumption; [|apply signed_lty|apply quot_rem_facts; assumption|apply fits_lty; assumption|].
    - rewrite imin_lty. unfold checked_add. rewrite ok_or_chk. reflexivity.
    - rewrite imax_lty, imin_lty. assumption.
  Qed.
  (** Truncation is wrong there, unless the divisor is MIN and the loss is large. *)
  Lemma rdiv_nearest_ideal r : rounds_to Nearest P (dec P x / dec P y) r ->
    r = Z.quot (x * 10 ^ P) y + (if Z.abs y <=? 2 * Z.abs (Z.rem (x * 10 ^ P) y) then Z.sgn (x * 10 ^ P) * Z.sgn y else 0).
  Proof using Hv Hy0 Hl.
    intros Hr. unfold rounds_to in Hr.
    apply (rounds_compat _ _ _ _ (div_scaled P x y ltac:(apply Hv) Hy0)) in Hr.
    apply rounds_rnd in Hr; [|assumption]. rewrite rnd_trunc in Hr by assumption. unfold up in Hr.
    replace (negb (Z.rem (x * 10 ^ P) y =? 0)) with true in Hr by (symmetry; apply negb_true_iff, Z.eqb_neq; assumption).
    exact Hr.
  Qed.
End RDivNearest.

(** ** Division by and of integers *)
Lemma chkt_rounded t m n k : k <> 0 ->
  exists r, rounds m (Zq n / Zq k) r /\
    ((fits t r /\ chkt t (rnd m n k) = Ok r) \/ (~ fits t r /\ chkt t (rnd m n k) = Err Overflow)).
Proof.
  intros Hk. exists (rnd m n k). split; [apply rnd_rounds; assumption|].
  unfold chkt. destruct (fits_dec t (rnd m n k)) as [H|H]; [left; rewrite fitsb_true|right; rewrite fitsb_false]; auto.
Qed.
Lemma int_rdiv_rounded b t x y m : is_signed t = true -> fits t x -> fits t y -> y <> 0 ->
  ~ (x = imin t /\ y = -1) ->
  (m = Nearest -> Z.rem x y <> 0 -> 2 * Z.abs (Z.rem x y) <= imax t /\ y <> imin t) ->
  exists r, rounds m (Zq x / Zq y) r /\
    ((fits t r /\ int_rdiv b t x y m = Ret (Ok r)) \/ (~ fits t r /\ int_rdiv b t x y m = Ret (Err Overflow))).
Proof.
  intros Ht Hx Hy Hy0 Hm Hg. rewrite int_rdiv_spec by assumption.
  destruct (chkt_rounded t m x y Hy0) as (r & Hr & [[H1 H2]|[H1 H2]]); exists r; split; auto; rewrite H2; auto.
Qed.
Lemma rdiv_int_rounded b L P x n m : 0 <= P -> in_range L x -> in_range L n -> n <> 0 ->
  ~ (x = lo L /\ n = -1) ->
  (m = Nearest -> Z.rem x n <> 0 -> 2 * Z.abs (Z.rem x n) <= hi L /\ n <> lo L) ->
  rounded_or_overflow L P m (dec P x / Zq n) (rdiv_int b L x n m).
Proof.
  intros HP Hx Hn Hn0 Hm Hg. unfold rdiv_int.
  rewrite int_rdiv_spec; try assumption; try (apply fits_lty; assumption); [|apply signed_lty| |].
  - rewrite chkt_chkr. apply chkr_rounded; [assumption|].
    rewrite <- (dec_scaled P x HP). pose proof (Zq_nonzero n Hn0). field. assumption.
  - rewrite imin_lty. assumption.
  - rewrite <- imax_lty, <- imin_lty in Hg. exact Hg.
Qed.
Lemma int_rdiv_nearest_panic b t x y : is_signed t = true -> fits t x -> fits t y -> y <> 0 -> y <> -1 ->
  ovf b = true -> Z.rem x y <> 0 -> (imax t < 2 * Z.abs (Z.rem x y) \/ y = imin t) ->
  int_rdiv b t x y Nearest = Panic.
Proof.
  intros Ht Hx Hy Hy0 Hy1 Ho Hl Hc. rewrite int_rdiv_val by (assumption || lia).
  apply div_tail_panic; try assumption. apply quot_rem_facts; assumption.
Qed.
Lemma int_rdiv_nearest_wrap b t x y : is_signed t = true -> fits t x -> fits t y -> y <> 0 -> y <> -1 ->
  ovf b = false -> Z.rem x y <> 0 -> (imax t < 2 * Z.abs (Z.rem x y) \/ y = imin t) ->
  int_rdiv b t x y Nearest = Ret (if y =? imin t then chkt t (Z.quot x y + Z.sgn x * Z.sgn y) else Ok (Z.quot x y)).
Proof.
  intros Ht Hx Hy Hy0 Hy1 Ho Hl Hc. rewrite int_rdiv_val by (assumption || lia).
  rewrite div_tail_wrap; try assumption; [|apply quot_rem_facts; assumption].
  unfold checked_add. rewrite ok_or_chkt. reflexivity.
Qed.

Lemma int_rdiv_fp_val b L P n x m : valid b L P ->
  int_rdiv_fp b L P n x m =
  if fitsb (lty L) (n * 10 ^ P) then rdiv b L P (n * 10 ^ P) x m else Ret (Err Overflow).
Proof.
  intros Hv. unfold int_rdiv_fp. rewrite try_from_int_val by assumption. cbn [bind].
  unfold chk. destruct (fitsb (lty L) (n * 10 ^ P)); reflexivity.
Qed.
Lemma int_rdiv_fp_rounded b L P n x m : valid b L P -> in_range L x -> x <> 0 ->
  (exists r, represents L P (Zq n) r) ->
  (m = Nearest -> Z.rem (n * 10 ^ P * 10 ^ P) x <> 0 -> 2 * Z.abs (Z.rem (n * 10 ^ P * 10 ^ P) x) <= hi L /\ x <> lo L) ->
  rounded_or_overflow L P m (Zq n / dec P x) (int_rdiv_fp b L P n x m).
Proof.
  intros Hv Hx Hx0 (r & Rr & Er) Hg. rewrite int_rdiv_fp_val by assumption.
  assert (0 <= P) as HP by apply Hv.
  assert (r = n * 10 ^ P) as ->.
  { rewrite <- (dec_pow10 P n HP) in Er. apply dec_eq in Er. assumption. }
  rewrite fitsb_true by (apply fits_lty; assumption).
  rewrite (rdiv_spec b L P (promo_all b L) Hv); try assumption; [|apply guard_range; assumption].
  apply chkr_rounded; [assumption|]. rewrite <- (dec_pow10 P n HP). apply div_scaled; assumption.
Qed.
Lemma int_rdiv_fp_overflow b L P n x m : valid b L P -> (forall r, ~ represents L P (Zq n) r) ->
  int_rdiv_fp b L P n x m = Ret (Err Overflow).
Proof.
  intros Hv H. rewrite int_rdiv_fp_val by assumption. rewrite fitsb_false; [reflexivity|].
  intros F. apply (H (n * 10 ^ P)). split; [apply fits_lty; exact F|]. apply dec_pow10. apply Hv.
Qed.

(** ** Division by zero *)
Lemma recip_zero b L P m : valid b L P -> recip b L P 0 m = Ret (Err DivisionByZero).
Proof. intros Hv. unfold recip, ONE. rewrite COEF_ok by assumption. reflexivity. Qed.
Lemma int_rdiv_fp_zero b L P n m : valid b L P -> (exists r, represents L P (Zq n) r) ->
  int_rdiv_fp b L P n 0 m = Ret (Err DivisionByZero).
Proof.
  intros Hv (r & Rr & Er). rewrite int_rdiv_fp_val by assumption.
  assert (r = n * 10 ^ P) as ->.
  { rewrite <- (dec_pow10 P n ltac:(apply Hv)) in Er. apply dec_eq in Er. assumption. }
  rewrite fitsb_true by (apply fits_lty; assumption). reflexivity.
Qed.

Lemma recip_rounded b L P x m : valid b L P -> in_range L x -> x <> 0 ->
  (m = Nearest -> Z.rem (10 ^ P * 10 ^ P) x <> 0 -> 2 * Z.abs (Z.rem (10 ^ P * 10 ^ P) x) <= hi L /\ x <> lo L) ->
  rounded_or_overflow L P m (1 / dec P x) (recip b L P x m).
Proof.
  intros Hv Hx Hx0 Hg. unfold recip, ONE. rewrite COEF_ok by assumption. cbn [bind].
  pose proof (coef_bounds b L P Hv) as Hc. assert (0 <= P) as HP by apply Hv.
  rewrite (rdiv_spec b L P (promo_all b L) Hv); try assumption.
  - apply chkr_rounded; [assumption|]. rewrite <- (dec_one P HP). apply div_scaled; assumption.
  - unfold in_range. rewrite lo_hi. pose proof (hi_pos L). lia.
  - apply guard_range. assumption.
Qed.

(** ** half_sum *)
Lemma rnd_2_bounds m n : n - 1 <= 2 * rnd m n 2 <= n + 1.
Proof.
  pose proof (rnd_zrounds m n 2 ltac:(lia)) as H. destruct m; unfold zrounds in H; lia.
Qed.
Lemma guard_2 t m n : is_signed t = true -> div_guard t m n 2.
Proof.
  intros Ht _ Hr. pose proof (signed_max t Ht). pose proof (signed_min t Ht).
  destruct (quot_rem_facts n 2 ltac:(lia)) as (_ & A & _). lia.
Qed.
Definition half (x y : Z) (m : mode) : Z :=
  if Z.sgn x =? Z.sgn y then Z.min x y + rnd m (Z.max x y - Z.min x y) 2 else rnd m (x + y) 2.
Lemma half_sum_val b L x y m : in_range L x -> in_range L y ->
  half_sum b L x y m = Ret (half x y m) /\ in_range L (half x y m).
Proof.
  intros Hx Hy. unfold half_sum, half, in_range in *. pose proof (lo_hi L). pose proof (hi_pos L).
  pose proof (signed_lty L) as St. pose proof (guard_2 (lty L) m) as G.
  assert (forall z, lo L <= z <= hi L -> fits (lty L) z) as F by (intros z Hz; apply fits_lty; exact Hz).
  destruct (Z.eqb_spec (Z.sgn x) (Z.sgn y)) as [E|E]; cbn [negb].
  - assert (0 <= Z.max x y - Z.min x y <= hi L) as Hd by lia.
    pose proof (rnd_2_bounds m (Z.max x y - Z.min x y)) as Hb.
    rewrite sub_ok by (apply F; lia). cbn [bind].
    rewrite int_rdiv_spec; try assumption; try (apply F; lia); try (apply G; assumption); try lia.
    rewrite chkt_ok by (apply F; lia). cbn [bind unwrap_res]. rewrite add_ok by (apply F; lia).
    split; [reflexivity|]. lia.
  - assert (lo L <= x + y <= hi L) as Hs by lia.
    pose proof (rnd_2_bounds m (x + y)) as Hb.
    rewrite add_ok by (apply F; lia). cbn [bind]. unfold rdiv_int.
    rewrite int_rdiv_spec; try assumption; try (apply F; lia); try (apply G; assumption); try lia.
    rewrite chkt_ok by (apply F; lia). cbn [bind unwrap_res]. split; [reflexivity|lia].
Qed.
Lemma half_scaled P x y : 0 <= P -> ((dec P x + dec P y) / 2 * q10 P == Zq (x + y) / Zq 2)%Q.
Proof.
  intros HP. rewrite <- dec_add, <- (dec_scaled P (x + y) HP). change (Zq 2) with (2 # 1)%Q. field.
Qed.
Lemma half_ideal x y m : (m = Nearest -> ~ (x < 0 /\ y < 0 /\ Z.odd (x + y) = true)) -> half x y m = rnd m (x + y) 2.
Proof.
  intros Hg. unfold half. destruct (Z.eqb_spec (Z.sgn x) (Z.sgn y)) as [E|E]; [|reflexivity].
  symmetry. apply rnd_eq; [lia|].
  pose proof (rnd_zrounds m (Z.max x y - Z.min x y) 2 ltac:(lia)) as H.
  assert (x + y = (Z.max x y - Z.min x y) + 2 * Z.min x y) as Es by lia.
  destruct m; unfold zrounds in *; try lia.
  specialize (Hg eq_refl). remember (rnd Nearest (Z.max x y - Z.min x y) 2) as h.
  rewrite Es. replace (_ + _ - (Z.min x y + h) * 2) with (Z.max x y - Z.min x y - h * 2) by lia.
  split; [lia|]. intros T. destruct H as [_ H]. specialize (H T).
  assert (~ (x < 0 /\ y < 0)) as Hn.
  { intros [H1 H2]. apply Hg. split; [assumption|]. split; [assumption|]. rewrite Es.
    rewrite Z.odd_add_mul_2. destruct (Z.odd (Z.max x y - Z.min x y)) eqn:O; [reflexivity|].
    rewrite <- Z.negb_even in O. apply negb_false_iff, Z.even_spec in O. destruct O as [k Ek]. lia. }
  lia.
Qed.
Lemma half_sum_rounded b L P x y m : 0 <= P -> in_range L x -> in_range L y ->
  (m = Nearest -> ~ (x < 0 /\ y < 0 /\ Z.odd (x + y) = true)) ->
  exists r, half_sum b L x y m = Ret r /\ in_range L r /\ rounds_to m P ((dec P x + dec P y) / 2) r.
Proof.
  intros HP Hx Hy Hg. destruct (half_sum_val b L x y m Hx Hy) as [E R]. exists (half x y m).
  split; [exact E|]. split; [exact R|]. rewrite half_ideal by assumption.
  unfold rounds_to. eapply rounds_compat; [symmetry; apply half_scaled; assumption|]. apply rnd_rounds. lia.
Qed.
Lemma half_sum_total b L x y m : in_range L x -> in_range L y -> exists r, half_sum b L x y m = Ret r /\ in_range L r.
Proof. intros Hx Hy. destruct (half_sum_val b L x y m Hx Hy) as [E R]. eauto. Qed.
Lemma half_sum_neg_tie b L P x y : 0 <= P -> in_range L x -> in_range L y -> x < 0 -> y < 0 -> Z.odd (x + y) = true ->
  exists r, half_sum b L x y Nearest = Ret r /\ rounds_to Ceil P ((dec P x + dec P y) / 2) r /\
    ~ rounds_to Nearest P ((dec P x + dec P y) / 2) r.
Proof.
  intros HP Hx Hy Nx Ny Ho. destruct (half_sum_val b L x y Nearest Hx Hy) as [E R]. exists (half x y Nearest).
  split; [exact E|].
  assert (exists k, x + y = 2 * k + 1) as [k Ek] by (apply Z.odd_spec; assumption).
  assert (half x y Nearest = k + 1) as Eh.
  { unfold half. replace (Z.sgn x =? Z.sgn y) with true by lia.
    pose proof (rnd_zrounds Nearest (Z.max x y - Z.min x y) 2 ltac:(lia)) as H. unfold zrounds in H.
    remember (rnd Nearest (Z.max x y - Z.min x y) 2) as h. lia. }
  rewrite Eh. unfold rounds_to. split.
  - eapply rounds_compat; [symmetry; apply half_scaled; assumption|].
    apply rounds_zrounds; [lia|]. unfold zrounds. lia.
  - intros H. apply (rounds_compat _ _ _ _ (half_scaled P x y HP)) in H.
    apply rounds_zrounds in H; [|lia]. unfold zrounds in H. lia.
Qed.

(** ** integral, floor, ceil, round *)
Lemma quot_room x c H : 0 < c -> Z.abs x <= H -> Z.rem x c <> 0 -> Z.abs (Z.quot x c) <= H - 1.
Proof.
  intros Hc Hx Hr. destruct (quot_rem_facts x c ltac:(lia)) as (El & Bl & Sp & Sn).
  revert Hr El Bl Sp Sn. generalize (Z.rem x c) (Z.quot x c). intros l q Hr El Bl Sp Sn. nia.
Qed.
Lemma integral_val b L P x m : valid b L P -> in_range L x -> x <> lo L ->
  (m = Nearest -> 2 * Z.abs (Z.rem x (10 ^ P)) <= hi L) ->
  integral b L P x m = Ret (rnd m x (10 ^ P)) /\ in_range L (rnd m x (10 ^ P)).
Proof.
  intros Hv Hx Hlo Hg. pose proof (coef_bounds b L P Hv) as Hc. unfold integral.
  rewrite COEF_ok by assumption. cbn [bind].
  pose proof (lo_hi L) as LH. pose proof (hi_pos L) as HH. pose proof Hx as Hx'. unfold in_range in Hx'.
  assert (forall z, lo L <= z <= hi L -> fits (lty L) z) as F by (intros z Hz; apply fits_lty; exact Hz).
  remember (10 ^ P) as c eqn:Ec.
  pose proof (abs_quot_le x c ltac:(lia)) as Aq.
  rewrite div_ok by (try apply F; lia). cbn [bind].
  rewrite iabs_ok by (apply F; lia). cbn [bind].
  assert (Z.quot (Z.abs x) c = Z.abs (Z.quot x c)) as Eq.
  { rewrite <- (Z.abs_eq c) at 1 by lia. apply Z.quot_abs. lia. }
  assert (Z.rem (Z.abs x) c = Z.abs (Z.rem x c)) as Er.
  { rewrite <- (Z.abs_eq c) at 1 by lia. apply Z.rem_abs. lia. }
  rewrite rem_ok by (try apply F; lia). cbn [bind]. rewrite Er.
  assert (Z.rem x c <> 0 -> Z.abs (Z.quot x c) <= hi L - 1) as Rm by (apply quot_room; clear - Hx' Hlo LH HH Hc; lia).
  destruct (quot_rem_facts x c ltac:(lia)) as (_ & Bl & _).
  rewrite rnd_trunc by lia. unfold up. rewrite (Z.sgn_pos c), Z.mul_1_r by lia.
  assert (-1 <= Z.sgn x <= 1) as Hs by (clear; lia).
  assert (lo L <= Z.quot x c <= hi L) as Rq by (clear - Hx' Hlo LH HH Aq; lia).
  rewrite (wrap_i32_small _ Hs).
  clear Aq Eq Er Hx Hv Ec Hx' Hlo. revert Bl Rm Hs Hg Rq.
  generalize (Z.quot x c) (Z.rem x c) (Z.sgn x). intros q l s Bl Rm Hs Hg Rq. clear x.
  assert (l <> 0 -> lo L <= q + s <= hi L) as Rs by (intros Hr; specialize (Rm Hr); lia). clear Rm.
  assert (forall u u' : bool, u = u' -> (u' = true -> l <> 0) ->
      (if u then add b (lty L) q s else Ret q) = Ret (q + (if u' then s else 0)) /\ in_range L (q + (if u' then s else 0))) as Fin.
  { intros u u' <- Hu. destruct u.
    - specialize (Hu eq_refl). rewrite add_ok by (apply F; auto). split; [reflexivity|]. apply Rs. assumption.
    - rewrite Z.add_0_r. split; [reflexivity|]. unfold in_range. assumption. }
  destruct m; cbn [mode_eqb mode_i32].
  - cbn [bind]. apply Fin; [|intros T; apply andb_true_iff in T; lia]; destruct (Z.eqb_spec l 0) as [->|]; cbn [negb andb]; [(apply andb_false_r || lia)|lia].
  - specialize (Hg eq_refl). rewrite add_ok by (apply F; lia). cbn [bind].
    apply Fin; [|intros T; apply andb_true_iff in T; lia]; destruct (Z.eqb_spec l 0) as [->|]; cbn [negb andb]; [(apply andb_false_r || lia)|lia].
  - cbn [bind]. apply Fin; [|intros T; apply andb_true_iff in T; lia]; destruct (Z.eqb_spec l 0) as [->|]; cbn [negb andb]; [(apply andb_false_r || lia)|lia].
Qed.
Lemma integral_rounded b L P x m : valid b L P -> in_range L x -> x <> lo L ->
  (m = Nearest -> ~ (L = L128 /\ P = 38)) ->
  exists i, integral b L P x m = Ret i /\ in_range L i /\ rounds m (dec P x) i.
Proof.
  intros Hv Hx Hlo Hg. pose proof (coef_bounds b L P Hv) as Hc.
  destruct (integral_val b L P x m Hv Hx Hlo) as [E R].
  { intros Hm. pose proof (loss_small b L P Hv (Hg Hm)).
    destruct (quot_rem_facts x (10 ^ P) ltac:(lia)) as (_ & A & _). lia. }
  eexists. split; [exact E|]. split; [exact R|].
  eapply rounds_compat; [symmetry; apply dec_alt; apply Hv|]. apply rnd_rounds. lia.
Qed.
Lemma from_decimal_0 b L P i : valid b L P ->
  from_decimal b L P i 0 = Ret (ok_or (chk (lty L) (i * 10 ^ P)) ConvertError).
Proof.
  intros Hv. pose proof (coef_bounds b L P Hv) as Hc. pose proof Hv as [_ HP]. pose proof (valid_prec_38 L P HP) as H38.
  unfold from_decimal.
  assert (forall z, -100 <= z <= 100 -> fits I32 z) as F.
  { intros z Hz. unfold fits. change (imin I32) with (-2147483648). change (imax I32) with 2147483647. lia. }
  rewrite neg_ok by (apply F; lia). cbn [bind].
  replace (0 <? - P) with false by lia. cbn [orb Z.ltb Z.compare].
  rewrite add_ok by (apply F; lia). cbn [bind]. rewrite Z.add_0_l.
  rewrite (wrap_fits U32) by (unfold fits; change (imin U32) with 0; change (imax U32) with 4294967295; lia).
  rewrite ipow_ok by (apply fits_lty; unfold in_range; rewrite lo_hi; pose proof (hi_pos L); lia).
  reflexivity.
Qed.
Lemma int_part_spec b L P x m : valid b L P -> in_range L x -> x <> lo L ->
  (m = Nearest -> ~ (L = L128 /\ P = 38)) ->
  exists i, rounds m (dec P x) i /\
    ((exists r, represents L P (Zq i) r /\ int_part b L P x m = Ret r) \/
     ((forall r, ~ represents L P (Zq i) r) /\ int_part b L P x m = Panic)).
Proof.
  intros Hv Hx Hlo Hg. destruct (integral_rounded b L P x m Hv Hx Hlo Hg) as (i & E & R & Hr).
  exists i. split; [assumption|]. unfold int_part. rewrite E. cbn [bind]. rewrite from_decimal_0 by assumption.
  cbn [bind]. assert (0 <= P) as HP by apply Hv.
  destruct (fits_dec (lty L) (i * 10 ^ P)) as [H|H].
  - left. exists (i * 10 ^ P). rewrite chk_some by assumption. split; [|reflexivity].
    split; [apply fits_lty; assumption|apply dec_pow10; assumption].
  - right. rewrite chk_none by assumption. split; [|reflexivity].
    intros r [Rr Er]. apply H. rewrite <- (dec_pow10 P i HP) in Er. apply dec_eq in Er. subst r. apply fits_lty. assumption.
Qed.

(** ** Statements combined for the property files *)
Lemma rmul38_ok b x y : valid b L128 38 -> in_range L128 x -> in_range L128 y ->
  in_range L128 (2 * Z.rem (x * y) (10 ^ 38)) ->
  rounded_or_overflow L128 38 Nearest (dec 38 x * dec 38 y) (rmul b L128 38 x y Nearest).
Proof. intros Hv Hx Hy H. apply rmul_rounded; auto. Qed.
Lemma rmul38_overflow b x y : valid b L128 38 -> in_range L128 x -> in_range L128 y ->
  ~ in_range L128 (Z.quot (x * y) (10 ^ 38)) ->
  rmul b L128 38 x y Nearest = Ret (Err Overflow) /\
  (forall r, rounds_to Nearest 38 (dec 38 x * dec 38 y) r -> ~ in_range L128 r).
Proof.
  intros Hv Hx Hy Hq. split.
  - rewrite (rmul_val b L128 38 (promo_all b L128) Hv) by assumption. rewrite chk_none; [reflexivity|].
    rewrite fits_lty. assumption.
  - intros r Hr. unfold rounds_to in Hr.
    apply (rounds_compat _ _ _ _ (mul_scaled 38 x y ltac:(lia))) in Hr.
    apply rounds_rnd in Hr; [|discriminate]. rewrite Hr. apply rnd_overflow; [discriminate|assumption].
Qed.
Lemma rmul38_wrap_pos b x y : valid b L128 38 -> in_range L128 x -> in_range L128 y -> ovf b = false ->
  in_range L128 (Z.quot (x * y) (10 ^ 38)) -> ~ in_range L128 (2 * Z.rem (x * y) (10 ^ 38)) -> 0 < x * y ->
  rounded_or_overflow L128 38 Nearest (dec 38 x * dec 38 y) (rmul b L128 38 x y Nearest).
Proof.
  intros Hv Hx Hy Ho Hq Hl Hp. rewrite rmul38_wrap by assumption. replace (0 <? x * y) with true by lia.
  apply chkr_rounded; [discriminate|]. apply mul_scaled. lia.
Qed.
Lemma rmul38_wrap_neg b x y : valid b L128 38 -> in_range L128 x -> in_range L128 y -> ovf b = false ->
  in_range L128 (Z.quot (x * y) (10 ^ 38)) -> ~ in_range L128 (2 * Z.rem (x * y) (10 ^ 38)) -> x * y < 0 ->
  exists r, rmul b L128 38 x y Nearest = Ret (Ok r) /\ rounds_to Ceil 38 (dec 38 x * dec 38 y) r /\
    ~ rounds_to Nearest 38 (dec 38 x * dec 38 y) r.
Proof.
  intros Hv Hx Hy Ho Hq Hl Hn. rewrite rmul38_wrap by assumption. replace (0 <? x * y) with false by lia.
  exists (Z.quot (x * y) (10 ^ 38)). split; [reflexivity|]. split.
  - unfold rounds_to. eapply rounds_compat; [symmetry; apply mul_scaled; lia|].
    assert (Z.quot (x * y) (10 ^ 38) = rnd Ceil (x * y) (10 ^ 38)) as ->; [|apply rnd_rounds; discriminate].
    rewrite rnd_trunc by discriminate. unfold up. rewrite (Z.sgn_neg (x * y)) by assumption.
    change (Z.sgn (10 ^ 38)) with 1. change (-1 * 1 =? 1) with false. rewrite andb_false_r. lia.
  - intros Hr. exact (rmul38_wrong x y _ Hl Hr eq_refl).
Qed.

Lemma rdiv_nearest_ok b L P x y : valid b L P -> in_range L x -> in_range L y -> y <> 0 ->
  (Z.rem (x * 10 ^ P) y <> 0 -> 2 * Z.abs (Z.rem (x * 10 ^ P) y) <= hi L /\ y <> lo L) ->
  rounded_or_overflow L P Nearest (dec P x / dec P y) (rdiv b L P x y Nearest).
Proof. intros. apply rdiv_rounded; try assumption. apply guard_range. auto. Qed.
Lemma rdiv_nearest_small b L P x y : valid b L P -> in_range L x -> y <> 0 -> 2 * Z.abs y <= hi L + 1 ->
  rounded_or_overflow L P Nearest (dec P x / dec P y) (rdiv b L P x y Nearest).
Proof.
  intros Hv Hx Hy0 Hy. pose proof (lo_hi L) as LH. pose proof (hi_pos L) as HH.
  apply rdiv_nearest_ok; try assumption; [unfold in_range; lia|].
  intros _. destruct (quot_rem_facts (x * 10 ^ P) y Hy0) as (_ & A & _). clear - A Hy LH HH. lia.
Qed.
Lemma int_rdiv_zero b t x m : int_rdiv b t x 0 m = Ret (Err DivisionByZero).
Proof. reflexivity. Qed.
Lemma rdiv_int_zero b L x m : rdiv_int b L x 0 m = Ret (Err DivisionByZero).
Proof. reflexivity. Qed.
Lemma rdiv_release_wrong b L P x y r : valid b L P -> in_range L x -> in_range L y -> y <> 0 -> y <> lo L ->
  in_range L (Z.quot (x * 10 ^ P) y) -> hi L < 2 * Z.abs (Z.rem (x * 10 ^ P) y) -> ovf b = false ->
  rounds_to Nearest P (dec P x / dec P y) r ->
  exists s, rdiv b L P x y Nearest = Ret (Ok s) /\ s <> r /\ Z.abs (r - s) = 1.
Proof.
  intros Hv Hx Hy Hy0 Hlo Hq Hl Ho Hr. pose proof (hi_pos L) as HH.
  assert (Z.rem (x * 10 ^ P) y <> 0) as Hl0 by (clear - Hl HH; lia).
  exists (Z.quot (x * 10 ^ P) y). split.
  - rewrite (rdiv_nearest_wrap b L P Hv x y Hx Hy Hy0 Hq Hl0 (or_introl Hl) Ho).
    replace (y =? lo L) with false by (symmetry; apply Z.eqb_neq; assumption). reflexivity.
  - apply (rdiv_nearest_ideal b L P Hv x y Hy0 Hl0) in Hr.
    assert (Z.abs (Z.sgn (x * 10 ^ P) * Z.sgn y) = 1) as Hs.
    { rewrite Z.abs_mul. assert (x * 10 ^ P <> 0) as Hn by (intros E; rewrite E, Z.rem_0_l in Hl0 by assumption; contradiction).
      clear - Hn Hy0. revert Hn. generalize (x * 10 ^ P). intros n Hn.
      replace (Z.abs (Z.sgn n)) with 1 by lia. lia. }
    unfold in_range in Hy. pose proof (lo_hi L) as LH.
    replace (Z.abs y <=? 2 * Z.abs (Z.rem (x * 10 ^ P) y)) with true in Hr
      by (symmetry; apply Z.leb_le; clear - Hl Hy Hlo LH; lia).
    clear - Hr Hs. revert Hr Hs. generalize (Z.quot (x * 10 ^ P) y) (Z.sgn (x * 10 ^ P) * Z.sgn y). intros q s Hr Hs. lia.
Qed.
Lemma rdiv_release_min b L P x : valid b L P -> in_range L x ->
  in_range L (Z.quot (x * 10 ^ P) (lo L)) -> Z.rem (x * 10 ^ P) (lo L) <> 0 -> ovf b = false ->
  exact_or_overflow L (Z.quot (x * 10 ^ P) (lo L) - Z.sgn x) (rdiv b L P x (lo L) Nearest).
Proof.
  intros Hv Hx Hq Hl Ho. pose proof (lo_hi L) as LH. pose proof (hi_pos L) as HH.
  assert (rdiv b L P x (lo L) Nearest = Ret (chkr L (Z.quot (x * 10 ^ P) (lo L) - Z.sgn x))) as ->; [|apply chkr_spec].
  rewrite (rdiv_nearest_wrap b L P Hv x (lo L)); try assumption; [|unfold in_range; lia|lia|auto].
  rewrite Z.eqb_refl. pose proof (pow10_pos P ltac:(apply Hv)) as Hc.
  rewrite Z.sgn_mul, (Z.sgn_pos (10 ^ P)), (Z.sgn_neg (lo L)) by lia. do 2 f_equal. lia.
Qed.
Lemma rdiv_overflow b L P x y m : valid b L P -> in_range L x -> in_range L y -> y <> 0 ->
  ~ in_range L (Z.quot (x * 10 ^ P) y) ->
  rdiv b L P x y m = Ret (Err Overflow) /\
  (forall r, rounds_to m P (dec P x / dec P y) r -> ~ in_range L r).
Proof.
  intros Hv Hx Hy Hy0 Hq. split.
  - rewrite (rdiv_val b L P (promo_all b L) Hv) by assumption. rewrite chk_none; [reflexivity|].
    rewrite fits_lty. assumption.
  - intros r Hr. unfold rounds_to in Hr.
    apply (rounds_compat _ _ _ _ (div_scaled P x y ltac:(apply Hv) Hy0)) in Hr.
    apply rounds_rnd in Hr; [|assumption]. rewrite Hr. apply rnd_overflow; assumption.
Qed.
Lemma int_rdiv_fp_cases b L P n x m : valid b L P ->
  (exists r, represents L P (Zq n) r /\ int_rdiv_fp b L P n x m = rdiv b L P r x m) \/
  ((forall r, ~ represents L P (Zq n) r) /\ int_rdiv_fp b L P n x m = Ret (Err Overflow)).
Proof.
  intros Hv. assert (0 <= P) as HP by apply Hv. destruct (fits_dec (lty L) (n * 10 ^ P)) as [H|H].
  - left. exists (n * 10 ^ P). split; [split; [apply fits_lty; assumption|apply dec_pow10; assumption]|].
    rewrite int_rdiv_fp_val, fitsb_true by assumption. reflexivity.
  - right. rewrite int_rdiv_fp_val, fitsb_false by assumption. split; [|reflexivity].
    intros r [Rr Er]. apply H. rewrite <- (dec_pow10 P n HP) in Er. apply dec_eq in Er. subst r. apply fits_lty. assumption.
Qed.
Lemma int_rdiv_release b t x y : is_signed t = true -> fits t x -> fits t y -> y <> 0 -> y <> imin t ->
  ovf b = false -> imax t < 2 * Z.abs (Z.rem x y) -> int_rdiv b t x y Nearest = Ret (Ok (Z.quot x y)).
Proof.
  intros Ht Hx Hy Hy0 Hm Ho Hl. pose proof (signed_max t Ht) as HH.
  destruct (quot_rem_facts x y Hy0) as (_ & A & _).
  rewrite int_rdiv_nearest_wrap; try assumption; [|clear - A Hl HH; lia|clear - Hl HH; lia|auto].
  replace (y =? imin t) with false by (symmetry; apply Z.eqb_neq; assumption). reflexivity.
Qed.
Lemma int_rdiv_release_min b t x : is_signed t = true -> fits t x -> x <> 0 -> x <> imin t ->
  ovf b = false -> int_rdiv b t x (imin t) Nearest = Ret (Ok (- Z.sgn x)).
Proof.
  intros Ht Hx Hx0 Hm Ho. pose proof (signed_max t Ht) as HH. pose proof (signed_min t Ht) as EM. unfold fits in Hx.
  assert (Z.abs x < Z.abs (imin t)) as Hs by lia.
  assert (Z.quot x (imin t) = 0) as Eq by (apply Z.quot_small_iff; lia).
  assert (Z.rem x (imin t) = x) as Er by (apply Z.rem_small_iff; lia).
  rewrite int_rdiv_nearest_wrap; try assumption; try lia; [|unfold fits; lia].
  rewrite Z.eqb_refl, Eq, (Z.sgn_neg (imin t)), chkt_ok by (unfold fits; lia). do 2 f_equal. lia.
Qed.
