(** * LawFacts: equations between operations. *)
From Coq Require Import Lia.
From Verif Require Import Base Promo ConstFn Ops Spec BaseFacts RoundFacts ArithProofs PrimPromo SimpleProofs SqrtFacts MulDiv OrderFacts DecProofs Sqrt256 Wide.
From Verif Require Import Fixed.
Open Scope Z_scope.

Ltac arith := unfold cadd, csub, cmul, cneg, abs, int_cadd, int_csub, int_cmul, checked_add, checked_sub, checked_mul, checked_neg, chk, ok_or in *.
Lemma chk_range L z : (if fitsb (lty L) z then Ok z else Err Overflow : result Z aerr) = Ok z <-> in_range L z.
Proof. rewrite <- fits_lty. split; [destruct (fitsb (lty L) z) eqn:E; [intros _; now apply fitsb_fits|discriminate]|intros H; now rewrite (fitsb_true _ _ H)]. Qed.
Lemma cadd_eq L x y : cadd L x y = chkr L (x + y).
Proof. arith. unfold chkr. now destruct (fitsb (lty L) (x + y)). Qed.
Lemma csub_eq L x y : csub L x y = chkr L (x - y).
Proof. arith. unfold chkr. now destruct (fitsb (lty L) (x - y)). Qed.
Lemma cmul_eq L x y : cmul L x y = chkr L (x * y).
Proof. arith. unfold chkr. now destruct (fitsb (lty L) (x * y)). Qed.
Lemma cneg_eq L x : cneg L x = chkr L (- x).
Proof. arith. unfold chkr. now destruct (fitsb (lty L) (- x)). Qed.

Lemma add_comm L x y : cadd L x y = cadd L y x.
Proof. rewrite !cadd_eq. f_equal. lia. Qed.
Lemma add_assoc L x y z s t : cadd L x y = Ok s -> cadd L y z = Ok t -> cadd L s z = cadd L x t.
Proof. rewrite !cadd_eq. intros H K. apply chkr_inv in H, K. f_equal. lia. Qed.
Lemma add_sub L x y z : in_range L x -> in_range L z -> (cadd L x y = Ok z <-> csub L z y = Ok x).
Proof.
  intros Hx Hz. rewrite cadd_eq, csub_eq. split; intros H; apply chkr_inv in H; destruct H as [-> H].
  - replace (x + y - y) with x by lia. now apply chkr_ok.
  - replace (z - y + y) with z by lia. now apply chkr_ok.
Qed.
Lemma sub_neg L x y y' : cneg L y = Ok y' -> csub L x y = cadd L x y'.
Proof. rewrite cneg_eq, csub_eq, cadd_eq. intros H. apply chkr_inv in H. f_equal. lia. Qed.
Lemma zero_sub L y : csub L ZERO y = cneg L y.
Proof. rewrite cneg_eq, csub_eq. f_equal. Qed.
Lemma mul_succ L x n z : cmul L x n = Ok z -> cmul L x (n + 1) = cadd L z x.
Proof. rewrite !cmul_eq, cadd_eq. intros H. apply chkr_inv in H. f_equal. destruct H as [-> _]. ring. Qed.
Lemma mul_distr L x y n s u v : cadd L x y = Ok s -> cmul L x n = Ok u -> cmul L y n = Ok v -> cmul L s n = cadd L u v.
Proof. rewrite !cmul_eq, !cadd_eq. intros H K J. apply chkr_inv in H, K, J. f_equal. destruct H as [-> _], K as [-> _], J as [-> _]. ring. Qed.
Lemma abs_sign L x : in_range L x -> cmul L x (signum x) = abs L x.
Proof.
  intros Hx. unfold signum, abs. rewrite cneg_eq, cmul_eq. destruct (Z.ltb_spec x 0) as [H|H]; [f_equal; lia|].
  replace (x * Z.sgn x) with x by lia. now apply chkr_ok.
Qed.
Lemma sign_abs L x a : in_range L x -> abs L x = Ok a -> 0 <= a /\ cmul L a (signum x) = Ok x.
Proof.
  intros Hx. unfold signum, abs. rewrite cneg_eq, cmul_eq. destruct (Z.ltb_spec x 0) as [H|H]; intros K.
  - apply chkr_inv in K. destruct K as [-> _]. split; [lia|]. replace (- x * Z.sgn x) with x by lia. now apply chkr_ok.
  - injection K as <-. split; [lia|]. replace (x * Z.sgn x) with x by lia. now apply chkr_ok.
Qed.

Lemma whole L P n y : 0 <= P -> represents L P (Zq n) y -> y = n * 10 ^ P.
Proof.
  intros HP [_ H]. rewrite (dec_alt P y HP) in H. pose proof (pow10_pos P HP) as Hp.
  apply Zq_eq. rewrite Zq_mul, <- H. field. apply Zq_nonzero. lia.
Qed.
Lemma rmul_whole b L P x y n m : valid b L P -> in_range L x -> represents L P (Zq n) y -> rmul b L P x y m = Ret (cmul L x n).
Proof.
  intros Hv Hx Hn. pose proof (coef_bounds b L P Hv) as Hc. pose proof (whole L P n y (proj1 (proj2 Hv)) Hn) as E. destruct Hn as [Hy _].
  rewrite (rmul_spec b L P (promo_all b L) Hv) by
    (try assumption; intros _; rewrite E, Z.mul_assoc, Z.rem_mul by lia; unfold in_range; rewrite lo_hi; pose proof (hi_pos L); lia).
  rewrite E, Z.mul_assoc, rnd_exact by lia. now rewrite cmul_eq.
Qed.
Lemma rnd_scale m n d c : 0 < c -> d <> 0 -> rnd m (n * c) (d * c) = rnd m n d.
Proof.
  intros Hc Hd. symmetry. apply rounds_rnd; [lia|]. apply (rounds_compat m (Zq n / Zq d)); [|now apply rnd_rounds].
  rewrite !Zq_mul. field. split; apply Zq_nonzero; lia.
Qed.
Lemma rdiv_whole b L P x y n m : valid b L P -> in_range L x -> represents L P (Zq n) y -> n <> 0 -> ~ (x = lo L /\ n = -1) ->
  (m = Nearest -> 2 * Z.abs y <= hi L + 1) -> rdiv b L P x y m = rdiv_int b L x n m.
Proof.
  intros Hv Hx Hn Hn0 HM HN. pose proof (coef_bounds b L P Hv) as Hc. pose proof (whole L P n y (proj1 (proj2 Hv)) Hn) as E. destruct Hn as [Hy _].
  pose proof (lo_hi L) as HLH. pose proof (hi_pos L) as HHP.
  assert (y <> 0) as Hy0 by nia. assert (Z.abs n <= Z.abs y) as HA by (rewrite E, Z.abs_mul, (Z.abs_eq (10 ^ P)) by lia; nia).
  assert (in_range L n) as Rn.
  { unfold in_range in *. destruct (Z.le_gt_cases 0 n); [|nia]. nia. }
  unfold rdiv_int. rewrite (rdiv_spec b L P (promo_all b L) Hv); try assumption.
  - rewrite int_rdiv_spec; try assumption; try (apply fits_lty; assumption); [|apply signed_lty| |].
    + rewrite chkt_chkr. do 2 f_equal. rewrite E. apply rnd_scale; lia.
    + now rewrite imin_lty.
    + intros Hm Hr. specialize (HN Hm). rewrite imax_lty, imin_lty. pose proof (Z.rem_bound_abs x n Hn0). lia.
  - apply guard_range. intros Hm Hr. specialize (HN Hm). pose proof (Z.rem_bound_abs (x * 10 ^ P) y Hy0). lia.
Qed.
Lemma rdiv_min_whole b L P y m : valid b L P -> represents L P (Zq (-1)) y ->
  rdiv b L P (lo L) y m = Ret (Err Overflow) /\ rdiv_int b L (lo L) (-1) m = Panic.
Proof.
  intros Hv Hn. pose proof (coef_bounds b L P Hv) as Hc. pose proof (whole L P _ y (proj1 (proj2 Hv)) Hn) as E. destruct Hn as [Hy _].
  pose proof (lo_hi L) as HLH. pose proof (hi_pos L) as HHP. split.
  - rewrite (rdiv_spec b L P (promo_all b L) Hv); try assumption; [|unfold in_range; lia|lia|].
    + rewrite E. replace (lo L * 10 ^ P) with (- lo L * (-1 * 10 ^ P)) by ring. rewrite rnd_exact by lia.
      unfold chkr. destruct (fitsb (lty L) (- lo L)) eqn:F; [|reflexivity]. apply fitsb_fits, fits_lty in F. unfold in_range in F. lia.
    + apply guard_range. intros Hm Hr. exfalso. apply Hr. rewrite E. replace (lo L * 10 ^ P) with (- lo L * (-1 * 10 ^ P)) by ring. apply Z.rem_mul. lia.
  - destruct L, m, b as [o f s]; destruct o; reflexivity.
Qed.
Lemma rdiv_exact b L P x y q m : valid b L P -> in_range L x -> in_range L y -> in_range L q -> y <> 0 -> x * 10 ^ P = q * y ->
  rdiv b L P x y m = Ret (Ok q).
Proof.
  intros Hv Hx Hy Hq Hy0 E. rewrite (rdiv_spec b L P (promo_all b L) Hv); try assumption.
  - rewrite E, rnd_exact by assumption. now rewrite chkr_ok.
  - apply guard_range. intros Hm Hr. exfalso. apply Hr. rewrite E. now apply Z.rem_mul.
Qed.
Lemma one_range b L P : valid b L P -> in_range L (10 ^ P).
Proof. intros Hv. pose proof (coef_bounds b L P Hv). unfold in_range. rewrite lo_hi. pose proof (hi_pos L). lia. Qed.
Lemma rdiv_units b L P x m : valid b L P -> in_range L x ->
  exists one, ONE b L P = Ret one /\ rdiv b L P x one m = Ret (Ok x) /\
    (x <> 0 -> rdiv b L P x x m = Ret (Ok one) /\ rdiv b L P ZERO x m = Ret (Ok ZERO)).
Proof.
  intros Hv Hx. exists (10 ^ P). pose proof (one_range b L P Hv) as R. pose proof (coef_bounds b L P Hv) as Hc. split; [apply COEF_ok; assumption|].
  assert (in_range L 0) as R0 by (unfold in_range; rewrite lo_hi; pose proof (hi_pos L); lia).
  split; [apply rdiv_exact; try assumption; lia|]. intros H0. split; apply rdiv_exact; try assumption; unfold ZERO; lia.
Qed.
(** A product that came out exact can be undone. *)
Lemma mul_div b L P x y z m : valid b L P -> in_range L x -> in_range L y -> in_range L z -> y <> 0 ->
  (dec P z == dec P x * dec P y)%Q -> rmul b L P x y m = Ret (Ok z) /\ rdiv b L P z y m = Ret (Ok x).
Proof.
  intros Hv Hx Hy Hz Hy0 E. pose proof (coef_bounds b L P Hv) as Hc. assert (0 <= P) as HP by apply Hv.
  assert (z * 10 ^ P = x * y) as EZ.
  { rewrite !dec_alt in E by assumption. apply Zq_eq. rewrite !Zq_mul. pose proof (Zq_nonzero (10 ^ P) ltac:(lia)) as N.
    setoid_replace (Zq z) with (Zq z / Zq (10 ^ P) * Zq (10 ^ P))%Q by (field; assumption). rewrite E. field. assumption. }
  split; [|now apply rdiv_exact].
  rewrite (rmul_spec b L P (promo_all b L) Hv) by
    (try assumption; intros _; rewrite <- EZ, Z.rem_mul by lia; unfold in_range; rewrite lo_hi; pose proof (hi_pos L); lia).
  rewrite <- EZ, rnd_exact by lia. now rewrite chkr_ok.
Qed.

Lemma half_comm b L x y m : in_range L x -> in_range L y -> half_sum b L x y m = half_sum b L y x m.
Proof.
  intros Hx Hy. rewrite (proj1 (half_sum_val b L x y m Hx Hy)), (proj1 (half_sum_val b L y x m Hy Hx)). f_equal. unfold half.
  rewrite (Z.eqb_sym (Z.sgn y)), (Z.min_comm y), (Z.max_comm y), (Z.add_comm y). reflexivity.
Qed.
Lemma half_same b L x m : in_range L x -> half_sum b L x x m = Ret x.
Proof.
  intros Hx. rewrite (proj1 (half_sum_val b L x x m Hx Hx)). f_equal. unfold half. rewrite Z.eqb_refl, Z.min_id, Z.max_id, Z.sub_diag.
  replace 0 with (0 * 2) at 1 by reflexivity. rewrite rnd_exact by lia. lia.
Qed.
Lemma half_between b L x y m r : in_range L x -> in_range L y -> half_sum b L x y m = Ret r -> Z.min x y <= r <= Z.max x y.
Proof.
  intros Hx Hy E. rewrite (proj1 (half_sum_val b L x y m Hx Hy)) in E. injection E as <-. unfold half.
  destruct (Z.eqb_spec (Z.sgn x) (Z.sgn y)) as [S|S]; [pose proof (rnd_2_bounds m (Z.max x y - Z.min x y)); lia|].
  pose proof (rnd_2_bounds m (x + y)) as H. lia.
Qed.
Lemma half_near x y m : x + y - 1 <= 2 * half x y m <= x + y + 1.
Proof.
  unfold half. destruct (Z.sgn x =? Z.sgn y); [pose proof (rnd_2_bounds m (Z.max x y - Z.min x y)); lia|exact (rnd_2_bounds m (x + y))].
Qed.
(** Whichever way ties go, a larger operand cannot give a smaller mean: means that are ties lie
    between means that are not. *)
Lemma half_mono b b' L x x' y m r r' : in_range L x -> in_range L x' -> in_range L y -> x <= x' ->
  half_sum b L x y m = Ret r -> half_sum b' L x' y m = Ret r' -> r <= r'.
Proof.
  intros Hx Hx' Hy Hle E E'. rewrite (proj1 (half_sum_val b L x y m Hx Hy)) in E. rewrite (proj1 (half_sum_val b' L x' y m Hx' Hy)) in E'.
  injection E as <-. injection E' as <-. destruct (Z.eq_dec x x') as [->|N]; [lia|]. pose proof (half_near x y m). pose proof (half_near x' y m). lia.
Qed.

(** ** Square roots *)
Lemma root_inv b L P x m r : valid b L P -> in_range L x -> rsqrt b L P x m = Ret (Ok r) -> 0 <= x /\ zsqrt_rounds m (x * 10 ^ P) r.
Proof.
  intros Hv Hx E. destruct (Z.lt_ge_cases x 0) as [H|H]; [now rewrite rsqrt_neg in E by assumption|]. split; [assumption|].
  rewrite rsqrt_val in E by assumption. injection E as <-. apply srt_zrounds. pose proof (pow10_pos P (proj1 (proj2 Hv))). nia.
Qed.
Lemma root_range b L P x m r : valid b L P -> in_range L x -> rsqrt b L P x m = Ret (Ok r) -> in_range L r.
Proof.
  intros Hv Hx E. destruct (root_inv b L P x m r Hv Hx E) as [H _]. destruct (rsqrt_spec b L P x m Hv Hx H) as (r' & E' & R & _). congruence.
Qed.
Lemma rnd_le m n d k : 0 < d -> n <= k * d -> rnd m n d <= k.
Proof. intros Hd H. rewrite <- (rnd_exact m k d) by lia. now apply rnd_mono. Qed.
Lemma rnd_ge m n d k : 0 < d -> k * d <= n -> k <= rnd m n d.
Proof. intros Hd H. rewrite <- (rnd_exact m k d) by lia. now apply rnd_mono. Qed.
(** The root rounded down, squared and rounded in any direct way, is at most the number. *)
Lemma root_square_floor b L P x r m : valid b L P -> in_range L x -> rsqrt b L P x Floor = Ret (Ok r) -> m <> Nearest ->
  exists s, rmul b L P r r m = Ret (Ok s) /\ 0 <= s <= x.
Proof.
  intros Hv Hx E Hm. pose proof (root_range _ _ _ _ _ _ Hv Hx E) as Hr. destruct (root_inv _ _ _ _ _ _ Hv Hx E) as [H0 [Hr0 [HS _]]].
  pose proof (pow10_pos P (proj1 (proj2 Hv))) as Hp. rewrite rmul_dir_val by assumption.
  assert (0 <= rnd m (r * r) (10 ^ P) <= x) as B by (split; [apply rnd_ge; nia|apply rnd_le; lia]).
  exists (rnd m (r * r) (10 ^ P)). split; [|exact B]. rewrite chkr_ok; [reflexivity|]. unfold in_range in *. rewrite lo_hi in *. pose proof (hi_pos L). lia.
Qed.
Lemma root_square_ceil b L P x r s m : valid b L P -> in_range L x -> rsqrt b L P x Ceil = Ret (Ok r) -> m <> Nearest ->
  rmul b L P r r m = Ret (Ok s) -> x <= s.
Proof.
  intros Hv Hx E Hm K. pose proof (root_range _ _ _ _ _ _ Hv Hx E) as Hr. destruct (root_inv _ _ _ _ _ _ Hv Hx E) as [H0 [Hr0 [HS _]]].
  pose proof (pow10_pos P (proj1 (proj2 Hv))) as Hp. rewrite rmul_dir_val in K by assumption. injection K as K. apply chkr_inv in K. destruct K as [-> _].
  apply rnd_ge; lia.
Qed.
(** A root lies between the number and one. *)
Lemma root_between b L P x r m : valid b L P -> in_range L x -> rsqrt b L P x m = Ret (Ok r) ->
  exists one, ONE b L P = Ret one /\ Z.min x one <= r <= Z.max x one.
Proof.
  intros Hv Hx E. exists (10 ^ P). split; [now apply COEF_ok|]. destruct (root_inv _ _ _ _ _ _ Hv Hx E) as [H0 [Hr0 HS]].
  pose proof (pow10_pos P (proj1 (proj2 Hv))) as Hp. set (c := 10 ^ P) in *. clearbody c. clear E Hv Hx.
  destruct (Z.le_gt_cases x c) as [H|H]; [rewrite Z.min_l, Z.max_r by lia|rewrite Z.min_r, Z.max_l by lia].
  - assert (x * x <= x * c <= c * c) as B by nia. set (n := x * c) in *. clearbody n. split; apply Z.nlt_ge; intros K; destruct m; destruct HS as [S1 S2]; try (specialize (S2 ltac:(lia))); nia.
  - assert (c * c <= x * c <= x * x) as B by nia. set (n := x * c) in *. clearbody n. split; apply Z.nlt_ge; intros K; destruct m; destruct HS as [S1 S2]; try (specialize (S2 ltac:(lia))); nia.
Qed.
(** Squaring first. *)
Lemma square_root b L P x s r : valid b L P -> in_range L x -> 0 <= x -> rmul b L P x x Floor = Ret (Ok s) -> rsqrt b L P s Floor = Ret (Ok r) -> r <= x.
Proof.
  intros Hv Hx H0 K E. rewrite rmul_dir_val in K by (try assumption; discriminate). injection K as K. apply chkr_inv in K. destruct K as [-> Rs].
  destruct (root_inv _ _ _ _ _ _ Hv Rs E) as [Hs [Hr0 [S1 S2]]]. pose proof (pow10_pos P (proj1 (proj2 Hv))) as Hp.
  pose proof (rnd_zrounds Floor (x * x) (10 ^ P) Hp) as Z. unfold zrounds in Z. nia.
Qed.
Lemma square_root_up b L P x s r : valid b L P -> in_range L x -> 0 <= x -> rmul b L P x x Ceil = Ret (Ok s) -> rsqrt b L P s Ceil = Ret (Ok r) -> x <= r.
Proof.
  intros Hv Hx H0 K E. rewrite rmul_dir_val in K by (try assumption; discriminate). injection K as K. apply chkr_inv in K. destruct K as [-> Rs].
  destruct (root_inv _ _ _ _ _ _ Hv Rs E) as [Hs [Hr0 [S1 S2]]]. pose proof (pow10_pos P (proj1 (proj2 Hv))) as Hp.
  pose proof (rnd_zrounds Ceil (x * x) (10 ^ P) Hp) as Z. unfold zrounds in Z. nia.
Qed.
(** Powers of ten are their own next power. *)
Lemma npt_fix b b' L x y : in_range L x -> next_power_of_ten b L x = Ret (Ok y) -> next_power_of_ten b' L y = Ret (Ok y).
Proof.
  intros Hx E.
  assert (forall k, 0 <= k -> in_range L (10 ^ k) -> next_power_of_ten b' L (10 ^ k) = Ret (Ok (10 ^ k))) as F.
  { intros k Hk R. pose proof (pow10_pos k Hk) as Hp. destruct (npt_pos_spec b' L (10 ^ k) R Hp) as (j & Hj & H1 & H2 & HE).
    assert (j = k) as -> by (pose proof (H2 k Hk ltac:(lia)); apply (Z.pow_le_mono_r_iff 10) in H1; lia).
    destruct HE as [[_ HE]|[C _]]; [exact HE|contradiction]. }
  assert (forall x y, in_range L x -> 0 <= x -> next_power_of_ten b L x = Ret (Ok y) -> exists k, 0 <= k /\ y = 10 ^ k /\ in_range L y) as G.
  { clear x y Hx E. intros x y Hx H0 E. destruct (Z.eq_dec x 0) as [->|N].
    - rewrite npt_zero in E. injection E as <-. exists 0. repeat split; try lia; unfold EPSILON; rewrite ?lo_hi; pose proof (hi_pos L); lia.
    - destruct (npt_pos_spec b L x Hx ltac:(lia)) as (k & Hk & _ & _ & [[R HE]|[_ HE]]); rewrite HE in E; [|discriminate]. injection E as <-. eauto. }
  destruct (Z.lt_ge_cases x 0) as [H|H].
  - destruct (Z.eq_dec x (lo L)) as [->|N]; [now rewrite npt_min in E|]. pose proof (lo_hi L) as HL. pose proof (hi_pos L).
    destruct (npt_neg_spec b L x Hx H N) as [(v & E1 & E2)|[_ E2]]; rewrite E2 in E; [|discriminate]. injection E as <-.
    destruct (G (- x) v ltac:(unfold in_range in *; lia) ltac:(lia) E1) as (k & Hk & -> & R). pose proof (pow10_pos k Hk).
    destruct (npt_neg_spec b' L (- 10 ^ k) ltac:(unfold in_range in *; lia) ltac:(lia) ltac:(unfold in_range in *; lia)) as [(w & K1 & K2)|[K1 _]];
      rewrite Z.opp_involutive, (F k Hk R) in K1; [|discriminate]. injection K1 as <-. exact K2.
  - destruct (G x y Hx H E) as (k & Hk & -> & R). now apply F.
Qed.
