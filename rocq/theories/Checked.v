(** * Checked: with overflow checks every number returned is right; without them it is next to the exact value. *)
From Coq Require Import QArith Qabs.
From Verif Require Import Base Promo Ops Fixed Str Spec SpecText BaseFacts SimpleProofs ArithProofs RoundFacts MulDiv DecProofs OrderFacts ShowFacts.
From Verif Require Import SpecCalls Calls ShowMore CallFacts SqrtFacts Sqrt256 TextLaws.
From Verif Require Import Fixed.
From Verif Require Import SpecCheck.
Open Scope Z_scope.

(** ** With overflow checks *)
Lemma rmul_checked b L P x y m : valid b L P -> in_range L x -> in_range L y -> ovf b = true ->
  rounded_or_panic L P m (dec P x * dec P y) (rmul b L P x y m).
Proof.
  intros HV Hx Hy Ho. destruct (nearest_dec m) as [->|Hm]; [|right; apply rmul_directed; assumption].
  destruct (layout_dec L P) as [[-> ->]|HL]; [|right; apply rmul_nearest; assumption].
  destruct (in_range_dec L128 (2 * Z.rem (x * y) (10 ^ 38))) as [Hr|Hr]; [right; apply rmul38_ok; assumption|].
  destruct (in_range_dec L128 (Z.quot (x * y) (10 ^ 38))) as [Hq|Hq]; [left; apply rmul38_panic; assumption|].
  right. destruct (rmul38_overflow b x y HV Hx Hy Hq) as [E N].
  exists (rnd Nearest (x * y) (10 ^ 38)).
  assert (rounds_to Nearest 38 (dec 38 x * dec 38 y) (rnd Nearest (x * y) (10 ^ 38))) as R.
  { unfold rounds_to. apply (rounds_compat _ (Zq (x * y) / Zq (10 ^ 38))); [symmetry; apply mul_scaled; lia|]. apply rnd_rounds. discriminate. }
  split; [exact R|]. right. split; [apply N, R|exact E].
Qed.
Lemma rdiv_checked b L P x y m : valid b L P -> in_range L x -> in_range L y -> y <> 0 -> ovf b = true ->
  rounded_or_panic L P m (dec P x / dec P y) (rdiv b L P x y m).
Proof.
  intros HV Hx Hy Hy0 Ho. destruct (nearest_dec m) as [->|Hm]; [|right; apply rdiv_directed; assumption].
  destruct (Z.eq_dec (Z.rem (x * 10 ^ P) y) 0) as [H0|H0].
  { right. apply rdiv_nearest_ok; try assumption. intros K. congruence. }
  destruct (in_range_dec L (Z.quot (x * 10 ^ P) y)) as [Hq|Hq].
  - destruct (Z_le_gt_dec (2 * Z.abs (Z.rem (x * 10 ^ P) y)) (hi L)) as [H2|H2], (Z.eq_dec y (lo L)) as [Hl|Hl].
    2:{ right. apply rdiv_nearest_ok; try assumption. intros _. split; assumption. }
    all: left; apply rdiv_nearest_panic; try assumption; lia.
  - right. destruct (rdiv_overflow b L P x y Nearest HV Hx Hy Hy0 Hq) as [E N].
    exists (rnd Nearest (x * 10 ^ P) y).
    assert (rounds_to Nearest P (dec P x / dec P y) (rnd Nearest (x * 10 ^ P) y)) as R.
    { unfold rounds_to. apply (rounds_compat _ (Zq (x * 10 ^ P) / Zq y)); [symmetry; apply div_scaled; try assumption; apply HV|]. apply rnd_rounds. assumption. }
    split; [exact R|]. right. split; [apply N, R|exact E].
Qed.
Lemma recip_checked b L P x m : valid b L P -> in_range L x -> x <> 0 -> ovf b = true ->
  rounded_or_panic L P m (1 / dec P x) (recip b L P x m).
Proof.
  intros HV Hx H0 Ho. unfold recip, ONE. rewrite COEF_ok by assumption. cbn [bind].
  pose proof (coef_bounds b L P HV) as Hc.
  assert (in_range L (10 ^ P)) as Hone by (pose proof (hi_pos L); pose proof (lo_hi L); unfold in_range; lia).
  assert (dec P (10 ^ P) == 1)%Q as E1.
  { rewrite dec_alt by apply HV. unfold Qdiv. apply Qmult_inv_r, Zq_nonzero. lia. }
  destruct (rdiv_checked b L P (10 ^ P) x m HV Hone Hx H0 Ho) as [K|(r & R & K)]; [left; exact K|].
  right. exists r. split; [|exact K]. revert R. unfold rounds_to. apply rounds_compat. rewrite E1. reflexivity.
Qed.
Lemma int_rdiv_checked b t x y m : is_signed t = true -> fits t x -> fits t y -> y <> 0 -> ovf b = true ->
  int_rdiv b t x y m = Panic \/
  exists r, rounds m (Zq x / Zq y) r /\
    ((fits t r /\ int_rdiv b t x y m = Ret (Ok r)) \/ (~ fits t r /\ int_rdiv b t x y m = Ret (Err Overflow))).
Proof.
  intros Ht Hx Hy H0 Ho.
  destruct (Z.eq_dec y (-1)) as [->|H1].
  { destruct (Z.eq_dec x (imin t)) as [->|Hm]; [left; apply int_rdiv_min; assumption|]. right.
    apply int_rdiv_rounded; try assumption; [intros [? _]; congruence|].
    intros _ K. exfalso. apply K. exact (eq_trans (Z.rem_opp_r x 1 ltac:(discriminate)) (Z.rem_1_r x)). }
  destruct (nearest_dec m) as [->|Hm].
  2:{ right. apply int_rdiv_rounded; try assumption; [lia|]. intros K. contradiction. }
  destruct (Z.eq_dec (Z.rem x y) 0) as [Hr|Hr].
  { right. apply int_rdiv_rounded; try assumption; [lia|]. intros _ K. contradiction. }
  assert (2 * Z.abs (Z.rem x y) <= imax t /\ y <> imin t \/ (imax t < 2 * Z.abs (Z.rem x y) \/ y = imin t)) as [C|C] by lia.
  { right. apply int_rdiv_rounded; try assumption; [lia|]. intros _ _. exact C. }
  left. apply int_rdiv_nearest_panic; assumption.
Qed.
Lemma rdiv_int_checked b L P x n m : 0 <= P -> in_range L x -> in_range L n -> n <> 0 -> ovf b = true ->
  rounded_or_panic L P m (dec P x / Zq n) (rdiv_int b L x n m).
Proof.
  intros HP Hx Hn H0 Ho. rewrite <- !fits_lty in *. unfold rdiv_int.
  destruct (int_rdiv_checked b (lty L) x n m (signed_lty L) Hx Hn H0 Ho) as [K|(r & R & K)]; [left; exact K|]. right.
  exists r. split.
  - unfold rounds_to. apply (rounds_compat m (Zq x / Zq n)); [|exact R].
    rewrite dec_alt, q10_pos by assumption. field. split; apply Zq_nonzero; pose proof (pow10_pos P HP); lia.
  - unfold exact_or_overflow. rewrite <- fits_lty. exact K.
Qed.
Lemma int_rdiv_fp_checked b L P n x m r : valid b L P -> in_range L x -> x <> 0 -> ovf b = true ->
  int_rdiv_fp b L P n x m = Ret (Ok r) -> in_range L r /\ rounds_to m P (Zq n / dec P x) r.
Proof.
  intros HV Hx H0 Ho E. destruct (int_rdiv_fp_cases b L P n x m HV) as [(k & [Hk Ek] & K)|[_ K]]; rewrite K in E; [|discriminate].
  destruct (rdiv_checked b L P k x m HV Hk Hx H0 Ho) as [C|(s & R & [[I C]|[_ C]])]; rewrite C in E; try discriminate.
  injection E as <-. split; [exact I|]. revert R. unfold rounds_to. apply rounds_compat. rewrite Ek. reflexivity.
Qed.
Lemma integral_checked b L P x m : valid b L P -> in_range L x -> ovf b = true ->
  integral b L P x m = Panic \/ exists i, integral b L P x m = Ret i /\ in_range L i /\ rounds m (dec P x) i.
Proof.
  intros HV Hx Ho. destruct (Z.eq_dec x (lo L)) as [->|Hl]; [left; apply integral_min_panic; assumption|].
  assert ((m = Nearest /\ doubling_fraction L P x) \/ ~ (m = Nearest /\ doubling_fraction L P x)) as [D|D].
  { destruct (nearest_dec m), (fraction_dec L P x); tauto. }
  { left. apply integral_panic; auto. }
  right. assert (m = Nearest -> 2 * Z.abs (Z.rem x (10 ^ P)) <= hi L) as G by (intros ->; apply (fraction_small b); tauto).
  destruct (integral_val b L P x m HV Hx Hl G) as [E R]. exists (rnd m x (10 ^ P)). split; [exact E|]. split; [exact R|].
  apply (rounds_compat m (Zq x / Zq (10 ^ P))); [symmetry; apply dec_alt, HV|]. apply rnd_rounds. pose proof (pow10_pos P (proj1 (proj2 HV))). lia.
Qed.
Lemma int_part_checked b L P x m : valid b L P -> in_range L x -> ovf b = true ->
  int_part b L P x m = Panic \/ exists r i, int_part b L P x m = Ret r /\ rounds m (dec P x) i /\ represents L P (Zq i) r.
Proof.
  intros HV Hx Ho. unfold int_part. destruct (integral_checked b L P x m HV Hx Ho) as [->|(i & -> & Hi & R)]; [left; reflexivity|].
  cbn [bind]. pose proof HV as [_ [HP HC]].
  destruct (from_decimal_spec b L P i 0 HV ltac:(lia) ltac:(rewrite Z.add_0_l; exact HC)) as [(r & [K1 K2] & ->)|[_ ->]]; cbn; [|left; reflexivity].
  right. exists r, i. split; [reflexivity|]. split; [exact R|]. split; [exact K1|]. rewrite K2. change (q10 0) with 1%Q. ring.
Qed.
Lemma from_decimal_checked b L P m e : valid b L P -> - P <= e <= 10 -> ovf b = true ->
  from_decimal b L P m e = Panic \/ exact_or L P (Zq m * q10 e) ConvertError (from_decimal b L P m e).
Proof.
  intros HV He Ho. destruct (Z_le_gt_dec (10 ^ (e + P)) (hi L)) as [C|C]; [right; apply from_decimal_spec; assumption|].
  left. apply from_decimal_panic; try assumption. lia.
Qed.
Lemma to_string_checked b L P x : valid b L P -> in_range L x -> ovf b = true -> dbg b = true ->
  to_string b L P x = Panic \/ exists s, to_string b L P x = Ret s /\ canonical s (dec P x) /\ Z.of_nat (length s) <= buffer b.
Proof.
  intros HV Hx Ho Hd. destruct (Z.eq_dec P 0) as [->|HP].
  - destruct (Z.eq_dec x (lo L)) as [->|Hl]; [left; apply show_min; assumption|].
    destruct (Z_le_gt_dec x (- 10 ^ (buffer b - 3))) as [C|C].
    + left. rewrite show_overrun by assumption. rewrite Hd. reflexivity.
    + right. apply to_string_ok; try assumption. split; [intros _; unfold in_range in Hx; lia|]. intros _ K. discriminate K.
  - destruct (layout_dec L P) as [[-> ->]|HL].
    + destruct (Z_le_gt_dec (Z.abs x mod 10 ^ 38 + 10 ^ 38) (hi L128)) as [C|C].
      * right. apply to_string_ok; try assumption. split; [intros K; discriminate K|auto].
      * left. apply show_38; try assumption. lia.
    + right. apply to_string_ok; try assumption. split; [intros K; contradiction|]. intros A B. exfalso. auto.
Qed.
Lemma saturating_rmul_checked b L P x y m : valid b L P -> in_range L x -> in_range L y -> ovf b = true ->
  saturating_rmul b L P x y m = Panic \/
  exists r v, saturating_rmul b L P x y m = Ret r /\ rounds_to m P (dec P x * dec P y) v /\ clamped L v r.
Proof.
  intros HV Hx Hy Ho. destruct (rmul_checked b L P x y m HV Hx Hy Ho) as [K|(v & R & [[I K]|[N K]])].
  - left. unfold saturating_rmul, default_saturating_mul. rewrite K. reflexivity.
  - right. exists v, v. unfold saturating_rmul, default_saturating_mul. rewrite K. cbn. split; [reflexivity|]. split; [exact R|].
    unfold clamped, in_range in *. lia.
  - right. assert (exists r, saturating_rmul b L P x y m = Ret r /\ clamped L v r) as (r & E & C); [|exists r, v; auto].
    unfold saturating_rmul, default_saturating_mul. rewrite K. cbn [bind]. eexists. split; [reflexivity|].
    assert (MIN L = lo L) as -> by apply imin_lty. assert (MAX L = hi L) as -> by apply imax_lty.
    assert (0 <= P) as HP by apply HV. unfold rounds_to in R. pose proof (lo_hi L) as LH. pose proof (hi_pos L) as HH.
    assert (hi L < v \/ v < lo L) as [H|H] by (unfold in_range in N; lia).
    + pose proof (rounds_above _ _ _ 0 R ltac:(lia)) as H0. rewrite (mul_scaled P x y HP) in H0. apply (Qlt_div_l _ _ _ (pow10_pos P HP)) in H0.
      replace (Bool.eqb (x <? 0) (y <? 0)) with true; [unfold clamped, in_range; lia|].
      destruct (Z.ltb_spec x 0), (Z.ltb_spec y 0); cbn; try reflexivity; exfalso; nia.
    + pose proof (rounds_below _ _ _ 0 R ltac:(lia)) as H0. rewrite (mul_scaled P x y HP) in H0. apply (Qlt_div_r _ _ _ (pow10_pos P HP)) in H0.
      replace (Bool.eqb (x <? 0) (y <? 0)) with false; [unfold clamped, in_range; lia|].
      destruct (Z.ltb_spec x 0), (Z.ltb_spec y 0); cbn; try reflexivity; exfalso; nia.
Qed.

(** ** Every build *)
Lemma directed_neighbour m P d r : rounds_to m P d r -> rounds_to Floor P d r \/ rounds_to Ceil P d r.
Proof.
  unfold rounds_to. generalize (d * q10 P)%Q. intros q H. destruct m; auto.
  destruct (Qfrac q) as (n & k & Hk & E). apply (rounds_compat _ _ _ _ E) in H. apply rounds_rnd in H; [|lia]. subst r.
  destruct (near_cases n k (rnd Nearest n k)) as [C|C]; try lia.
  - unfold near. rewrite rnd_trunc by lia. unfold up. destruct (Z.eqb_spec (Z.rem n k) 0); cbn [negb andb]; [left; lia|].
    match goal with |- context [if ?c then _ else _] => destruct c end; [right; split; [assumption|lia]|left; lia].
  - left. rewrite C. apply (rounds_compat _ (Zq n / Zq k)); [symmetry; exact E|apply rnd_rounds; lia].
  - right. rewrite C. apply (rounds_compat _ (Zq n / Zq k)); [symmetry; exact E|apply rnd_rounds; lia].
Qed.
Lemma ro_truthful L P m d o : rounded_or_overflow L P m d o -> truthful L P m d o.
Proof.
  intros (r & R & [[I E]|[N E]]); right; [left|right].
  - exists r. split; [exact E|]. split; [exact I|]. eapply directed_neighbour. exact R.
  - split; [exact E|]. intros s S. rewrite (rounds_unique _ _ _ _ S R). exact N.
Qed.
Lemma near_truthful L P m d n k r : k <> 0 -> (d * q10 P == Zq n / Zq k)%Q -> near n k r -> in_range L r -> truthful L P m d (Ret (Ok r)).
Proof.
  intros Hk E N I. right. left. exists r. split; [reflexivity|]. split; [exact I|]. unfold rounds_to.
  destruct (near_cases n k r Hk N) as [->| ->]; [left|right]; (apply (rounds_compat _ (Zq n / Zq k)); [symmetry; exact E|apply rnd_rounds; exact Hk]).
Qed.
Lemma rmul_truthful b L P x y m : valid b L P -> in_range L x -> in_range L y ->
  truthful L P m (dec P x * dec P y) (rmul b L P x y m).
Proof.
  intros HV Hx Hy. destruct (ovf b) eqn:Ho.
  { destruct (rmul_checked b L P x y m HV Hx Hy Ho) as [K|K]; [left; exact K|apply ro_truthful; exact K]. }
  destruct (nearest_dec m) as [->|Hm]; [|apply ro_truthful, rmul_directed; assumption].
  destruct (layout_dec L P) as [[-> ->]|HL]; [|apply ro_truthful, rmul_nearest; assumption].
  destruct (in_range_dec L128 (2 * Z.rem (x * y) (10 ^ 38))) as [Hr|Hr]; [apply ro_truthful, rmul38_ok; assumption|].
  destruct (in_range_dec L128 (Z.quot (x * y) (10 ^ 38))) as [Hq|Hq].
  2:{ destruct (rmul38_overflow b x y HV Hx Hy Hq) as [E N]. right. right. auto. }
  destruct (Z_lt_le_dec 0 (x * y)) as [C|C]; [apply ro_truthful, rmul38_wrap_pos; assumption|].
  rewrite rmul38_wrap by assumption. replace (0 <? x * y) with false by lia.
  apply (near_truthful _ _ _ _ (x * y) (10 ^ 38)); [discriminate|apply mul_scaled; lia|left; reflexivity|exact Hq].
Qed.
Lemma rdiv_truthful b L P x y m : valid b L P -> in_range L x -> in_range L y -> y <> 0 ->
  truthful L P m (dec P x / dec P y) (rdiv b L P x y m).
Proof.
  intros HV Hx Hy Hy0. destruct (ovf b) eqn:Ho.
  { destruct (rdiv_checked b L P x y m HV Hx Hy Hy0 Ho) as [K|K]; [left; exact K|apply ro_truthful; exact K]. }
  destruct (nearest_dec m) as [->|Hm]; [|apply ro_truthful, rdiv_directed; assumption].
  destruct (Z.eq_dec (Z.rem (x * 10 ^ P) y) 0) as [H0|H0].
  { apply ro_truthful, rdiv_nearest_ok; try assumption. intros K. congruence. }
  destruct (in_range_dec L (Z.quot (x * 10 ^ P) y)) as [Hq|Hq].
  2:{ destruct (rdiv_overflow b L P x y Nearest HV Hx Hy Hy0 Hq) as [E N]. right. right. auto. }
  assert (2 * Z.abs (Z.rem (x * 10 ^ P) y) <= hi L /\ y <> lo L \/ (hi L < 2 * Z.abs (Z.rem (x * 10 ^ P) y) \/ y = lo L)) as [C|C] by lia.
  { apply ro_truthful, rdiv_nearest_ok; try assumption. auto. }
  rewrite rdiv_nearest_wrap by assumption. assert (0 <= P) as HP by apply HV. pose proof (div_scaled P x y HP Hy0) as S.
  destruct (Z.eqb_spec y (lo L)) as [Ey|Ey].
  - assert (in_range L (Z.quot (x * 10 ^ P) y + Z.sgn (x * 10 ^ P) * Z.sgn y)) as I.
    { pose proof (quot_rem_facts (x * 10 ^ P) y Hy0) as (Q1 & Q2 & _). pose proof HV as [_ [_ HC]]. pose proof (pow10_pos P HP) as PP.
      pose proof (lo_hi L) as LH. pose proof (hi_pos L) as HH. unfold in_range in *.
      assert (Z.abs (Z.quot (x * 10 ^ P) y) < 10 ^ P) as A.
      { assert (Z.abs (Z.quot (x * 10 ^ P) y) * Z.abs y < 10 ^ P * Z.abs y); [|clear - H Ey LH HH; nia].
        pose proof (Z.quot_rem (Z.abs (x * 10 ^ P)) (Z.abs y) ltac:(lia)) as T. rewrite Z.quot_abs, Z.rem_abs in T by assumption.
        assert (Z.abs (x * 10 ^ P) <= 10 ^ P * Z.abs y) as A2 by (rewrite Z.abs_mul, (Z.abs_eq (10 ^ P)) by lia; clear - PP Hx LH Ey; nia).
        clear - T A2 H0. lia. }
      assert (Z.abs (Z.sgn (x * 10 ^ P) * Z.sgn y) <= 1) as B by (destruct (Z.sgn_spec (x * 10 ^ P)) as [[_ ->]|[[_ ->]|[_ ->]]], (Z.sgn_spec y) as [[_ ->]|[[_ ->]|[_ ->]]]; cbn; lia).
      clear - A B HC LH. lia. }
    assert (chkr L (Z.quot (x * 10 ^ P) y + Z.sgn (x * 10 ^ P) * Z.sgn y) = Ok (Z.quot (x * 10 ^ P) y + Z.sgn (x * 10 ^ P) * Z.sgn y)) as -> by (unfold chkr; rewrite fitsb_true; [reflexivity|apply fits_lty; exact I]).
    apply (near_truthful _ _ _ _ (x * 10 ^ P) y); [assumption|exact S|right; split; [exact H0|reflexivity]|exact I].
  - apply (near_truthful _ _ _ _ (x * 10 ^ P) y); [assumption|exact S|left; reflexivity|exact Hq].
Qed.
Lemma recip_truthful b L P x m : valid b L P -> in_range L x -> x <> 0 -> truthful L P m (1 / dec P x) (recip b L P x m).
Proof.
  intros HV Hx H0. unfold recip, ONE. rewrite COEF_ok by assumption. cbn [bind]. pose proof (coef_bounds b L P HV) as Hc.
  assert (in_range L (10 ^ P)) as Hone by (pose proof (hi_pos L); pose proof (lo_hi L); unfold in_range; lia).
  assert (forall m r, rounds_to m P (1 / dec P x) r <-> rounds_to m P (dec P (10 ^ P) / dec P x) r) as E1.
  { intros m' r. pose proof (dec_one P (proj1 (proj2 HV))) as D. unfold rounds_to. split; apply rounds_compat; rewrite D; reflexivity. }
  destruct (rdiv_truthful b L P (10 ^ P) x m HV Hone Hx H0) as [K|[(r & K & I & R)|[K N]]]; [left; exact K|right; left|right; right].
  - exists r. rewrite !E1. auto.
  - split; [exact K|]. intros r. rewrite E1. apply N.
Qed.
Lemma rdiv_int_truthful b L P x n m : 0 <= P -> in_range L x -> in_range L n -> n <> 0 ->
  truthful L P m (dec P x / Zq n) (rdiv_int b L x n m).
Proof.
  intros HP Hx Hn H0. destruct (ovf b) eqn:Ho.
  { destruct (rdiv_int_checked b L P x n m HP Hx Hn H0 Ho) as [K|K]; [left; exact K|apply ro_truthful; exact K]. }
  pose proof (lo_hi L) as LH. pose proof (hi_pos L) as HH.
  assert (dec P x / Zq n * q10 P == Zq x / Zq n)%Q as S.
  { rewrite dec_alt, q10_pos by assumption. field. split; apply Zq_nonzero; pose proof (pow10_pos P HP); lia. }
  destruct (Z.eq_dec n (-1)) as [->|H1].
  { destruct (Z.eq_dec x (lo L)) as [->|Hm].
    - left. unfold rdiv_int. rewrite <- imin_lty. apply int_rdiv_min, signed_lty.
    - apply ro_truthful, rdiv_int_rounded; try assumption; [intros [? _]; congruence|].
      intros _ K. exfalso. apply K. exact (eq_trans (Z.rem_opp_r x 1 ltac:(discriminate)) (Z.rem_1_r x)). }
  destruct (nearest_dec m) as [->|Hm].
  2:{ apply ro_truthful, rdiv_int_rounded; try assumption; [lia|]. intros K. contradiction. }
  destruct (Z.eq_dec (Z.rem x n) 0) as [Hr|Hr].
  { apply ro_truthful, rdiv_int_rounded; try assumption; [lia|]. intros _ K. contradiction. }
  assert (2 * Z.abs (Z.rem x n) <= hi L /\ n <> lo L \/ (hi L < 2 * Z.abs (Z.rem x n) \/ n = lo L)) as [C|C] by lia.
  { apply ro_truthful, rdiv_int_rounded; try assumption; [lia|]. auto. }
  unfold rdiv_int. rewrite int_rdiv_nearest_wrap; try assumption; try apply signed_lty; try (apply fits_lty; assumption); [|rewrite imax_lty, imin_lty; assumption].
  rewrite imin_lty. unfold in_range in *. pose proof (abs_quot_le x n H0) as Q. destruct (Z.eqb_spec n (lo L)) as [Ey|Ey].
  - assert (Z.quot x n = 0) as Q0.
    { pose proof (Z.quot_rem (Z.abs x) (Z.abs n) ltac:(lia)) as T. rewrite Z.quot_abs, Z.rem_abs in T by assumption.
      assert (Z.abs x <= Z.abs n) as A by (clear - Hx LH Ey; lia). clear - T A Hr H0. nia. }
    rewrite Q0. assert (in_range L (0 + Z.sgn x * Z.sgn n)) as I.
    { unfold in_range. destruct (Z.sgn_spec x) as [[_ ->]|[[_ ->]|[_ ->]]], (Z.sgn_spec n) as [[_ ->]|[[_ ->]|[_ ->]]]; cbn; lia. }
    rewrite chkt_ok by (apply fits_lty; exact I). apply (near_truthful _ _ _ _ x n); try assumption. right. rewrite Q0. auto.
  - apply (near_truthful _ _ _ _ x n); try assumption; [left; reflexivity|].
    unfold in_range. destruct (Z.eq_dec x (lo L)) as [->|Hx2]; [|clear - Hx LH Q Hx2; lia].
    destruct (Z.eq_dec n 1) as [->|E1]; [rewrite Z.quot_1_r; lia|]. pose proof (quot_half (lo L) n H0 ltac:(clear - H1 E1; lia)) as Q2. clear - LH HH Q2. lia.
Qed.
Lemma integral_neighbour b L P x m i : valid b L P -> in_range L x -> integral b L P x m = Ret i ->
  rounds Floor (dec P x) i \/ rounds Ceil (dec P x) i.
Proof.
  intros HV Hx E. pose proof (pow10_pos P (proj1 (proj2 HV))) as PP. pose proof (dec_alt P x (proj1 (proj2 HV))) as DA.
  assert (near x (10 ^ P) i -> rounds Floor (dec P x) i \/ rounds Ceil (dec P x) i) as W.
  { intros H. destruct (near_cases x (10 ^ P) i ltac:(lia) H) as [->| ->]; [left|right];
      (apply (rounds_compat _ (Zq x / Zq (10 ^ P))); [symmetry; exact DA|apply rnd_rounds; lia]). }
  destruct (Z.eq_dec x (lo L)) as [->|Hl].
  - apply W. destruct (ovf b) eqn:Ho; [rewrite integral_min_panic in E by assumption; discriminate|].
    rewrite integral_min_wrap in E by assumption. injection E as <-. left. reflexivity.
  - destruct (nearest_dec m) as [->|Hm]; [apply W; eapply integral_near; eassumption|].
    destruct (integral_rounded b L P x m HV Hx Hl ltac:(intros K; contradiction)) as (j & Ej & _ & R).
    rewrite E in Ej. injection Ej as <-. destruct m; auto. contradiction.
Qed.
Lemma half_sum_neighbour b L P x y m : 0 <= P -> in_range L x -> in_range L y ->
  exists r, half_sum b L x y m = Ret r /\ in_range L r /\
    (rounds_to Floor P ((dec P x + dec P y) / 2) r \/ rounds_to Ceil P ((dec P x + dec P y) / 2) r).
Proof.
  intros HP Hx Hy. assert (m = Nearest /\ x < 0 /\ y < 0 /\ Z.odd (x + y) = true \/ (m = Nearest -> ~ (x < 0 /\ y < 0 /\ Z.odd (x + y) = true))) as [C|C].
  { destruct (nearest_dec m) as [->|Hm]; [|tauto]. destruct (Z.odd (x + y)) eqn:O; [|right; intros _ (_ & _ & K); discriminate K]. destruct (Z_lt_dec x 0), (Z_lt_dec y 0); tauto. }
  - destruct C as (-> & Nx & Ny & O). destruct (half_sum_neg_tie b L P x y HP Hx Hy Nx Ny O) as (r & E & R & _).
    destruct (half_sum_total b L x y Nearest Hx Hy) as (r' & E' & I). rewrite E in E'. injection E' as <-. exists r. auto.
  - destruct (half_sum_rounded b L P x y m HP Hx Hy C) as (r & E & I & R). exists r. split; [exact E|]. split; [exact I|]. eapply directed_neighbour. exact R.
Qed.

(** ** Order *)
Lemma scaled_le P d d' : (d <= d')%Q -> (d * q10 P <= d' * q10 P)%Q.
Proof. intros H. apply Qmult_le_compat_r; [exact H|]. apply Qlt_le_weak, q10_gt0. Qed.
Lemma rop_order L P m d d' o o' r r' : rounded_or_panic L P m d o -> rounded_or_panic L P m d' o' -> (d <= d')%Q ->
  o = Ret (Ok r) -> o' = Ret (Ok r') -> r <= r'.
Proof.
  intros [K|(s & R & [[_ K]|[_ K]])] [K'|(s' & R' & [[_ K']|[_ K']])] H E E'; rewrite K in E; rewrite K' in E'; try discriminate.
  injection E as <-. injection E' as <-. apply (rounds_mono m _ _ _ _ (scaled_le P _ _ H) R R').
Qed.
Lemma zero_rounds m P : rounds_to m P 0 0.
Proof. unfold rounds_to. apply (rounds_compat m (Zq 0 / Zq 1)); [unfold Qdiv; change (Zq 0) with 0%Q; ring|]. pose proof (rnd_rounds m 0 1 ltac:(discriminate)) as H. destruct m; exact H. Qed.
Lemma rop_closed L P m d d' o o' e r' : rounded_or_panic L P m d o -> rounded_or_panic L P m d' o' ->
  (0 <= d <= d' \/ d' <= d <= 0)%Q -> o = Ret (Err e) -> o' <> Ret (Ok r').
Proof.
  intros [K|(s & R & [[_ K]|[N K]])] [K'|(s' & R' & [[I K']|[_ K']])] H E E'; rewrite K in E; rewrite K' in E'; try discriminate.
  apply N. pose proof (zero_rounds m P) as Z0. pose proof (lo_hi L) as LH. pose proof (hi_pos L) as HH. unfold in_range in *.
  destruct H as [[A B]|[A B]].
  - pose proof (rounds_mono m _ _ _ _ (scaled_le P _ _ A) Z0 R). pose proof (rounds_mono m _ _ _ _ (scaled_le P _ _ B) R R'). lia.
  - pose proof (rounds_mono m _ _ _ _ (scaled_le P _ _ B) R Z0). pose proof (rounds_mono m _ _ _ _ (scaled_le P _ _ A) R' R). lia.
Qed.
Section Order.
  Context (b b' : build) (L : layout) (P : Z) (m : mode) (Hv : valid b L P) (Hv' : valid b' L P) (Ho : ovf b = true) (Ho' : ovf b' = true).
  Lemma rmul_order x y x' y' r r' : in_range L x -> in_range L y -> in_range L x' -> in_range L y' ->
    (dec P x * dec P y <= dec P x' * dec P y')%Q -> rmul b L P x y m = Ret (Ok r) -> rmul b' L P x' y' m = Ret (Ok r') -> r <= r'.
  Proof using All. intros Hx Hy Hx' Hy' H. apply (rop_order L P m _ _ _ _ _ _ (rmul_checked b L P x y m Hv Hx Hy Ho) (rmul_checked b' L P x' y' m Hv' Hx' Hy' Ho') H). Qed.
  Lemma rmul_closed x y x' y' e r' : in_range L x -> in_range L y -> in_range L x' -> in_range L y' ->
    (0 <= dec P x * dec P y <= dec P x' * dec P y' \/ dec P x' * dec P y' <= dec P x * dec P y <= 0)%Q ->
    rmul b L P x y m = Ret (Err e) -> rmul b' L P x' y' m <> Ret (Ok r').
  Proof using All. intros Hx Hy Hx' Hy' H. apply (rop_closed L P m _ _ _ _ _ _ (rmul_checked b L P x y m Hv Hx Hy Ho) (rmul_checked b' L P x' y' m Hv' Hx' Hy' Ho') H). Qed.
  Lemma rdiv_order x y x' y' r r' : in_range L x -> in_range L y -> in_range L x' -> in_range L y' -> y <> 0 -> y' <> 0 ->
    (dec P x / dec P y <= dec P x' / dec P y')%Q -> rdiv b L P x y m = Ret (Ok r) -> rdiv b' L P x' y' m = Ret (Ok r') -> r <= r'.
  Proof using All. intros Hx Hy Hx' Hy' N N' H. apply (rop_order L P m _ _ _ _ _ _ (rdiv_checked b L P x y m Hv Hx Hy N Ho) (rdiv_checked b' L P x' y' m Hv' Hx' Hy' N' Ho') H). Qed.
  Lemma rdiv_closed x y x' y' e r' : in_range L x -> in_range L y -> in_range L x' -> in_range L y' -> y <> 0 -> y' <> 0 ->
    (0 <= dec P x / dec P y <= dec P x' / dec P y' \/ dec P x' / dec P y' <= dec P x / dec P y <= 0)%Q ->
    rdiv b L P x y m = Ret (Err e) -> rdiv b' L P x' y' m <> Ret (Ok r').
  Proof using All. intros Hx Hy Hx' Hy' N N' H. apply (rop_closed L P m _ _ _ _ _ _ (rdiv_checked b L P x y m Hv Hx Hy N Ho) (rdiv_checked b' L P x' y' m Hv' Hx' Hy' N' Ho') H). Qed.
  Lemma rdiv_int_order x n x' n' r r' : in_range L x -> in_range L n -> in_range L x' -> in_range L n' -> n <> 0 -> n' <> 0 ->
    (dec P x / Zq n <= dec P x' / Zq n')%Q -> rdiv_int b L x n m = Ret (Ok r) -> rdiv_int b' L x' n' m = Ret (Ok r') -> r <= r'.
  Proof using All. intros Hx Hy Hx' Hy' N N' H. pose proof (proj1 (proj2 Hv)) as HP.
    apply (rop_order L P m _ _ _ _ _ _ (rdiv_int_checked b L P x n m HP Hx Hy N Ho) (rdiv_int_checked b' L P x' n' m HP Hx' Hy' N' Ho') H). Qed.
  Lemma recip_order x x' r r' : in_range L x -> in_range L x' -> x <= x' -> 0 < x * x' ->
    recip b L P x m = Ret (Ok r) -> recip b' L P x' m = Ret (Ok r') -> r' <= r.
  Proof using All.
    intros Hx Hx' H S E E'. assert (x <> 0) as N by nia. assert (x' <> 0) as N' by nia.
    refine (rop_order L P m _ _ _ _ _ _ (recip_checked b' L P x' m Hv' Hx' N' Ho') (recip_checked b L P x m Hv Hx N Ho) _ E' E).
    pose proof (pow10_pos P (proj1 (proj2 Hv))) as PP. rewrite !dec_alt by apply Hv.
    pose proof (Zq_nonzero x N). pose proof (Zq_nonzero x' N'). pose proof (Zq_nonzero (10 ^ P) ltac:(lia)).
    setoid_replace (1 / (Zq x / Zq (10 ^ P)))%Q with (Zq (10 ^ P * x') / Zq (x * x'))%Q by (rewrite !Zq_mul; field; auto).
    setoid_replace (1 / (Zq x' / Zq (10 ^ P)))%Q with (Zq (10 ^ P * x) / Zq (x * x'))%Q by (rewrite !Zq_mul; field; auto).
    unfold Qdiv. apply Qmult_le_compat_r; [apply Zq_le; nia|]. apply Qinv_le_0_compat. change 0%Q with (Zq 0). apply Zq_le. lia.
  Qed.
  Lemma saturating_order x y x' y' r r' : in_range L x -> in_range L y -> in_range L x' -> in_range L y' ->
    (dec P x * dec P y <= dec P x' * dec P y')%Q -> saturating_rmul b L P x y m = Ret r -> saturating_rmul b' L P x' y' m = Ret r' -> r <= r'.
  Proof using All.
    intros Hx Hy Hx' Hy' H E E'. destruct (saturating_rmul_checked b L P x y m Hv Hx Hy Ho) as [K|(s & v & K & R & C)]; rewrite K in E; [discriminate|].
    destruct (saturating_rmul_checked b' L P x' y' m Hv' Hx' Hy' Ho') as [K'|(s' & v' & K' & R' & C')]; rewrite K' in E'; [discriminate|].
    injection E as <-. injection E' as <-. pose proof (rounds_mono m _ _ _ _ (scaled_le P _ _ H) R R') as M.
    pose proof (lo_hi L). pose proof (hi_pos L). unfold clamped, in_range in *. lia.
  Qed.
End Order.
Lemma order_unchecked : exists x y x' y' r r', valid release L16 4 /\ in_range L16 x /\ in_range L16 y /\ in_range L16 x' /\ in_range L16 y' /\
  (dec 4 x / dec 4 y <= dec 4 x' / dec 4 y')%Q /\ rdiv release L16 4 x y Nearest = Ret (Ok r) /\ rdiv release L16 4 x' y' Nearest = Ret (Ok r') /\ r' < r.
Proof. exists 4, 25000, 5, 30000, 2, 1. example. Qed.
