(** * ArithProofs: multiplication, division and related operations over any promotion that
    satisfies the specification record [promo_ok]. *)
From Verif Require Import Base Promo ConstFn Ops Fixed Spec BaseFacts RoundFacts.

(** What the generic code needs from a promoted type: [R x v] says that [x] holds the integer [v];
    all integers of absolute value below [H] can be held. *)
Record promo_ok (D : promo) (l : ity) (H : Z) : Type := {
  R : pt D -> Z -> Prop;
  ok_from : forall x, fits l x -> R (p_from D x) x;
  ok_mul : forall x y a c, R x a -> R y c -> Z.abs (a * c) < H ->
           exists z, p_mul D x y = Ret z /\ R z (a * c);
  ok_div : forall x y a c, R x a -> R y c -> c <> 0 -> Z.abs a < H ->
           exists z, p_div D x y = Ret z /\ R z (Z.quot a c);
  ok_add : forall x y a c, R x a -> R y c -> Z.abs (a + c) < H ->
           exists z, p_add D x y = Ret z /\ R z (a + c);
  ok_sub : forall x y a c, R x a -> R y c -> Z.abs (a - c) < H ->
           exists z, p_sub D x y = Ret z /\ R z (a - c);
  ok_try : forall x a, R x a -> p_try D x = Ret (chk l a);
  ok_ge : forall x y a c, R x a -> R y c -> p_ge D x y = Ret (c <=? a);
  ok_eq : forall x y a c, R x a -> R y c -> p_eq D x y = (a =? c);
  ok_one : R (p_one D) 1
}.
Arguments R {D l H} _ _ _.
(** The square root of the promoted type, kept apart; see [Sqrt256]. *)
Definition sqrt_ok {D : promo} {l : ity} {H : Z} (p : promo_ok D l H) : Prop :=
  forall x a, R p x a -> 0 <= a -> 2 * a < H ->
  exists z, p_sqrt D x = Ret z /\ R p z (Z.sqrt a).

(** Capacity of the promotion of a layout. *)
Definition cap (L : layout) : Z := 2 ^ (2 * Spec.bits L - 1).
Definition promotes (b : build) (L : layout) : Type := promo_ok (promo_of b L) (lty L) (cap L).

Lemma cap_hi L : cap L = 2 * (hi L + 1) * (hi L + 1).
Proof. destruct L; reflexivity. Qed.

(** ** Rounding in terms of the truncated quotient *)
Definition up (m : mode) (n d : Z) : bool :=
  negb (Z.rem n d =? 0) &&
  match m with
  | Floor => Z.sgn n * Z.sgn d =? -1
  | Ceil => Z.sgn n * Z.sgn d =? 1
  | Nearest => Z.abs d <=? 2 * Z.abs (Z.rem n d)
  end.

Lemma quot_opp_opp n d : d <> 0 -> Z.quot (- n) (- d) = Z.quot n d.
Proof. intros H. apply Z.quot_opp_opp. assumption. Qed.

Lemma rnd_trunc m n d : d <> 0 ->
  rnd m n d = Z.quot n d + (if up m n d then Z.sgn n * Z.sgn d else 0).
Proof.
  assert (forall n d, 0 < d ->
    rnd m n d = Z.quot n d + (if up m n d then Z.sgn n * Z.sgn d else 0)) as Hpos.
  { clear n d. intros n d Hd. apply rnd_eq; [assumption|].
    pose proof (Z.quot_rem n d ltac:(lia)) as E.
    assert (Z.abs (Z.rem n d) < d) as A by (pose proof (Z.rem_bound_abs n d ltac:(lia)); lia).
    assert (0 <= n -> 0 <= Z.rem n d) as S1 by (intros; apply Z.rem_nonneg; lia).
    assert (n <= 0 -> Z.rem n d <= 0) as S2 by (intros; apply Z.rem_nonpos; lia).
    assert (0 <= n -> 0 <= Z.quot n d) as S3 by (intros; apply Z.quot_pos; lia).
    assert (n <= 0 -> Z.quot n d <= 0) as S4.
    { intros. rewrite <- (Z.opp_involutive n), Z.quot_opp_l by lia.
      pose proof (Z.quot_pos (- n) d). lia. }
    unfold up. revert E A S1 S2 S3 S4.
    generalize (Z.quot n d) (Z.rem n d). intros q l E A S1 S2 S3 S4.
    rewrite (Z.sgn_pos d), Z.mul_1_r by assumption.
    destruct (Z.eqb_spec l 0) as [->|Hl]; simpl negb; cbn [andb].
    - destruct m; unfold zrounds; [nia| |nia].
      replace (n - (q + 0) * d) with 0 by lia. lia.
    - destruct (Z.sgn_spec n) as [[Hn ->]|[[Hn ->]|[Hn ->]]]; [|lia|];
        destruct m; simpl Z.eqb; cbn iota; unfold zrounds; try nia;
        destruct (Z.leb_spec (Z.abs d) (2 * Z.abs l)).
      + replace (n - (q + 1) * d) with (l - d) by lia. split; [lia|]. nia.
      + replace (n - (q + 0) * d) with l by lia. lia.
      + replace (n - (q + -1) * d) with (l + d) by lia. split; [lia|]. nia.
      + replace (n - (q + 0) * d) with l by lia. lia. }
  intros Hd. destruct (Z_lt_dec 0 d) as [H|H]; [apply Hpos; assumption|].
  rewrite <- (rnd_opp m n d Hd), Hpos by lia. rewrite quot_opp_opp by assumption.
  f_equal. unfold up. rewrite !Z.sgn_opp, Z.abs_opp, Z.rem_opp_opp by assumption.
  rewrite Z.abs_opp. replace (- Z.sgn n * - Z.sgn d) with (Z.sgn n * Z.sgn d) by lia.
  replace (- Z.rem n d =? 0) with (Z.rem n d =? 0) by lia. reflexivity.
Qed.

(** ** The result of an operation with an ideal value *)
Definition chkr (L : layout) (r : Z) : result Z aerr :=
  if fitsb (lty L) r then Ok r else Err Overflow.

Lemma chkr_spec L r : exact_or_overflow L r (Ret (chkr L r)).
Proof.
  unfold chkr, exact_or_overflow. destruct (fits_dec (lty L) r) as [H|H].
  - left. rewrite fitsb_true by assumption. split; [apply fits_lty, H|reflexivity].
  - right. rewrite fitsb_false by assumption. split; [rewrite <- fits_lty; exact H|reflexivity].
Qed.
Lemma ok_or_chk L r : ok_or (chk (lty L) r) Overflow = chkr L r.
Proof. unfold chk, chkr. destruct (fitsb (lty L) r); reflexivity. Qed.
Lemma chkr_ok L r : in_range L r -> chkr L r = Ok r.
Proof. intros H. unfold chkr. rewrite fitsb_true by (apply fits_lty, H). reflexivity. Qed.
Lemma chkr_err L r : ~ in_range L r -> chkr L r = Err Overflow.
Proof. intros H. unfold chkr. rewrite fitsb_false by (rewrite fits_lty; exact H). reflexivity. Qed.

(** If the truncated quotient is out of range then so is the rounded one. *)
Lemma sgn_range L x : in_range L (Z.sgn x).
Proof. unfold in_range. rewrite lo_hi. pose proof (hi_pos L). lia. Qed.

Lemma quot_sign n d : d <> 0 ->
  (0 < Z.quot n d -> Z.sgn n * Z.sgn d = 1) /\ (Z.quot n d < 0 -> Z.sgn n * Z.sgn d = -1).
Proof.
  intros Hd. pose proof (Z.quot_rem n d Hd) as E.
  pose proof (Z.rem_bound_abs n d Hd) as A.
  assert (0 <= Z.rem n d * n) as S by (apply Z.rem_sign_mul; assumption).
  revert E A S. generalize (Z.quot n d) (Z.rem n d). intros q l E A S.
  destruct (Z.sgn_spec n) as [[Hn ->]|[[Hn ->]|[Hn ->]]];
  destruct (Z.sgn_spec d) as [[Hd' ->]|[[Hd' ->]|[Hd' ->]]]; split; intros; try lia; nia.
Qed.

Lemma rnd_overflow L m n d : d <> 0 -> ~ in_range L (Z.quot n d) -> ~ in_range L (rnd m n d).
Proof.
  intros Hd H. rewrite rnd_trunc by assumption. destruct (quot_sign n d Hd) as [S1 S2].
  unfold in_range in *. rewrite lo_hi in *. pose proof (hi_pos L).
  destruct (up m n d); lia.
Qed.

Lemma wrap_i32_small z : -1 <= z <= 1 -> wrap I32 z = z.
Proof. intros H. apply wrap_fits. bounds I32. unfold fits. lia. Qed.
Lemma sgn_mul_small x y : -1 <= Z.sgn x * Z.sgn y <= 1.
Proof. nia. Qed.

Lemma abs_quot_le n d : d <> 0 -> Z.abs (Z.quot n d) <= Z.abs n.
Proof.
  intros Hd.
  rewrite <- Z.quot_abs by assumption. apply Z.quot_le_upper_bound; nia.
Qed.

(** Linear facts about truncated division. *)
Lemma quot_rem_facts n d : d <> 0 ->
  n - Z.quot n d * d = Z.rem n d /\ Z.abs (Z.rem n d) < Z.abs d /\
  (0 <= n -> 0 <= Z.rem n d <= n) /\ (n <= 0 -> n <= Z.rem n d <= 0).
Proof.
  intros Hd. pose proof (Z.quot_rem n d Hd) as E. pose proof (Z.rem_bound_abs n d Hd) as A.
  assert (Z.abs (Z.rem n d) <= Z.abs n) as B.
  { rewrite <- Z.rem_abs by assumption. apply Z.rem_le; lia. }
  assert (0 <= n -> 0 <= Z.rem n d) by (intros; apply Z.rem_nonneg; lia).
  assert (n <= 0 -> Z.rem n d <= 0) by (intros; apply Z.rem_nonpos; lia).
  lia.
Qed.

(** ** Operations with a promoted intermediate result *)

(** The last part of [rmul]: truncated quotient [q], loss [l], sign of the product [sg]. *)
Definition mul_tail (b : build) (t : ity) (c q l sg : Z) (m : mode) : outcome (result Z aerr) :=
  add_signed_one <-
    (if mode_eqb m Nearest then
       a <- (if 0 <=? sg then s <- add b t l l ;; Ret (c <=? s) else Ret false) ;;
       if (a : bool) then Ret true
       else s <- add b t l l ;; Ret (s <=? - c)
     else Ret (negb (l =? 0) && (mode_i32 m =? sg))) ;;
  if (add_signed_one : bool) then Ret (ok_or (checked_add t q sg) Overflow) else Ret (Ok q).
(** The last part of [rdiv]: truncated quotient [q], loss [l], sign of the quotient [sg],
    divisor [d]. *)
Definition div_tail (b : build) (t : ity) (q l sg d : Z) (m : mode) : outcome (result Z aerr) :=
  if l =? 0 then Ret (Ok q)
  else
    add_signed_one <-
      (if mode_eqb m Nearest then
         loss_abs <- iabs b t l ;;
         s <- add b t loss_abs loss_abs ;;
         r <- iabs b t d ;;
         Ret (r <=? s)
       else Ret (mode_i32 m =? sg)) ;;
    if (add_signed_one : bool) then Ret (ok_or (checked_add t q sg) Overflow) else Ret (Ok q).

Section Generic.
  Context (b : build) (L : layout) (P : Z) (Hp : promotes b L) (Hv : valid b L P).

  Notation t := (lty L).

  Lemma coef_bounds : 0 < 10 ^ P <= hi L.
  Proof. destruct Hv as [_ [H0 H]]. split; [apply pow10_pos; assumption|assumption]. Qed.

  (** What [rmul] computes, for all operands. *)
  Lemma rmul_val x y m : in_range L x -> in_range L y ->
    rmul b L P x y m =
    match chk t (Z.quot (x * y) (10 ^ P)) with
    | None => Ret (Err Overflow)
    | Some q => mul_tail b t (10 ^ P) q (Z.rem (x * y) (10 ^ P)) (Z.sgn (x * y)) m
    end.
  Proof.
    intros Hx Hy. pose proof coef_bounds as Hc.
    unfold rmul. rewrite COEF_ok, NEG_COEF_ok by assumption. cbn [bind].
    assert ((hi L + 1) * (hi L + 1) < cap L) as Hcap by (rewrite cap_hi; pose proof (hi_pos L); nia).
    unfold in_range in Hx, Hy. rewrite lo_hi in Hx, Hy.
    pose proof (hi_pos L) as Hh.
    assert (fits t x) as Fx by (apply fits_lty; unfold in_range; rewrite lo_hi; lia).
    assert (fits t y) as Fy by (apply fits_lty; unfold in_range; rewrite lo_hi; lia).
    assert (fits t (10 ^ P)) as Fc by (apply fits_lty; unfold in_range; rewrite lo_hi; lia).
    pose proof (ok_from _ _ _ Hp x Fx) as Rx. pose proof (ok_from _ _ _ Hp y Fy) as Ry.
    pose proof (ok_from _ _ _ Hp _ Fc) as Rc.
    assert (Z.abs (x * y) <= (hi L + 1) * (hi L + 1)) as Bv by nia.
    destruct (ok_mul _ _ _ Hp _ _ _ _ Rx Ry ltac:(lia)) as (value & -> & Rv). cbn [bind].
    destruct (ok_div _ _ _ Hp _ _ _ _ Rv Rc ltac:(lia) ltac:(lia)) as (res & -> & Rr). cbn [bind].
    remember (x * y) as n eqn:En. remember (10 ^ P) as c eqn:Ec.
    destruct (quot_rem_facts n c ltac:(lia)) as (El & Bl & Sp & Sn).
    assert (Z.abs (Z.quot n c * c) <= Z.abs n) as Bp by lia.
    destruct (ok_mul _ _ _ Hp _ _ _ _ Rr Rc ltac:(lia)) as (prod & -> & Rpr). cbn [bind].
    destruct (ok_sub _ _ _ Hp _ _ _ _ Rv Rpr ltac:(rewrite El; lia)) as (loss & -> & Rl). cbn [bind].
    rewrite El in Rl. rewrite (ok_try _ _ _ Hp _ _ Rr). cbn [bind].
    destruct (chk t (Z.quot n c)) as [q|]; [|reflexivity].
    rewrite (ok_try _ _ _ Hp _ _ Rl). cbn [bind].
    rewrite chk_some by (apply fits_lty; unfold in_range; rewrite lo_hi; lia).
    cbn [bind unwrap_opt]. rewrite mul_ok by (apply fits_lty; rewrite <- Z.sgn_mul; apply sgn_range).
    cbn [bind]. rewrite wrap_i32_small by apply sgn_mul_small.
    rewrite <- Z.sgn_mul, <- En. reflexivity.
  Qed.

  Lemma rmul_spec x y m : in_range L x -> in_range L y ->
    (m = Nearest -> in_range L (2 * Z.rem (x * y) (10 ^ P))) ->
    rmul b L P x y m = Ret (chkr L (rnd m (x * y) (10 ^ P))).
  Proof.
    intros Hx Hy Hg. pose proof coef_bounds as Hc. rewrite rmul_val by assumption.
    remember (x * y) as n eqn:En. remember (10 ^ P) as c eqn:Ec.
    destruct (quot_rem_facts n c ltac:(lia)) as (El & Bl & Sp & Sn).
    destruct (fits_dec t (Z.quot n c)) as [Fq|Fq]; cycle 1.
    { rewrite chk_none by assumption. rewrite chkr_err; [reflexivity|].
      apply rnd_overflow; [lia|]. rewrite <- fits_lty. exact Fq. }
    rewrite chk_some by assumption. unfold mul_tail.
    rewrite rnd_trunc by lia. unfold up.
    rewrite (Z.sgn_pos c), Z.mul_1_r by lia.
    rewrite (Z.abs_eq c) by lia.
    assert (forall u u' : bool, u = u' ->
      (if u then Ret (ok_or (checked_add t (Z.quot n c) (Z.sgn n)) Overflow) else Ret (Ok (Z.quot n c)))
      = Ret (chkr L (Z.quot n c + (if u' then Z.sgn n else 0)))) as Fin.
    { intros u u' <-. destruct u; unfold checked_add; [rewrite ok_or_chk; reflexivity|].
      rewrite Z.add_0_r, chkr_ok by (apply fits_lty, Fq). reflexivity. }
    destruct m; cbn [mode_eqb mode_i32].
    - cbn [bind]. apply Fin. lia.
    - specialize (Hg eq_refl).
      assert (fits t (Z.rem n c + Z.rem n c)) as Fl.
      { apply fits_lty. replace (Z.rem n c + Z.rem n c) with (2 * Z.rem n c) by lia. exact Hg. }
      destruct (Z.leb_spec 0 (Z.sgn n)); cbn [bind]; rewrite ?add_ok by assumption; cbn [bind].
      + destruct (Z.leb_spec c (Z.rem n c + Z.rem n c)); cbn [bind]; [apply (Fin true); lia|].
        apply Fin. lia.
      + apply Fin. lia.
    - cbn [bind]. apply Fin. lia.
  Qed.

  (** What [rdiv] computes, for all operands. *)
  Lemma rdiv_val x y m : in_range L x -> in_range L y -> y <> 0 ->
    rdiv b L P x y m =
    match chk t (Z.quot (x * 10 ^ P) y) with
    | None => Ret (Err Overflow)
    | Some q => div_tail b t q (Z.rem (x * 10 ^ P) y) (Z.sgn (x * 10 ^ P) * Z.sgn y) y m
    end.
  Proof.
    intros Hx Hy Hy0. pose proof coef_bounds as Hc.
    unfold rdiv. destruct (Z.eqb_spec y 0) as [|_]; [congruence|].
    rewrite COEF_ok by assumption. cbn [bind].
    assert ((hi L + 1) * (hi L + 1) < cap L) as Hcap by (rewrite cap_hi; pose proof (hi_pos L); nia).
    pose proof Hy as Ry'. unfold in_range in Hx, Hy. rewrite lo_hi in Hx, Hy.
    pose proof (hi_pos L) as Hh.
    assert (fits t x) as Fx by (apply fits_lty; unfold in_range; rewrite lo_hi; lia).
    assert (fits t y) as Fy by (apply fits_lty; exact Ry').
    assert (fits t (10 ^ P)) as Fc by (apply fits_lty; unfold in_range; rewrite lo_hi; lia).
    pose proof (ok_from _ _ _ Hp x Fx) as Rx. pose proof (ok_from _ _ _ Hp y Fy) as Ry.
    pose proof (ok_from _ _ _ Hp _ Fc) as Rc.
    assert (Z.abs (x * 10 ^ P) <= (hi L + 1) * (hi L + 1)) as Bv by nia.
    destruct (ok_mul _ _ _ Hp _ _ _ _ Rx Rc ltac:(lia)) as (value & -> & Rv). cbn [bind].
    destruct (ok_div _ _ _ Hp _ _ _ _ Rv Ry ltac:(lia) ltac:(lia)) as (res & -> & Rr). cbn [bind].
    assert (Z.sgn x = Z.sgn (x * 10 ^ P)) as Es by (rewrite Z.sgn_mul, (Z.sgn_pos (10 ^ P)); lia).
    remember (x * 10 ^ P) as n eqn:En.
    destruct (quot_rem_facts n y ltac:(lia)) as (El & Bl & Sp & Sn).
    assert (Z.abs (Z.quot n y * y) <= Z.abs n) as Bp by lia.
    destruct (ok_mul _ _ _ Hp _ _ _ _ Rr Ry ltac:(lia)) as (prod & -> & Rpr). cbn [bind].
    destruct (ok_sub _ _ _ Hp _ _ _ _ Rv Rpr ltac:(rewrite El; lia)) as (loss & -> & Rl). cbn [bind].
    rewrite El in Rl. rewrite (ok_try _ _ _ Hp _ _ Rr). cbn [bind].
    destruct (chk t (Z.quot n y)) as [q|]; [|reflexivity].
    rewrite (ok_try _ _ _ Hp _ _ Rl). cbn [bind].
    rewrite chk_some by (apply fits_lty; unfold in_range; rewrite lo_hi; lia).
    cbn [bind unwrap_opt]. unfold div_tail. destruct (Z.rem n y =? 0); [reflexivity|].
    rewrite Es. rewrite mul_ok by (apply fits_lty; rewrite <- Z.sgn_mul; apply sgn_range).
    cbn [bind]. rewrite wrap_i32_small by apply sgn_mul_small. reflexivity.
  Qed.

  Lemma rdiv_zero x m : rdiv b L P x 0 m = Ret (Err DivisionByZero).
  Proof. reflexivity. Qed.
End Generic.

(** ** Signed integer types *)
Lemma signed_min t : is_signed t = true -> imin t = - imax t - 1.
Proof. destruct t; discriminate || reflexivity. Qed.
Lemma signed_max t : is_signed t = true -> 127 <= imax t.
Proof. destruct t; discriminate || (intros _; vm_compute; discriminate). Qed.
Lemma signed_lty L : is_signed (lty L) = true.
Proof. destruct L; reflexivity. Qed.

(** The result of an integer operation with an ideal value. *)
Definition chkt (t : ity) (r : Z) : result Z aerr := if fitsb t r then Ok r else Err Overflow.
Lemma chkt_chkr L r : chkt (lty L) r = chkr L r.
Proof. reflexivity. Qed.
Lemma chkt_ok t r : fits t r -> chkt t r = Ok r.
Proof. intros H. unfold chkt. rewrite fitsb_true by assumption. reflexivity. Qed.
Lemma ok_or_chkt t r : ok_or (chk t r) Overflow = chkt t r.
Proof. unfold chk, chkt. destruct (fitsb t r); reflexivity. Qed.

(** The remainder test of the [Nearest] mode cannot overflow. *)
Definition div_guard (t : ity) (m : mode) (n d : Z) : Prop :=
  m = Nearest -> Z.rem n d <> 0 -> 2 * Z.abs (Z.rem n d) <= imax t /\ d <> imin t.

Lemma div_tail_spec b t n d m : is_signed t = true -> d <> 0 -> fits t d -> fits t (Z.quot n d) ->
  div_guard t m n d ->
  div_tail b t (Z.quot n d) (Z.rem n d) (Z.sgn n * Z.sgn d) d m = Ret (chkt t (rnd m n d)).
Proof.
  intros Ht Hd Rd Rq Hg. rewrite rnd_trunc by assumption. unfold up, div_tail.
  destruct (Z.eqb_spec (Z.rem n d) 0) as [E|E].
  { cbn [negb andb]. rewrite Z.add_0_r, chkt_ok by assumption. reflexivity. }
  cbn [negb andb].
  assert (forall u u' : bool, u = u' ->
    (if u then Ret (ok_or (checked_add t (Z.quot n d) (Z.sgn n * Z.sgn d)) Overflow)
     else Ret (Ok (Z.quot n d)))
    = Ret (chkt t (Z.quot n d + (if u' then Z.sgn n * Z.sgn d else 0)))) as Fin.
  { intros u u' <-. destruct u; unfold checked_add; [rewrite ok_or_chkt; reflexivity|].
    rewrite Z.add_0_r, chkt_ok by assumption. reflexivity. }
  destruct m; cbn [mode_eqb mode_i32 bind].
  - apply Fin. lia.
  - destruct (Hg eq_refl E) as [G1 G2]. pose proof (signed_min t Ht) as Em. pose proof (signed_max t Ht).
    unfold fits in *.
    rewrite iabs_ok by (unfold fits; lia). cbn [bind].
    rewrite add_ok by (unfold fits; lia). cbn [bind].
    rewrite iabs_ok by (unfold fits; lia). cbn [bind].
    apply Fin. lia.
  - apply Fin. lia.
Qed.

Lemma rdiv_spec b L P (Hp : promotes b L) (Hv : valid b L P) x y m : in_range L x -> in_range L y -> y <> 0 ->
  div_guard (lty L) m (x * 10 ^ P) y ->
  rdiv b L P x y m = Ret (chkr L (rnd m (x * 10 ^ P) y)).
Proof.
  intros Hx Hy Hy0 Hg. rewrite (rdiv_val b L P Hp Hv) by assumption.
  destruct (fits_dec (lty L) (Z.quot (x * 10 ^ P) y)) as [Fq|Fq].
  - rewrite chk_some by assumption. apply div_tail_spec; try assumption; [apply signed_lty|apply fits_lty, Hy].
  - rewrite chk_none by assumption. rewrite chkr_err; [reflexivity|].
    apply rnd_overflow; [assumption|]. rewrite <- fits_lty. exact Fq.
Qed.

(** Integer division needs no promotion; [MIN / -1] panics. *)
Lemma quot_fits t x y : is_signed t = true -> fits t x -> y <> 0 -> ~ (x = imin t /\ y = -1) -> fits t (Z.quot x y).
Proof.
  intros Ht Hx Hy0 Hm. pose proof (abs_quot_le x y Hy0) as A. pose proof (signed_min t Ht). pose proof (signed_max t Ht).
  destruct (quot_rem_facts x y Hy0) as (El & Bl & Sp & Sn). unfold fits in *.
  destruct (Z.eq_dec (Z.quot x y) (imax t + 1)); [|lia].
  assert (x = - imax t - 1) by lia. assert (y <> -1) by lia. exfalso.
  assert (y <= -2 \/ y = 1 \/ y >= 2) as [?|[?|?]] by lia; nia.
Qed.
Lemma int_rdiv_val b t x y m : is_signed t = true -> fits t x -> fits t y -> y <> 0 ->
  ~ (x = imin t /\ y = -1) ->
  int_rdiv b t x y m = div_tail b t (Z.quot x y) (Z.rem x y) (Z.sgn x * Z.sgn y) y m.
Proof.
  intros Ht Hx Hy Hy0 Hm. unfold int_rdiv. destruct (Z.eqb_spec y 0) as [|_]; [congruence|].
  pose proof (quot_fits t x y Ht Hx Hy0 Hm) as Fq. pose proof (signed_min t Ht). pose proof (signed_max t Ht).
  destruct (quot_rem_facts x y Hy0) as (El & Bl & Sp & Sn). unfold fits in Hx, Hy.
  rewrite div_ok by assumption. cbn [bind].
  rewrite mul_ok by (unfold fits; destruct (Z_le_dec 0 x); lia). cbn [bind].
  rewrite sub_ok by (unfold fits; rewrite El; destruct (Z_le_dec 0 x); lia). cbn [bind].
  rewrite El. unfold div_tail. destruct (Z.rem x y =? 0); [reflexivity|].
  rewrite mul_ok by (unfold fits; rewrite <- Z.sgn_mul; lia).
  cbn [bind]. rewrite wrap_i32_small by apply sgn_mul_small. reflexivity.
Qed.
Lemma int_rdiv_spec b t x y m : is_signed t = true -> fits t x -> fits t y -> y <> 0 ->
  ~ (x = imin t /\ y = -1) -> div_guard t m x y ->
  int_rdiv b t x y m = Ret (chkt t (rnd m x y)).
Proof.
  intros Ht Hx Hy Hy0 Hm Hg. rewrite int_rdiv_val by assumption.
  apply div_tail_spec; try assumption. apply quot_fits; assumption.
Qed.
Lemma int_rdiv_min b t m : is_signed t = true -> int_rdiv b t (imin t) (-1) m = Panic.
Proof.
  intros Ht. unfold int_rdiv, div. change (-1 =? 0) with false. cbv iota.
  rewrite fitsb_false; [reflexivity|]. change (-1) with (- (1)). rewrite Z.quot_opp_r, Z.quot_1_r by lia.
  unfold fits. rewrite (signed_min t Ht). lia.
Qed.
