(** * OrderFacts: monotonicity, bracketing, agreement of layouts; the smallest number. *)
From Coq Require Import Lqa.
From Verif Require Import Base Promo Ops Fixed Spec BaseFacts RoundFacts ArithProofs SimpleProofs MulDiv DecProofs.
From Verif Require Import Fixed.
Open Scope Z_scope.

Lemma chkr_inv L r v : chkr L r = Ok v -> v = r /\ in_range L r.
Proof.
  intros E. destruct (chkr_spec L r) as [[R E']|[R E']]; injection E' as E'; rewrite E' in E; [|discriminate].
  injection E as ->. auto.
Qed.

(** ** Monotonicity *)
Lemma zrounds_mono m n n' d z z' : 0 < d -> n <= n' -> zrounds m n d z -> zrounds m n' d z' -> z <= z'.
Proof.
  intros Hd Hn H H'. destruct (Z_le_dec z z') as [|Hlt]; [assumption|exfalso].
  assert (z' * d + d <= z * d) as Hz by nia.
  assert (n = n') as E.
  { destruct m; unfold zrounds in *; [nia| |nia]. destruct H as [H _], H' as [H' _].
    remember (z * d) as u. remember (z' * d) as v. lia. }
  subst n'. pose proof (zrounds_unique m n d z z' Hd H H'). lia.
Qed.
Lemma rnd_mono m n n' d : 0 < d -> n <= n' -> rnd m n d <= rnd m n' d.
Proof. intros Hd Hn. eapply zrounds_mono; eauto using rnd_zrounds. Qed.

Lemma rmul_mono b L P x x' y m r r' : valid b L P -> in_range L x -> in_range L x' -> in_range L y ->
  m <> Nearest -> x <= x' -> 0 < y -> rmul b L P x y m = Ret (Ok r) -> rmul b L P x' y m = Ret (Ok r') -> r <= r'.
Proof.
  intros Hv Hx Hx' Hy Hm Hle Hp E E'. rewrite rmul_dir_val in E, E' by assumption.
  injection E as E. injection E' as E'. apply chkr_inv in E, E'. destruct E as [-> _], E' as [-> _].
  apply rnd_mono; [apply pow10_pos, Hv|nia].
Qed.
Lemma rdiv_mono b L P x x' y m r r' : valid b L P -> in_range L x -> in_range L x' -> in_range L y ->
  m <> Nearest -> x <= x' -> 0 < y -> rdiv b L P x y m = Ret (Ok r) -> rdiv b L P x' y m = Ret (Ok r') -> r <= r'.
Proof.
  intros Hv Hx Hx' Hy Hm Hle Hp E E'. rewrite rdiv_dir_val in E, E' by (assumption || lia).
  injection E as E. injection E' as E'. apply chkr_inv in E, E'. destruct E as [-> _], E' as [-> _].
  assert (0 <= P) as HP by apply Hv. pose proof (pow10_pos P HP). apply rnd_mono; [assumption|nia].
Qed.
Lemma rdiv_rmul b L P x y r s : valid b L P -> in_range L x -> in_range L y -> 0 < y ->
  rmul b L P x y Floor = Ret (Ok r) -> rdiv b L P r y Floor = Ret (Ok s) -> s <= x.
Proof.
  intros Hv Hx Hy Hp E E'. rewrite rmul_dir_val in E by (assumption || discriminate).
  injection E as E. apply chkr_inv in E. destruct E as [-> R].
  rewrite rdiv_dir_val in E' by (assumption || discriminate || lia).
  injection E' as E'. apply chkr_inv in E'. destruct E' as [-> R'].
  assert (0 <= P) as HP by apply Hv. pose proof (pow10_pos P HP) as Hc. cbn [rnd].
  apply Z.div_le_upper_bound; [assumption|].
  pose proof (Z.mul_div_le (x * y) (10 ^ P) Hc). lia.
Qed.

(** ** Bracketing *)
Definition near (n d r : Z) : Prop := r = Z.quot n d \/ (Z.rem n d <> 0 /\ r = Z.quot n d + Z.sgn n * Z.sgn d).
Lemma near_cases n d r : d <> 0 -> near n d r -> r = rnd Floor n d \/ r = rnd Ceil n d.
Proof.
  intros Hd Hn. rewrite !rnd_trunc by assumption. unfold up.
  assert (Z.rem n d <> 0 -> Z.sgn n * Z.sgn d = 1 \/ Z.sgn n * Z.sgn d = -1) as Hs.
  { intros Hr. assert (n <> 0) by (intros ->; rewrite Z.rem_0_l in Hr by assumption; contradiction).
    destruct (Z.sgn_spec n) as [[? ->]|[[? ->]|[? ->]]], (Z.sgn_spec d) as [[? ->]|[[? ->]|[? ->]]]; lia. }
  destruct (Z.eqb_spec (Z.rem n d) 0) as [E|E]; cbn [negb andb].
  - destruct Hn as [->|[C _]]; [left; lia|contradiction].
  - destruct (Hs E) as [S|S]; rewrite S in *; cbn; destruct Hn as [->|[_ ->]]; lia.
Qed.
Lemma checked_add_inv t q s r : ok_or (checked_add t q s) Overflow = Ok r -> r = q + s.
Proof. unfold checked_add, chk. destruct (fitsb _ _); cbn; congruence. Qed.
Lemma mul_tail_near b t c n m r : 0 < c ->
  mul_tail b t c (Z.quot n c) (Z.rem n c) (Z.sgn n) m = Ret (Ok r) -> near n c r.
Proof.
  intros Hc. unfold near. rewrite (Z.sgn_pos c), Z.mul_1_r by assumption.
  destruct (Z.eq_dec (Z.rem n c) 0) as [E|E].
  - rewrite E. unfold mul_tail. rewrite add_ok by (destruct t; split; vm_compute; discriminate).
    cbn [bind]. replace (c <=? 0 + 0) with false by lia. replace (0 + 0 <=? - c) with false by lia.
    change (negb (0 =? 0)) with false. destruct (0 <=? Z.sgn n), m; cbn [mode_eqb andb bind]; intros H; left; congruence.
  - unfold mul_tail. intros H.
    match type of H with bind ?o _ = _ => destruct o as [[|]| | |]; cbn [bind] in H; try discriminate end.
    + injection H as H. apply checked_add_inv in H. auto.
    + injection H as <-. auto.
Qed.
Lemma div_tail_near b t n d m r :
  div_tail b t (Z.quot n d) (Z.rem n d) (Z.sgn n * Z.sgn d) d m = Ret (Ok r) -> near n d r.
Proof.
  unfold near, div_tail. destruct (Z.eqb_spec (Z.rem n d) 0) as [E|E]; intros H.
  - injection H as <-. auto.
  - match type of H with bind ?o _ = _ => destruct o as [[|]| | |]; cbn [bind] in H; try discriminate end.
    + injection H as H. apply checked_add_inv in H. auto.
    + injection H as <-. auto.
Qed.
Lemma rmul_near b L P x y m r : valid b L P -> in_range L x -> in_range L y ->
  rmul b L P x y m = Ret (Ok r) -> near (x * y) (10 ^ P) r.
Proof.
  intros Hv Hx Hy E. rewrite (rmul_val b L P (promo_all b L) Hv) in E by assumption. unfold chk in E.
  destruct (fitsb _ _); [|discriminate]. eapply mul_tail_near; [apply pow10_pos, Hv|exact E].
Qed.
Lemma rdiv_near b L P x y m r : valid b L P -> in_range L x -> in_range L y -> y <> 0 ->
  rdiv b L P x y m = Ret (Ok r) -> near (x * 10 ^ P) y r.
Proof.
  intros Hv Hx Hy Hy0 E. rewrite (rdiv_val b L P (promo_all b L) Hv) in E by assumption. unfold chk in E.
  destruct (fitsb _ _); [|discriminate]. eapply div_tail_near. exact E.
Qed.

Lemma floor_ceil n d : 0 < d ->
  (rnd Ceil n d = rnd Floor n d \/ rnd Ceil n d = rnd Floor n d + 1) /\
  (rnd Floor n d = rnd Ceil n d <-> exists r, n = r * d).
Proof.
  intros Hd. pose proof (rnd_zrounds Floor n d Hd) as F. pose proof (rnd_zrounds Ceil n d Hd) as C.
  unfold zrounds in F, C. revert F C. generalize (rnd Floor n d) (rnd Ceil n d). intros f c F C.
  split; [nia|]. split.
  - intros ->. exists c. nia.
  - intros [r ->]. assert (f = r) by nia. assert (c = r) by nia. congruence.
Qed.
Lemma brackets_pos P d k n f r c : 0 < k -> (d * q10 P == Zq n / Zq k)%Q ->
  f = rnd Floor n k -> c = rnd Ceil n k -> (r = f \/ r = c) -> 0 <= P -> brackets P d f r c.
Proof.
  intros Hk E -> -> Hr HP. destruct (floor_ceil n k Hk) as [H1 H2].
  split; [destruct Hr; subst; lia|]. split; [assumption|]. split; [|assumption]. rewrite H2.
  pose proof (Zq_nonzero k ltac:(lia)) as Kn.
  split; intros [z Hz]; exists z.
  - apply (Qmult_inj_r _ _ (q10 P)); [pose proof (q10_gt0 P); lra|]. rewrite E, dec_scaled by assumption.
    rewrite Hz, Zq_mul. field. assumption.
  - rewrite <- Hz, dec_scaled in E by assumption. apply Zq_eq. rewrite Zq_mul, E. field. assumption.
Qed.
Lemma brackets_of P d k n f r c : k <> 0 -> (d * q10 P == Zq n / Zq k)%Q ->
  f = rnd Floor n k -> c = rnd Ceil n k -> (r = f \/ r = c) -> 0 <= P -> brackets P d f r c.
Proof.
  intros Hk E Hf Hc Hr HP. destruct (Z_lt_dec 0 k) as [H|H].
  - eapply brackets_pos; eassumption.
  - apply (brackets_pos P d (- k) (- n)); try assumption; [lia| | |].
    + rewrite Qdiv_opp by assumption. exact E.
    + rewrite rnd_opp by assumption. exact Hf.
    + rewrite rnd_opp by assumption. exact Hc.
Qed.
Lemma rmul_brackets b L P x y f n c : valid b L P -> in_range L x -> in_range L y ->
  rmul b L P x y Floor = Ret (Ok f) -> rmul b L P x y Nearest = Ret (Ok n) -> rmul b L P x y Ceil = Ret (Ok c) ->
  brackets P (dec P x * dec P y) f n c.
Proof.
  intros Hv Hx Hy Ef En Ec. apply rmul_near in En; try assumption. pose proof (coef_bounds b L P Hv) as Hc.
  assert (0 <= P) as HP by apply Hv.
  rewrite rmul_dir_val in Ef, Ec by (assumption || discriminate). injection Ef as Ef. injection Ec as Ec.
  apply chkr_inv in Ef, Ec. destruct Ef as [-> _], Ec as [-> _].
  eapply brackets_of; [|apply mul_scaled; assumption| | | |assumption]; try reflexivity; [lia|].
  apply near_cases; [lia|assumption].
Qed.
Lemma rdiv_brackets b L P x y f n c : valid b L P -> in_range L x -> in_range L y -> y <> 0 ->
  rdiv b L P x y Floor = Ret (Ok f) -> rdiv b L P x y Nearest = Ret (Ok n) -> rdiv b L P x y Ceil = Ret (Ok c) ->
  brackets P (dec P x / dec P y) f n c.
Proof.
  intros Hv Hx Hy Hy0 Ef En Ec. apply rdiv_near in En; try assumption. assert (0 <= P) as HP by apply Hv.
  rewrite rdiv_dir_val in Ef, Ec by (assumption || discriminate). injection Ef as Ef. injection Ec as Ec.
  apply chkr_inv in Ef, Ec. destruct Ef as [-> _], Ec as [-> _].
  eapply brackets_of; [|apply div_scaled; assumption| | | |assumption]; try reflexivity; [assumption|].
  apply near_cases; assumption.
Qed.
Lemma integral_near b L P x n : valid b L P -> in_range L x -> x <> lo L ->
  integral b L P x Nearest = Ret n -> near x (10 ^ P) n.
Proof.
  intros Hv Hx Hlo En. pose proof (coef_bounds b L P Hv) as Hc.
  unfold integral in En. rewrite COEF_ok in En by assumption. cbn [bind] in En.
  pose proof (lo_hi L) as LH. pose proof (hi_pos L) as HH. unfold in_range in Hx.
  assert (forall z, lo L <= z <= hi L -> fits (lty L) z) as F by (intros z Hz; apply fits_lty; exact Hz).
  clear Hv. revert Hc En. generalize (10 ^ P) as c. intros c Hc En.
  assert (c <> 0) as Hc0 by (clear - Hc; lia).
  assert (lo L <= Z.quot x c <= hi L) as Rq.
  { pose proof (abs_quot_le x c Hc0) as Aq. clear - Aq Hx Hlo LH. lia. }
  assert (Z.quot (Z.abs x) c = Z.abs (Z.quot x c)) as Eq.
  { rewrite <- (Z.abs_eq c) at 1 by (clear - Hc; lia). apply Z.quot_abs. assumption. }
  assert (Z.rem (Z.abs x) c = Z.abs (Z.rem x c)) as Er.
  { rewrite <- (Z.abs_eq c) at 1 by (clear - Hc; lia). apply Z.rem_abs. assumption. }
  assert (Z.rem x c <> 0 -> Z.abs (Z.quot x c) <= hi L - 1) as Rm by (apply quot_room; clear - Hx Hlo LH Hc; lia).
  assert (lo L <= Z.abs (Z.quot x c) <= hi L) as Rq'.
  { pose proof (abs_quot_le x c Hc0) as Aq. clear - Aq Hx Hlo LH HH. lia. }
  rewrite div_ok in En by auto. cbn [bind] in En.
  rewrite iabs_ok in En by (apply F; clear - Hx Hlo LH HH; lia). cbn [bind] in En.
  rewrite rem_ok in En by (rewrite ?Eq; auto). cbn [bind] in En.
  rewrite Er in En. cbn [mode_eqb] in En. unfold near. rewrite (Z.sgn_pos c), Z.mul_1_r by (clear - Hc; lia).
  destruct (Z.eq_dec (Z.rem x c) 0) as [E|E].
  - rewrite E in En. change (Z.abs 0) with 0 in En. rewrite add_ok in En by (apply F; clear - LH HH; lia).
    cbn [bind] in En. replace (c <=? 0 + 0) with false in En by (clear - Hc; lia). injection En as <-. auto.
  - match type of En with bind ?o _ = _ => destruct o as [[|]| | |]; cbn [bind] in En; try discriminate end.
    + rewrite add_ok in En; [injection En as <-; auto|]. apply F. specialize (Rm E). clear - Rm LH HH.
      revert Rm. generalize (Z.quot x c). intros q Rm. lia.
    + injection En as <-. auto.
Qed.
Lemma integral_brackets b L P x f n c : valid b L P -> in_range L x -> x <> lo L ->
  integral b L P x Floor = Ret f -> integral b L P x Nearest = Ret n -> integral b L P x Ceil = Ret c ->
  f <= n <= c /\ (c = f \/ c = f + 1) /\ (f = c <-> exists z, (dec P x == Zq z)%Q) /\ (n = f \/ n = c).
Proof.
  intros Hv Hx Hlo Ef En Ec. pose proof (coef_bounds b L P Hv) as Hc. assert (0 <= P) as HP by apply Hv.
  assert (near x (10 ^ P) n) as Hn by (eapply integral_near; eassumption).
  rewrite (proj1 (integral_val b L P x Floor Hv Hx Hlo ltac:(discriminate))) in Ef.
  assert (f = rnd Floor x (10 ^ P)) as -> by congruence. clear Ef.
  rewrite (proj1 (integral_val b L P x Ceil Hv Hx Hlo ltac:(discriminate))) in Ec.
  assert (c = rnd Ceil x (10 ^ P)) as -> by congruence. clear Ec.
  apply near_cases in Hn; [|lia]. destruct (floor_ceil x (10 ^ P) ltac:(lia)) as [H1 H2].
  split; [destruct Hn as [E|E]; rewrite E; clear - H1; lia|]. split; [assumption|]. split; [|assumption]. rewrite H2.
  split; intros [z Hz]; exists z.
  - rewrite Hz. apply dec_pow10. assumption.
  - rewrite <- (dec_pow10 P z HP) in Hz. apply dec_eq in Hz. assumption.
Qed.

(** ** Agreement of layouts *)
Lemma wider_hi L L' : wider L L' -> hi L <= hi L'.
Proof. destruct L, L'; unfold wider; cbn; lia || (intros _; vm_compute; discriminate). Qed.
Lemma wider_range L L' r : wider L L' -> in_range L r -> in_range L' r.
Proof. intros W. apply wider_hi in W. unfold in_range. rewrite !lo_hi. lia. Qed.
Lemma wider_same L L' : wider L L' -> lo L = lo L' -> L = L'.
Proof. destruct L, L'; intros W E; try reflexivity; vm_compute in E; discriminate. Qed.
Lemma chkr_wider L L' r v : wider L L' -> chkr L r = Ok v -> chkr L' r = Ok v.
Proof. intros W E. apply chkr_inv in E. destruct E as [-> R]. apply chkr_ok. eapply wider_range; eassumption. Qed.

Lemma rmul_wider b L L' P x y m r : valid b L P -> valid b L' P -> wider L L' -> in_range L x -> in_range L y ->
  rmul b L P x y m = Ret (Ok r) -> rmul b L' P x y m = Ret (Ok r).
Proof.
  intros Hv Hv' W Hx Hy E.
  destruct (match L, P with L128, 38 => true | _, _ => false end) eqn:D.
  - assert (L = L128) as -> by (destruct L; discriminate || reflexivity).
    assert (L' = L128) as -> by (destruct L'; try reflexivity; exfalso; apply W; reflexivity). exact E.
  - assert (~ (L = L128 /\ P = 38)) as G by (intros [-> ->]; discriminate).
    assert (~ (L' = L128 /\ P = 38)) as G'.
    { intros [-> ->]. destruct Hv as [_ [_ Hp]]. destruct L; try (apply Hp; reflexivity). apply G. auto. }
    rewrite rmul_any_val in E by auto. injection E as E.
    rewrite rmul_any_val by eauto using wider_range. f_equal. eapply chkr_wider; eassumption.
Qed.
Lemma guard_wider L L' m n y : wider L L' -> in_range L y -> div_guard (lty L) m n y -> div_guard (lty L') m n y.
Proof.
  intros W Hy G Hm Hr. specialize (G Hm Hr). rewrite imax_lty, imin_lty in *. pose proof (wider_hi L L' W).
  split; [lia|]. intros E. destruct G as [_ G]. apply G. unfold in_range in Hy. rewrite (lo_hi L), (lo_hi L') in *. lia.
Qed.
(** Success in an overflow-checked build means the guard held. *)
Lemma rdiv_ok_guard b L P x y m r : valid b L P -> in_range L x -> in_range L y -> y <> 0 -> ovf b = true ->
  rdiv b L P x y m = Ret (Ok r) -> div_guard (lty L) m (x * 10 ^ P) y.
Proof.
  intros Hv Hx Hy Hy0 Ho E Hm Hr. subst m. rewrite imax_lty, imin_lty.
  destruct (Z_le_dec (2 * Z.abs (Z.rem (x * 10 ^ P) y)) (hi L)) as [H1|H1];
    [destruct (Z.eq_dec y (lo L)) as [H2|H2]; [|auto]|]; exfalso.
  all: assert (in_range L (Z.quot (x * 10 ^ P) y)) as Rq by
    (rewrite (rdiv_val b L P (promo_all b L) Hv) in E by assumption; unfold chk in E;
     destruct (fitsb _ _) eqn:F; [|discriminate]; apply fits_lty, fitsb_fits; exact F).
  all: rewrite (rdiv_nearest_panic b L P Hv x y) in E by (assumption || (left; lia) || (right; assumption)); discriminate.
Qed.
Lemma rdiv_wider b L L' P x y m r : valid b L P -> valid b L' P -> wider L L' -> in_range L x -> in_range L y ->
  (m = Nearest -> ovf b = true) ->
  rdiv b L P x y m = Ret (Ok r) -> rdiv b L' P x y m = Ret (Ok r).
Proof.
  intros Hv Hv' W Hx Hy Ho E. destruct (Z.eq_dec y 0) as [->|Hy0]; [rewrite rdiv_zero in E; discriminate|].
  assert (div_guard (lty L) m (x * 10 ^ P) y) as G.
  { destruct m; try (intros Hm; discriminate). eapply rdiv_ok_guard; eauto. }
  rewrite (rdiv_spec b L P (promo_all b L) Hv) in E by assumption. injection E as E.
  rewrite (rdiv_spec b L' P (promo_all b L') Hv') by eauto using wider_range, guard_wider.
  f_equal. eapply chkr_wider; eassumption.
Qed.
Lemma add_sub_wider L L' x y r : wider L L' -> 
  (cadd L x y = Ok r -> cadd L' x y = Ok r) /\ (csub L x y = Ok r -> csub L' x y = Ok r) /\
  (cmul L x y = Ok r -> cmul L' x y = Ok r).
Proof.
  intros W. unfold cadd, csub, cmul, int_cadd, int_csub, int_cmul, checked_add, checked_sub, checked_mul.
  repeat split; rewrite !ok_or_chk; apply chkr_wider; assumption.
Qed.
Lemma half_sum_wider b L L' x y m : wider L L' -> in_range L x -> in_range L y ->
  half_sum b L x y m = half_sum b L' x y m.
Proof.
  intros W Hx Hy. rewrite (proj1 (half_sum_val b L x y m Hx Hy)).
  rewrite (proj1 (half_sum_val b L' x y m (wider_range _ _ _ W Hx) (wider_range _ _ _ W Hy))). reflexivity.
Qed.
Lemma to_decimal_wider b L L' P x k : valid b L P -> valid b L' P -> wider L L' -> in_range L x -> fits I32 k ->
  to_decimal b L P x k = to_decimal b L' P x k.
Proof.
  intros Hv Hv' W Hx Fk. destruct (Z_lt_dec k (- P)) as [H|H]; [rewrite !to_decimal_panic by assumption; reflexivity|].
  pose proof Hv as [_ HP]. pose proof (valid_prec_38 L P HP) as H38.
  unfold to_decimal. rewrite neg_ok by (apply (proj2 (i32_fits _)); lia). cbn [bind].
  replace (- P <=? k) with true by lia. cbn [assert_ bind]. destruct (x =? 0); [reflexivity|]. generalize 100%nat.
  assert (forall f m e, in_range L m -> to_decimal_loop b L f k m e = to_decimal_loop b L' f k m e) as Loop; [|intros f0; apply Loop; assumption].
  induction f as [|f IH]; intros m e Rm; [reflexivity|]. rewrite !loop_unfold.
  pose proof (quot10_range L m Rm) as Rq. pose proof (wider_range _ _ _ W Rq) as Rq'.
  rewrite !rem_ok by (lia || (apply fits_lty; assumption)). cbn [bind].
  rewrite !div_ok by (lia || (apply fits_lty; assumption)). cbn [bind].
  destruct (add b I32 e 1) as [e'| | |]; cbn [bind]; rewrite ?IH by assumption; reflexivity.
Qed.
Lemma from_decimal_wider b L L' P m e r : valid b L P -> valid b L' P -> wider L L' -> ovf b = true ->
  from_decimal b L P m e = Ret (Ok r) -> from_decimal b L' P m e = Ret (Ok r).
Proof.
  intros Hv Hv' W Ho E.
  destruct (Z_le_dec (- P) e) as [H1|H1]; [destruct (Z_le_dec e 10) as [H2|H2]|];
    try (rewrite from_decimal_bad in E by (assumption || lia); discriminate).
  destruct (Z_le_dec (10 ^ (e + P)) (hi L)) as [H3|H3];
    [|rewrite from_decimal_panic in E by (assumption || lia); discriminate].
  rewrite from_decimal_val in E by (assumption || lia). injection E as E.
  pose proof (wider_hi L L' W). rewrite from_decimal_val by (assumption || lia).
  unfold chk in *. destruct (fitsb (lty L) _) eqn:F; [|discriminate]. injection E as <-.
  apply fitsb_fits, fits_lty in F. rewrite fitsb_true by (apply fits_lty; eapply wider_range; eassumption). reflexivity.
Qed.

(** ** The smallest number *)
Lemma integral_min_panic b L P m : valid b L P -> ovf b = true -> integral b L P (lo L) m = Panic.
Proof.
  intros Hv Ho. unfold integral. rewrite COEF_ok by assumption. cbn [bind]. pose proof (coef_bounds b L P Hv) as Hc.
  pose proof (hi_pos L). pose proof (lo_hi L) as LH.
  assert (fits (lty L) (Z.quot (lo L) (10 ^ P))) as F.
  { apply fits_lty. unfold in_range. destruct (quot_rem_facts (lo L) (10 ^ P) ltac:(lia)) as (_ & _ & _ & Sn).
    pose proof (abs_quot_le (lo L) (10 ^ P) ltac:(lia)). lia. }
  rewrite div_ok by (assumption || lia). cbn [bind]. unfold iabs, fit. rewrite fitsb_false, Ho; [reflexivity|].
  rewrite fits_lty. unfold in_range. lia.
Qed.
(** Without overflow checks the absolute value of MIN is MIN, and the quotient is truncated. *)
Definition min_check (b : build) (L : layout) (m : mode) (P : Z) : bool :=
  if 10 ^ P <=? hi L then
    match integral b L P (lo L) m with Ret i => i =? Z.quot (lo L) (10 ^ P) | _ => false end
  else true.
Lemma min_checked b L m : supported b L -> ovf b = false -> forallb (min_check b L m) (zrange 39) = true.
Proof.
  destruct b as [o d s f]. unfold supported. cbn [ovf f128]. intros Hs ->.
  destruct d, s, f, L; try (discriminate (Hs eq_refl)); destruct m; vm_compute; reflexivity.
Qed.
Lemma integral_min_wrap b L P m : valid b L P -> ovf b = false ->
  integral b L P (lo L) m = Ret (Z.quot (lo L) (10 ^ P)).
Proof.
  intros Hv Ho. pose proof (min_checked b L m (proj1 Hv) Ho) as T. rewrite forallb_forall in T.
  pose proof Hv as [_ HP]. pose proof (valid_prec_38 L P HP) as H38.
  specialize (T P (zrange_in 39 P ltac:(lia))). unfold min_check in T. destruct HP as [_ HP].
  replace (10 ^ P <=? hi L) with true in T by lia.
  destruct (integral b L P (lo L) m) as [i| | |]; try discriminate. apply Z.eqb_eq in T. congruence.
Qed.
Lemma quot_mul_range L c x : 0 < c -> in_range L x -> in_range L (Z.quot x c * c).
Proof.
  intros Hc Hx. destruct (quot_rem_facts x c ltac:(lia)) as (El & Bl & Sp & Sn).
  unfold in_range in *. pose proof (lo_hi L). pose proof (hi_pos L).
  revert El Bl Sp Sn. generalize (Z.quot x c * c) (Z.rem x c). intros q l El Bl Sp Sn. lia.
Qed.
Lemma int_part_min_panic b L P m : valid b L P -> ovf b = true -> int_part b L P (lo L) m = Panic.
Proof. intros Hv Ho. unfold int_part. rewrite integral_min_panic by assumption. reflexivity. Qed.
Lemma int_part_min_wrap b L P m : valid b L P -> ovf b = false ->
  exists r, int_part b L P (lo L) m = Ret r /\
    (exists i, rounds Ceil (dec P (lo L)) i /\ represents L P (Zq i) r).
Proof.
  intros Hv Ho. pose proof (coef_bounds b L P Hv) as Hc. assert (0 <= P) as HP by apply Hv.
  assert (in_range L (lo L)) as Rl by (unfold in_range; rewrite lo_hi; pose proof (hi_pos L); lia).
  assert (in_range L (Z.quot (lo L) (10 ^ P) * 10 ^ P)) as R by (apply quot_mul_range; [lia|assumption]).
  exists (Z.quot (lo L) (10 ^ P) * 10 ^ P). split.
  - unfold int_part. rewrite integral_min_wrap by assumption. cbn [bind]. rewrite from_decimal_0 by assumption.
    rewrite chk_some by (apply fits_lty; assumption). reflexivity.
  - exists (Z.quot (lo L) (10 ^ P)). split; [|split; [assumption|apply dec_pow10; assumption]].
    eapply rounds_compat; [symmetry; apply dec_alt; assumption|].
    assert (Z.quot (lo L) (10 ^ P) = rnd Ceil (lo L) (10 ^ P)) as ->; [|apply rnd_rounds; lia].
    rewrite rnd_trunc by lia. unfold up. rewrite (Z.sgn_pos (10 ^ P)), (Z.sgn_neg (lo L)) by (pose proof (lo_hi L); lia).
    cbn [Z.mul Z.eqb]. rewrite andb_false_r. lia.
Qed.
Lemma integral38_panic b x : valid b L128 38 -> in_range L128 x -> x <> lo L128 -> ovf b = true ->
  hi L128 < 2 * Z.abs (Z.rem x (10 ^ 38)) -> integral b L128 38 x Nearest = Panic.
Proof.
  intros Hv Hx Hlo Ho Hr. unfold integral. rewrite COEF_ok by assumption. cbn [bind].
  pose proof (coef_bounds b L128 38 Hv) as Hc. revert Hc Hr. generalize (10 ^ 38) as c. intros c Hc Hr.
  pose proof (lo_hi L128) as LH. pose proof (hi_pos L128) as HH. unfold in_range in Hx.
  assert (forall z, lo L128 <= z <= hi L128 -> fits (lty L128) z) as F by (intros z Hz; apply fits_lty; exact Hz).
  assert (c <> 0) as Hc0 by (clear - Hc; lia).
  pose proof (abs_quot_le x c Hc0) as Aq.
  assert (Z.quot (Z.abs x) c = Z.abs (Z.quot x c)) as Eq.
  { rewrite <- (Z.abs_eq c) at 1 by (clear - Hc; lia). apply Z.quot_abs. assumption. }
  assert (Z.rem (Z.abs x) c = Z.abs (Z.rem x c)) as Er.
  { rewrite <- (Z.abs_eq c) at 1 by (clear - Hc; lia). apply Z.rem_abs. assumption. }
  rewrite div_ok by (assumption || (apply F; clear - Aq Hx Hlo LH HH; lia)). cbn [bind].
  rewrite iabs_ok by (apply F; clear - Hx Hlo LH HH; lia). cbn [bind].
  rewrite rem_ok by (assumption || (rewrite Eq; apply F; clear - Aq Hx Hlo LH HH; lia)). cbn [bind].
  rewrite Er. cbn [mode_eqb]. unfold add, fit. rewrite fitsb_false, Ho; [reflexivity|].
  rewrite fits_lty. unfold in_range. clear - Hr. lia.
Qed.
Lemma integral_min_ceil b L P m : valid b L P -> ovf b = false ->
  exists i, integral b L P (lo L) m = Ret i /\ rounds Ceil (dec P (lo L)) i.
Proof.
  intros Hv Ho. exists (Z.quot (lo L) (10 ^ P)). split; [apply integral_min_wrap; assumption|].
  destruct (int_part_min_wrap b L P m Hv Ho) as (r & E & i & Hi & [_ Hr]).
  unfold int_part in E. rewrite integral_min_wrap in E by assumption. cbn [bind] in E.
  rewrite from_decimal_0 in E by assumption. cbn [bind] in E. unfold chk in E.
  destruct (fitsb _ _) in E; [|discriminate]. injection E as E.
  assert (0 <= P) as HP by apply Hv. rewrite <- E, (dec_pow10 P _ HP) in Hr. pose proof (proj1 (Zq_eq _ _) Hr) as Hz. rewrite Hz. exact Hi.
Qed.
Lemma floor_ceil_round_spec b L P x m : valid b L P -> in_range L x -> x <> lo L ->
  (m = Nearest -> ~ (L = L128 /\ P = 38)) ->
  exists i, rounds m (dec P x) i /\
    ((exists r, represents L P (Zq i) r /\
        (match m with Floor => floor b L P x | Nearest => round b L P x | Ceil => ceil b L P x end) = Ret r) \/
     ((forall r, ~ represents L P (Zq i) r) /\
        (match m with Floor => floor b L P x | Nearest => round b L P x | Ceil => ceil b L P x end) = Panic)).
Proof. intros Hv Hx Hlo Hg. pose proof (int_part_spec b L P x m Hv Hx Hlo Hg) as H. destruct m; exact H. Qed.
Lemma from_decimal_wrap b L P m e : valid b L P -> - P <= e <= 10 -> hi L < 10 ^ (e + P) -> ovf b = false ->
  exists k, lo L <= 10 ^ (e + P) + k * 2 ^ Spec.bits L <= hi L /\
    ((in_range L (m * (10 ^ (e + P) + k * 2 ^ Spec.bits L)) /\
      from_decimal b L P m e = Ret (Ok (m * (10 ^ (e + P) + k * 2 ^ Spec.bits L)))) \/
     (~ in_range L (m * (10 ^ (e + P) + k * 2 ^ Spec.bits L)) /\ from_decimal b L P m e = Ret (Err ConvertError))).
Proof.
  intros Hv He Hm Ho. destruct (wrap_mod (lty L) (10 ^ (e + P))) as [k Ek]. rewrite width_lty in Ek.
  pose proof (fits_wrap (lty L) (10 ^ (e + P))) as F. rewrite Ek in F. exists k.
  split; [apply fits_lty in F; exact F|]. rewrite from_decimal_unfold by assumption. unfold ipow, fit.
  rewrite fitsb_false by (rewrite fits_lty; unfold in_range; lia). rewrite Ho, Ek. cbn [bind]. unfold checked_mul.
  destruct (fits_dec (lty L) (m * (10 ^ (e + P) + k * 2 ^ Spec.bits L))) as [H|H].
  - left. rewrite chk_some by assumption. split; [apply fits_lty; assumption|reflexivity].
  - right. rewrite chk_none by assumption. split; [rewrite <- fits_lty; assumption|reflexivity].
Qed.
