(** * SimpleProofs: operations that work on the raw integer directly. *)
From Coq Require Import Lqa Qpower Permutation.
From Verif Require Import Base Promo ConstFn Ops Fixed Client Spec BaseFacts RoundFacts ArithProofs.

Lemma q10_gt0 e : (0 < q10 e)%Q.
Proof. unfold q10. apply Qpower_0_lt. reflexivity. Qed.
Lemma dec_le P x y : (dec P x <= dec P y)%Q <-> x <= y.
Proof. unfold dec. rewrite Qmult_le_r by apply q10_gt0. apply Zq_le. Qed.
Lemma dec_lt P x y : (dec P x < dec P y)%Q <-> x < y.
Proof. unfold dec. rewrite Qmult_lt_r by apply q10_gt0. apply Zq_lt. Qed.
Lemma dec_eq P x y : (dec P x == dec P y)%Q <-> x = y.
Proof.
  split; [|intros ->; reflexivity]. intros E.
  assert (x <= y) by (apply (dec_le P); rewrite E; apply Qle_refl).
  assert (y <= x) by (apply (dec_le P); rewrite E; apply Qle_refl). lia.
Qed.
Lemma dec_add P x y : (dec P (x + y) == dec P x + dec P y)%Q.
Proof. unfold dec. rewrite Zq_add. ring. Qed.
Lemma dec_opp P x : (dec P (- x) == - dec P x)%Q.
Proof. unfold dec. rewrite Zq_opp. ring. Qed.
Lemma dec_sub P x y : (dec P (x - y) == dec P x - dec P y)%Q.
Proof. unfold Z.sub. rewrite dec_add, dec_opp. reflexivity. Qed.
Lemma dec_mul P x n : (dec P (x * n) == dec P x * Zq n)%Q.
Proof. unfold dec. rewrite Zq_mul. ring. Qed.
Lemma dec_0 P : (dec P 0 == 0)%Q.
Proof. unfold dec, Zq. simpl. reflexivity. Qed.
Lemma dec_1 P : (dec P 1 == q10 (- P))%Q.
Proof. unfold dec. change (Zq 1) with 1%Q. ring. Qed.
Lemma dec_abs P x : (dec P (Z.abs x) == Qabs (dec P x))%Q.
Proof.
  unfold dec. rewrite Qabs_Qmult. rewrite (Qabs_pos (q10 (- P))) by (apply Qlt_le_weak, q10_gt0).
  unfold Zq, inject_Z, Qabs. reflexivity.
Qed.
Lemma dec_pow10 P v : 0 <= P -> (dec P (v * 10 ^ P) == Zq v)%Q.
Proof.
  intros H. rewrite dec_alt by assumption. rewrite Zq_mul.
  assert (~ (Zq (10 ^ P) == 0)%Q) by (apply Zq_nonzero; pose proof (pow10_pos P H); lia).
  field. assumption.
Qed.
Lemma dec_one P : 0 <= P -> (dec P (10 ^ P) == 1)%Q.
Proof. intros H. rewrite <- (Z.mul_1_l (10 ^ P)), dec_pow10 by assumption. reflexivity. Qed.

Lemma order_spec P x y :
  (fp_cmp x y = Lt <-> (dec P x < dec P y)%Q) /\
  (fp_cmp x y = Eq <-> (dec P x == dec P y)%Q) /\
  (fp_cmp x y = Gt <-> (dec P y < dec P x)%Q) /\
  (fp_eq x y = true <-> (dec P x == dec P y)%Q) /\
  (fp_lt x y = true <-> (dec P x < dec P y)%Q) /\
  (fp_le x y = true <-> (dec P x <= dec P y)%Q).
Proof.
  unfold fp_cmp, fp_eq, fp_lt, fp_le. rewrite !dec_lt, dec_eq, dec_le.
  rewrite Z.compare_lt_iff, Z.compare_eq_iff, Z.compare_gt_iff. lia.
Qed.
Lemma min_max_spec P x y :
  (fp_min x y = x \/ fp_min x y = y) /\ (fp_max x y = x \/ fp_max x y = y) /\
  (dec P (fp_min x y) <= dec P x)%Q /\ (dec P (fp_min x y) <= dec P y)%Q /\
  (dec P x <= dec P (fp_max x y))%Q /\ (dec P y <= dec P (fp_max x y))%Q.
Proof.
  unfold fp_min, fp_max, fp_cmp. rewrite !dec_le. destruct (Z.compare_spec x y); lia.
Qed.
Lemma constants_spec b L P : valid b L P ->
  (dec P ZERO == 0)%Q /\ (dec P fp_default == 0)%Q /\
  (exists o, ONE b L P = Ret o /\ in_range L o /\ (dec P o == 1)%Q) /\
  (dec P EPSILON == q10 (- P))%Q /\
  in_range L (MIN L) /\ in_range L (MAX L) /\
  (forall r, in_range L r -> (dec P (MIN L) <= dec P r <= dec P (MAX L))%Q).
Proof.
  intros Hv. unfold ZERO, EPSILON, fp_default, MIN, MAX. rewrite imin_lty, imax_lty.
  pose proof (hi_pos L). pose proof (lo_hi L).
  repeat split; try apply dec_0; try apply dec_1; try lia; try (apply dec_le; unfold in_range in *; lia).
  exists (10 ^ P). unfold ONE. rewrite COEF_ok by assumption.
  pose proof (coef_bounds b L P Hv). destruct Hv as [_ [Hp0 _]].
  split; [reflexivity|]. split; [unfold in_range; lia|apply dec_one; assumption].
Qed.

Lemma repr_dec L P x r : represents L P (dec P x) r <-> r = x /\ in_range L x.
Proof.
  unfold represents. rewrite dec_eq. split; [intros [H ->]|intros [-> H]]; auto.
Qed.
#[export] Instance represents_proper L P : Proper (Qeq ==> eq ==> iff) (represents L P).
Proof. intros q q' E z z' <-. unfold represents. rewrite E. reflexivity. Qed.
#[export] Instance exact_or_proper {E} L P : Proper (Qeq ==> eq ==> eq ==> iff) (@exact_or E L P).
Proof.
  intros q q' Eq e e' <- o o' <-. unfold exact_or. split; (intros [[r Hr]|[Hr Hr']]; [left|right]).
  - exists r. rewrite <- Eq. assumption.
  - split; [|assumption]. intros r. rewrite <- Eq. apply Hr.
  - exists r. rewrite Eq. assumption.
  - split; [|assumption]. intros r. rewrite Eq. apply Hr.
Qed.
Lemma chk_exact {E} L P z (e : E) : exact_or L P (dec P z) e (Ret (ok_or (chk (lty L) z) e)).
Proof.
  unfold exact_or. destruct (fits_dec (lty L) z) as [H|H].
  - left. exists z. rewrite chk_some by assumption. rewrite repr_dec, <- fits_lty. auto.
  - right. rewrite chk_none by assumption. split; [|reflexivity].
    intros r. rewrite repr_dec, <- fits_lty. tauto.
Qed.

Lemma cadd_spec L P x y : exact_or L P (dec P x + dec P y) Overflow (Ret (cadd L x y)).
Proof. rewrite <- dec_add. apply chk_exact. Qed.
Lemma csub_spec L P x y : exact_or L P (dec P x - dec P y) Overflow (Ret (csub L x y)).
Proof. rewrite <- dec_sub. apply chk_exact. Qed.
Lemma cmul_spec L P x n : exact_or L P (dec P x * Zq n) Overflow (Ret (cmul L x n)).
Proof. rewrite <- dec_mul. apply chk_exact. Qed.
Lemma cmul_comm L n x : int_cmul_fp L n x = cmul L x n.
Proof. reflexivity. Qed.

#[export] Instance clamps_proper L P : Proper (Qeq ==> eq ==> iff) (clamps L P).
Proof. intros q q' E z z' <-. unfold clamps. rewrite E. reflexivity. Qed.
Lemma sat_clamps L P z : clamps L P (dec P z) (sat (lty L) z).
Proof.
  unfold clamps, sat. rewrite imin_lty, imax_lty, !dec_le, !dec_lt, dec_eq.
  unfold in_range. pose proof (lo_hi L). pose proof (hi_pos L).
  destruct (Z.ltb_spec z (lo L)); [lia|]. destruct (Z.ltb_spec (hi L) z); lia.
Qed.
Lemma sat_add_spec L P x y : clamps L P (dec P x + dec P y) (fp_saturating_add L x y).
Proof. rewrite <- dec_add. apply sat_clamps. Qed.
Lemma sat_sub_spec L P x y : clamps L P (dec P x - dec P y) (fp_saturating_sub L x y).
Proof. rewrite <- dec_sub. apply sat_clamps. Qed.
Lemma sat_mul_spec L P x n : clamps L P (dec P x * Zq n) (fp_saturating_mul L x n).
Proof. rewrite <- dec_mul. apply sat_clamps. Qed.
Lemma sat_mul_comm L n x : int_saturating_mul_fp L n x = fp_saturating_mul L x n.
Proof. unfold int_saturating_mul_fp, fp_saturating_mul, saturating_mul. f_equal. lia. Qed.

Lemma cneg_spec L P x : exact_or L P (- dec P x) Overflow (Ret (cneg L x)).
Proof. rewrite <- dec_opp. apply chk_exact. Qed.
Lemma cneg_val L x : in_range L x -> cneg L x = if x =? lo L then Err Overflow else Ok (- x).
Proof.
  intros H. unfold cneg, checked_neg. unfold in_range in H. pose proof (lo_hi L).
  destruct (Z.eqb_spec x (lo L)).
  - rewrite chk_none; [reflexivity|]. rewrite fits_lty. unfold in_range. lia.
  - rewrite chk_some; [reflexivity|]. rewrite fits_lty. unfold in_range. lia.
Qed.
Lemma cneg_err L x : in_range L x -> (cneg L x = Err Overflow <-> x = lo L).
Proof. intros H. rewrite cneg_val by assumption. destruct (Z.eqb_spec x (lo L)); split; congruence. Qed.
Lemma cneg_involutive L x y : in_range L x -> cneg L x = Ok y -> in_range L y /\ cneg L y = Ok x.
Proof.
  intros H. rewrite cneg_val by assumption. destruct (Z.eqb_spec x (lo L)); [discriminate|].
  intros [= <-]. assert (in_range L (- x)) as R by (unfold in_range in *; rewrite lo_hi in *; lia).
  split; [exact R|]. rewrite cneg_val by exact R. unfold in_range in *. pose proof (lo_hi L).
  destruct (Z.eqb_spec (- x) (lo L)); [lia|]. f_equal. lia.
Qed.
Lemma abs_spec L P x : in_range L x -> exact_or L P (Qabs (dec P x)) Overflow (Ret (abs L x)).
Proof.
  intros H. rewrite <- dec_abs. unfold abs. destruct (Z.ltb_spec x 0).
  - rewrite Z.abs_neq by lia. apply chk_exact.
  - rewrite Z.abs_eq by lia. left. exists x. split; [apply repr_dec; auto|reflexivity].
Qed.
Lemma abs_err L x : in_range L x -> (abs L x = Err Overflow <-> x = lo L).
Proof.
  intros H. unfold abs. pose proof (lo_hi L). pose proof (hi_pos L). destruct (Z.ltb_spec x 0).
  - apply cneg_err. assumption.
  - split; [discriminate|lia].
Qed.
Lemma signum_spec P x :
  (signum x = 1 <-> (0 < dec P x)%Q) /\ (signum x = 0 <-> (dec P x == 0)%Q) /\
  (signum x = -1 <-> (dec P x < 0)%Q).
Proof. unfold signum. rewrite <- (dec_0 P), !dec_lt, dec_eq. lia. Qed.

Lemma rtz_zero L x : round_towards_zero_by L x 0 = x.
Proof. reflexivity. Qed.
Lemma rtz_val L x p : in_range L x -> in_range L p -> p <> 0 ->
  round_towards_zero_by L x p = Z.quot x p * p.
Proof.
  intros Hx Hp Hp0. unfold round_towards_zero_by, checked_div, checked_mul.
  destruct (Z.eqb_spec p 0) as [|_]; [congruence|].
  destruct (quot_rem_facts x p Hp0) as (El & Bl & Sp & Sn). pose proof (lo_hi L). pose proof (hi_pos L).
  assert (in_range L (Z.quot x p * p)) as R.
  { unfold in_range in *. destruct (Z_le_dec 0 x); lia. }
  destruct (fits_dec (lty L) (Z.quot x p)) as [F|F].
  - rewrite chk_some by assumption. rewrite chk_some by (apply fits_lty, R). reflexivity.
  - rewrite chk_none by assumption. rewrite fits_lty in F.
    pose proof (abs_quot_le x p Hp0). unfold in_range in *. rewrite lo_hi in *.
    assert (Z.quot x p = hi L + 1 \/ Z.quot x p = - hi L - 1) as [E|E] by lia.
    + assert (x = - hi L - 1 /\ p = -1) as [-> ->]; [|lia].
      assert (x = - hi L - 1) by lia. split; [assumption|].
      assert (p <= -2 \/ p = -1 \/ p >= 1) as [?|[?|?]] by lia; [|assumption|]; rewrite E in *; nia.
    + lia.
Qed.
Lemma rtz_spec L P x p : in_range L x -> in_range L p -> p <> 0 ->
  let r := round_towards_zero_by L x p in
  in_range L r /\ (exists k, (dec P r == Zq k * dec P p)%Q) /\
  (Qabs (dec P r) <= Qabs (dec P x))%Q /\ (Qabs (dec P x - dec P r) < Qabs (dec P p))%Q /\
  (0 <= dec P x -> 0 <= dec P r)%Q /\ (dec P x <= 0 -> dec P r <= 0)%Q.
Proof.
  intros Hx Hp Hp0. cbv zeta. rewrite rtz_val by assumption.
  destruct (quot_rem_facts x p Hp0) as (El & Bl & Sp & Sn). pose proof (lo_hi L). pose proof (hi_pos L).
  rewrite <- dec_sub, <- !dec_abs, dec_le, dec_lt, <- (dec_0 P), !dec_le.
  repeat split; try lia.
  - unfold in_range in *. destruct (Z_le_dec 0 x); lia.
  - unfold in_range in *. destruct (Z_le_dec 0 x); lia.
  - exists (Z.quot x p). rewrite Z.mul_comm, dec_mul. ring.
Qed.

Lemma try_from_int_val b L P v : valid b L P ->
  try_from_int b L P v = Ret (ok_or (chk (lty L) (v * 10 ^ P)) ConvertError).
Proof.
  intros Hv. unfold try_from_int, try_from.
  pose proof (coef_bounds b L P Hv) as Hc. pose proof (lo_hi L) as Hl.
  destruct (fits_dec (lty L) v) as [F|F].
  - rewrite chk_some by assumption. rewrite COEF_ok by assumption. reflexivity.
  - rewrite chk_none by assumption. rewrite chk_none; [reflexivity|].
    rewrite fits_lty in *. unfold in_range in *. nia.
Qed.
Lemma try_from_int_spec b L P v : valid b L P ->
  exact_or L P (Zq v) ConvertError (try_from_int b L P v).
Proof.
  intros Hv. rewrite try_from_int_val by assumption.
  rewrite <- (dec_pow10 P v) by apply Hv. apply chk_exact.
Qed.

(** ** Histories *)
Definition delta (s : step) : Z := match s with SAdd v => v | SSub v => - v end.
Fixpoint total (l : list step) : Z := match l with [] => 0 | s :: l => delta s + total l end.
Lemma qtotal_dec P l : (qtotal P l == dec P (total l))%Q.
Proof.
  induction l as [|s l IH]; simpl; [rewrite dec_0; reflexivity|].
  rewrite dec_add, IH. destruct s; simpl; rewrite ?dec_opp; reflexivity.
Qed.
Lemma do_step_val L a s : do_step L a s = chkr L (a + delta s).
Proof.
  destruct s; simpl; unfold cadd, csub, int_cadd, int_csub, checked_add, checked_sub; rewrite ok_or_chk;
    reflexivity.
Qed.
Lemma run_ok L P l : forall a, in_range L a ->
  (forall pre post, l = pre ++ post -> exists r, represents L P (dec P a + qtotal P pre) r) ->
  exists r, run_steps L a l = Ok r /\ represents L P (dec P a + qtotal P l) r.
Proof.
  induction l as [|s l IH]; intros a Ha H; simpl run_steps.
  - exists a. split; [reflexivity|]. simpl. rewrite Qplus_0_r, repr_dec. auto.
  - rewrite do_step_val. destruct (H [s] l eq_refl) as [r Hr]. simpl qtotal in Hr.
    assert (dec P a + (qdelta P s + 0) == dec P (a + delta s))%Q as E.
    { rewrite dec_add. destruct s; simpl; rewrite ?dec_opp; ring. }
    rewrite E, repr_dec in Hr. destruct Hr as [-> Hr]. rewrite chkr_ok by assumption.
    destruct (IH (a + delta s) Hr) as (r' & E' & R').
    + intros pre post ->. destruct (H (s :: pre) post eq_refl) as [r'' H'']. exists r''.
      rewrite <- E. simpl in H''. rewrite <- Qplus_assoc, Qplus_0_r. assumption.
    + exists r'. split; [assumption|]. rewrite <- E in R'. simpl.
      rewrite <- Qplus_assoc, Qplus_0_r in R'. assumption.
Qed.
Lemma run_err L P l : forall a e, in_range L a -> run_steps L a l = Err e ->
  e = Overflow /\ exists pre post, l = pre ++ post /\
    (forall r, ~ represents L P (dec P a + qtotal P pre) r) /\
    (forall p1 p2, pre = p1 ++ p2 -> p2 <> [] -> exists r, represents L P (dec P a + qtotal P p1) r).
Proof.
  induction l as [|s l IH]; intros a e Ha; simpl run_steps; [discriminate|].
  rewrite do_step_val.
  assert (dec P a + (qdelta P s + 0) == dec P (a + delta s))%Q as E.
  { rewrite dec_add. destruct s; simpl; rewrite ?dec_opp; ring. }
  destruct (fits_dec (lty L) (a + delta s)) as [F|F]; rewrite fits_lty in F.
  - rewrite chkr_ok by assumption. intros Hr. destruct (IH _ _ F Hr) as (-> & pre & post & -> & N & Y).
    split; [reflexivity|]. exists (s :: pre), post. split; [reflexivity|]. split.
    + intros r. simpl. intros H. apply (N r). rewrite <- E, <- Qplus_assoc, Qplus_0_r. assumption.
    + intros [|s' p1] p2; simpl app; intros Ep Hn.
      * exists a. simpl. rewrite Qplus_0_r, repr_dec. auto.
      * injection Ep as <- Ep. destruct (Y p1 p2 Ep Hn) as [r Hr']. exists r. simpl.
        rewrite <- E, <- Qplus_assoc, Qplus_0_r in Hr'. assumption.
  - rewrite chkr_err by assumption. intros [= <-]. split; [reflexivity|].
    exists [s], l. split; [reflexivity|]. split.
    + intros r. simpl. rewrite E, repr_dec. tauto.
    + intros [|s' p1] p2; simpl app; intros Ep Hn.
      * exists a. simpl. rewrite Qplus_0_r, repr_dec. auto.
      * injection Ep as <- Ep. destruct p1, p2; simpl in Ep; congruence.
Qed.
Lemma total_perm l l' : Permutation l l' -> total l = total l'.
Proof. induction 1; simpl; lia. Qed.
Lemma run_total L l : forall a r, run_steps L a l = Ok r -> r = a + total l.
Proof.
  induction l as [|s l IH]; intros a r; simpl; [intros [= <-]; lia|].
  rewrite do_step_val. unfold chkr. destruct (fitsb (lty L) (a + delta s)); [|discriminate].
  intros H. rewrite (IH _ _ H). lia.
Qed.
Lemma run_perm L a l l' r r' : Permutation l l' ->
  run_steps L a l = Ok r -> run_steps L a l' = Ok r' -> r = r'.
Proof. intros Hp H H'. rewrite (run_total _ _ _ _ H), (run_total _ _ _ _ H'), (total_perm _ _ Hp). reflexivity. Qed.

(** ** Default saturating methods *)
Lemma dsat_add {E} L P (cadd : Z -> Z -> outcome (result Z E)) (e : E) x y :
  in_range L x -> in_range L y -> exact_or L P (dec P x + dec P y) e (cadd x y) ->
  exists r, default_saturating_add cadd (fun y => y <? 0) (lo L) (hi L) x y = Ret r /\
    clamps L P (dec P x + dec P y) r.
Proof.
  intros Hx Hy H. unfold default_saturating_add. rewrite <- dec_add in H.
  match goal with |- exists r, ?o = Ret r /\ _ =>
    cut (exists r, o = Ret r /\ clamps L P (dec P (x + y)) r);
    [intros (r & Er & C); exists r; rewrite <- dec_add; split; assumption|] end.
  unfold clamps. pose proof (lo_hi L). pose proof (hi_pos L). unfold in_range in *.
  destruct H as [(r & Hr & ->)|[Hr ->]]; cbn [bind].
  - rewrite repr_dec in Hr. destruct Hr as [-> Hr]. exists (x + y). split; [reflexivity|].
    rewrite !dec_le, !dec_lt, dec_eq. unfold in_range in *. lia.
  - specialize (Hr (x + y)). rewrite repr_dec in Hr. unfold in_range in Hr.
    eexists. split; [reflexivity|].
    rewrite !dec_le, !dec_lt, dec_eq. destruct (Z.ltb_spec y 0); lia.
Qed.
Lemma dsat_sub {E} L P (csub : Z -> Z -> outcome (result Z E)) (e : E) x y :
  in_range L x -> in_range L y -> exact_or L P (dec P x - dec P y) e (csub x y) ->
  exists r, default_saturating_sub csub (fun y => y <? 0) (lo L) (hi L) x y = Ret r /\
    clamps L P (dec P x - dec P y) r.
Proof.
  intros Hx Hy H. unfold default_saturating_sub. rewrite <- dec_sub in H.
  match goal with |- exists r, ?o = Ret r /\ _ =>
    cut (exists r, o = Ret r /\ clamps L P (dec P (x - y)) r);
    [intros (r & Er & C); exists r; rewrite <- dec_sub; split; assumption|] end.
  unfold clamps. pose proof (lo_hi L). pose proof (hi_pos L). unfold in_range in *.
  destruct H as [(r & Hr & ->)|[Hr ->]]; cbn [bind].
  - rewrite repr_dec in Hr. destruct Hr as [-> Hr]. exists (x - y). split; [reflexivity|].
    rewrite !dec_le, !dec_lt, dec_eq. unfold in_range in *. lia.
  - specialize (Hr (x - y)). rewrite repr_dec in Hr. unfold in_range in Hr.
    eexists. split; [reflexivity|].
    rewrite !dec_le, !dec_lt, dec_eq. destruct (Z.ltb_spec y 0); lia.
Qed.
Lemma dsat_mul {E} L P (cmul : Z -> Z -> outcome (result Z E)) (e : E) x n :
  in_range L x -> in_range L n -> exact_or L P (dec P x * Zq n) e (cmul x n) ->
  exists r, default_saturating_mul cmul (fun x => x <? 0) (fun y => y <? 0) (lo L) (hi L) x n = Ret r /\
    clamps L P (dec P x * Zq n) r.
Proof.
  intros Hx Hy H. unfold default_saturating_mul. rewrite <- dec_mul in H.
  match goal with |- exists r, ?o = Ret r /\ _ =>
    cut (exists r, o = Ret r /\ clamps L P (dec P (x * n)) r);
    [intros (r & Er & C); exists r; rewrite <- dec_mul; split; assumption|] end.
  unfold clamps. pose proof (lo_hi L). pose proof (hi_pos L). unfold in_range in *.
  destruct H as [(r & Hr & ->)|[Hr ->]]; cbn [bind].
  - rewrite repr_dec in Hr. destruct Hr as [-> Hr]. exists (x * n). split; [reflexivity|].
    rewrite !dec_le, !dec_lt, dec_eq. unfold in_range in *. lia.
  - specialize (Hr (x * n)). rewrite repr_dec in Hr. unfold in_range in Hr.
    eexists. split; [reflexivity|].
    rewrite !dec_le, !dec_lt, dec_eq.
    assert (0 <= x -> 0 <= n -> 0 <= x * n) by nia. assert (x < 0 -> n < 0 -> 0 <= x * n) by nia.
    assert (0 <= x -> n < 0 -> x * n <= 0) by nia. assert (x < 0 -> 0 <= n -> x * n <= 0) by nia.
    destruct (Z.ltb_spec x 0), (Z.ltb_spec n 0); cbn [Bool.eqb]; lia.
Qed.
