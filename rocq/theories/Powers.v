(** * Powers: laws of [next_power_of_ten]. *)
From Coq Require Import Lia QArith.
From Verif Require Import Base Promo Ops Spec BaseFacts RoundFacts ArithProofs SimpleProofs OrderFacts DecProofs LawFacts.
From Verif Require Import Fixed.
Open Scope Z_scope.

Lemma npt_least b L x y : in_range L x -> 0 < x -> next_power_of_ten b L x = Ret (Ok y) ->
  exists k, 0 <= k /\ y = 10 ^ k /\ x <= 10 ^ k /\ (forall j, 0 <= j -> x <= 10 ^ j -> k <= j).
Proof.
  intros Hx H0 E. destruct (npt_pos_spec b L x Hx H0) as (k & K0 & K1 & K2 & [[R F]|[R F]]); rewrite F in E; [|discriminate E].
  exists k. assert (y = 10 ^ k) by congruence. auto.
Qed.
Lemma npt_is b L x k : in_range L x -> 0 < x -> 0 <= k -> x <= 10 ^ k -> (forall j, 0 <= j -> x <= 10 ^ j -> k <= j) -> in_range L (10 ^ k) ->
  next_power_of_ten b L x = Ret (Ok (10 ^ k)).
Proof.
  intros Hx H0 Hk H1 H2 R. destruct (npt_pos_spec b L x Hx H0) as (k' & K0 & K1 & K2 & F).
  assert (k = k') as <- by (specialize (H2 k' K0 K1); specialize (K2 k Hk H1); lia).
  destruct F as [[_ F]|[N _]]; [exact F|contradiction].
Qed.
Lemma npt_close b L x y : in_range L x -> 0 < x -> next_power_of_ten b L x = Ret (Ok y) -> x <= y < 10 * x.
Proof.
  intros Hx H0 E. destruct (npt_least b L x y Hx H0 E) as (k & K0 & -> & K1 & K2). split; [exact K1|].
  destruct (Z.eq_dec k 0) as [->|Hk]; [rewrite Z.pow_0_r in *; lia|].
  assert (~ x <= 10 ^ (k - 1)) as N by (intros C; specialize (K2 (k - 1) ltac:(lia) C); lia).
  replace (10 ^ k) with (10 * 10 ^ (k - 1)); [lia|]. rewrite <- Z.pow_succ_r by lia. f_equal. lia.
Qed.
Lemma npt_opp b L x y : in_range L x -> x <> 0 -> x <> lo L -> next_power_of_ten b L x = Ret (Ok y) -> next_power_of_ten b L (- x) = Ret (Ok (- y)).
Proof.
  intros Hx H0 Hl E. destruct (Z.lt_trichotomy x 0) as [Hs|[Hs|Hs]]; [|lia|].
  - destruct (npt_neg_spec b L x Hx Hs Hl) as [(v & A & B)|[A B]]; rewrite B in E; [|discriminate E].
    rewrite A. do 2 f_equal. assert (y = - v) by congruence. lia.
  - assert (in_range L (- x)) as Hn by (unfold in_range in *; rewrite lo_hi in *; lia).
    destruct (npt_neg_spec b L (- x) Hn ltac:(lia) ltac:(unfold in_range in *; rewrite lo_hi in *; lia)) as [(v & A & B)|[A B]]; rewrite Z.opp_involutive in A; rewrite A in E; [|discriminate E].
    rewrite B. do 2 f_equal. assert (y = v) by congruence. lia.
Qed.
Lemma npt_sign b L x y : in_range L x -> next_power_of_ten b L x = Ret (Ok y) -> x < 0 /\ y < 0 \/ x = 0 /\ y = 1 \/ 0 < x /\ 0 < y.
Proof.
  intros Hx E. destruct (Z.lt_trichotomy x 0) as [Hs|[Hs|Hs]].
  - left. split; [exact Hs|]. destruct (Z.eq_dec x (lo L)) as [->|Hl]; [rewrite npt_min in E; discriminate E|].
    apply npt_opp in E; try lia; try assumption. apply npt_close in E; [lia| |lia]. unfold in_range in *; rewrite lo_hi in *; lia.
  - right; left. split; [exact Hs|]. subst x. rewrite npt_zero in E. change EPSILON with 1 in E. congruence.
  - right; right. split; [exact Hs|]. apply npt_close in E; [lia|assumption..].
Qed.
Lemma npt_mono_pos b b' L x x' y y' : in_range L x -> in_range L x' -> 0 < x <= x' ->
  next_power_of_ten b L x = Ret (Ok y) -> next_power_of_ten b' L x' = Ret (Ok y') -> y <= y'.
Proof.
  intros Hx Hx' [H0 H] E E'. destruct (npt_least b L x y Hx H0 E) as (k & K0 & -> & K1 & K2).
  destruct (npt_least b' L x' y' Hx' ltac:(lia) E') as (k' & K0' & -> & K1' & K2').
  apply Z.pow_le_mono_r; [lia|]. apply K2; lia.
Qed.
Lemma npt_mono b b' L x x' y y' : in_range L x -> in_range L x' -> x <= x' ->
  next_power_of_ten b L x = Ret (Ok y) -> next_power_of_ten b' L x' = Ret (Ok y') -> y <= y'.
Proof.
  intros Hx Hx' H E E'. pose proof (npt_sign _ _ _ _ Hx E) as S. pose proof (npt_sign _ _ _ _ Hx' E') as S'.
  destruct (Z.lt_trichotomy x 0) as [Hs|[Hs|Hs]]; [|lia|apply (npt_mono_pos b b' L x x'); try assumption; lia].
  destruct (Z.lt_trichotomy x' 0) as [Hs'|[Hs'|Hs']]; [|lia|lia].
  assert (x <> lo L) by (intros ->; rewrite npt_min in E; discriminate E).
  assert (x' <> lo L) by (intros ->; rewrite npt_min in E'; discriminate E').
  apply npt_opp in E, E'; try assumption; try lia.
  assert (- y' <= - y); [|lia]. apply (npt_mono_pos b' b L (- x') (- x)); try assumption; try lia; unfold in_range in *; rewrite lo_hi in *; lia.
Qed.
Lemma npt_scale_pos b L x y : in_range L (x * 10) -> in_range L (y * 10) -> 0 < x -> next_power_of_ten b L x = Ret (Ok y) ->
  next_power_of_ten b L (x * 10) = Ret (Ok (y * 10)).
Proof.
  intros R1 R2 H0 E. assert (in_range L x) as Hx by (unfold in_range in *; rewrite lo_hi in *; lia).
  destruct (npt_least b L x y Hx H0 E) as (k & K0 & -> & K1 & K2).
  assert (10 ^ k * 10 = 10 ^ (k + 1)) as P by (rewrite Z.pow_add_r by lia; reflexivity). rewrite P in *.
  apply npt_is; try assumption; try lia. intros j J0 J1.
  destruct (Z.eq_dec j 0) as [->|Hj]; [cbn in J1; lia|]. assert (k <= j - 1); [|lia]. apply K2; [lia|].
  replace j with (j - 1 + 1) in J1 by lia. rewrite Z.pow_add_r in J1 by lia. lia.
Qed.
Lemma ten_lo L x : x * 10 <> lo L.
Proof. intros N. assert (x * 10 mod 10 = 0) as M by apply Z_mod_mult. rewrite N in M. clear - M. destruct L; vm_compute in M; discriminate M. Qed.
Lemma npt_scale b L x y x10 y10 : x <> 0 -> in_range L x -> next_power_of_ten b L x = Ret (Ok y) -> cmul L x 10 = Ok x10 -> cmul L y 10 = Ok y10 ->
  next_power_of_ten b L x10 = Ret (Ok y10).
Proof.
  intros H0 Hx E Ex Ey. rewrite cmul_eq in Ex, Ey. apply chkr_inv in Ex, Ey. destruct Ex as [-> Rx], Ey as [-> Ry].
  destruct (Z.lt_trichotomy x 0) as [Hs|[Hs|Hs]]; [|lia|now apply npt_scale_pos].
  assert (x <> lo L) as Hl by (intros ->; rewrite npt_min in E; discriminate E).
  pose proof (npt_sign _ _ _ _ Hx E) as S.
  apply npt_opp in E; try assumption.
  pose proof (ten_lo L x) as Nx. pose proof (ten_lo L y) as Ny. clear Hx.
  assert (in_range L (- x * 10)) as Rx' by (unfold in_range in *; rewrite lo_hi in *; lia).
  assert (in_range L (- y * 10)) as Ry' by (unfold in_range in *; rewrite lo_hi in *; lia).
  apply npt_scale_pos in E; try assumption; [|lia].
  replace (x * 10) with (- (- x * 10)) by ring. replace (y * 10) with (- (- y * 10)) by ring.
  apply npt_opp; try assumption; unfold in_range in *; rewrite lo_hi in *; lia.
Qed.
Lemma npt_fixed b L x : in_range L x -> 0 < x -> (next_power_of_ten b L x = Ret (Ok x) <-> exists k, 0 <= k /\ x = 10 ^ k).
Proof.
  intros Hx H0. split.
  - intros E. destruct (npt_least b L x x Hx H0 E) as (k & K0 & K & _). eauto.
  - intros (k & K0 & ->). apply npt_is; try assumption; [lia|]. intros j J0 J. destruct (Z.le_gt_cases k j) as [C|C]; [exact C|].
    pose proof (Z.pow_lt_mono_r 10 j k ltac:(lia) K0 C). lia.
Qed.
Lemma npt_dec b L P x y : in_range L x -> 0 < x -> next_power_of_ten b L x = Ret (Ok y) -> (dec P x <= dec P y < 10 * dec P x)%Q.
Proof.
  intros Hx H0 E. destruct (npt_close b L x y Hx H0 E) as [A B].
  assert (0 < q10 (- P))%Q as Hq by apply q10_gt0.
  unfold dec. split; [apply Qmult_le_compat_r; [now apply Zq_le|now apply Qlt_le_weak]|].
  setoid_replace (10 * (Zq x * q10 (- P)))%Q with (Zq (10 * x) * q10 (- P))%Q by (rewrite Zq_mul; unfold Zq; ring).
  apply Qmult_lt_compat_r; [exact Hq|now apply Zq_lt].
Qed.
