(** * Undo: operations that undo each other, and how far the laws of algebra are missed. *)
From Coq Require Import Lia QArith Qabs.
From Verif Require Import Base Promo ConstFn Ops Spec BaseFacts RoundFacts ArithProofs PrimPromo SimpleProofs SqrtFacts MulDiv OrderFacts DecProofs Sqrt256 Wide LawFacts.
From Verif Require Import SpecRound Programs ProgramFacts.
From Verif Require Import Fixed.
From Verif Require Import SpecUndo.
Open Scope Z_scope.

(** ** Integers *)
Lemma undo_z m x y d p : 0 < d <= y -> zrounds m (x * y) d p -> zrounds (flip m) (p * d) y x.
Proof.
  intros Hd. destruct m; cbn [flip zrounds].
  - intros [H1 H2]. split; [nia|]. nia.
  - intros [H1 H2]. split; [nia|]. intros E. assert (y = d) by lia. subst y. exfalso.
    replace (p * d - x * d) with ((p - x) * d) in E by ring. rewrite Z.abs_mul, (Z.abs_eq d) in E by lia.
    assert (2 * Z.abs (p - x) = 1) by (apply (Z.mul_reg_r _ _ d); lia). lia.
  - intros [H1 H2]. split; nia.
Qed.
Lemma mirror_z m n d z : zrounds m (- n) d (- z) <-> zrounds (flip m) n d z.
Proof.
  destruct m; cbn [flip zrounds]; [lia| |lia].
  replace (- n - - z * d) with (- (n - z * d)) by ring. rewrite !Z.abs_opp.
  replace (- z * d) with (- (z * d)) by ring. rewrite Z.abs_opp. reflexivity.
Qed.
Lemma flip2 m : flip (flip m) = m.
Proof. now destruct m. Qed.
Lemma undo_neg m x y d p : 0 < d -> y <= - d -> zrounds m (x * y) d p -> zrounds m (- (p * d)) (- y) x.
Proof.
  intros Hd Hy H. replace (x * y) with (- (x * - y)) in H by ring. replace p with (- - p) in H by lia.
  apply (proj1 (mirror_z _ _ _ _)), undo_z in H; [|lia]. rewrite flip2 in H. now replace (- (p * d)) with (- p * d) by ring.
Qed.
Lemma undo_neg2 m x y d q : 0 < - y <= d -> zrounds m (- (x * d)) (- y) q -> zrounds m (q * y) d x.
Proof.
  intros Hy H. replace (- (x * d)) with (- x * d) in H by ring. apply undo_z in H; [|lia].
  replace (q * - y) with (- (q * y)) in H by ring. apply (proj1 (mirror_z _ _ _ _)) in H. now rewrite flip2 in H.
Qed.
Lemma recip_z m x d r : 0 < x <= d -> zrounds m (d * d) x r -> x <= r /\ zrounds m (d * d) r x.
Proof.
  intros Hx H. assert (x <= r) as Hr.
  { destruct m; cbn [zrounds] in H; destruct H as [H1 H2]; nia. }
  split; [exact Hr|]. revert H. destruct m; cbn [zrounds].
  - intros [H1 H2]. split; nia.
  - intros [H1 H2]. rewrite (Z.mul_comm x r). split; [lia|]. intros E. assert (x = r) by lia. subst r. nia.
  - intros [H1 H2]. split; nia.
Qed.
Lemma root_z m x d s : 0 < d < 2 * Z.abs x -> zrounds m (x * x) d s -> 0 <= s /\ zsqrt_rounds (flip m) (s * d) (Z.abs x).
Proof.
  intros Hd H. assert (x * x = Z.abs x * Z.abs x) as E by (rewrite <- Z.abs_mul; lia). rewrite E in H.
  set (a := Z.abs x) in *. clearbody a. clear E x.
  assert (0 <= s) as Hs by (destruct m; cbn [zrounds] in H; destruct H as [H1 H2]; nia).
  split; [exact Hs|]. split; [lia|]. revert H. destruct m; cbn [flip zrounds]; intros [H1 H2].
  - split; nia.
  - split; [nia|]. intros _. nia.
  - split; [nia|]. intros _. nia.
Qed.
Lemma square_z m x d r : 0 <= x -> 2 * r < d -> zsqrt_rounds m (x * d) r -> zrounds (flip m) (r * r) d x.
Proof.
  intros Hx Hd [Hr H]. revert H. destruct m; cbn [flip zrounds]; intros [H1 H2].
  - destruct (Z.eq_dec r 0) as [->|H0].
    + split; nia.
    + specialize (H2 ltac:(lia)). split; nia.
  - assert (2 * Z.abs (r * r - x * d) <= 2 * r) as K.
    { destruct (Z.eq_dec r 0) as [->|H0]; [|specialize (H2 ltac:(lia)); lia].
      assert (0 <= x * d) by nia. lia. }
    split; lia.
  - split; nia.
Qed.

(** Sums and products. *)
Lemma drift_z m n n' d r u v : 0 < d -> zrounds m (n + n') d r -> zrounds m n d u -> zrounds m n' d v -> drift m (r - (u + v)).
Proof. intros Hd. destruct m; cbn [zrounds drift]; intros [A1 A2] [B1 B2] [C1 C2]; nia. Qed.
Definition loose (m : mode) : Z := match m with Nearest => 1 | _ => 2 end.
Lemma loose_z m n d r : 0 < d -> zrounds m n d r -> 2 * Z.abs (r * d - n) <= loose m * d.
Proof. intros Hd. destruct m; cbn [zrounds loose]; intros [A1 A2]; lia. Qed.
Lemma near_mul k a b c : 0 <= k -> Z.abs (a - b) <= k -> Z.abs (a * c - b * c) <= k * Z.abs c.
Proof. intros Hk H. rewrite <- Z.mul_sub_distr_r, Z.abs_mul. apply Z.mul_le_mono_nonneg_r; lia. Qed.
Lemma assoc_z m x y z d u v r s : 0 < d -> zrounds m (x * y) d u -> zrounds m (u * z) d r -> zrounds m (y * z) d v -> zrounds m (x * v) d s ->
  2 * Z.abs (r - s) * d <= loose m * (2 * d + Z.abs x + Z.abs z).
Proof.
  intros Hd U R V S. apply loose_z in U, R, V, S; try assumption.
  set (k := loose m) in *. assert (0 <= k) as Hk by (unfold k; destruct m; cbn; lia). clearbody k.
  assert (2 * Z.abs (r * d * d - x * y * z) <= k * d * (d + Z.abs z)) as A.
  { pose proof (near_mul (Z.abs (r * d - u * z)) (r * d) (u * z) d ltac:(lia) ltac:(lia)).
    pose proof (near_mul (Z.abs (u * d - x * y)) (u * d) (x * y) z ltac:(lia) ltac:(lia)).
    rewrite (Z.abs_eq d) in H by lia.
    assert (Z.abs (r * d * d - x * y * z) <= Z.abs (r * d - u * z) * d + Z.abs (u * d - x * y) * Z.abs z) by (replace (u * z * d) with (u * d * z) in H by ring; lia).
    nia. }
  assert (2 * Z.abs (s * d * d - x * y * z) <= k * d * (d + Z.abs x)) as B.
  { pose proof (near_mul (Z.abs (s * d - x * v)) (s * d) (x * v) d ltac:(lia) ltac:(lia)).
    pose proof (near_mul (Z.abs (v * d - y * z)) (v * d) (y * z) x ltac:(lia) ltac:(lia)).
    rewrite (Z.abs_eq d) in H by lia.
    assert (Z.abs (s * d * d - x * y * z) <= Z.abs (s * d - x * v) * d + Z.abs (v * d - y * z) * Z.abs x)
      by (replace (x * v * d) with (v * d * x) in H by ring; replace (y * z * x) with (x * y * z) in H0 by ring; lia).
    nia. }
  assert (Z.abs (r * d * d - s * d * d) = Z.abs (r - s) * d * d) as E.
  { replace (r * d * d - s * d * d) with ((r - s) * (d * d)) by ring. rewrite Z.abs_mul, (Z.abs_eq (d * d)) by nia. ring. }
  apply (Z.mul_le_mono_pos_r _ _ d Hd).
  replace (2 * Z.abs (r - s) * d * d) with (2 * (Z.abs (r - s) * d * d)) by ring. rewrite <- E.
  replace (k * (2 * d + Z.abs x + Z.abs z) * d) with (k * d * (d + Z.abs z) + k * d * (d + Z.abs x)) by ring. lia.
Qed.
Lemma back_z m m' x y d p r : 0 < d -> 0 < y -> zrounds m (x * y) d p -> zrounds m' (p * d) y r ->
  2 * Z.abs (r - x) * y <= loose m * d + loose m' * y.
Proof.
  intros Hd Hy H K. apply loose_z in H, K; try assumption.
  replace (2 * Z.abs (r - x) * y) with (2 * (Z.abs (r - x) * Z.abs y)) by (rewrite (Z.abs_eq y) by lia; ring).
  rewrite <- Z.abs_mul. replace ((r - x) * y) with (r * y - x * y) by ring. lia.
Qed.

(** ** Operations *)
Lemma rmul_tame m b L P x y r : valid b L P -> tame m L P -> in_range L x -> in_range L y -> rmul b L P x y m = Ret (Ok r) ->
  in_range L r /\ zrounds m (x * y) (10 ^ P) r.
Proof.
  intros Hv Ht Hx Hy. pose proof (coef_bounds b L P Hv) as Hc.
  rewrite (rmul_spec b L P (promo_all b L) Hv); try assumption.
  - intros E. assert (chkr L (rnd m (x * y) (10 ^ P)) = Ok r) as K by congruence. apply chkr_inv in K. destruct K as [-> K].
    split; [exact K|]. apply rnd_zrounds. lia.
  - intros Hm. specialize (Ht Hm). pose proof (loss_small b L P Hv Ht). pose proof (Z.rem_bound_abs (x * y) (10 ^ P)).
    unfold in_range. rewrite lo_hi. lia.
Qed.
Lemma rmul_is m b L P x y r : valid b L P -> tame m L P -> in_range L x -> in_range L y -> in_range L r -> zrounds m (x * y) (10 ^ P) r ->
  rmul b L P x y m = Ret (Ok r).
Proof.
  intros Hv Ht Hx Hy Hr H. pose proof (coef_bounds b L P Hv) as Hc.
  rewrite (rmul_spec b L P (promo_all b L) Hv); try assumption.
  - rewrite (rnd_eq _ _ _ r) by (assumption || lia). now rewrite chkr_ok.
  - intros Hm. specialize (Ht Hm). pose proof (loss_small b L P Hv Ht). pose proof (Z.rem_bound_abs (x * y) (10 ^ P)).
    unfold in_range. rewrite lo_hi. lia.
Qed.
Lemma rdiv_is_val m b L P x y : valid b L P -> in_range L x -> in_range L y -> y <> 0 -> roomy m L y ->
  rdiv b L P x y m = Ret (chkr L (rnd m (x * 10 ^ P) y)).
Proof.
  intros Hv Hx Hy Hy0 Hg. pose proof (hi_pos L). pose proof (lo_hi L). apply (rdiv_spec b L P (promo_all b L) Hv); try assumption.
  apply guard_range. intros Hm Hr. specialize (Hg Hm). pose proof (Z.rem_bound_abs (x * 10 ^ P) y Hy0). lia.
Qed.
Lemma rdiv_is m b L P x y r : valid b L P -> in_range L x -> in_range L y -> 0 < y -> roomy m L y -> in_range L r ->
  zrounds m (x * 10 ^ P) y r -> rdiv b L P x y m = Ret (Ok r).
Proof. intros. rewrite rdiv_is_val by (assumption || lia). rewrite (rnd_eq _ _ _ r) by assumption. now rewrite chkr_ok. Qed.
Lemma rdiv_is_neg m b L P x y r : valid b L P -> in_range L x -> in_range L y -> y < 0 -> roomy m L y -> in_range L r ->
  zrounds m (- (x * 10 ^ P)) (- y) r -> rdiv b L P x y m = Ret (Ok r).
Proof.
  intros. rewrite rdiv_is_val by (assumption || lia). rewrite <- rnd_opp by lia. rewrite (rnd_eq _ _ _ r) by (assumption || lia).
  now rewrite chkr_ok.
Qed.
Lemma rdiv_has m b L P x y r : valid b L P -> in_range L x -> in_range L y -> y <> 0 -> roomy m L y -> rdiv b L P x y m = Ret (Ok r) ->
  in_range L r /\ (0 < y -> zrounds m (x * 10 ^ P) y r) /\ (y < 0 -> zrounds m (- (x * 10 ^ P)) (- y) r).
Proof.
  intros Hv Hx Hy Hy0 Hg. rewrite rdiv_is_val by assumption. intros E.
  assert (chkr L (rnd m (x * 10 ^ P) y) = Ok r) as K by congruence. apply chkr_inv in K. destruct K as [-> K].
  split; [exact K|]. split; intros Hs; [|rewrite <- rnd_opp by assumption]; apply rnd_zrounds; lia.
Qed.

(** ** Decimals *)
Lemma dec_ge P y k : 0 <= P -> ((Zq k <= dec P y)%Q <-> k * 10 ^ P <= y).
Proof. intros HP. rewrite dec_alt by assumption. apply Qle_div_l, pow10_pos, HP. Qed.
Lemma dec_le P y k : 0 <= P -> ((dec P y <= Zq k)%Q <-> y <= k * 10 ^ P).
Proof. intros HP. rewrite dec_alt by assumption. apply Qle_div_r, pow10_pos, HP. Qed.
Lemma dec_gt P y k : 0 <= P -> ((Zq k < dec P y)%Q <-> k * 10 ^ P < y).
Proof. intros HP. rewrite dec_alt by assumption. apply Qlt_div_l, pow10_pos, HP. Qed.
Lemma dec_lt P y k : 0 <= P -> ((dec P y < Zq k)%Q <-> y < k * 10 ^ P).
Proof. intros HP. rewrite dec_alt by assumption. apply Qlt_div_r, pow10_pos, HP. Qed.
Lemma dec_abs P x : 0 <= P -> (Qabs (dec P x) == dec P (Z.abs x))%Q.
Proof.
  intros HP. unfold dec. rewrite Qabs_Qmult, (Qabs_pos (q10 (- P))) by apply q10_nonneg. reflexivity.
Qed.
Lemma dec_minus P x y : (dec P x - dec P y == dec P (x - y))%Q.
Proof. unfold dec. replace (x - y) with (x + - y) by lia. rewrite Zq_add, Zq_opp. ring. Qed.
Lemma half_lt P x : 0 <= P -> (1 # 2 < Qabs (dec P x))%Q -> 10 ^ P < 2 * Z.abs x.
Proof.
  intros HP H. rewrite dec_abs in H by assumption. assert (Zq 1 < dec P (2 * Z.abs x))%Q as K.
  { unfold dec in *. rewrite Zq_mul. apply (Qmult_lt_compat_r _ _ 2) in H; [|reflexivity].
    setoid_replace (Zq 2 * Zq (Z.abs x) * q10 (- P))%Q with (Zq (Z.abs x) * q10 (- P) * 2)%Q by (unfold Zq; ring). apply (Qle_lt_trans _ ((1 # 2) * 2)); [discriminate|exact H]. }
  apply dec_gt in K; lia.
Qed.
Lemma lt_half P x : 0 <= P -> (dec P x < 1 # 2)%Q -> 2 * x < 10 ^ P.
Proof.
  intros HP H. assert (dec P (2 * x) < Zq 1)%Q as K.
  { unfold dec in *. rewrite Zq_mul. apply (Qmult_lt_compat_r _ _ 2) in H; [|reflexivity].
    setoid_replace (Zq 2 * Zq x * q10 (- P))%Q with (Zq x * q10 (- P) * 2)%Q by (unfold Zq; ring). apply (Qlt_le_trans _ ((1 # 2) * 2)); [exact H|discriminate]. }
  apply dec_lt in K; lia.
Qed.
Lemma frac_le n n' c : 0 < c -> n <= n' -> (Zq n / Zq c <= Zq n' / Zq c)%Q.
Proof.
  intros Hc H. unfold Qdiv. apply Qmult_le_compat_r; [now apply Zq_le|]. apply Qinv_le_0_compat. change 0%Q with (Zq 0). apply Zq_le. lia.
Qed.
Lemma slack_loose m : (slack m == Zq (loose m) / Zq 2)%Q.
Proof. destruct m; reflexivity. Qed.
Lemma flip_tame m L P : tame m L P -> tame (flip m) L P.
Proof. unfold tame. destruct m; cbn; intros H E; auto; discriminate. Qed.
Lemma flip_roomy m L y : roomy m L y -> roomy (flip m) L y.
Proof. unfold roomy. destruct m; cbn; intros H E; auto; discriminate. Qed.
Lemma tame_roomy m b L P y : valid b L P -> tame m L P -> Z.abs y <= 10 ^ P -> roomy m L y.
Proof.
  intros Hv Ht Hy Hm. specialize (Ht Hm). pose proof (loss_small b L P Hv Ht) as H.
  assert (2 * 10 ^ P <= hi L + 1); [|lia]. generalize dependent (10 ^ P). intros d _ H.
  destruct L; match goal with |- context [hi ?l] => let v := eval vm_compute in (hi l) in change (hi l) with v in * end; lia.
Qed.

Section undo.
Context (b : build) (L : layout) (P : Z) (Hv : valid b L P).
Local Notation one := (10 ^ P).
Lemma mul_div_back m x y p : tame m L P -> roomy m L y -> in_range L x -> in_range L y -> (1 <= dec P y)%Q ->
  rmul b L P x y m = Ret (Ok p) -> rdiv b L P p y (flip m) = Ret (Ok x).
Proof.
  intros Ht Hg Hx Hy H1 E. change 1%Q with (Zq 1) in H1. apply dec_ge in H1; [|apply Hv]. pose proof (coef_bounds b L P Hv) as Hc.
  destruct (rmul_tame m b L P x y p Hv Ht Hx Hy E) as [Hp Z1].
  apply rdiv_is; try assumption; [lia|now apply flip_roomy|]. apply undo_z; [lia|exact Z1].
Qed.
Lemma mul_div_back_neg m x y p : tame m L P -> roomy m L y -> in_range L x -> in_range L y -> (dec P y <= -1 # 1)%Q ->
  rmul b L P x y m = Ret (Ok p) -> rdiv b L P p y m = Ret (Ok x).
Proof.
  intros Ht Hg Hx Hy H1 E. change (-1 # 1)%Q with (Zq (-1)) in H1. apply dec_le in H1; [|apply Hv]. pose proof (coef_bounds b L P Hv) as Hc.
  destruct (rmul_tame m b L P x y p Hv Ht Hx Hy E) as [Hp Z1].
  apply rdiv_is_neg; try assumption; [lia|]. apply undo_neg; [lia|lia|exact Z1].
Qed.
Lemma div_mul_back m x y q : tame m L P -> in_range L x -> in_range L y -> (0 < dec P y <= 1)%Q ->
  rdiv b L P x y m = Ret (Ok q) -> rmul b L P q y (flip m) = Ret (Ok x).
Proof.
  intros Ht Hx Hy [H0 H1] E. change 1%Q with (Zq 1) in H1. change 0%Q with (Zq 0) in H0. apply dec_le in H1; [|apply Hv]. apply dec_gt in H0; [|apply Hv].
  pose proof (coef_bounds b L P Hv) as Hc.
  destruct (rdiv_has m b L P x y q Hv Hx Hy ltac:(lia) (tame_roomy m b L P y Hv Ht ltac:(lia)) E) as (Hq & Z1 & _).
  apply rmul_is; try assumption; [now apply flip_tame|]. apply undo_z; [lia|]. apply Z1. lia.
Qed.
Lemma div_mul_back_neg m x y q : tame m L P -> in_range L x -> in_range L y -> (-1 # 1 <= dec P y < 0)%Q ->
  rdiv b L P x y m = Ret (Ok q) -> rmul b L P q y m = Ret (Ok x).
Proof.
  intros Ht Hx Hy [H1 H0] E. change (-1 # 1)%Q with (Zq (-1)) in H1. change 0%Q with (Zq 0) in H0. apply dec_ge in H1; [|apply Hv]. apply dec_lt in H0; [|apply Hv].
  pose proof (coef_bounds b L P Hv) as Hc.
  destruct (rdiv_has m b L P x y q Hv Hx Hy ltac:(lia) (tame_roomy m b L P y Hv Ht ltac:(lia)) E) as (Hq & _ & Z1).
  apply rmul_is; try assumption. apply undo_neg2; [lia|]. apply Z1. lia.
Qed.
Lemma recip_eq x m : recip b L P x m = rdiv b L P one x m.
Proof. unfold recip, ONE. now rewrite COEF_ok by assumption. Qed.
Lemma recip_back m x r : tame m L P -> in_range L x -> (0 < Qabs (dec P x) <= 1)%Q -> roomy m L r ->
  recip b L P x m = Ret (Ok r) -> recip b L P r m = Ret (Ok x).
Proof.
  intros Ht Hx H Hg E. rewrite dec_abs in H by apply Hv. destruct H as [H0 H1].
  change 1%Q with (Zq 1) in H1. change 0%Q with (Zq 0) in H0. apply dec_le in H1; [|apply Hv]. apply dec_gt in H0; [|apply Hv].
  pose proof (coef_bounds b L P Hv) as Hc. pose proof (one_range b L P Hv) as R1. rewrite recip_eq in *.
  destruct (rdiv_has m b L P one x r Hv R1 Hx ltac:(lia) (tame_roomy m b L P x Hv Ht ltac:(lia)) E) as (Hr & Zp & Zn).
  destruct (Z.lt_trichotomy x 0) as [Hs|[Hs|Hs]]; [|lia|].
  - specialize (Zn Hs). replace r with (- - r) in Zn by lia. apply (proj1 (mirror_z _ _ _ _)) in Zn.
    apply recip_z in Zn; [|lia]. destruct Zn as [K Zn]. apply rdiv_is_neg; try assumption; [lia|].
    replace x with (- - x) by lia. apply mirror_z. exact Zn.
  - specialize (Zp Hs). apply recip_z in Zp; [|lia]. destruct Zp as [K Zp]. apply rdiv_is; try assumption. lia.
Qed.
Lemma root_back m x s : tame m L P -> in_range L x -> (1 # 2 < Qabs (dec P x))%Q ->
  rmul b L P x x m = Ret (Ok s) -> rsqrt b L P s (flip m) = Ret (Ok (Z.abs x)).
Proof.
  intros Ht Hx H E. apply half_lt in H; [|apply Hv]. pose proof (coef_bounds b L P Hv) as Hc.
  destruct (rmul_tame m b L P x x s Hv Ht Hx Hx E) as [Hs Z1].
  apply root_z in Z1; [|lia]. destruct Z1 as [H0 Z1]. rewrite rsqrt_val by assumption.
  rewrite (zsqrt_rounds_unique _ _ _ _ (srt_zrounds (flip m) (s * one) ltac:(nia)) Z1). reflexivity.
Qed.
Lemma square_back m x r : tame m L P -> in_range L x -> (dec P r < 1 # 2)%Q ->
  rsqrt b L P x m = Ret (Ok r) -> rmul b L P r r (flip m) = Ret (Ok x).
Proof.
  intros Ht Hx H E. apply lt_half in H; [|apply Hv]. pose proof (coef_bounds b L P Hv) as Hc.
  assert (0 <= x) as H0.
  { destruct (Z.le_gt_cases 0 x) as [K|K]; [exact K|]. exfalso. unfold rsqrt in E. replace (x <? 0) with true in E by lia. discriminate E. }
  rewrite rsqrt_val in E by assumption. assert (r = srt m (x * one)) as -> by congruence.
  pose proof (srt_zrounds m (x * one) ltac:(nia)) as S. set (r := srt m (x * one)) in *. clearbody r.
  assert (in_range L r) by (unfold in_range; pose proof (lo_hi L); pose proof (hi_pos L); destruct S; lia).
  apply rmul_is; try assumption; [now apply flip_tame|]. apply square_z; assumption.
Qed.
Lemma distributes m x y z s r u v : tame m L P -> in_range L x -> in_range L y -> in_range L z -> cadd L x y = Ok s ->
  rmul b L P s z m = Ret (Ok r) -> rmul b L P x z m = Ret (Ok u) -> rmul b L P y z m = Ret (Ok v) -> drift m (r - (u + v)).
Proof.
  intros Ht Hx Hy Hz Es Er Eu Ev. rewrite cadd_eq in Es. apply chkr_inv in Es. destruct Es as [-> Hs].
  apply rmul_tame in Er, Eu, Ev; try assumption. destruct Er as [_ Er], Eu as [_ Eu], Ev as [_ Ev].
  rewrite Z.mul_add_distr_r in Er. eapply drift_z; [apply pow10_pos, Hv|eassumption..].
Qed.
Lemma associates m x y z u r v s : tame m L P -> in_range L x -> in_range L y -> in_range L z ->
  rmul b L P x y m = Ret (Ok u) -> rmul b L P u z m = Ret (Ok r) -> rmul b L P y z m = Ret (Ok v) -> rmul b L P x v m = Ret (Ok s) ->
  (Qabs (dec P r - dec P s) <= slack m * q10 (- P) * (2 + Qabs (dec P x) + Qabs (dec P z)))%Q.
Proof.
  intros Ht Hx Hy Hz Eu Er Ev Es. apply rmul_tame in Eu; try assumption. destruct Eu as [Ru Eu].
  apply rmul_tame in Er; try assumption. destruct Er as [_ Er]. apply rmul_tame in Ev; try assumption. destruct Ev as [Rv Ev].
  apply rmul_tame in Es; try assumption. destruct Es as [_ Es]. assert (0 <= P) as HP by apply Hv. pose proof (pow10_pos P HP) as Hd.
  pose proof (assoc_z m x y z one u v r s Hd Eu Er Ev Es) as K.
  rewrite dec_minus, !dec_abs, !dec_alt, slack_loose, q10_neg by assumption.
  apply (frac_le _ _ (2 * one * one)) in K; [|nia]. rewrite !Zq_mul, !Zq_add, Zq_mul in K.
  assert (~ Zq one == 0)%Q by (apply Zq_nonzero; lia). assert (~ Zq 2 == 0)%Q by (apply Zq_nonzero; lia).
  eapply Qle_trans; [|eapply Qle_trans; [exact K|]]; apply Qle_lteq; right; change 2%Q with (Zq 2); field; auto.
Qed.
Lemma mul_div_error m m' x y p r : tame m L P -> roomy m' L y -> in_range L x -> in_range L y -> y <> 0 ->
  rmul b L P x y m = Ret (Ok p) -> rdiv b L P p y m' = Ret (Ok r) ->
  (Qabs (dec P r - dec P x) <= q10 (- P) * (slack m / Qabs (dec P y) + slack m'))%Q.
Proof.
  intros Ht Hg Hx Hy H0 Ep Er. apply rmul_tame in Ep; try assumption. destruct Ep as [Rp Ep].
  apply rdiv_has in Er; try assumption. destruct Er as (_ & Zp & Zn). assert (0 <= P) as HP by apply Hv. pose proof (pow10_pos P HP) as Hd.
  assert (2 * Z.abs (r - x) * Z.abs y <= loose m * one + loose m' * Z.abs y) as K.
  { destruct (Z.lt_trichotomy y 0) as [Hs|[Hs|Hs]]; [|lia|].
    - specialize (Zn Hs). replace (- (p * one)) with (- p * one) in Zn by ring. rewrite (Z.abs_neq y) by lia.
      replace (loose m) with (loose (flip m)) by (now destruct m).
      apply (back_z (flip m) m' x (- y) one (- p) r); try lia; [|exact Zn].
      apply mirror_z. replace (- (x * - y)) with (x * y) by ring. now rewrite Z.opp_involutive.
    - rewrite (Z.abs_eq y) by lia. eapply back_z; try lia; [exact Ep|now apply Zp]. }
  rewrite dec_minus, !dec_abs, !dec_alt, !slack_loose, q10_neg by assumption.
  apply (frac_le _ _ (2 * Z.abs y * one)) in K; [|nia]. rewrite !Zq_mul, !Zq_add, !Zq_mul in K.
  assert (~ Zq one == 0)%Q by (apply Zq_nonzero; lia). assert (~ Zq 2 == 0)%Q by (apply Zq_nonzero; lia).
  assert (~ Zq (Z.abs y) == 0)%Q by (apply Zq_nonzero; lia).
  eapply Qle_trans; [|eapply Qle_trans; [exact K|]]; apply Qle_lteq; right; field; auto.
Qed.
Lemma div_mul_error m m' x y q r : tame m' L P -> roomy m L y -> in_range L x -> in_range L y -> y <> 0 ->
  rdiv b L P x y m = Ret (Ok q) -> rmul b L P q y m' = Ret (Ok r) ->
  (Qabs (dec P r - dec P x) <= q10 (- P) * (slack m * Qabs (dec P y) + slack m'))%Q.
Proof.
  intros Ht Hg Hx Hy H0 Eq Er. apply rdiv_has in Eq; try assumption. destruct Eq as (Rq & Zp & Zn).
  apply rmul_tame in Er; try assumption. destruct Er as [_ Er]. assert (0 <= P) as HP by apply Hv. pose proof (pow10_pos P HP) as Hd.
  assert (2 * Z.abs (r - x) * one <= loose m * Z.abs y + loose m' * one) as K.
  { destruct (Z.lt_trichotomy y 0) as [Hs|[Hs|Hs]]; [|lia|].
    - specialize (Zn Hs). rewrite (Z.abs_neq y) by lia. replace (- (x * one)) with (- x * one) in Zn by ring.
      replace (Z.abs (r - x)) with (Z.abs (- r - - x)) by lia. replace (loose m') with (loose (flip m')) by (now destruct m').
      apply (back_z m (flip m') (- x) one (- y) q (- r)); try lia; [exact Zn|].
      apply mirror_z. replace (- (q * - y)) with (q * y) by ring. now rewrite Z.opp_involutive.
    - rewrite (Z.abs_eq y) by lia. eapply back_z; try lia; [now apply Zp|exact Er]. }
  rewrite dec_minus, !dec_abs, !dec_alt, !slack_loose, q10_neg by assumption.
  apply (frac_le _ _ (2 * one * one)) in K; [|nia]. rewrite !Zq_mul, !Zq_add, !Zq_mul in K.
  assert (~ Zq one == 0)%Q by (apply Zq_nonzero; lia). assert (~ Zq 2 == 0)%Q by (apply Zq_nonzero; lia).
  eapply Qle_trans; [|eapply Qle_trans; [exact K|]]; apply Qle_lteq; right; field; auto.
Qed.
End undo.
