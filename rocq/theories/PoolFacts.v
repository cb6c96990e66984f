(** * PoolFacts: the product of the reserves of a pool never falls; blends and lengths. *)
From Coq Require Import Lia QArith Qabs Lqa.
From Verif Require Import Base Promo Ops Spec BaseFacts RoundFacts ArithProofs SimpleProofs MulDiv OrderFacts DecProofs LawFacts.
From Verif Require Import SpecRound SpecUndo Undo CallFacts.
From Verif Require Import Sqrt256.
From Verif Require Import AverageFacts SpecDoc DocFacts Pool.
From Verif Require Import Fixed.
Open Scope Z_scope.

Lemma dec_pair P x y : (dec P x * dec P y == Zq (x * y) * (q10 (- P) * q10 (- P)))%Q.
Proof. unfold dec. rewrite Zq_mul. ring. Qed.
Lemma dec_pair_le P x y x' y' : (dec P x * dec P y <= dec P x' * dec P y')%Q <-> x * y <= x' * y'.
Proof.
  rewrite !dec_pair. pose proof (q10_gt0 (- P)) as H.
  rewrite Qmult_le_r by (apply Qmult_lt_0_compat; exact H). apply Zq_le.
Qed.

Section pool.
Context (b : build) (L : layout) (P : Z) (Hv : valid b L P).

(** What a trade pays out: [o]. *)
Lemma buy_spec x y d : in_range L x -> in_range L y -> 0 < x -> 0 < y -> 0 <= d -> in_range L (x + d) ->
  exists o f, buy b L P x y d = Ret (Ok (x + d, y - o)) /\ 0 <= o < y /\ x * y <= (x + d) * (y - o) /\
    f * (x + d) <= d * 10 ^ P < (f + 1) * (x + d) /\ o * 10 ^ P <= y * f < (o + 1) * 10 ^ P.
Proof.
  intros Rx Ry Hx Hy Hd Rn. pose proof (coef_bounds b L P Hv) as Hc. pose proof (hi_pos L). pose proof (lo_hi L).
  assert (0 < 10 ^ P) as H10 by lia.
  set (n := x + d) in *. set (f := d * 10 ^ P / n). set (o := y * f / 10 ^ P).
  assert (f * n <= d * 10 ^ P < (f + 1) * n) as Hf.
  { unfold f. pose proof (Z.div_mod (d * 10 ^ P) n ltac:(lia)). pose proof (Z.mod_pos_bound (d * 10 ^ P) n ltac:(lia)). lia. }
  assert (o * 10 ^ P <= y * f < (o + 1) * 10 ^ P) as Ho.
  { unfold o. pose proof (Z.div_mod (y * f) (10 ^ P) ltac:(lia)). pose proof (Z.mod_pos_bound (y * f) (10 ^ P) ltac:(lia)). lia. }
  clearbody f o.
  assert (0 <= f) as F0 by nia. assert (f <= 10 ^ P) as F1 by nia. assert (0 <= o) as O0 by nia.
  assert (o * n <= y * d) as K.
  { apply (Z.mul_le_mono_pos_r _ _ (10 ^ P)); [lia|].
    transitivity (y * f * n); [replace (o * n * 10 ^ P) with (o * 10 ^ P * n) by ring; apply Z.mul_le_mono_nonneg_r; lia|].
    replace (y * f * n) with (y * (f * n)) by ring. replace (y * d * 10 ^ P) with (y * (d * 10 ^ P)) by ring.
    apply Z.mul_le_mono_nonneg_l; lia. }
  assert (o < y) as Oy by nia.
  exists o, f. split; [|split; [lia|split; [nia|split; assumption]]].
  assert (in_range L f) as Rf by (unfold in_range in *; lia). assert (in_range L o) as Ro by (unfold in_range in *; lia).
  assert (in_range L d) as Rd by (unfold in_range in *; lia).
  assert (in_range L (y - o)) as Ryo by (unfold in_range in *; lia).
  unfold buy. rewrite cadd_eq. fold n. rewrite chkr_ok by exact Rn. cbn [try_ bind].
  rewrite (rdiv_is Floor b L P d n f) by (assumption || lia || discriminate || exact Hf). cbn [try_ bind].
  rewrite (rmul_is Floor b L P y f o) by (assumption || discriminate || exact Ho). cbn [try_ bind].
  rewrite csub_eq, chkr_ok by exact Ryo. reflexivity.
Qed.
Lemma buy_over x y d : in_range L x -> 0 <= d -> ~ in_range L (x + d) -> buy b L P x y d = Ret (Err Overflow).
Proof. intros Rx Hd Rn. unfold buy. rewrite cadd_eq, chkr_err by exact Rn. reflexivity. Qed.
Lemma buy_fair x y d : in_range L x -> in_range L y -> 0 < x -> 0 < y -> 0 <= d -> in_range L (x + d) ->
  exists o, buy b L P x y d = Ret (Ok (x + d, y - o)) /\ 0 <= o < y /\
    (0 <= dec P y * dec P d / dec P (x + d) - dec P o < (dec P y + 1) * q10 (- P))%Q.
Proof.
  intros Rx Ry Hx Hy Hd Rn. destruct (buy_spec x y d Rx Ry Hx Hy Hd Rn) as (o & f & E & Ho & Hk & Hf & Hof).
  exists o. split; [exact E|]. split; [exact Ho|].
  pose proof (proj1 (proj2 Hv)) as HP. pose proof (pow10_pos P HP) as Hc. set (c := 10 ^ P) in *. set (n := x + d) in *.
  assert (0 < n) as Hn by lia.
  assert (q10 (- P) == / Zq c)%Q as Eq by (apply q10_neg, HP).
  assert (~ (Zq c == 0)%Q) as Nc by (apply Zq_nonzero; lia). assert (~ (Zq n == 0)%Q) as Nn by (apply Zq_nonzero; lia).
  assert (dec P y * dec P d / dec P n - dec P o == Zq (y * d - o * n) / Zq (n * c))%Q as E1.
  { unfold dec. rewrite Eq. rewrite Zq_mul. unfold Z.sub. rewrite Zq_add, Zq_opp, !Zq_mul. field. auto. }
  assert ((dec P y + 1) * q10 (- P) == Zq (y + c) / Zq (c * c))%Q as E2.
  { unfold dec. rewrite Eq, Zq_add, Zq_mul. field. auto. }
  rewrite E1, E2. split.
  - apply Qle_shift_div_l; [change 0%Q with (Zq 0); apply Zq_lt; nia|]. rewrite Qmult_0_l. change 0%Q with (Zq 0). apply Zq_le. nia.
  - apply Qlt_shift_div_r; [change 0%Q with (Zq 0); apply Zq_lt; nia|].
    setoid_replace (Zq (y + c) / Zq (c * c) * Zq (n * c))%Q with (Zq ((y + c) * n) / Zq c)%Q by (rewrite !Zq_mul; field; exact Nc).
    apply Qlt_shift_div_l; [change 0%Q with (Zq 0); apply Zq_lt; lia|]. rewrite <- Zq_mul. apply Zq_lt.
    assert (y * (d * c) <= y * ((f + 1) * n)) by (apply Z.mul_le_mono_nonneg_l; lia).
    assert (y * f * n < (o + 1) * c * n) by (apply Z.mul_lt_mono_pos_r; lia). nia.
Qed.

Definition reserves (p : Z * Z) : Prop := in_range L (fst p) /\ in_range L (snd p) /\ 0 < fst p /\ 0 < snd p.
Definition worth (p : Z * Z) : Z := fst p * snd p.
Lemma swap_spec p t : reserves p -> 0 <= snd t ->
  (exists q, swap b L P p t = Ret (Ok q) /\ reserves q /\ worth p <= worth q) \/ swap b L P p t = Ret (Err Overflow).
Proof.
  destruct p as [x y], t as [d a]. intros (Rx & Ry & Hx & Hy) Ha. pose proof (hi_pos L). pose proof (lo_hi L). cbn [fst snd] in *. unfold swap. cbn [fst snd].
  destruct d.
  - destruct (in_range_dec L (y + a)) as [Rn|Rn].
    + destruct (buy_spec y x a) as (o & f & E & Ho & Hk & _); try assumption. rewrite E. cbn [try_ bind fst snd]. left. eexists. split; [reflexivity|].
      unfold reserves, worth, in_range in *. cbn [fst snd]. lia.
    + rewrite buy_over by assumption. now right.
  - destruct (in_range_dec L (x + a)) as [Rn|Rn].
    + destruct (buy_spec x y a) as (o & f & E & Ho & Hk & _); try assumption. rewrite E. left. eexists. split; [reflexivity|].
      unfold reserves, worth, in_range in *. cbn [fst snd]. lia.
    + rewrite buy_over by assumption. now right.
Qed.
Lemma trade_spec l : Forall (fun t => 0 <= snd t) l -> forall p, reserves p ->
  (exists q, trade b L P p l = Ret (Ok q) /\ reserves q /\ worth p <= worth q) \/ trade b L P p l = Ret (Err Overflow).
Proof.
  induction 1 as [|t l Ht _ IH]; intros p Hp; cbn [trade].
  - left. exists p. auto using Z.le_refl.
  - destruct (swap_spec p t Hp Ht) as [(q & -> & Hq & Hw)| -> ]; cbn [try_ bind]; [|now right].
    destruct (IH q Hq) as [(r & E & Hr & Hw')|E]; [|now right]. left. exists r. split; [exact E|]. split; [exact Hr|lia].
Qed.
Lemma trade_product l x y : Forall (fun t => 0 <= snd t) l -> in_range L x -> in_range L y -> 0 < x -> 0 < y ->
  (exists x' y', trade b L P (x, y) l = Ret (Ok (x', y')) /\ in_range L x' /\ in_range L y' /\ 0 < x' /\ 0 < y' /\
    (dec P x * dec P y <= dec P x' * dec P y')%Q) \/ trade b L P (x, y) l = Ret (Err Overflow).
Proof.
  intros F Rx Ry Hx Hy. destruct (trade_spec l F (x, y)) as [([x' y'] & E & Hr & Hw)|E]; [unfold reserves; auto| |now right].
  left. exists x', y'. unfold reserves, worth in *. cbn [fst snd] in *. rewrite dec_pair_le. tauto.
Qed.
Lemma trade_no_gain l x y x' y' : Forall (fun t => 0 <= snd t) l -> in_range L x -> in_range L y -> 0 < x -> 0 < y ->
  trade b L P (x, y) l = Ret (Ok (x', y')) -> (x' <= x -> y <= y') /\ (y' <= y -> x <= x').
Proof.
  intros F Rx Ry Hx Hy E. destruct (trade_spec l F (x, y)) as [(q & E' & Hr & Hw)|E']; [unfold reserves; auto| |congruence].
  rewrite E in E'. injection E' as <-. unfold reserves, worth in *. cbn [fst snd] in *. nia.
Qed.

(** ** Blends *)
Lemma blend_spec m x y t : tame m L P -> in_range L x -> in_range L y -> in_range L (y - x) -> in_range L t -> 0 <= t <= 10 ^ P ->
  exists p, blend b L P m x y t = Ret (Ok (x + p)) /\ Z.min x y <= x + p <= Z.max x y /\ zrounds m ((y - x) * t) (10 ^ P) p.
Proof.
  intros Ht Rx Ry Rd Rt Bt. destruct (ema_step b L P Hv m t x y Ht Rt Bt Rx Ry Rd) as (d & p & s' & E1 & E2 & E3 & M & R & -> & Hr).
  exists p. unfold blend. rewrite E1. cbn [try_ bind]. rewrite E2. cbn [try_ bind]. rewrite E3. split; [reflexivity|]. split; [exact M|].
  pose proof (proj1 (proj2 Hv)) as HP. apply rounds_zrounds; [apply pow10_pos, HP|].
  unfold rounds_to in Hr. apply (rounds_compat _ _ _ _ (mul_scaled P (y - x) t HP)) in Hr. exact Hr.
Qed.
Lemma blend_between m x y t : tame m L P -> in_range L x -> in_range L y -> in_range L (y - x) -> in_range L t -> 0 <= t <= 10 ^ P ->
  exists r, blend b L P m x y t = Ret (Ok r) /\ Z.min x y <= r <= Z.max x y /\ rounds_to m P ((dec P y - dec P x) * dec P t) (r - x).
Proof.
  intros Ht Rx Ry Rd Rt Bt. destruct (blend_spec m x y t) as (p & E & M & Z1); try assumption.
  exists (x + p). split; [exact E|]. split; [exact M|]. replace (x + p - x) with p by ring.
  pose proof (proj1 (proj2 Hv)) as HP. unfold rounds_to. apply (rounds_compat _ (Zq ((y - x) * t) / Zq (10 ^ P))).
  - rewrite <- dec_sub. symmetry. apply mul_scaled, HP.
  - apply rounds_zrounds; [apply pow10_pos, HP|exact Z1].
Qed.
Lemma blend_ends m x y : tame m L P -> in_range L x -> in_range L y -> in_range L (y - x) ->
  blend b L P m x y 0 = Ret (Ok x) /\ (in_range L (10 ^ P) -> blend b L P m x y (10 ^ P) = Ret (Ok y)).
Proof.
  intros Ht Rx Ry Rd. pose proof (hi_pos L). pose proof (lo_hi L). pose proof (coef_bounds b L P Hv) as Hc.
  split; [|intros R1].
  - destruct (blend_spec m x y 0) as (p & E & _ & Z1); try assumption; [unfold in_range; lia|lia|]. rewrite E. do 2 apply f_equal.
    assert (p = 0); [|lia]. apply (zrounds_unique m _ (10 ^ P) _ _ ltac:(lia) Z1). destruct m; cbn [zrounds]; lia.
  - destruct (blend_spec m x y (10 ^ P)) as (p & E & _ & Z1); try assumption; [lia|]. rewrite E. do 2 apply f_equal.
    assert (p = y - x); [|lia]. apply (zrounds_unique m _ (10 ^ P) _ _ ltac:(lia) Z1). destruct m; cbn [zrounds]; lia.
Qed.
Lemma blend_mono m x y t t' : tame m L P -> in_range L x -> in_range L y -> in_range L (y - x) -> in_range L t' -> 0 <= t <= t' -> t' <= 10 ^ P ->
  exists r r', blend b L P m x y t = Ret (Ok r) /\ blend b L P m x y t' = Ret (Ok r') /\
    Z.min x y <= r <= Z.max x y /\ (x <= y -> r <= r') /\ (y <= x -> r' <= r).
Proof.
  intros Ht Rx Ry Rd Rt' Bt Bt'. pose proof (hi_pos L). pose proof (lo_hi L). pose proof (coef_bounds b L P Hv) as Hc.
  assert (in_range L t) as Rt by (unfold in_range in *; lia).
  destruct (blend_spec m x y t) as (p & E & M & Z1); try assumption; [lia|].
  destruct (blend_spec m x y t') as (p' & E' & _ & Z2); try assumption; [lia|].
  exists (x + p), (x + p'). split; [exact E|]. split; [exact E'|]. split; [exact M|].
  split; intros Hxy.
  - enough (p <= p') by lia. apply (zrounds_mono m _ _ (10 ^ P) p p' ltac:(lia)) with (2 := Z1) (3 := Z2). nia.
  - enough (p' <= p) by lia. apply (zrounds_mono m _ _ (10 ^ P) p' p ltac:(lia)) with (2 := Z2) (3 := Z1). nia.
Qed.

(** ** Lengths *)
Lemma norm_parts m x y r : in_range L x -> in_range L y -> m <> Nearest -> norm b L P m x y = Ret (Ok r) ->
  exists s t, documented m P (dec P x * dec P x) s /\ documented m P (dec P y * dec P y) t /\ sqrt_rounds m P (dec P (s + t)) r.
Proof.
  intros Rx Ry Hm E. unfold norm in E.
  destruct (rmul b L P x x m) as [[s|]| | |] eqn:E1; try discriminate E. cbn [try_ bind] in E.
  destruct (rmul b L P y y m) as [[t|]| | |] eqn:E2; try discriminate E. cbn [try_ bind] in E.
  assert (sound_for b m) as Hs by (right; exact Hm).
  apply rmul_documented in E1; try assumption. apply rmul_documented in E2; try assumption.
  exists s, t. split; [exact E1|]. split; [exact E2|].
  rewrite cadd_eq in E. destruct (in_range_dec L (s + t)) as [R|R]; [rewrite chkr_ok in E by exact R|rewrite chkr_err in E by exact R; discriminate E].
  cbn [try_ bind] in E. destruct (Z.lt_ge_cases (s + t) 0) as [N|N].
  - apply (proj2 (rsqrt_domain b L P (s + t) m Hv R)) in N. congruence.
  - destruct (rsqrt_spec b L P (s + t) m Hv R N) as (r' & E' & _ & Hr). rewrite E in E'. injection E' as <-. exact Hr.
Qed.
Lemma norm_floor x y r : in_range L x -> in_range L y -> norm b L P Floor x y = Ret (Ok r) ->
  0 <= r /\ (dec P r * dec P r <= dec P x * dec P x + dec P y * dec P y)%Q /\
  (dec P x * dec P x + dec P y * dec P y < dec P (r + 1) * dec P (r + 1) + 2 * q10 (- P))%Q.
Proof.
  intros Rx Ry E. destruct (norm_parts Floor x y r Rx Ry ltac:(discriminate) E) as (s & t & Ds & Dt & R0 & R1 & R2).
  cbn [documented] in Ds, Dt. rewrite dec_add in R1, R2. split; [exact R0|].
  split; [|change 2%Q with (1 + 1)%Q]; lra.
Qed.
Lemma norm_ceil x y r : in_range L x -> in_range L y -> norm b L P Ceil x y = Ret (Ok r) ->
  Z.abs x <= r /\ Z.abs y <= r /\ (dec P x * dec P x + dec P y * dec P y <= dec P r * dec P r)%Q /\
  (0 < r -> (dec P (r - 1) * dec P (r - 1) < dec P x * dec P x + dec P y * dec P y + 2 * q10 (- P))%Q).
Proof.
  intros Rx Ry E. destruct (norm_parts Ceil x y r Rx Ry ltac:(discriminate) E) as (s & t & Ds & Dt & R0 & R1 & R2).
  cbn [documented] in Ds, Dt. rewrite dec_add in R1, R2.
  assert (dec P x * dec P x + dec P y * dec P y <= dec P r * dec P r)%Q as G by lra.
  assert (x * x <= r * r /\ y * y <= r * r) as [Gx Gy].
  { rewrite <- !(dec_pair_le P). assert (forall q, 0 <= dec P q * dec P q)%Q as Sq.
    { intros q. change 0%Q with (0 * 0)%Q. rewrite <- (dec_0 P). apply dec_pair_le. nia. }
    pose proof (Sq x). pose proof (Sq y). split; lra. }
  split; [nia|]. split; [nia|]. split; [exact G|]. intros H. specialize (R2 H). change 2%Q with (1 + 1)%Q. lra.
Qed.
Lemma norm_total m x y : in_range L x -> in_range L y -> m <> Nearest ->
  (exists r, norm b L P m x y = Ret (Ok r)) \/ norm b L P m x y = Ret (Err Overflow).
Proof.
  intros Rx Ry Hm. pose proof (proj1 (proj2 Hv)) as HP. pose proof (pow10_pos P HP) as Hc. unfold norm.
  assert (forall z, 0 <= rnd m (z * z) (10 ^ P)) as Pos.
  { intros z. pose proof (rnd_zrounds m (z * z) (10 ^ P) Hc) as Hr. set (q := rnd m (z * z) (10 ^ P)) in *. clearbody q.
    assert (0 <= z * z) as Hz by nia. destruct m; cbn [zrounds] in Hr; [nia|congruence|nia]. }
  rewrite !rmul_dir_val by assumption.
  destruct (in_range_dec L (rnd m (x * x) (10 ^ P))) as [R|R]; [rewrite chkr_ok by exact R|rewrite chkr_err by exact R; now right]. cbn [try_ bind].
  destruct (in_range_dec L (rnd m (y * y) (10 ^ P))) as [R'|R']; [rewrite (chkr_ok _ _ R')|rewrite (chkr_err _ _ R'); now right]. cbn [try_ bind].
  rewrite cadd_eq. set (q := rnd m (x * x) (10 ^ P) + rnd m (y * y) (10 ^ P)) in *.
  destruct (in_range_dec L q) as [R2|R2]; [rewrite (chkr_ok _ _ R2)|rewrite (chkr_err _ _ R2); now right]. cbn [try_ bind].
  destruct (rsqrt_spec b L P q m Hv R2) as (r & E & _); [unfold q; pose proof (Pos x); pose proof (Pos y); lia|]. left. now exists r.
Qed.
End pool.
