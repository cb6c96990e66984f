(** * SplitFacts: complementary shares, tax contained in a price, bisection, means. *)
From Coq Require Import Lia QArith Lqa.
From Verif Require Import Base Promo Ops Spec BaseFacts RoundFacts ArithProofs PrimPromo SimpleProofs MulDiv Sqrt256 OrderFacts DecProofs LawFacts CallFacts.
From Verif Require Import SpecRound SpecUndo Undo.
From Verif Require Import AverageFacts AdjointFacts ScheduleFacts.
From Verif Require Import Split.
From Verif Require Import Fixed.
Open Scope Z_scope.

(** ** Shares *)
Lemma flip_complement m n d x a : m <> Nearest -> 0 < d -> zrounds m n d a -> zrounds (flip m) (x * d - n) d (x - a).
Proof. intros Hm Hd H. destruct m; cbn [zrounds flip] in *; [|congruence|]; nia. Qed.
Lemma one_is b L P : valid b L P -> ONE b L P = Ret (10 ^ P) /\ in_range L (10 ^ P).
Proof.
  intros Hv. split; [apply COEF_ok; exact Hv|]. pose proof (coef_bounds b L P Hv). pose proof (lo_hi L). pose proof (hi_pos L). unfold in_range. lia.
Qed.
Definition tied (n d : Z) : Prop := exists j, 2 * n = (2 * j + 1) * d.
Lemma tie_up n c j a : 0 < c -> 2 * n = (2 * j + 1) * c -> 0 <= n -> zrounds Nearest n c a -> a = j + 1.
Proof.
  intros Hc T Hn [A A'].
  assert (0 <= j) as Hj by (destruct (Z.le_gt_cases 0 j); [assumption|nia]).
  assert (j <= a) as H1 by (destruct (Z.le_gt_cases j a); [assumption|nia]).
  assert (a <= j + 1) as H2 by (destruct (Z.le_gt_cases a (j + 1)); [assumption|nia]).
  assert (a = j \/ a = j + 1) as [-> | E] by lia; [|exact E]. exfalso.
  assert (0 <= j * c) by nia. assert (2 * n = 2 * (j * c) + c) by lia. specialize (A' ltac:(lia)). lia.
Qed.
Lemma tie_away n c j a : 0 < c -> 2 * n = (2 * j + 1) * c -> zrounds Nearest n c a -> a = if 0 <=? n then j + 1 else j.
Proof.
  intros Hc T A. destruct (Z.leb_spec 0 n) as [Hn|Hn]; [now apply (tie_up n c)|].
  assert (- a = (- j - 1) + 1); [|lia]. apply (tie_up (- n) c); [exact Hc|lia|lia|].
  destruct A as [A A']. cbn [zrounds]. replace (- n - - a * c) with (- (n - a * c)) by ring. rewrite Z.abs_opp.
  split; [exact A|]. intros K. specialize (A' K). lia.
Qed.
Lemma tied_nz n c j : 0 < c -> 2 * n = (2 * j + 1) * c -> n <> 0.
Proof. intros Hc T ->. symmetry in T. apply Z.eq_mul_0 in T. lia. Qed.
Lemma nearest_complement x r c a a' : 0 < c -> 0 <= r <= c -> zrounds Nearest (x * r) c a -> zrounds Nearest (x * (c - r)) c a' ->
  (tied (x * r) c -> a + a' = x + Z.sgn x) /\ (~ tied (x * r) c -> a + a' = x).
Proof.
  intros Hc Hr A B. split.
  - intros [j T].
    assert (2 * (x * (c - r)) = (2 * (x - j - 1) + 1) * c) as T' by lia.
    rewrite (tie_away _ _ _ _ Hc T A), (tie_away _ _ _ _ Hc T' B).
    destruct (Z.lt_trichotomy x 0) as [K|[K|K]].
    + assert (x * r <= 0) by nia. assert (x * (c - r) <= 0) by nia. rewrite Z.sgn_neg by lia.
      pose proof (tied_nz _ _ _ Hc T). pose proof (tied_nz _ _ _ Hc T').
      destruct (Z.leb_spec 0 (x * r)), (Z.leb_spec 0 (x * (c - r))); lia.
    + subst x. exfalso. apply (tied_nz _ _ _ Hc T). ring.
    + assert (0 <= x * r) by nia. assert (0 <= x * (c - r)) by nia. rewrite Z.sgn_pos by lia.
      destruct (Z.leb_spec 0 (x * r)), (Z.leb_spec 0 (x * (c - r))); lia.
  - intros T. replace (x * (c - r)) with (x * c - x * r) in B by ring. generalize dependent (x * r). intros n A B T.
    destruct A as [A _], B as [B _].
    assert (2 * Z.abs (n - a * c) <> c) as Ta.
    { intros K. apply T. destruct (Z.le_gt_cases 0 (n - a * c)); [exists a; lia|exists (a - 1); lia]. }
    assert (Z.abs ((x - a - a') * c) < c) as K by (replace ((x - a - a') * c) with ((n - a * c) + (x * c - n - a' * c)) by ring; lia).
    assert (x - a - a' = 0); [|lia]. generalize dependent (x - a - a'). intros z K. clear - K Hc.
    destruct (Z.lt_trichotomy z 0) as [E|[E|E]]; [nia|exact E|nia].
Qed.

Section split.
Context (b : build) (L : layout) (P : Z) (Hv : valid b L P).

Lemma split_val m m' x r : tame m L P -> tame m' L P -> in_range L x -> 0 <= r <= 10 ^ P ->
  split b L P m m' x r = Ret (Ok (rnd m (x * r) (10 ^ P), rnd m' (x * (10 ^ P - r)) (10 ^ P))) /\
  in_range L (rnd m (x * r) (10 ^ P)) /\ in_range L (rnd m' (x * (10 ^ P - r)) (10 ^ P)).
Proof using Hv.
  intros Ht Ht' Rx Hr. destruct (one_is b L P Hv) as [E R]. pose proof (pow10_pos P (proj1 (proj2 Hv))) as Hc.
  pose proof (hi_pos L). pose proof (lo_hi L).
  assert (in_range L r /\ in_range L (10 ^ P - r)) as [Rr Rr'] by (unfold in_range in *; lia).
  pose proof (rnd_zrounds m (x * r) (10 ^ P) Hc) as Z1. pose proof (rnd_zrounds m' (x * (10 ^ P - r)) (10 ^ P) Hc) as Z2.
  pose proof (total_between m x (10 ^ P) r _ Hc Hr Z1) as B1. pose proof (total_between m' x (10 ^ P) (10 ^ P - r) _ Hc ltac:(lia) Z2) as B2.
  assert (in_range L (rnd m (x * r) (10 ^ P))) as R1 by (unfold in_range in *; lia).
  assert (in_range L (rnd m' (x * (10 ^ P - r)) (10 ^ P))) as R2 by (unfold in_range in *; lia).
  split; [|split; assumption]. unfold split. rewrite E. cbn [bind]. rewrite csub_eq, chkr_ok by exact Rr'. cbn [try_ bind].
  rewrite (rmul_is m b L P x r _ Hv Ht Rx Rr R1 Z1). cbn [try_ bind].
  rewrite (rmul_is m' b L P x (10 ^ P - r) _ Hv Ht' Rx Rr' R2 Z2). reflexivity.
Qed.
Lemma product_rounds m x r a : 0 <= P -> zrounds m (x * r) (10 ^ P) a -> rounds_to m P (dec P x * dec P r) a.
Proof. intros HP H. unfold rounds_to. eapply rounds_compat; [symmetry; apply mul_scaled; exact HP|]. apply rounds_zrounds; [now apply pow10_pos|exact H]. Qed.
Lemma split_directed m x r : m <> Nearest -> in_range L x -> 0 <= r <= 10 ^ P ->
  exists a c, split b L P m (flip m) x r = Ret (Ok (a, c)) /\ cadd L a c = Ok x /\ rounds_to m P (dec P x * dec P r) a.
Proof using Hv.
  intros Hm Rx Hr. pose proof (pow10_pos P (proj1 (proj2 Hv))) as Hc.
  assert (flip m <> Nearest) as Hf by (destruct m; cbn; congruence).
  destruct (split_val m (flip m) x r (directed_tame L P m Hm) (directed_tame L P _ Hf) Rx Hr) as (E & R1 & R2).
  pose proof (rnd_zrounds m (x * r) (10 ^ P) Hc) as Z1. pose proof (rnd_zrounds (flip m) (x * (10 ^ P - r)) (10 ^ P) Hc) as Z2.
  pose proof (flip_complement m _ _ x _ Hm Hc Z1) as Z3. replace (x * 10 ^ P - x * r) with (x * (10 ^ P - r)) in Z3 by ring.
  pose proof (zrounds_unique _ _ _ _ _ Hc Z2 Z3) as Eq.
  eexists _, _. split; [exact E|]. split; [|apply product_rounds; [apply Hv|exact Z1]].
  rewrite cadd_eq, Eq. replace (_ + _) with x by ring. now apply chkr_ok.
Qed.
Lemma split_nearest x r : ~ (L = L128 /\ P = 38) -> in_range L x -> 0 <= r <= 10 ^ P ->
  exists a c, split b L P Nearest Nearest x r = Ret (Ok (a, c)) /\
    ((exists j, 2 * (x * r) = (2 * j + 1) * 10 ^ P) -> a + c = x + Z.sgn x) /\
    (~ (exists j, 2 * (x * r) = (2 * j + 1) * 10 ^ P) -> a + c = x).
Proof using Hv.
  intros Ht Rx Hr. pose proof (pow10_pos P (proj1 (proj2 Hv))) as Hc.
  destruct (split_val Nearest Nearest x r (fun _ => Ht) (fun _ => Ht) Rx Hr) as (E & R1 & R2).
  eexists _, _. split; [exact E|]. apply (nearest_complement x r (10 ^ P)); try assumption; now apply rnd_zrounds.
Qed.

(** ** Tax contained in a price *)
Lemma untax_spec m g t : m <> Nearest -> in_range L g -> 0 <= t -> in_range L (10 ^ P + t) ->
  exists n tax, untax b L P m g t = Ret (Ok (n, tax)) /\ n + tax = g /\
    rounds_to m P (dec P g / (1 + dec P t)) n /\ rounds_to (flip m) P (dec P g * dec P t / (1 + dec P t)) tax.
Proof using Hv.
  intros Hm Rg H0 Rt. destruct (one_is b L P Hv) as [E R]. pose proof (pow10_pos P (proj1 (proj2 Hv))) as Hc.
  pose proof (hi_pos L). pose proof (lo_hi L).
  set (f := 10 ^ P + t) in *. assert (0 < f) as Hf by lia.
  pose proof (rnd_zrounds m (g * 10 ^ P) f Hf) as Z1. set (n := rnd m (g * 10 ^ P) f) in *.
  pose proof (total_between m g f (10 ^ P) n Hf ltac:(lia) Z1) as B.
  assert (in_range L n) as Rn by (unfold in_range in *; lia). assert (in_range L (g - n)) as Rd by (unfold in_range in *; lia).
  exists n, (g - n). split; [|split; [ring|]].
  - unfold untax. rewrite E. cbn [bind]. rewrite cadd_eq. fold f. rewrite chkr_ok by exact Rt. cbn [try_ bind].
    rewrite (rdiv_is m b L P g f n Hv Rg Rt Hf (directed_roomy L m f Hm) Rn Z1). cbn [try_ bind].
    rewrite csub_eq, chkr_ok by exact Rd. reflexivity.
  - pose proof (flip_complement m _ _ g _ Hm Hf Z1) as Z2. replace (g * f - g * 10 ^ P) with (g * t) in Z2 by (unfold f; ring).
    assert (0 <= P) as HP by apply Hv.
    assert (~ (Zq f == 0)%Q) as Nf by (unfold Zq, inject_Z, Qeq; cbn; lia).
    assert (~ (Zq (10 ^ P) == 0)%Q) as Np by (unfold Zq, inject_Z, Qeq; cbn; lia).
    assert (1 + dec P t == Zq f / Zq (10 ^ P))%Q as Ef.
    { unfold f. rewrite Zq_add, dec_alt by exact HP. field. exact Np. }
    assert (q10 P == Zq (10 ^ P))%Q as Eq by (apply q10_pos; exact HP).
    unfold rounds_to. split.
    + eapply rounds_compat; [|apply rounds_zrounds; [exact Hf|exact Z1]]. rewrite Ef, dec_alt, Eq, Zq_mul by exact HP. field. split; assumption.
    + eapply rounds_compat; [|apply rounds_zrounds; [exact Hf|exact Z2]]. rewrite Ef, !dec_alt, Eq, Zq_mul by exact HP. field. split; assumption.
Qed.
End split.

(** ** Bisection *)
Lemma bisect_spec b L p k : forall l h, in_range L l -> in_range L h -> l < h -> h - l <= 2 ^ Z.of_nat k -> p l = true -> p h = false ->
  exists a, bisect b L p (S k) l h = Ret a /\ l <= a < h /\ p a = true /\ p (a + 1) = false.
Proof.
  induction k as [|k IH]; intros l h Rl Rh Hlt Hk Pl Ph.
  all: destruct (half_sum_val b L l h Floor Rl Rh) as [E R]; rewrite half_ideal in E, R by discriminate.
  all: pose proof (rnd_zrounds Floor (l + h) 2 ltac:(lia)) as Z1; set (mid := rnd Floor (l + h) 2) in *; clearbody mid; cbn [zrounds] in Z1.
  - cbn in Hk. cbn [bisect]. rewrite E. cbn [bind]. replace (mid =? l) with true by (symmetry; apply Z.eqb_eq; lia).
    exists l. split; [reflexivity|]. split; [lia|]. split; [exact Pl|]. now replace (l + 1) with h by lia.
  - rewrite Nat2Z.inj_succ, Z.pow_succ_r in Hk by lia.
    remember (S k) as k' eqn:Ek. cbn [bisect]. rewrite E. cbn [bind]. subst k'. destruct (Z.eqb_spec mid l) as [Em|Em].
    + exists l. split; [reflexivity|]. split; [lia|]. split; [exact Pl|]. now replace (l + 1) with h by lia.
    + destruct (p mid) eqn:Pm.
      * destruct (IH mid h R Rh ltac:(lia) ltac:(lia) Pm Ph) as (a & Ea & Ba & Pa). exists a. split; [exact Ea|]. split; [lia|exact Pa].
      * destruct (IH l mid Rl R ltac:(lia) ltac:(lia) Pl Pm) as (a & Ea & Ba & Pa). exists a. split; [exact Ea|]. split; [lia|exact Pa].
Qed.
Lemma bisect_range b L p k l h : in_range L l -> in_range L h -> l < h -> bits L < Z.of_nat k -> p l = true -> p h = false ->
  exists a, bisect b L p k l h = Ret a /\ l <= a < h /\ p a = true /\ p (a + 1) = false.
Proof.
  intros Rl Rh Hlt Hk. destruct k as [|k]; [destruct L; cbn in Hk; lia|]. apply bisect_spec; try assumption. apply Z.le_trans with (2 ^ bits L).
  - unfold in_range, lo, hi in *. assert (2 ^ bits L = 2 * 2 ^ (bits L - 1)) by (destruct L; reflexivity). lia.
  - apply Z.pow_le_mono_r; lia.
Qed.

Section search.
Context (b b' : build) (L : layout) (P : Z) (Hv : valid b L P) (Hv' : valid b' L P).
Lemma mul_at_most z w x : in_range L z -> in_range L w -> in_range L x -> 0 <= z -> 0 <= w ->
  at_most (rmul b L P z w Ceil) x = (z * w <=? x * 10 ^ P).
Proof using Hv.
  intros Rz Rw Rx Hz Hw. pose proof (pow10_pos P (proj1 (proj2 Hv))) as Hc. pose proof (hi_pos L). pose proof (lo_hi L).
  pose proof (rnd_zrounds Ceil (z * w) (10 ^ P) Hc) as Z1.
  rewrite rmul_dir_val by (assumption || discriminate). set (s := rnd Ceil (z * w) (10 ^ P)) in *. clearbody s.
  destruct (in_range_dec L s) as [R|R].
  - rewrite chkr_ok by exact R. cbn [at_most]. pose proof (ceil_above _ _ _ x Hc Z1) as K.
    destruct (Z.leb_spec s x) as [A|A], (Z.leb_spec (z * w) (x * 10 ^ P)) as [B|B]; try reflexivity; exfalso; [apply K in A|apply K in B]; lia.
  - assert (chkr L s = Err Overflow) as -> by (destruct (chkr L s) as [v|e] eqn:Ec; [apply chkr_inv in Ec as [-> K]; contradiction|unfold chkr in Ec; destruct (fitsb (lty L) s); congruence]).
    cbn [at_most]. symmetry. apply Z.leb_gt. pose proof (ceil_above _ _ _ x Hc Z1) as K. apply Z.nle_gt. intros A. apply K in A.
    assert (0 <= s) by (cbn [zrounds] in Z1; nia). unfold in_range in *. lia.
Qed.
Lemma search_root x r k : in_range L x -> rsqrt b' L P x Floor = Ret (Ok r) -> r < hi L -> bits L < Z.of_nat k ->
  bisect b' L (fun z => at_most (rmul b L P z z Ceil) x) k 0 (hi L) = Ret r.
Proof using Hv Hv'.
  intros Rx E Hr Hk. destruct (rsqrt_has b b' L P Hv Hv' x Floor r Rx E) as [H0 Zr]. pose proof (hi_pos L). pose proof (lo_hi L).
  destruct Zr as [R0 Zr]. cbn in Zr.
  assert (forall z, 0 <= z <= hi L -> at_most (rmul b L P z z Ceil) x = (z * z <=? x * 10 ^ P)) as M
    by (intros z Hz; apply mul_at_most; try assumption; unfold in_range; lia).
  destruct (bisect_range b' L (fun z => at_most (rmul b L P z z Ceil) x) k 0 (hi L)) as (a & Ea & Ba & Pa & Pb); try (unfold in_range; lia); try assumption.
  - cbv beta. rewrite M by lia. apply Z.leb_le. pose proof (pow10_pos P (proj1 (proj2 Hv))). nia.
  - cbv beta. rewrite M by lia. apply Z.leb_gt. nia.
  - rewrite M in Pa by lia. rewrite M in Pb by lia. apply Z.leb_le in Pa. apply Z.leb_gt in Pb. rewrite Ea. f_equal. nia.
Qed.
Lemma search_quotient x y q k : in_range L x -> in_range L y -> 0 <= x -> 0 < y -> rdiv b' L P x y Floor = Ret (Ok q) -> q < hi L ->
  bits L < Z.of_nat k -> bisect b' L (fun z => at_most (rmul b L P z y Ceil) x) k 0 (hi L) = Ret q.
Proof using Hv Hv'.
  intros Rx Ry Hx Hy E Hq Hk. pose proof (hi_pos L). pose proof (lo_hi L). pose proof (pow10_pos P (proj1 (proj2 Hv))).
  apply rdiv_has in E as (_ & E & _); try assumption; [|lia|apply directed_roomy; discriminate]. specialize (E Hy). cbn [zrounds] in E.
  assert (forall z, 0 <= z <= hi L -> at_most (rmul b L P z y Ceil) x = (z * y <=? x * 10 ^ P)) as M
    by (intros z Hz; apply mul_at_most; try assumption; unfold in_range; lia).
  destruct (bisect_range b' L (fun z => at_most (rmul b L P z y Ceil) x) k 0 (hi L)) as (a & Ea & Ba & Pa & Pb); try (unfold in_range; lia); try assumption.
  - cbv beta. rewrite M by lia. apply Z.leb_le. nia.
  - cbv beta. rewrite M by lia. apply Z.leb_gt. nia.
  - rewrite M in Pa by lia. rewrite M in Pb by lia. apply Z.leb_le in Pa. apply Z.leb_gt in Pb. rewrite Ea. f_equal. nia.
Qed.

(** ** Means *)
Lemma means x y p r m h : in_range L x -> in_range L y -> 0 <= x -> 0 <= y -> rmul b L P x y Floor = Ret (Ok p) ->
  rsqrt b' L P p Floor = Ret (Ok r) -> half_sum b L x y m = Ret h -> r <= h.
Proof using Hv Hv'.
  intros Rx Ry Hx Hy Ep Er Eh. pose proof (pow10_pos P (proj1 (proj2 Hv))) as Hc.
  apply rmul_tame in Ep as [Rp Ep]; try assumption; [|apply directed_tame; discriminate]. cbn [zrounds] in Ep.
  destruct (rsqrt_has b b' L P Hv Hv' p Floor r Rp Er) as [H0 [R0 Zr]]. cbn in Zr.
  rewrite (proj1 (half_sum_val b L x y m Rx Ry)) in Eh. injection Eh as <-. pose proof (half_near x y m) as N.
  assert (r * r <= x * y) by nia. assert (2 * r <= x + y); [|lia]. pose proof (Z.square_nonneg (x - y)). apply Z.nlt_ge. intros K. assert ((x + y) * (x + y) < (2 * r) * (2 * r)) by nia. lia.
Qed.
Lemma means_min x y p r : in_range L x -> in_range L y -> 0 <= x -> 0 <= y -> rmul b L P x y Ceil = Ret (Ok p) ->
  rsqrt b' L P p Ceil = Ret (Ok r) -> Z.min x y <= r.
Proof using Hv Hv'.
  intros Rx Ry Hx Hy Ep Er. pose proof (pow10_pos P (proj1 (proj2 Hv))) as Hc.
  apply rmul_tame in Ep as [Rp Ep]; try assumption; [|apply directed_tame; discriminate]. cbn [zrounds] in Ep.
  destruct (rsqrt_has b b' L P Hv Hv' p Ceil r Rp Er) as [H0 [R0 [Zr _]]].
  assert (x * y <= r * r) by nia. nia.
Qed.
End search.

Lemma split_dir b L P m x r : valid b L P -> m <> Nearest -> in_range L x -> 0 <= r <= 10 ^ P ->
  exists a c, split b L P m (flip m) x r = Ret (Ok (a, c)) /\ cadd L a c = Ok x /\ rounds_to m P (dec P x * dec P r) a.
Proof. intros. now apply split_directed. Qed.
Lemma split_near b L P x r : valid b L P -> ~ (L = L128 /\ P = 38) -> in_range L x -> 0 <= r <= 10 ^ P ->
  exists a c, split b L P Nearest Nearest x r = Ret (Ok (a, c)) /\
    ((exists j, 2 * (x * r) = (2 * j + 1) * 10 ^ P) -> a + c = x + Z.sgn x) /\
    (~ (exists j, 2 * (x * r) = (2 * j + 1) * 10 ^ P) -> a + c = x).
Proof. intros. now apply split_nearest. Qed.
Lemma untax_dir b L P m g t : valid b L P -> m <> Nearest -> in_range L g -> 0 <= t -> in_range L (10 ^ P + t) ->
  exists n tax, untax b L P m g t = Ret (Ok (n, tax)) /\ n + tax = g /\
    rounds_to m P (dec P g / (1 + dec P t)) n /\ rounds_to (flip m) P (dec P g * dec P t / (1 + dec P t)) tax.
Proof. intros. now apply untax_spec. Qed.
Lemma search_root_ b b' L P x r k : valid b L P -> valid b' L P -> in_range L x -> rsqrt b' L P x Floor = Ret (Ok r) -> r < hi L ->
  bits L < Z.of_nat k -> bisect b' L (fun z => at_most (rmul b L P z z Ceil) x) k 0 (hi L) = Ret r.
Proof. intros. now apply search_root. Qed.
Lemma search_quotient_ b b' L P x y q k : valid b L P -> valid b' L P -> in_range L x -> in_range L y -> 0 <= x -> 0 < y ->
  rdiv b' L P x y Floor = Ret (Ok q) -> q < hi L ->
  bits L < Z.of_nat k -> bisect b' L (fun z => at_most (rmul b L P z y Ceil) x) k 0 (hi L) = Ret q.
Proof. intros. now apply search_quotient. Qed.
Lemma means_ b b' L P x y p r m h : valid b L P -> valid b' L P -> in_range L x -> in_range L y -> 0 <= x -> 0 <= y ->
  rmul b L P x y Floor = Ret (Ok p) -> rsqrt b' L P p Floor = Ret (Ok r) -> half_sum b L x y m = Ret h -> r <= h <= Z.max x y.
Proof. intros Hv Hv' Rx Ry Hx Hy Ep Er Eh. split; [exact (means b b' L P Hv Hv' x y p r m h Rx Ry Hx Hy Ep Er Eh)|]. apply (half_between b L x y m h Rx Ry Eh). Qed.
Lemma means_min_ b b' L P x y p r : valid b L P -> valid b' L P -> in_range L x -> in_range L y -> 0 <= x -> 0 <= y ->
  rmul b L P x y Ceil = Ret (Ok p) -> rsqrt b' L P p Ceil = Ret (Ok r) -> Z.min x y <= r.
Proof. intros Hv Hv'. exact (means_min b b' L P Hv Hv' x y p r). Qed.
