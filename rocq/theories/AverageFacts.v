(** * AverageFacts: moving averages stay within the samples and close to the exact average. *)
From Coq Require Import Lia QArith Qabs Lqa.
From Verif Require Import Base Promo Ops Spec BaseFacts RoundFacts ArithProofs PrimPromo SimpleProofs MulDiv OrderFacts DecProofs LawFacts Programs ProgramFacts.
From Verif Require Import SpecRound Series SeriesFacts.
From Verif Require Import SpecUndo Undo Average.
From Verif Require Import Fixed.
Open Scope Z_scope.

Lemma share_z m d a c p : 0 <= a <= c -> 0 < c -> zrounds m (d * a) c p -> (0 <= d -> 0 <= p <= d) /\ (d <= 0 -> d <= p <= 0).
Proof.
  intros Ha Hc H. assert (0 <= d -> 0 <= d * a <= d * c) as A by nia. assert (d <= 0 -> d * c <= d * a <= 0) as B by nia.
  generalize dependent (d * a). intros n H A B. destruct m; cbn [zrounds] in H; destruct H as [H1 H2]; split; intros Hd; split; nia.
Qed.
Lemma rdiv_int_is m b L x n : in_range L x -> in_range L n -> 0 < n -> roomy m L n -> rdiv_int b L x n m = Ret (chkr L (rnd m x n)).
Proof.
  intros Hx Hn H0 Hg. pose proof (hi_pos L). pose proof (lo_hi L). unfold rdiv_int.
  rewrite int_rdiv_spec; try assumption; try (apply fits_lty; assumption); [|apply signed_lty|lia|lia|].
  - now rewrite chkt_chkr.
  - intros Hm Hr. specialize (Hg Hm). rewrite imax_lty, imin_lty. pose proof (Z.rem_bound_abs x n ltac:(lia)). lia.
Qed.

Section average.
Context (b : build) (L : layout) (P : Z) (Hv : valid b L P).

(** One step, either way. *)
Definition moves (s x s' : Z) : Prop := Z.min s x <= s' <= Z.max s x.
Lemma ema_step m a s x : tame m L P -> in_range L a -> 0 <= a <= 10 ^ P -> in_range L s -> in_range L x -> in_range L (x - s) ->
  exists d p s', csub L x s = Ok d /\ rmul b L P d a m = Ret (Ok p) /\ cadd L s p = Ok s' /\ moves s x s' /\ in_range L s' /\
    s' = s + p /\ rounds_to m P (dec P (x - s) * dec P a) p.
Proof.
  intros Ht Ra Ha Rs Rx Rd. pose proof (coef_bounds b L P Hv) as Hc. pose proof (hi_pos L). pose proof (lo_hi L).
  exists (x - s), (rnd m ((x - s) * a) (10 ^ P)), (s + rnd m ((x - s) * a) (10 ^ P)).
  pose proof (rnd_zrounds m ((x - s) * a) (10 ^ P) ltac:(lia)) as Z1. set (p := rnd m ((x - s) * a) (10 ^ P)) in *. clearbody p.
  destruct (share_z m (x - s) a (10 ^ P) p ltac:(lia) ltac:(lia) Z1) as [A B].
  assert (in_range L p) as Rp by (unfold in_range in *; destruct (Z.le_gt_cases 0 (x - s)); lia).
  assert (moves s x (s + p)) as M by (unfold moves; destruct (Z.le_gt_cases 0 (x - s)); lia).
  assert (in_range L (s + p)) as Rs' by (unfold moves, in_range in *; lia).
  split; [rewrite csub_eq; now apply chkr_ok|]. split; [now apply rmul_is|]. split; [rewrite cadd_eq; now apply chkr_ok|].
  split; [exact M|]. split; [exact Rs'|]. split; [reflexivity|].
  unfold rounds_to. apply (rounds_compat _ (Zq ((x - s) * a) / Zq (10 ^ P))); [symmetry; apply mul_scaled; apply Hv|].
  apply rounds_zrounds; [lia|exact Z1].
Qed.
Lemma ema_within m a lw up : tame m L P -> in_range L a -> 0 <= a <= 10 ^ P -> in_range L lw -> in_range L up -> up - lw <= hi L ->
  forall l s, Forall (fun x => lw <= x <= up) (s :: l) ->
  exists r, ema b L P m a s l = Ret (Ok r) /\ lw <= r <= up /\
    (Qabs (dec P r - qema P (dec P a) (dec P s) l) <= slack m * q10 (- P) * geom (1 - dec P a) (length l))%Q.
Proof.
  intros Ht Ra Ha Rl Ru Hsp. assert (0 <= P) as HP by apply Hv. pose proof (lo_hi L). pose proof (q10_nonneg (- P)) as U. pose proof (slack_pos m) as Sl.
  assert (0 <= dec P a <= 1)%Q as Qa.
  { split; [change 0%Q with (Zq 0); apply dec_ge; lia|change 1%Q with (Zq 1); apply dec_le; lia]. }
  (* the error grows by one rounding per step *)
  assert (forall l s e k, Forall (fun x => lw <= x <= up) (s :: l) -> (Qabs (dec P s - e) <= slack m * q10 (- P) * geom (1 - dec P a) k)%Q ->
    exists r, ema b L P m a s l = Ret (Ok r) /\ lw <= r <= up /\
      (Qabs (dec P r - qema P (dec P a) e l) <= slack m * q10 (- P) * geom (1 - dec P a) (length l + k))%Q) as K.
  { induction l as [|x l IH]; intros s e k F He.
    - exists s. split; [reflexivity|]. inversion F; subst. split; [assumption|exact He].
    - inversion F as [|? ? Fs F']; subst. inversion F' as [|? ? Fx F'']; subst.
      destruct (ema_step m a s x Ht Ra Ha) as (d & p & s' & E1 & E2 & E3 & M & Rs' & Es & Hp); try (unfold in_range in *; lia).
      cbn [ema]. rewrite E1. cbn [try_ bind]. rewrite E2. cbn [try_ bind]. rewrite E3. cbn [try_ bind].
      destruct (IH s' (dec P a * dec P x + (1 - dec P a) * e)%Q (S k)) as (r & G & W & B).
      + constructor; [|assumption]. unfold moves in M. lia.
      + apply rounds_to_slack in Hp; [|exact HP]. subst s'. rewrite <- dec_minus in Hp.
        assert (dec P (s + p) == dec P s + dec P p)%Q as EA by apply dec_add. rewrite EA.
        assert (geom (1 - dec P a) (S k) == 1 + (1 - dec P a) * geom (1 - dec P a) k)%Q as EG.
        { clear. induction k as [|k IHk]; [cbn; ring|]. cbn [geom qpow] in *. rewrite IHk at 1. ring. }
        rewrite EG. apply abs_le in Hp. apply abs_le in He. set (g := geom (1 - dec P a) k) in *. set (w := (slack m * q10 (- P))%Q) in *.
        assert (0 <= w)%Q as W by (apply Qmult_le_0_compat; assumption).
        assert (w * (1 + (1 - dec P a) * g) == w + (1 - dec P a) * (w * g))%Q as EW by ring. rewrite EW.
        set (wg := (w * g)%Q) in *. clearbody wg w g. apply abs_both; nra.
      + exists r. split; [exact G|]. split; [exact W|]. cbn [length qema]. rewrite Nat.add_succ_l, <- Nat.add_succ_r. exact B. }
  intros l s F. destruct (K l s (dec P s) O F) as (r & G & W & B).
  - setoid_replace (dec P s - dec P s)%Q with 0%Q by ring. cbn [geom]. rewrite Qmult_0_r. discriminate.
  - exists r. rewrite Nat.add_0_r in B. auto.
Qed.

(** The running mean, first in units of the last digit: [c] sums the weights of the roundings. *)
Definition kk (m : mode) : Z := match m with Nearest => 2 | _ => 1 end.
Lemma share_err m d n p : 0 < n -> zrounds m d n p -> kk m * Z.abs (n * p - d) <= n.
Proof. intros Hn H. destruct m; cbn [zrounds kk] in *; lia. Qed.
Lemma mean_step m n s x : 0 < n -> in_range L (n + 1) -> roomy m L (n + 1) -> in_range L s -> in_range L x -> in_range L (x - s) ->
  exists d p s', csub L x s = Ok d /\ rdiv_int b L d (n + 1) m = Ret (Ok p) /\ cadd L s p = Ok s' /\ moves s x s' /\
    s' = s + p /\ kk m * Z.abs ((n + 1) * p - (x - s)) <= n + 1.
Proof.
  intros Hn Rn Hg Rs Rx Rd. pose proof (hi_pos L). pose proof (lo_hi L).
  exists (x - s), (rnd m (x - s) (n + 1)), (s + rnd m (x - s) (n + 1)).
  pose proof (rnd_zrounds m (x - s) (n + 1) ltac:(lia)) as Z1. pose proof (rdiv_int_is m b L (x - s) (n + 1) Rd Rn ltac:(lia) Hg) as E.
  set (p := rnd m (x - s) (n + 1)) in *. clearbody p.
  pose proof (share_err m (x - s) (n + 1) p ltac:(lia) Z1) as B.
  destruct (share_z m (x - s) 1 (n + 1) p ltac:(lia) ltac:(lia)) as [A A']; [now rewrite Z.mul_1_r|].
  assert (in_range L p) as Rp by (unfold in_range in *; destruct (Z.le_gt_cases 0 (x - s)); lia).
  assert (moves s x (s + p)) as M by (unfold moves; destruct (Z.le_gt_cases 0 (x - s)); lia).
  assert (in_range L (s + p)) as Rs' by (unfold moves, in_range in *; lia).
  split; [rewrite csub_eq; now apply chkr_ok|]. split; [rewrite E; now rewrite chkr_ok|]. split; [rewrite cadd_eq; now apply chkr_ok|]. auto.
Qed.
Lemma mean_raw m lw up : in_range L lw -> in_range L up -> up - lw <= hi L ->
  forall l n s T c, 0 < n -> in_range L (n + Z.of_nat (length l)) -> roomy m L (n + Z.of_nat (length l)) ->
  Forall (fun x => lw <= x <= up) (s :: l) -> 2 * c = n * (n + 1) - 2 -> kk m * Z.abs (n * s - T) <= c ->
  exists r, mean b L m n s l = Ret (Ok r) /\ lw <= r <= up /\
    let N := n + Z.of_nat (length l) in kk m * Z.abs (N * r - (T + total l)) * 2 <= N * (N + 1) - 2.
Proof.
  intros Rl Ru Hsp. pose proof (lo_hi L). assert (1 <= kk m <= 2) as Hk by (destruct m; cbn; lia).
  induction l as [|x l IH]; intros n s T c Hn Rn Hg F Hc He.
  - exists s. split; [reflexivity|]. inversion F; subst. split; [assumption|]. cbn [length total Z.of_nat]. rewrite !Z.add_0_r. cbv zeta. lia.
  - inversion F as [|? ? Fs F']; subst. inversion F' as [|? ? Fx F'']; subst.
    replace (n + Z.of_nat (length (x :: l))) with (n + 1 + Z.of_nat (length l)) in * by (cbn [length]; lia).
    destruct (mean_step m n s x Hn) as (d & p & s' & E1 & E2 & E3 & M & Es & B); try (unfold in_range in *; lia).
    { intros Hm. specialize (Hg Hm). lia. }
    cbn [mean]. rewrite E1. cbn [try_ bind]. rewrite E2. cbn [try_ bind]. rewrite E3. cbn [try_ bind].
    destruct (IH (n + 1) s' (T + x) (c + (n + 1))) as (r & G & W & Q); try assumption; try lia.
    + constructor; [unfold moves in M; lia|assumption].
    + subst s'. replace ((n + 1) * (s + p) - (T + x)) with ((n * s - T) + ((n + 1) * p - (x - s))) by ring.
      destruct m; cbn [kk] in *; lia.
    + exists r. split; [exact G|]. split; [exact W|]. cbn [total]. now rewrite Z.add_assoc.
Qed.
Lemma qsum_total l : (qsum P l == dec P (total l))%Q.
Proof. induction l as [|x l IH]; cbn [qsum total]; [unfold dec; change (Zq 0) with 0%Q; ring|]. rewrite IH. symmetry. apply dec_add. Qed.
Lemma mean_within m lw up : in_range L lw -> in_range L up -> up - lw <= hi L ->
  forall x l, let N := Z.of_nat (length (x :: l)) in in_range L N -> roomy m L N -> Forall (fun x => lw <= x <= up) (x :: l) ->
  exists r, mean b L m 1 x l = Ret (Ok r) /\ lw <= r <= up /\
    (Qabs (dec P r - qsum P (x :: l) / Zq N) <= slack m * q10 (- P) * (Zq ((N - 1) * (N + 2)) / Zq (2 * N)))%Q.
Proof.
  intros Rl Ru Hsp x l N RN Hg F. subst N. replace (Z.of_nat (length (x :: l))) with (1 + Z.of_nat (length l)) in * by (cbn [length]; lia).
  destruct (mean_raw m lw up Rl Ru Hsp l 1 x x 0) as (r & G & W & B); try assumption; try lia.
  cbv zeta in B. exists r. split; [exact G|]. split; [exact W|].
  rewrite (qsum_total (x :: l)). cbn [total]. set (T := x + total l) in *. set (N := 1 + Z.of_nat (length l)) in *.
  assert (1 <= N) as HN by lia. clearbody T N. pose proof (q10_nonneg (- P)) as U.
  assert (0 < Zq N)%Q as QN by (change 0%Q with (Zq 0); apply Zq_lt; lia).
  assert (~ Zq N == 0)%Q as QN' by lra.
  setoid_replace (dec P r - dec P T / Zq N)%Q with ((Zq (N * r - T) / Zq N) * q10 (- P))%Q.
  2:{ unfold dec. change (N * r - T) with (N * r + - T). rewrite Zq_add, Zq_opp, Zq_mul. field. exact QN'. }
  rewrite Qabs_Qmult, (Qabs_pos (q10 (- P))) by exact U.
  setoid_replace (slack m * q10 (- P) * (Zq ((N - 1) * (N + 2)) / Zq (2 * N)))%Q with (slack m * (Zq ((N - 1) * (N + 2)) / Zq (2 * N)) * q10 (- P))%Q by ring.
  apply Qmult_le_compat_r; [|exact U]. unfold Qdiv at 1. rewrite Qabs_Qmult, (Qabs_pos (/ Zq N)) by (apply Qinv_le_0_compat; lra).
  setoid_replace (slack m * (Zq ((N - 1) * (N + 2)) / Zq (2 * N)))%Q with (slack m * (Zq ((N - 1) * (N + 2)) / 2) * / Zq N)%Q.
  2:{ rewrite (Zq_mul 2 N). change (Zq 2) with 2%Q. field. exact QN'. }
  apply Qmult_le_compat_r; [|apply Qinv_le_0_compat; lra].
  replace ((N - 1) * (N + 2)) with (N * (N + 1) - 2) by ring.
  set (e := N * r - T) in *. set (w := N * (N + 1) - 2) in *. clearbody e w.
  assert (Zq (kk m * Z.abs e * 2) <= Zq w)%Q as K by (apply Zq_le; exact B).
  assert (Qabs (Zq e) == Zq (Z.abs e))%Q as Ea by reflexivity. rewrite Ea.
  rewrite !Zq_mul in K. destruct m; cbn [kk slack] in *; change (Zq 2) with 2%Q in K; try change (Zq 1) with 1%Q in K; unfold Qdiv; change (/ 2)%Q with (1 # 2)%Q; lra.
Qed.
End average.

Lemma geom_bounded q n : (0 <= q < 1)%Q -> (geom q n <= / (1 - q))%Q.
Proof.
  intros H. assert (geom q n * (1 - q) == 1 - qpow q n)%Q as E.
  { induction n as [|n IH]; cbn [geom qpow]; [ring|]. rewrite Qmult_plus_distr_l, IH. ring. }
  assert (0 <= qpow q n)%Q as K by (clear E; induction n as [|n IH]; cbn [qpow]; [discriminate|apply Qmult_le_0_compat; lra]).
  setoid_replace (/ (1 - q))%Q with (1 / (1 - q))%Q by (unfold Qdiv; ring). apply Qle_shift_div_l; lra.
Qed.
