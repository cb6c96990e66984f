(** * ProgramFacts: histories of roundings. *)
From Coq Require Import QArith Qabs Lqa.
From Verif Require Import Base Promo ConstFn Ops Str Spec SpecText BaseFacts RoundFacts ArithProofs SimpleProofs MulDiv DecProofs StrFacts ShowFacts.
From Verif Require Import Programs.
From Verif Require Import Fixed.
Open Scope Z_scope.

(** ** Repeated multiplication *)
Lemma abs_both (a c : Q) : (a <= c -> - a <= c -> Qabs a <= c)%Q.
Proof. intros H1 H2. apply Qabs_case; auto. Qed.
Lemma abs_le (a c : Q) : (Qabs a <= c -> a <= c /\ - c <= a)%Q.
Proof. intros H. apply Qabs_Qle_condition in H. lra. Qed.
Lemma Zq_succ z : (Zq (z + 1) == Zq z + 1)%Q.
Proof. rewrite Zq_add. reflexivity. Qed.
Lemma Zq_pred z : (Zq (z - 1) == Zq z - 1)%Q.
Proof. unfold Z.sub. rewrite Zq_add. reflexivity. Qed.
Lemma rounds_slack m q z : rounds m q z -> (Qabs (Zq z - q) <= slack m)%Q.
Proof.
  pose proof (Zq_succ z). pose proof (Zq_pred z). destruct m; unfold rounds, slack; intros [H1 H2].
  - apply abs_both; lra.
  - rewrite <- Qabs_opp. setoid_replace (- (Zq z - q))%Q with (q - Zq z)%Q by ring. exact H1.
  - apply abs_both; lra.
Qed.
Lemma slack_pos m : (0 <= slack m)%Q.
Proof. destruct m; discriminate. Qed.
Lemma q10_nonneg e : (0 <= q10 e)%Q.
Proof. unfold q10. apply Qpower.Qpower_pos. discriminate. Qed.
Lemma q10_opp P : 0 <= P -> (q10 P * q10 (- P) == 1)%Q.
Proof.
  intros HP. rewrite q10_pos, q10_neg by assumption. apply Qmult_inv_r, Zq_nonzero. pose proof (pow10_pos P HP). lia.
Qed.
Lemma rounds_to_slack m P d r : 0 <= P -> rounds_to m P d r -> (Qabs (dec P r - d) <= slack m * q10 (- P))%Q.
Proof.
  intros HP H. apply rounds_slack in H. pose proof (q10_nonneg (- P)) as Hq. pose proof (q10_opp P HP) as E.
  setoid_replace (dec P r - d)%Q with ((Zq r - d * q10 P) * q10 (- P))%Q.
  - rewrite Qabs_Qmult, (Qabs_pos (q10 (- P))) by exact Hq. now apply Qmult_le_compat_r.
  - unfold dec. rewrite <- (Qmult_1_r d) at 1. rewrite <- E. ring.
Qed.
Lemma rnd_contracts m x y c : 0 < c -> Z.abs y <= c -> Z.abs (rnd m (x * y) c) <= Z.abs x.
Proof.
  intros Hc Hy. pose proof (rnd_zrounds m (x * y) c Hc) as H. set (z := rnd m (x * y) c) in *. clearbody z.
  assert (Z.abs (x * y) <= Z.abs x * c) as Hn by (rewrite Z.abs_mul; apply Z.mul_le_mono_nonneg_l; lia).
  set (n := x * y) in *. set (a := Z.abs x) in *. assert (0 <= a) by (unfold a; lia). clearbody n a. clear Hy x y.
  destruct m; cbn [zrounds] in H; [|destruct H as [H _]|].
  - assert (z <= a) by (apply Z.nlt_ge; intros K; nia). assert (- a <= z) by (apply Z.nlt_ge; intros K; nia). lia.
  - assert (z <= a) by (apply Z.nlt_ge; intros K; nia). assert (- a <= z) by (apply Z.nlt_ge; intros K; nia). lia.
  - assert (z <= a) by (apply Z.nlt_ge; intros K; nia). assert (- a <= z) by (apply Z.nlt_ge; intros K; nia). lia.
Qed.
Lemma qproduct_small L P l : 0 <= P -> Forall (factor L P) l -> (Qabs (qproduct P l) <= 1)%Q.
Proof.
  intros HP. induction 1 as [|[y m] l [_ [Hy _]] _ IH]; cbn [qproduct fst] in *; [discriminate|].
  rewrite Qabs_Qmult. assert (Qabs (dec P y) <= 1)%Q as Hd.
  { pose proof (pow10_pos P HP) as Hp. rewrite dec_alt by assumption.
    assert (0 < Zq (10 ^ P))%Q as Gp by (change 0%Q with (Zq 0); apply Zq_lt; lia).
    apply abs_both; [|setoid_replace (- (Zq y / Zq (10 ^ P)))%Q with (Zq (- y) / Zq (10 ^ P))%Q by (rewrite Zq_opp; field; lra)];
      apply Qle_shift_div_r; try assumption; rewrite Qmult_1_l; apply Zq_le; lia. }
  pose proof (Qabs_nonneg (dec P y)). pose proof (Qabs_nonneg (qproduct P l)).
  apply Qle_trans with (1 * 1)%Q; [|discriminate]. apply Qmult_le_compat_nonneg; auto.
Qed.
Theorem run_mul_error b L P x l : valid b L P -> in_range L x -> x <> lo L -> Forall (factor L P) l ->
  exists r, run_mul b L P x l = Ret (Ok r) /\ Z.abs r <= Z.abs x /\
    (Qabs (dec P r - dec P x * qproduct P l) <= slacks l * q10 (- P))%Q.
Proof.
  intros Hv Hx Hlo Hl. pose proof (proj1 (proj2 Hv)) as HP. pose proof (pow10_pos P HP) as Hp.
  revert x Hx Hlo. induction Hl as [|[y m] l (Hy & Hy1 & Hm) Hl IH]; intros x Hx Hlo; cbn [run_mul qproduct slacks fst snd] in *.
  - exists x. split; [reflexivity|]. split; [lia|]. setoid_replace (dec P x - dec P x * 1)%Q with 0%Q by ring.
    change (Qabs 0) with 0%Q. rewrite Qmult_0_l. apply Qle_refl.
  - pose proof (rmul_any b L P Hv x y Hx Hy m Hm) as Ha. rewrite (rmul_any_val b L P Hv x y Hx Hy m Hm) in *.
    set (r := rnd m (x * y) (10 ^ P)) in *.
    assert (Z.abs r <= Z.abs x) as Hr by now apply rnd_contracts.
    assert (in_range L r /\ r <> lo L) as [Hr1 Hr2].
    { pose proof (lo_hi L) as E. unfold in_range in *. rewrite E in *. lia. }
    rewrite (chkr_ok L r Hr1) in *. cbn [try_ bind]. destruct (IH r Hr1 Hr2) as (r' & E' & B' & Q').
    exists r'. split; [exact E'|]. split; [lia|].
    destruct Ha as (r2 & Hrd & [[_ Ha]|[_ Ha]]); [|discriminate]. injection Ha as <-.
    apply rounds_to_slack in Hrd; [|exact HP].
    pose proof (qproduct_small L P l HP Hl) as Hs. pose proof (q10_nonneg (- P)) as Hq. pose proof (slack_pos m) as Hsm.
    setoid_replace (dec P r' - dec P x * (dec P y * qproduct P l))%Q with
      ((dec P r' - dec P r * qproduct P l) + (dec P r - dec P x * dec P y) * qproduct P l)%Q by ring.
    eapply Qle_trans; [apply Qabs_triangle|]. rewrite Qabs_Qmult.
    setoid_replace ((slack m + slacks l) * q10 (- P))%Q with (slacks l * q10 (- P) + slack m * q10 (- P) * 1)%Q by ring.
    apply Qplus_le_compat; [exact Q'|].
    apply Qmult_le_compat_nonneg; split; auto using Qabs_nonneg.
Qed.

(** ** Splitting *)
Theorem split_shares b L P x n : 0 <= P -> in_range L x -> 0 <= x -> in_range L n -> 0 < n ->
  exists q r, split b L x n = Ret (Ok (q, r)) /\ in_range L q /\ in_range L r /\ 0 <= q /\ 0 <= r < n /\
    (dec P q * Zq n + dec P r == dec P x)%Q.
Proof.
  intros HP Hx Hx0 Hn Hn0.
  assert (rdiv_int b L x n Floor = Ret (Ok (x / n))) as E1.
  { destruct (rdiv_int_rounded b L P x n Floor HP Hx Hn ltac:(lia) ltac:(lia) ltac:(discriminate)) as (r & Hr & H).
    assert (r = x / n) as ->.
    { apply (rounds_rnd Floor x n r); [lia|]. eapply rounds_compat; [|exact Hr].
      rewrite <- (dec_scaled P x HP). pose proof (Zq_nonzero n ltac:(lia)). field. assumption. }
    destruct H as [[_ H]|[H _]]; [exact H|]. exfalso. apply H. clear - Hx Hx0 Hn0.
    assert (0 <= x / n) by (apply Z.div_pos; lia). assert (x / n <= x) by (apply Z.div_le_upper_bound; nia).
    pose proof (lo_hi L). unfold in_range in *. lia. }
  pose proof (Z.div_mod x n ltac:(lia)) as D. pose proof (Z.mod_pos_bound x n Hn0) as M.
  assert (0 <= x / n) as D0 by (apply Z.div_pos; lia). assert (x / n <= x) as D1 by (apply Z.div_le_upper_bound; nia).
  assert (x / n * n = x - x mod n) as D2 by lia.
  pose proof (lo_hi L) as Elh. pose proof (hi_pos L).
  exists (x / n), (x mod n). unfold split. rewrite E1. cbn [try_ bind].
  assert (cmul L (x / n) n = Ok (x - x mod n)) as E2.
  { unfold cmul, int_cmul, checked_mul. rewrite D2, ok_or_chk. apply chkr_ok. unfold in_range in *. lia. }
  assert (csub L x (x - x mod n) = Ok (x mod n)) as E3.
  { unfold csub, int_csub, checked_sub. replace (x - (x - x mod n)) with (x mod n) by lia. rewrite ok_or_chk. apply chkr_ok. unfold in_range in *. lia. }
  rewrite E2. cbn [try_ bind]. rewrite E3. cbn [try_ bind].
  split; [reflexivity|]. unfold in_range in *. repeat (split; [lia|]).
  unfold dec. setoid_replace (Zq (x / n) * q10 (- P) * Zq n + Zq (x mod n) * q10 (- P))%Q with ((Zq (x / n) * Zq n + Zq (x mod n)) * q10 (- P))%Q by ring.
  rewrite <- Zq_mul, <- Zq_add. replace (x / n * n + x mod n) with x by lia. reflexivity.
Qed.

(** ** Distributing *)
(** How far a total of [n] roundings by [m] can be from the exact one, times [c]. *)
Definition off (m : mode) (n c e : Z) : Prop :=
  match m with Ceil => 0 <= e <= n * c | Nearest => 2 * Z.abs e <= n * c | Floor => - (n * c) <= e <= 0 end.
Lemma distribute_sum b L P m x ws : valid b L P -> in_range L x -> 0 <= x ->
  (m = Nearest -> ~ (L = L128 /\ P = 38)) -> Forall (fun w => in_range L w /\ 0 <= w) ws ->
  forall acc, 0 <= acc ->
  acc * 10 ^ P + x * total ws + room m (Z.of_nat (length ws)) * 10 ^ P <= hi L * 10 ^ P ->
  exists r, distribute b L P m x acc ws = Ret (Ok r) /\ in_range L r /\
    off m (Z.of_nat (length ws)) (10 ^ P) (r * 10 ^ P - (acc * 10 ^ P + x * total ws)).
Proof.
  intros Hv Hx Hx0 Hm Hw. pose proof (proj1 (proj2 Hv)) as HP. pose proof (pow10_pos P HP) as Hp.
  pose proof (lo_hi L) as Elh. pose proof (hi_pos L) as Hh.
  induction Hw as [|w ws [Hw Hw0] Hws IH]; intros acc Ha Hs; cbn [distribute total length] in *.
  - exists acc. split; [reflexivity|]. split.
    + assert (acc <= hi L) by (destruct m; cbn in Hs; nia). unfold in_range. lia.
    + replace (acc * 10 ^ P - (acc * 10 ^ P + x * 0)) with 0 by lia. destruct m; cbn; lia.
  - rewrite (rmul_any_val b L P Hv x w Hx Hw m Hm).
    pose proof (rnd_zrounds m (x * w) (10 ^ P) Hp) as Hz. set (s := rnd m (x * w) (10 ^ P)) in *. clearbody s.
    set (c := 10 ^ P) in *. clearbody c. rewrite Nat2Z.inj_succ in *. set (n := Z.of_nat (length ws)) in *.
    assert (0 <= n) by (unfold n; lia). clearbody n.
    assert (0 <= total ws) as Ht by (clear - Hws; induction Hws as [|? ? [? ?]]; cbn [total]; lia).
    set (t := total ws) in *. clearbody t.
    assert (0 <= x * w) as N1 by nia. assert (0 <= x * t) as N2 by nia. replace (x * (w + t)) with (x * w + x * t) in * by lia.
    set (u := x * w) in *. set (v := x * t) in *. clearbody u v.
    assert (0 <= s) as S0 by (clear - Hz N1 Hp; destruct m; cbn [zrounds] in Hz; apply Z.nlt_ge; intros K; nia).
    assert ((acc + s) * c + v + room m n * c <= hi L * c) as G.
    { clear - Hs Hz Hp. destruct m; cbn [zrounds room] in *; [| |]; nia. }
    assert (0 <= room m n) as R0 by (destruct m; cbn; lia).
    assert (acc + s <= hi L) as G2 by (clear - G N2 R0 Hp; nia).
    rewrite chkr_ok by (unfold in_range; lia). cbn [try_ bind].
    unfold cadd, int_cadd, checked_add. rewrite ok_or_chk, chkr_ok by (unfold in_range; lia). cbn [try_ bind].
    destruct (IH (acc + s) ltac:(lia) G) as (r & E & Hr & Ho). exists r. split; [exact E|]. split; [exact Hr|].
    clear - Hz Ho Hp. unfold Z.succ. destruct m; cbn [zrounds off] in *; [| |]; try nia.
Qed.
Theorem distribute_error b L P m x ws : valid b L P -> in_range L x -> 0 <= x ->
  (m = Nearest -> ~ (L = L128 /\ P = 38)) -> Forall (fun w => in_range L w /\ 0 <= w) ws ->
  (dec P x * dec P (total ws) + Zq (room m (Z.of_nat (length ws))) * q10 (- P) <= dec P (hi L))%Q ->
  exists r, distribute b L P m x 0 ws = Ret (Ok r) /\ in_range L r /\
    off_q m (Z.of_nat (length ws)) (dec P r - dec P x * dec P (total ws)) (q10 (- P)).
Proof.
  intros Hv Hx Hx0 Hm Hw Hs. pose proof (proj1 (proj2 Hv)) as HP. pose proof (pow10_pos P HP) as Hp.
  pose proof (q10_opp P HP) as E1. pose proof (q10_pos P HP) as E2.
  assert (0 < q10 (- P))%Q as Hq by apply q10_gt0.
  pose (uu := (q10 (- P) * q10 (- P))%Q).
  assert (0 < uu)%Q as Hqq by (apply Qmult_lt_0_compat; assumption).
  assert (forall z, Zq z * q10 (- P) == Zq (z * 10 ^ P) * uu)%Q as F.
  { intros z. unfold uu. rewrite Zq_mul, <- E2. rewrite <- (Qmult_1_r (Zq z * q10 (- P))), <- E1. ring. }
  assert (forall c d, dec P c * dec P d == Zq (c * d) * uu)%Q as G by (intros; unfold dec, uu; rewrite Zq_mul; ring).
  clearbody uu.
  destruct (distribute_sum b L P m x ws Hv Hx Hx0 Hm Hw 0 ltac:(lia)) as (r & Er & Hr & Ho).
  { apply Zq_le. apply (Qmult_le_r _ _ _ Hqq). unfold dec at 3 in Hs. rewrite G, !F in Hs.
    rewrite !Zq_add, Qmult_plus_distr_l, Qmult_plus_distr_l. change (Zq (0 * 10 ^ P)) with 0%Q. rewrite Qmult_0_l, Qplus_0_l. exact Hs. }
  exists r. split; [exact Er|]. split; [exact Hr|].
  assert (dec P r - dec P x * dec P (total ws) == Zq (r * 10 ^ P - (0 * 10 ^ P + x * total ws)) * uu)%Q as E.
  { rewrite G. unfold dec. rewrite F. replace (0 * 10 ^ P + x * total ws) with (x * total ws) by lia. unfold Z.sub.
    rewrite Zq_add, Zq_opp. ring. }
  set (n := Z.of_nat (length ws)) in *. set (e := r * 10 ^ P - (0 * 10 ^ P + x * total ws)) in *.
  assert (forall z, 0 <= z -> (0 <= Zq z * uu)%Q) as N.
  { intros z Hz. apply Qmult_le_0_compat; [|lra]. change 0%Q with (Zq 0). now apply Zq_le. }
  assert (forall y z, y <= z -> (Zq y * uu <= Zq z * uu)%Q) as M.
  { intros y z Hz. apply Qmult_le_compat_r; [now apply Zq_le|lra]. }
  destruct m; cbn [off off_q] in *; rewrite E.
  - rewrite F. split; [apply N|apply M]; lia.
  - setoid_replace (Zq n * (1 # 2) * q10 (- P))%Q with ((1 # 2) * (Zq n * q10 (- P)))%Q by ring. rewrite F.
    assert (2 * e <= n * 10 ^ P) as A1 by lia. assert (- (n * 10 ^ P) <= 2 * e) as A2 by lia.
    apply M in A1. apply M in A2. rewrite Zq_mul in A1, A2. rewrite Zq_opp in A2. change (Zq 2) with (2 # 1)%Q in *.
    apply abs_both; lra.
  - rewrite F. split.
    + setoid_replace (- (Zq (n * 10 ^ P) * uu))%Q with (Zq (- (n * 10 ^ P)) * uu)%Q by (rewrite Zq_opp; ring). apply M. lia.
    + assert (e <= 0) as A by lia. apply M in A. change (Zq 0) with 0%Q in A. lra.
Qed.
(** With weights that sum to at most one there is room when rounding down. *)
Theorem distribute_floor b L P x ws : valid b L P -> in_range L x -> 0 <= x ->
  Forall (fun w => in_range L w /\ 0 <= w) ws -> (dec P (total ws) <= 1)%Q ->
  exists r, distribute b L P Floor x 0 ws = Ret (Ok r) /\ 0 <= r <= x /\
    (- (Zq (Z.of_nat (length ws)) * q10 (- P)) <= dec P r - dec P x * dec P (total ws) <= 0)%Q.
Proof.
  intros Hv Hx Hx0 Hw Ht. pose proof (proj1 (proj2 Hv)) as HP.
  assert (0 <= dec P x)%Q as Dx.
  { unfold dec. apply Qmult_le_0_compat; [|apply q10_nonneg]. change 0%Q with (Zq 0). now apply Zq_le. }
  assert (dec P x * dec P (total ws) <= dec P x)%Q as Dt.
  { rewrite <- (Qmult_1_r (dec P x)) at 2. rewrite !(Qmult_comm (dec P x)). now apply Qmult_le_compat_r. }
  destruct (distribute_error b L P Floor x ws Hv Hx Hx0 ltac:(discriminate) Hw) as (r & E & Hr & Ho).
  { cbn [room]. change (Zq 0) with 0%Q. rewrite Qmult_0_l, Qplus_0_r. eapply Qle_trans; [exact Dt|].
    unfold dec. apply Qmult_le_compat_r; [|apply q10_nonneg]. apply Zq_le, Hx. }
  exists r. split; [exact E|]. split; [|exact Ho]. cbn [off_q] in Ho. split.
  - revert E. cut (forall acc, 0 <= acc -> distribute b L P Floor x acc ws = Ret (Ok r) -> 0 <= r); [intros H; apply (H 0); lia|].
    clear - Hw Hv Hx Hx0 HP. induction Hw as [|w ws [Rw Hw] _ IH]; cbn [distribute]; intros acc Ha E; [congruence|].
    rewrite (rmul_any_val b L P Hv x w Hx Rw Floor ltac:(discriminate)) in E. unfold chkr in E at 1.
    destruct (fitsb _ _); [|discriminate]. cbn [try_ bind] in E. unfold cadd, int_cadd, checked_add in E. rewrite ok_or_chk in E.
    unfold chkr in E. destruct (fitsb _ _); [|discriminate]. cbn [try_ bind] in E. apply (IH _) in E; [exact E|].
    change (rnd Floor (x * w) (10 ^ P)) with (x * w / 10 ^ P). pose proof (pow10_pos P HP).
    pose proof (Z.div_pos (x * w) (10 ^ P) ltac:(nia) ltac:(lia)). lia.
  - apply Zq_le. assert (dec P r <= dec P x)%Q as H by lra. unfold dec in H.
    apply Qmult_le_r in H; [exact H|apply q10_gt0].
Qed.

(** ** From one type to another *)
Lemma unrepresentable P m e : 0 <= P -> e < - P -> m mod 10 <> 0 -> forall r, ~ (dec P r == Zq m * q10 e)%Q.
Proof.
  intros HP He Hm r H. apply Hm. assert (m = r * 10 ^ (- P - e)) as ->.
  { apply Zq_eq. rewrite Zq_mul, <- q10_pos by lia. apply (Qmult_inj_r _ _ (q10 e)); [pose proof (q10_gt0 e); lra|].
    rewrite <- H. unfold dec, q10. rewrite <- Qmult_assoc, <- Qpower.Qpower_plus by discriminate.
    replace (- P - e + e) with (- P) by lia. reflexivity. }
  replace (- P - e) with (Z.succ (- P - e - 1)) by lia. rewrite Z.pow_succ_r by lia.
  replace (r * (10 * 10 ^ (- P - e - 1))) with (r * 10 ^ (- P - e - 1) * 10) by lia. apply Z_mod_mult.
Qed.
Theorem convert_exact b b' L P L' P' x k : valid b L P -> valid b' L' P' -> in_range L x ->
  - P <= k <= 10 -> - P' <= k -> 10 ^ (k + P') <= hi L' ->
  exact_or L' P' (dec P x) ConvertError (convert b b' L P L' P' x k).
Proof.
  intros Hv Hv' Hx Hk Hk' Hh. pose proof (proj1 (proj2 Hv')) as HP'. pose proof (valid_prec_38 L P (proj2 Hv)) as H38.
  destruct (to_decimal_spec b L P x k Hv Hx ltac:(apply i32_fits; lia) ltac:(lia)) as (m & e & Et & Eq & He & Hm & Hn & H0).
  unfold convert. rewrite Et. cbn [bind]. unfold try_from, chk.
  assert (forall q o, (q == dec P x)%Q -> exact_or L' P' q ConvertError o -> exact_or L' P' (dec P x) ConvertError o) as C.
  { intros q o E [(r & [R F] & Eo)|[N Eo]]; [left|right].
    - exists r. split; [split; [exact R|now rewrite F]|exact Eo].
    - split; [|exact Eo]. intros r [R F]. apply (N r). split; [exact R|now rewrite F, E]. }
  apply (C _ _ Eq). clear C.
  destruct (Z_lt_dec e (- P')) as [Le|Ge].
  - right. assert (m mod 10 <> 0) as Hm10.
    { destruct (Z.eq_dec x 0) as [->|Nx]; [destruct (H0 eq_refl); lia|]. destruct (Hn Nx); [lia|assumption]. }
    split; [intros r [_ F]; revert F; now apply unrepresentable|].
    destruct (fitsb (lty L') m); [|reflexivity]. apply from_decimal_bad; [assumption|lia].
  - assert (10 ^ (e + P') <= hi L') as Hh' by (apply Z.le_trans with (10 ^ (k + P')); [apply Z.pow_le_mono_r; lia|exact Hh]).
    pose proof (from_decimal_spec b' L' P' m e Hv' ltac:(lia) Hh') as S.
    destruct (fits_dec (lty L') m) as [F|F]; [rewrite fitsb_true by assumption; exact S|].
    rewrite fitsb_false by assumption. right. split; [|reflexivity]. intros r [R E].
    apply F, fits_lty. assert (r = m * 10 ^ (e + P')) as ->.
    { apply Zq_eq. rewrite Zq_mul, <- q10_pos by lia. apply (Qmult_inj_r _ _ (q10 (- P'))); [pose proof (q10_gt0 (- P')); lra|].
      fold (dec P' r). rewrite E. rewrite <- Qmult_assoc. unfold q10. rewrite <- Qpower.Qpower_plus by discriminate.
      replace (e + P' + - P') with e by lia. reflexivity. }
    pose proof (pow10_pos (e + P') ltac:(lia)). pose proof (lo_hi L'). pose proof (hi_pos L'). unfold in_range in *. clear - R H H1 H2. nia.
Qed.
Lemma canonical_spelling s q : canonical s q -> exists neg i f, spells s neg i (Some f) /\ (spelled neg i (Some f) == q)%Q.
Proof. intros H. destruct (canonical_spells _ _ H) as (neg & i & f & H1 & H2 & _). eauto. Qed.
Theorem convert_text_rounds b b' L P L' P' x y : valid b L P -> valid b' L' P' -> in_range L x -> printable b L P x -> 0 < P' ->
  (convert_text b b' L P L' P' x = Ret (Ok y) <-> in_range L' y /\ rounds_to Nearest P' (dec P x) y).
Proof.
  intros Hv Hv' Hx Hp HP'. destruct (to_string_ok b L P x Hv Hx Hp) as (s & E & Hc & _).
  destruct (canonical_spelling _ _ Hc) as (neg & i & f & Hs & Hq). unfold convert_text. rewrite E. cbn [bind].
  rewrite from_str_rounds by assumption. split.
  - intros (neg' & i' & f' & Hs' & Hy & Hr). split; [exact Hy|].
    assert (spelled neg' i' f' == dec P x)%Q as Eq by (rewrite <- Hq; destruct (spells_unique _ _ _ _ _ _ _ Hs Hs') as (-> & -> & ->); reflexivity).
    unfold rounds_to in *. eapply rounds_compat; [|exact Hr]. now rewrite Eq.
  - intros [Hy Hr]. exists neg, i, (Some f). split; [exact Hs|]. split; [exact Hy|].
    unfold rounds_to in *. eapply rounds_compat; [|exact Hr]. now rewrite Hq.
Qed.
Theorem convert_text_fails b b' L P L' P' x : valid b L P -> valid b' L' P' -> in_range L x -> printable b L P x -> 0 < P' ->
  (forall y, rounds_to Nearest P' (dec P x) y -> ~ in_range L' y) -> convert_text b b' L P L' P' x = Ret (Err ConvertError).
Proof.
  intros Hv Hv' Hx Hp HP' N. pose proof (fun y => proj1 (convert_text_rounds b b' L P L' P' x y Hv Hv' Hx Hp HP')) as A.
  destruct (to_string_ok b L P x Hv Hx Hp) as (s & E & Hc & _). unfold convert_text in *. rewrite E in *. cbn [bind] in *.
  destruct (parse_total b' L' P' false s Hv') as [[y Ey]|Ee]; [|exact Ee].
  exfalso. destruct (A y Ey) as [Hy Hr]. exact (N y Hr Hy).
Qed.
Theorem convert_zero b b' L P L' P' x : valid b L P -> valid b' L' P' -> in_range L x ->
  exact_or L' P' (dec P x) ConvertError (convert b b' L P L' P' x 0).
Proof.
  intros Hv Hv' Hx. pose proof (proj1 (proj2 Hv)). pose proof (proj1 (proj2 Hv')).
  apply convert_exact; try assumption; try lia. cbn [Z.add]. apply (coef_bounds b' L' P' Hv').
Qed.
