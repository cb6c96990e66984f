(** * RoundLaws: rounding to whole numbers and to multiples. *)
From Verif Require Import Base Promo Ops Fixed Spec BaseFacts RoundFacts ArithProofs SimpleProofs MulDiv DecProofs OrderFacts LawFacts SpecCalls CallFacts.
From Verif Require Import SpecRound.
From Verif Require Import Fixed.
Open Scope Z_scope.

Lemma rounder_int_part m b L P x : rounder m b L P x = int_part b L P x m.
Proof. destruct m; reflexivity. Qed.
Lemma tame_small m b L P x : valid b L P -> tame m L P -> m = Nearest -> 2 * Z.abs (Z.rem x (10 ^ P)) <= hi L.
Proof. intros V T E. apply (fraction_small b); [exact V|]. intros (A & B & _). exact (T E (conj A B)). Qed.
Lemma rounder_val m b L P x : valid b L P -> in_range L x -> x <> lo L -> tame m L P ->
  rounder m b L P x = (if fitsb (lty L) (rnd m x (10 ^ P) * 10 ^ P) then Ret (rnd m x (10 ^ P) * 10 ^ P) else Panic).
Proof.
  intros V R N T. rewrite rounder_int_part. unfold int_part.
  destruct (integral_val b L P x m V R N (tame_small m b L P x V T)) as [E _]. rewrite E. cbn [bind].
  rewrite from_decimal_0 by assumption. cbn [bind].
  destruct (fits_dec (lty L) (rnd m x (10 ^ P) * 10 ^ P)) as [F|F].
  - rewrite chk_some by exact F. apply fitsb_fits in F. now rewrite F.
  - rewrite chk_none by exact F. destruct (fitsb (lty L) (rnd m x (10 ^ P) * 10 ^ P)) eqn:G; [apply fitsb_fits in G; contradiction|reflexivity].
Qed.
Lemma rounder_ret m b L P x r : valid b L P -> in_range L x -> x <> lo L -> tame m L P ->
  (rounder m b L P x = Ret r <-> r = rnd m x (10 ^ P) * 10 ^ P /\ in_range L r).
Proof.
  intros V R N T. rewrite rounder_val by assumption.
  destruct (fitsb (lty L) (rnd m x (10 ^ P) * 10 ^ P)) eqn:F.
  - apply fitsb_fits in F. rewrite fits_lty in F. split; [intros E; injection E as <-; auto|intros [-> _]; reflexivity].
  - split; [discriminate|]. intros [-> H]. rewrite <- fits_lty in H. apply fitsb_fits in H. congruence.
Qed.

Lemma again m m' b b' L P x r : valid b L P -> valid b' L P -> in_range L x -> x <> lo L -> tame m L P -> tame m' L P ->
  rounder m b L P x = Ret r -> r <> lo L -> rounder m' b' L P r = Ret r.
Proof.
  intros V V' R N T T' E NL. apply rounder_ret in E; try assumption. destruct E as [-> Rr].
  pose proof (pow10_pos P (proj1 (proj2 V))) as PP. apply rounder_ret; try assumption. rewrite rnd_exact by lia. auto.
Qed.
Lemma fixed_point m b L P x : valid b L P -> in_range L x -> x <> lo L -> tame m L P ->
  (rounder m b L P x = Ret x <-> exists n, (dec P x == Zq n)%Q).
Proof.
  intros V R N T. assert (0 <= P) as HP by apply V. pose proof (pow10_pos P HP) as PP. rewrite rounder_ret by assumption. split.
  - intros [E _]. exists (rnd m x (10 ^ P)). rewrite <- (dec_pow10 P _ HP). rewrite <- E. reflexivity.
  - intros [n E]. rewrite <- (dec_pow10 P n HP) in E. apply dec_eq in E. subst x. rewrite rnd_exact by lia. auto.
Qed.
Lemma rounder_mono m b b' L P x x' r r' : valid b L P -> valid b' L P -> in_range L x -> in_range L x' -> x <> lo L -> x' <> lo L -> tame m L P ->
  x <= x' -> rounder m b L P x = Ret r -> rounder m b' L P x' = Ret r' -> r <= r'.
Proof.
  intros V V' R R' N N' T Le E E'. apply rounder_ret in E; try assumption. apply rounder_ret in E'; try assumption. destruct E as [-> _], E' as [-> _].
  pose proof (pow10_pos P (proj1 (proj2 V))) as PP. pose proof (rnd_mono m x x' (10 ^ P) PP Le). nia.
Qed.
Lemma bracket b L P x f n c one : valid b L P -> in_range L x -> x <> lo L -> ONE b L P = Ret one ->
  rounder Floor b L P x = Ret f -> rounder Ceil b L P x = Ret c ->
  f <= x <= c /\ (f = c \/ c = f + one) /\ (tame Nearest L P -> rounder Nearest b L P x = Ret n -> (n = f \/ n = c) /\ 2 * Z.abs (x - n) <= one).
Proof.
  intros V R N O F C. pose proof (pow10_pos P (proj1 (proj2 V))) as PP.
  unfold ONE in O. rewrite COEF_ok in O by assumption. injection O as <-.
  apply rounder_ret in F; try assumption; [|intros ?; discriminate]. apply rounder_ret in C; try assumption; [|intros ?; discriminate].
  destruct F as [-> _], C as [-> _].
  pose proof (rnd_zrounds Floor x _ PP) as F. pose proof (rnd_zrounds Ceil x _ PP) as C. unfold zrounds in F, C.
  set (u := rnd Floor x (10 ^ P)) in *. set (v := rnd Ceil x (10 ^ P)) in *. set (t := 10 ^ P) in *.
  assert (v = u \/ v = u + 1) as UV by nia.
  split; [lia|]. split; [destruct UV as [->| ->]; [left; reflexivity|right; ring]|].
  intros T E. apply rounder_ret in E; try assumption. destruct E as [-> _].
  pose proof (rnd_zrounds Nearest x _ PP) as W. unfold zrounds in W. fold t in W |- *. set (w := rnd Nearest x t) in *. destruct W as [W _].
  split; [|lia]. assert (w = u \/ w = v) as [->| ->]; [|left; reflexivity|right; reflexivity].
  assert (2 * (w * t) <= 2 * x + t /\ 2 * x <= 2 * (w * t) + t) as [A B] by lia. clear W.
  destruct UV as [->| ->].
  - left. nia.
  - assert (w <= u + 1) by nia. assert (u <= w) by nia. lia.
Qed.
Lemma mirrored m b b' L P x r : valid b L P -> valid b' L P -> in_range L x -> x <> lo L -> tame m L P ->
  (rounder m b L P x = Ret r <-> rounder (mirror m) b' L P (- x) = Ret (- r)).
Proof.
  intros V V' R N T. assert (0 <= P) as HP by apply V. pose proof (pow10_pos P HP) as PP.
  pose proof (lo_hi L) as LH. pose proof (hi_pos L) as HH.
  assert (in_range L (- x)) as R' by (unfold in_range in *; lia). assert (- x <> lo L) as N' by (unfold in_range in *; lia).
  assert (tame (mirror m) L P) as T' by (intros E; apply T; destruct m; (reflexivity || discriminate)).
  rewrite !rounder_ret by assumption. replace (mirror m) with (flip m) by (destruct m; reflexivity). rewrite rnd_flip.
  assert (forall k, in_range L (k * 10 ^ P) -> x <> lo L -> k = rnd m x (10 ^ P) -> in_range L (- (k * 10 ^ P))) as A.
  { intros k K _ EK. unfold in_range in *. cut (k * 10 ^ P <> lo L); [lia|]. intros Z.
    destruct (Z.eq_dec P 0) as [->|P0]; [change (10 ^ 0) with 1 in *; rewrite Z.mul_1_r in Z; subst k|].
    - pose proof (rnd_exact m x 1 ltac:(lia)) as X. rewrite Z.mul_1_r in X. congruence.
    - assert ((5 | lo L)) as D. { rewrite <- Z. apply Z.divide_mul_r. replace P with (Z.succ (P - 1)) by lia. rewrite Z.pow_succ_r by lia. apply Z.divide_mul_l. exists 2. reflexivity. }
      apply Z.mod_divide in D; [|lia]. destruct L; vm_compute in D; discriminate D. }
  assert (forall k, in_range L (- (k * 10 ^ P)) -> k = rnd m x (10 ^ P) -> in_range L (k * 10 ^ P)) as B.
  { intros k K EK. unfold in_range in *. cut (- (k * 10 ^ P) <> lo L); [lia|]. intros Z.
    destruct (Z.eq_dec P 0) as [->|P0]; [change (10 ^ 0) with 1 in *; rewrite Z.mul_1_r in Z; subst k|].
    - pose proof (rnd_exact m x 1 ltac:(lia)) as X. rewrite Z.mul_1_r in X. lia.
    - assert ((5 | lo L)) as D. { rewrite <- Z. apply Z.divide_opp_r. apply Z.divide_mul_r. replace P with (Z.succ (P - 1)) by lia. rewrite Z.pow_succ_r by lia. apply Z.divide_mul_l. exists 2. reflexivity. }
      apply Z.mod_divide in D; [|lia]. destruct L; vm_compute in D; discriminate D. }
  split.
  - intros [-> Q]. split; [ring|]. apply A; auto.
  - intros [E Q]. assert (r = rnd m x (10 ^ P) * 10 ^ P) as -> by lia. split; [reflexivity|]. apply B; auto.
Qed.
Lemma rnd_shift m n k d : 0 < d -> m <> Nearest -> rnd m (n + k * d) d = rnd m n d + k.
Proof.
  intros Hd Hm. apply rnd_eq; [exact Hd|]. pose proof (rnd_zrounds m n d Hd) as Z. destruct m; unfold zrounds in *; try congruence; nia.
Qed.
Lemma shifted m b b' L P x y k r s : valid b L P -> valid b' L P -> in_range L x -> in_range L y -> x <> lo L -> y <> lo L -> m <> Nearest ->
  y = x + k * 10 ^ P -> rounder m b L P x = Ret r -> rounder m b' L P y = Ret s -> s = r + k * 10 ^ P.
Proof.
  intros V V' R R' N N' M E F G. pose proof (pow10_pos P (proj1 (proj2 V))) as PP.
  apply rounder_ret in F; try assumption; [|intros ?; congruence]. apply rounder_ret in G; try assumption; [|intros ?; congruence].
  destruct F as [-> _], G as [-> _]. rewrite E, rnd_shift by assumption. ring.
Qed.

(** ** Multiples *)
Lemma rtz_range L x p : in_range L x -> p <> 0 -> in_range L (Z.quot x p * p).
Proof. intros R N. pose proof (quot_rem_facts x p N) as (E & _ & A & B). pose proof (lo_hi L). pose proof (hi_pos L). unfold in_range in *. lia. Qed.
Lemma rtz_again L x p q k : in_range L x -> in_range L p -> in_range L q -> p <> 0 -> q <> 0 -> q = k * p ->
  round_towards_zero_by L (round_towards_zero_by L x p) q = round_towards_zero_by L x q.
Proof.
  intros R Rp Rq Np Nq E. rewrite (rtz_val L x p), (rtz_val L x q) by assumption.
  rewrite rtz_val by (assumption || now apply rtz_range). f_equal. subst q.
  assert (k <> 0) as Nk by (intros ->; apply Nq; ring).
  rewrite (Z.mul_comm k p). rewrite <- !Z.quot_quot by assumption. now rewrite Z.quot_mul by assumption.
Qed.
Lemma rtz_mono L x y p : in_range L x -> in_range L y -> in_range L p -> x <= y -> round_towards_zero_by L x p <= round_towards_zero_by L y p.
Proof.
  intros R R' Rp Le. destruct (Z.eq_dec p 0) as [->|N]; [now rewrite !rtz_zero|]. rewrite !rtz_val by assumption.
  destruct (Z_lt_ge_dec p 0) as [H|H].
  - replace (Z.quot x p * p) with (Z.quot x (- p) * (- p)) by (rewrite Z.quot_opp_r by lia; ring).
    replace (Z.quot y p * p) with (Z.quot y (- p) * (- p)) by (rewrite Z.quot_opp_r by lia; ring).
    apply Z.mul_le_mono_nonneg_r; [lia|]. apply Z.quot_le_mono; lia.
  - apply Z.mul_le_mono_nonneg_r; [lia|]. apply Z.quot_le_mono; lia.
Qed.
Lemma rtz_odd L x p : in_range L x -> in_range L p -> x <> lo L -> round_towards_zero_by L (- x) p = - round_towards_zero_by L x p.
Proof.
  intros R Rp N. pose proof (lo_hi L) as LH. assert (in_range L (- x)) as R' by (unfold in_range in *; lia).
  destruct (Z.eq_dec p 0) as [->|Np]; [now rewrite !rtz_zero|]. rewrite !rtz_val by assumption. rewrite Z.quot_opp_l by assumption. ring.
Qed.
Lemma rtz_sign L x p : in_range L x -> in_range L p -> p <> lo L -> round_towards_zero_by L x (- p) = round_towards_zero_by L x p.
Proof.
  intros R Rp N. pose proof (lo_hi L) as LH. assert (in_range L (- p)) as R' by (unfold in_range in *; lia).
  destruct (Z.eq_dec p 0) as [->|Np]; [reflexivity|]. rewrite !rtz_val by (assumption || lia). rewrite Z.quot_opp_r by assumption. ring.
Qed.
Lemma rtz_one b L P x one m : valid b L P -> in_range L x -> x <> lo L -> ONE b L P = Ret one -> m = (if 0 <=? x then Floor else Ceil) ->
  rounder m b L P x = Ret (round_towards_zero_by L x one).
Proof.
  intros V R N O M. pose proof (pow10_pos P (proj1 (proj2 V))) as PP. pose proof (one_range b L P V) as OR.
  unfold ONE in O. rewrite COEF_ok in O by assumption. injection O as <-. rewrite rtz_val by (assumption || lia).
  apply rounder_ret; try assumption; [subst m; destruct (0 <=? x); intros ?; discriminate|].
  split; [|apply rtz_range; (assumption || lia)]. f_equal. symmetry. apply rnd_eq; [exact PP|].
  pose proof (quot_rem_facts x (10 ^ P) ltac:(lia)) as (E & _ & _ & _). pose proof (Z.quot_rem' x (10 ^ P)) as Q.
  subst m. destruct (0 <=? x) eqn:S; unfold zrounds.
  - pose proof (Z.rem_bound_pos x (10 ^ P) ltac:(lia) PP). lia.
  - pose proof (Z.rem_bound_pos_neg x (10 ^ P) PP ltac:(lia)). lia.
Qed.
