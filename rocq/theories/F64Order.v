(** * F64Order: floats made from numbers are ordered as the numbers are. *)
From Coq Require Import Lqa.
From Verif Require Import Base Promo Ops Fixed Spec SpecF64 BaseFacts RoundFacts ArithProofs SimpleProofs Str Float ProgramFacts ToF64 F64Mono.
From Verif Require Import Fixed.
Open Scope Z_scope.

Lemma dec_abs P x : (Qabs (dec P x) == dec P (Z.abs x))%Q.
Proof. unfold dec. rewrite Qabs_Qmult. rewrite (Qabs_pos (q10 (- P))) by apply q10_nonneg. reflexivity. Qed.
Lemma strict b b' L P x y f g : valid b L P -> valid b' L P -> in_range L x -> in_range L y -> Z.abs x <= 2 ^ 50 -> Z.abs y <= 2 ^ 50 -> x < y ->
  to_f64 b L P x = Ret f -> to_f64 b' L P y = Ret g -> (f64_val (f64_to_bits f) < f64_val (f64_to_bits g))%Q.
Proof.
  intros V V' R R' Bx By Lt E F.
  destruct (to_f64_error b L P x V R) as (f' & E' & _ & A). rewrite E in E'. injection E' as <-.
  destruct (to_f64_error b' L P y V' R') as (g' & F' & _ & B). rewrite F in F'. injection F' as <-.
  set (v := f64_val (f64_to_bits f)) in *. set (w := f64_val (f64_to_bits g)) in *. clearbody v w.
  rewrite dec_abs in A, B. apply abs_le in A, B. change (Qpower (2 # 1) (-51)) with (1 # 2251799813685248)%Q in *.
  assert (0 < q10 (- P))%Q as U. { rewrite q10_neg by apply V. apply Qinv_lt_0_compat. change 0%Q with (Zq 0). apply Zq_lt. apply pow10_pos, V. }
  assert (2251799813685248 * x + Z.abs x < 2251799813685248 * y - Z.abs y) as K by (change (2 ^ 50) with 1125899906842624 in *; lia).
  unfold dec in *. set (u := q10 (- P)) in *. clearbody u. apply Zq_lt in K. unfold Z.sub in K. rewrite !Zq_add, Zq_opp, !Zq_mul in K.
  change (Zq 2251799813685248) with 2251799813685248%Q in K.
  set (p := Zq x) in *. set (q := Zq y) in *. set (p' := Zq (Z.abs x)) in *. set (q' := Zq (Z.abs y)) in *. clearbody p q p' q'. clear - A B U K.
  assert (0 < (2251799813685248 * q - q' - 2251799813685248 * p - p') * u)%Q as Z by (apply Qmult_lt_0_compat; [lra|exact U]). lra.
Qed.
Lemma reflects b b' L P x y f g : valid b L P -> valid b' L P -> in_range L x -> in_range L y ->
  to_f64 b L P x = Ret f -> to_f64 b' L P y = Ret g -> (f64_val (f64_to_bits f) < f64_val (f64_to_bits g))%Q -> x < y.
Proof.
  intros V V' R R' E F Lt. destruct (Z_lt_le_dec x y) as [|H]; [assumption|exfalso].
  pose proof (to_mono b' b L P y x g f V' V R' R H F E). lra.
Qed.
Lemma same_order b b' L P x y f g : valid b L P -> valid b' L P -> in_range L x -> in_range L y -> Z.abs x <= 2 ^ 50 -> Z.abs y <= 2 ^ 50 ->
  to_f64 b L P x = Ret f -> to_f64 b' L P y = Ret g ->
  (fp_lt x y = true <-> (f64_val (f64_to_bits f) < f64_val (f64_to_bits g))%Q) /\
  (fp_eq x y = true <-> (f64_val (f64_to_bits f) == f64_val (f64_to_bits g))%Q) /\
  (fp_le x y = true <-> (f64_val (f64_to_bits f) <= f64_val (f64_to_bits g))%Q).
Proof.
  intros V V' R R' Bx By E F. unfold fp_lt, fp_eq, fp_le. rewrite Z.ltb_lt, Z.eqb_eq, Z.leb_le.
  destruct (Z.lt_trichotomy x y) as [H|[H|H]].
  - pose proof (strict b b' L P x y f g V V' R R' Bx By H E F) as S. repeat split; intros; first [lra | lia | assumption | exfalso; lra].
  - subst y. pose proof (to_mono b b' L P x x f g V V' R R (Z.le_refl x) E F). pose proof (to_mono b' b L P x x g f V' V R R (Z.le_refl x) F E).
    repeat split; intros; first [lra | lia | exfalso; lra].
  - pose proof (strict b' b L P y x g f V' V R' R By Bx H F E) as S. repeat split; intros; first [lra | lia | exfalso; lra].
Qed.
Lemma not_strict : exists x y f, valid dev L64 0 /\ in_range L64 x /\ in_range L64 y /\ x < y /\ to_f64 dev L64 0 x = Ret f /\ to_f64 dev L64 0 y = Ret f.
Proof.
  exists (2 ^ 53), (2 ^ 53 + 1). eexists. repeat split; try (vm_compute; reflexivity); try (vm_compute; discriminate).
Qed.
