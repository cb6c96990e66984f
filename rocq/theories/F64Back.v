(** * F64Back: which floats read back as a given decimal. *)
From Coq Require Import SpecFloat QArith Qabs Qpower.
From Verif Require Import Base PowerTable ConstFn Sqrt Promo Ops Fixed Float Spec SpecF64 BaseFacts SimpleProofs
  F64Facts F64Rel F64Proofs ToF64.
From Verif Require Import Fixed.
Open Scope Z_scope.
Ltac Zify.zify_post_hook ::= idtac.

Lemma abs_diff_le (A B : Z) : (Zq A <= Zq B * Qpower (2 # 1) (-51))%Q -> 2 ^ 51 * A <= B.
Proof.
  change (Qpower (2 # 1) (-51)) with (1 # 2251799813685248). unfold Zq, Qle, Qmult, inject_Z. cbn [Qnum Qden]. lia.
Qed.
Lemma reads_back : forall b L P raw x, valid b L P -> f64_finite raw -> in_range L x -> x <> lo L -> Z.abs x <= 10 ^ 15 ->
  (Qabs (f64_val raw - dec P x) <= Qabs (dec P x) * Qpower (2 # 1) (-51))%Q -> try_from_f64 b L P raw = Ret (Ok x).
Proof.
  intros b L P raw x HV F Hx Hlo H15 R. pose proof (valid_prec_38 _ _ (proj2 HV)) as HP.
  rewrite Qabs_Qminus in R. apply (Qmult_le_r _ _ (Zq T) T_pos) in R.
  rewrite (abs_diff_T P x raw ltac:(lia)) in R.
  setoid_replace (Qabs (dec P x) * Qpower (2 # 1) (-51) * Zq T)%Q with (Zq (Z.abs x * 10 ^ (K0 - P)) * Qpower (2 # 1) (-51))%Q in R.
  2:{ rewrite <- dec_abs, <- (dec_T P (Z.abs x) ltac:(lia)). ring. }
  apply abs_diff_le in R. pose proof (K0_P P ltac:(lia)) as GS. set (S := 10 ^ (K0 - P)) in *.
  pose proof (units_nonneg raw F) as HU. pose proof five_pos as G5.
  destruct (conv b L P raw HV F) as (z & Hz & Hr & ->). pose proof (lo_hi L) as Hlh. unfold in_range in Hx.
  assert (HV0 := V_nonneg raw F). unfold sval in R.
  set (V := f64_units raw * 5 ^ K0) in *.
  assert (z = Z.abs x /\ (f64_sign raw = (x <? 0) \/ x = 0)) as [-> Hs].
  { assert ((if f64_sign raw then - f64_units raw else f64_units raw) * 5 ^ K0 = if f64_sign raw then - V else V) as E
      by (destruct (f64_sign raw); unfold V; ring).
    rewrite E in R. clear E.
    assert (Z.abs x * S = Z.abs (x * S)) as EA by (rewrite Z.abs_mul, (Z.abs_eq S) by lia; reflexivity).
    assert (2 ^ 51 * Z.abs (V - Z.abs x * S) <= Z.abs x * S) as K.
    { rewrite EA in *. set (w := x * S) in *. clearbody w V. clear - R HV0. destruct (f64_sign raw); lia. }
    split; [exact (f64rel_near P V z (Z.abs x) ltac:(lia) HV0 ltac:(lia) Hr K)|].
    destruct (Z.eq_dec x 0) as [->|Hx0]; [now right|left]. rewrite EA in *.
    assert (x < 0 /\ x * S < 0 \/ 0 < x /\ 0 < x * S) as HS by (clear - Hx0 GS; destruct (Z.lt_trichotomy x 0) as [C|[C|C]]; [left|lia|right]; split; try assumption; nia).
    set (w := x * S) in *. clearbody w V. clear - R HV0 HS. destruct (f64_sign raw), (x <? 0) eqn:C; try reflexivity; exfalso; lia. }
  unfold outcome_of. replace (Z.abs x <=? hi L) with true by lia.
  destruct Hs as [->|Hs]; [destruct (x <? 0) eqn:C; do 2 f_equal; lia|subst x; destruct (f64_sign raw); reflexivity].
Qed.
Lemma nearest_back : forall b L P raw x, valid b L P -> in_range L x -> x <> lo L -> Z.abs x <= 10 ^ 15 ->
  f64_nearest (dec P x) raw -> try_from_f64 b L P raw = Ret (Ok x).
Proof.
  intros b L P raw x HV Hx Hlo H15 [F N]. apply reads_back; try assumption.
  destruct (to_f64_error b L P x HV Hx) as (f & _ & Ff & E). eapply Qle_trans; [apply (N _ Ff)|exact E].
Qed.

Lemma back_sharp : exists raw x, valid dev L64 9 /\ f64_finite raw /\ in_range L64 x /\ x <= 1000894849684565 /\
  (Qabs (f64_val raw - dec 9 x) <= Qabs (dec 9 x) * Qpower (2 # 1) (-51))%Q /\ try_from_f64 dev L64 9 raw = Ret (Ok (x + 1)).
Proof.
  exists 4696844833384946425, 1000894849684565. split; [example|]. split; [unfold f64_finite, is_f64; example|]. split; [example|]. split; [lia|].
  split; [apply Qle_bool_iff; vm_compute; reflexivity|vm_compute; reflexivity].
Qed.
