(** * AcceptFacts: what the serde modules accept. *)
From Coq Require Import SpecFloat QArith Qabs Qpower.
From Verif Require Import Base PowerTable ConstFn Sqrt Promo Ops Fixed Str Float Codec Spec SpecText SpecF64 BaseFacts SimpleProofs
  StrFacts FloatFacts F64Facts F64Rel F64Proofs ToF64 FloatProps.
From Verif Require Import Fixed.
Open Scope Z_scope.
Ltac Zify.zify_post_hook ::= idtac.

(** ** The module [str] *)
Theorem str_accepts b L P s x : valid b L P ->
  (str_deserialize b L P (TStr true s) = Ret (Ok x) <->
   exists neg i f, spells s neg i f /\ (P = 0 -> f = None) /\ in_range L x /\ rounds_to Nearest P (spelled neg i f) x).
Proof. exact (from_str_ok b L P s x). Qed.
Theorem str_total b L P tok : valid b L P ->
  (exists x, str_deserialize b L P tok = Ret (Ok x)) \/ str_deserialize b L P tok = Ret (Err ConvertError).
Proof.
  intros Hv. unfold str_deserialize. destruct tok as [[|] s| | | | | | |]; cbn [de_borrowed_str]; auto. now apply parse_total.
Qed.
Theorem str_rejects b L P tok : (forall s, tok <> TStr true s) -> str_deserialize b L P tok = Ret (Err ConvertError).
Proof. intros H. unfold str_deserialize. destruct tok as [[|] s| | | | | | |]; try reflexivity. now destruct (H s). Qed.
Theorem str_option_accepts b L P tok x : valid b L P ->
  (str_option_deserialize b L P tok = Ret (Ok x) <->
   (tok = TNone /\ x = None) \/ exists inner y, tok = TSome inner /\ x = Some y /\ str_deserialize b L P inner = Ret (Ok y)).
Proof.
  intros Hv. unfold str_option_deserialize, str_deserialize. split.
  - destruct tok as [bw s|t z|raw|c| |inner|k v|]; cbn [de_option]; try discriminate.
    + intros [= <-]. auto.
    + intros E. right. exists inner. destruct (de_borrowed_str inner) as [s|e]; cbn [rmap] in E; [|discriminate].
      destruct (from_str b L P s) as [[y|e]| | |]; cbn [bind rmap] in E; try discriminate. injection E as <-. eauto.
  - intros [[-> ->]|(inner & y & -> & -> & E)]; [reflexivity|]. cbn [de_option].
    destruct (de_borrowed_str inner) as [s|e]; cbn [rmap]; [|discriminate]. rewrite E. reflexivity.
Qed.

(** ** Integers as f64 *)
Lemma int_f64 z : Z.abs z < 2 ^ 128 ->
  let raw := f64_to_bits (int_to_f64 z) in
  f64_finite raw /\ (Qabs (f64_val raw - Zq z) <= Qabs (Zq z) * Qpower (2 # 1) (-52))%Q /\ (Z.abs z <= 2 ^ 53 -> (f64_val raw == Zq z)%Q).
Proof.
  intros Hz raw. destruct (Z.eq_dec z 0) as [->|H0].
  { change raw with 0. destruct zero_finite as (F & V & _). split; [exact F|]. split; [rewrite V; discriminate|]. intros _. exact V. }
  assert (exists M E, int_to_f64 z = S754_finite (z <? 0) M E /\ normal (Zpos M) /\ -52 <= E <= 76 /\
    w53 * Z.abs (Zpos M * 2 ^ (E + K0) - Z.abs z * 2 ^ K0) <= Z.abs z * 2 ^ K0 /\
    (Z.abs z <= 2 ^ 53 -> Zpos M * 2 ^ (E + K0) = Z.abs z * 2 ^ K0)) as (M & E & Ef & HM & HE & R & X).
  { destruct (int_rel (Z.abs z) ltac:(lia)) as (M & E & Ef & H). exists M, E. split; [|exact H].
    destruct (Z.ltb_spec z 0).
    - replace z with (- Z.abs z) by lia. rewrite int_to_f64_opp by lia. rewrite Ef. reflexivity.
    - replace z with (Z.abs z) by lia. exact Ef. }
  destruct (bits_fields (z <? 0) M E HM ltac:(lia)) as (F & S & U). rewrite <- Ef in F, S, U. fold raw in F, S, U.
  split; [exact F|]. pose proof (pow2_pos K0 ltac:(rewrite K0_val; lia)) as GB. pose proof (val_B raw) as VB.
  rewrite (sval_sign raw z S), U in VB.
  assert (0 < Zq (2 ^ K0))%Q as GT by (change 0%Q with (inject_Z 0); unfold Zq; rewrite <- Zlt_Qlt; lia).
  set (B := 2 ^ K0) in *. set (u := Zpos M * 2 ^ (E + K0)) in *. clearbody B u. clear U S Ef F HM HE. split.
  - apply (Qmult_le_r _ _ (Zq B) GT).
    assert (Zq z * Zq B == Zq (z * B))%Q as E1 by (unfold Zq; rewrite inject_Z_mult; reflexivity).
    assert ((f64_val raw - Zq z) * Zq B == Zq ((if z <? 0 then - u else u) - z * B))%Q as E3.
    { unfold Qminus. rewrite Qmult_plus_distr_l, VB. unfold Zq, Z.sub. rewrite inject_Z_plus, inject_Z_opp, inject_Z_mult. ring. }
    rewrite (abs_scaled _ _ _ GT E3).
    setoid_replace (Qabs (Zq z) * Qpower (2 # 1) (-52) * Zq B)%Q with (Qabs (Zq z) * Zq B * Qpower (2 # 1) (-52))%Q by ring.
    rewrite (abs_scaled _ _ _ GT E1).
    replace (Z.abs ((if z <? 0 then - u else u) - z * B)) with (Z.abs (u - Z.abs z * B)).
    2: { destruct (z <? 0) eqn:C; [|rewrite (Z.abs_eq z) by lia; reflexivity]. rewrite (Z.abs_neq z) by lia. rewrite <- Z.abs_opp. f_equal. ring. }
    rewrite Z.abs_mul, (Z.abs_eq B) by lia.
    set (d := Z.abs (u - Z.abs z * B)) in *. set (w := Z.abs z * B) in *.
    assert (0 <= d) by apply Z.abs_nonneg. clearbody d w. clear - R H.
    change (Qpower (2 # 1) (-52)) with (1 # 4503599627370496). unfold Zq, Qle, Qmult, inject_Z. cbn [Qnum Qden]. unfold w53 in R. lia.
  - intros Hn. specialize (X Hn). apply (Qmult_inj_r _ _ (Zq B)); [intros C; rewrite C in GT; discriminate|].
    rewrite VB. unfold Zq. rewrite <- inject_Z_mult. destruct (z <? 0) eqn:C; rewrite X.
    + rewrite Z.abs_neq by lia. f_equiv. ring.
    + rewrite Z.abs_eq by lia. reflexivity.
Qed.

(** ** The module [float] *)
Theorem float_int b L P t z : valid b L P -> fits t z -> width t <= 64 ->
  exists raw, f64_finite raw /\ (Qabs (f64_val raw - Zq z) <= Qabs (Zq z) * Qpower (2 # 1) (-52))%Q /\
    float_deserialize b L P (TInt t z) = try_from_f64 b L P raw /\
    float_option_deserialize b L P (TSome (TInt t z)) = (r <- try_from_f64 b L P raw ;; Ret (rmap Some r)).
Proof.
  intros Hv Hz Ht. assert (Z.abs z < 2 ^ 128) as Hb.
  { assert (2 ^ 64 < 2 ^ 128) by reflexivity. unfold fits in Hz. destruct t; cbn in Hz |- *; try lia; vm_compute in Ht; congruence. }
  destruct (int_f64 z Hb) as (F & R & _). eexists. split; [exact F|]. split; [exact R|].
  unfold float_deserialize, float_option_deserialize. cbn [de_f64 de_option]. replace (width t <=? 64) with true by lia. cbn [rmap]. auto.
Qed.
Theorem float_small_int b L P t z : valid b L P -> fits t z -> width t <= 64 -> Z.abs z <= 2 ^ 53 ->
  (- hi L <= z * 10 ^ P <= hi L -> float_deserialize b L P (TInt t z) = Ret (Ok (z * 10 ^ P))) /\
  (~ - hi L <= z * 10 ^ P <= hi L -> float_deserialize b L P (TInt t z) = Ret (Err ConvertError)).
Proof.
  intros Hv Hz Ht Hs. assert (Z.abs z < 2 ^ 128) as Hb by (assert (2 ^ 53 < 2 ^ 128) by reflexivity; lia).
  destruct (int_f64 z Hb) as (F & _ & V). specialize (V Hs).
  unfold float_deserialize. cbn [de_f64]. replace (width t <=? 64) with true by lia.
  exact (int_exact b L P _ z Hv F V).
Qed.
Theorem float_rejects b L P tok : (forall raw, tok <> TF64 raw) -> (forall t z, tok = TInt t z -> 64 < width t) ->
  float_deserialize b L P tok = Ret (Err ConvertError) /\ float_option_deserialize b L P (TSome tok) = Ret (Err ConvertError).
Proof.
  intros H1 H2. unfold float_deserialize, float_option_deserialize. cbn [de_option].
  destruct tok as [bw s|t z|raw|c| |inner|k v|]; cbn [de_f64]; auto.
  - specialize (H2 t z eq_refl). replace (width t <=? 64) with false by lia. auto.
  - now destruct (H1 raw).
Qed.
Theorem option_rejects b L P tok : tok <> TNone -> (forall inner, tok <> TSome inner) ->
  float_option_deserialize b L P tok = Ret (Err ConvertError) /\ str_option_deserialize b L P tok = Ret (Err ConvertError) /\
  repr_option_deserialize L tok = Err ConvertError.
Proof.
  intros H1 H2. unfold float_option_deserialize, str_option_deserialize, repr_option_deserialize.
  destruct tok; cbn [de_option rmap]; auto; [now destruct H1|now destruct (H2 tok)].
Qed.
Theorem repr_option_accepts L tok x : repr_option_deserialize L tok = Ok x <->
  (tok = TNone /\ x = None) \/ exists t z, tok = TSome (TInt t z) /\ x = Some z /\ in_range L z.
Proof.
  unfold repr_option_deserialize. split.
  - destruct tok as [bw s|t z|raw|c| |inner|k v|]; cbn [de_option rmap]; try discriminate.
    + intros [= <-]. auto.
    + destruct inner as [bw s|t z|raw|c| |inner|k v|]; cbn [de_int rmap]; try discriminate.
      destruct (fitsb (lty L) z) eqn:K; cbn [rmap option_map]; [|discriminate]. intros [= <-]. right. exists t, z.
      split; [reflexivity|]. split; [reflexivity|]. apply fits_lty. now apply fitsb_fits.
  - intros [[-> ->]|(t & z & -> & -> & H)]; [reflexivity|]. cbn [de_option de_int].
    apply fits_lty, fitsb_fits in H. rewrite H. reflexivity.
Qed.
