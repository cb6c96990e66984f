(** * SatWrap: the saturating methods that wrappers inherit. *)
From Coq Require Import QArith Qabs Lqa.
From Verif Require Import Base Promo ConstFn Ops Macros Spec SpecMacro BaseFacts RoundFacts SimpleProofs MulDiv MacroFacts ProgramFacts.
From Verif Require Import Programs.
From Verif Require Import Fixed.
Open Scope Z_scope.

Lemma promote_oval r o o' : promote r o = Some o' -> oval o' = oval o.
Proof.
  destruct r as [L P|t], o as [[L' P'|t'] v]; unfold promote; cbn [okind oval]; intros H; try discriminate.
  - destruct (layout_eqb L L' && (P =? P')); [|discriminate]. now injection H as <-.
  - destruct (int_operand t' (lty L)); [|discriminate]. now injection H as <-.
  - destruct (int_operand t' t); [|discriminate]. now injection H as <-.
Qed.
(** The default method picks the same bound as the saturating product. *)
Lemma default_mul_sat {A R} t (f : A -> Z) (g : R -> Z) (x : A) (y : R) : imin t < 0 -> 0 <= imax t ->
  default_saturating_mul (fun _ _ => Ret (int_cmul t (f x) (g y))) (fun x => f x <? 0) (fun y => g y <? 0) (imin t) (imax t) x y
  = Ret (sat t (f x * g y)).
Proof.
  intros H1 H2. unfold default_saturating_mul, int_cmul, checked_mul, chk, ok_or, sat. cbv zeta. set (u := f x). set (v := g y).
  destruct (fitsb t (u * v)) eqn:F; cbn [bind]; f_equal.
  - apply fitsb_fits in F. unfold fits in F. destruct (Z.ltb_spec (u * v) (imin t)), (Z.ltb_spec (imax t) (u * v)); lia.
  - assert (~ fits t (u * v)) as NF by (intros K; apply fitsb_true in K; congruence). unfold fits in NF.
    assert (((u <? 0) = (v <? 0) -> 0 <= u * v) /\ ((u <? 0) <> (v <? 0) -> u * v <= 0)) as [S1 S2].
    { destruct (Z.ltb_spec u 0), (Z.ltb_spec v 0); split; intros K; try discriminate; try (now contradiction K); clear K;
        [replace (u * v) with (- u * - v) by ring; apply Z.mul_nonneg_nonneg; lia|apply Z.mul_nonpos_nonneg; lia|apply Z.mul_nonneg_nonpos; lia|apply Z.mul_nonneg_nonneg; lia]. }
    destruct (Bool.eqb (u <? 0) (v <? 0)) eqn:E.
    + apply Bool.eqb_prop in E. specialize (S1 E). destruct (Z.ltb_spec (u * v) (imin t)); [lia|]. destruct (Z.ltb_spec (imax t) (u * v)); lia.
    + apply Bool.eqb_false_iff in E. specialize (S2 E). destruct (Z.ltb_spec (u * v) (imin t)); [reflexivity|lia].
Qed.
Lemma int_operand_signed t t' : int_operand t t' = true -> imin t' < 0 /\ 0 <= imax t'.
Proof. destruct t, t'; intros H; try discriminate H; split; vm_compute; (reflexivity || discriminate). Qed.
Lemma lty_signed L : imin (lty L) < 0 /\ 0 <= imax (lty L).
Proof. destruct L; split; vm_compute; (reflexivity || discriminate). Qed.

Theorem op_smul_ok r x y o : typed x -> typed y -> op_saturating_mul r x y = Some o ->
  exists z, o = Ret z /\ saturates r (value x * value y) z.
Proof.
  intros Tx Ty H. unfold op_saturating_mul in H. destruct (op_cmul r x y) as [c|] eqn:HC; [|discriminate]. injection H as <-.
  unfold op_cmul in HC. destruct (promote r x) as [x'|] eqn:Kx; [|discriminate]. destruct (promote r y) as [y'|] eqn:Ky; [|discriminate].
  pose proof (promote_oval _ _ _ Kx) as Ox. pose proof (promote_oval _ _ _ Ky) as Oy.
  destruct (promote_ok _ _ _ Kx Tx) as [Tx' Vx]. destruct (promote_ok _ _ _ Ky Ty) as [Ty' Vy].
  destruct r as [L P|t].
  - destruct (lty_signed L) as [S1 S2]. cbn [kind_min kind_max]. unfold MIN, MAX.
    destruct (kinds_fp _ _ _ _ Kx) as [[Ex _]|[_ Ex]], (kinds_fp _ _ _ _ Ky) as [[Ey _]|[_ Ey]]; rewrite Ex, ?Ey in HC; try discriminate; injection HC as <-.
    + unfold cmul. rewrite Ox, Oy. rewrite (default_mul_sat (lty L) oval oval) by assumption. eexists. split; [reflexivity|].
      apply (saturates_proper _ (value x' * value y')); [now rewrite Vx, Vy|]. rewrite (value_fp _ _ _ Ex), (value_int _ _ Ey), Ox, Oy.
      apply saturates_fp, (sat_mul_spec L P).
    + unfold int_cmul_fp, cmul. rewrite Ox, Oy.
      replace (int_cmul (lty L) (oval y) (oval x)) with (int_cmul (lty L) (oval x) (oval y)) by (unfold int_cmul, checked_mul; do 2 f_equal; lia).
      rewrite (default_mul_sat (lty L) oval oval) by assumption. eexists. split; [reflexivity|].
      apply (saturates_proper _ (dec P (oval y') * Zq (oval x'))).
      { rewrite <- (value_fp _ _ _ Ey), <- (value_int _ _ Ex), Vx, Vy. apply Qmult_comm. }
      rewrite Ox, Oy, Z.mul_comm. apply saturates_fp, (sat_mul_spec L P).
  - destruct (okind x') as [|t1] eqn:Ex; [discriminate|]. destruct (okind y') as [|t2] eqn:Ey; [discriminate|]. injection HC as <-.
    assert (imin t < 0 /\ 0 <= imax t) as [S1 S2].
    { unfold promote in Kx. destruct (okind x); [discriminate|]. destruct (int_operand t0 t) eqn:E; [|discriminate]. exact (int_operand_signed _ _ E). }
    cbn [kind_min kind_max]. rewrite Ox, Oy, (default_mul_sat t oval oval) by assumption. eexists. split; [reflexivity|].
    apply (saturates_proper _ (Zq (oval x' * oval y'))); [rewrite Zq_mul, <- (value_int _ _ Ex), <- (value_int _ _ Ey), Vx, Vy; reflexivity|].
    rewrite Ox, Oy. exact (saturates_int t _).
Qed.
Theorem smul_types r x y : op_saturating_mul r x y <> None <-> op_cmul r x y <> None.
Proof. unfold op_saturating_mul. destruct (op_cmul r x y); split; congruence. Qed.
Theorem op_srmul_ok b r x y m o : op_saturating_rmul b r x y m = Some o ->
  exists L P, r = KFp L P /\ okind x = r /\ okind y = r /\ o = saturating_rmul b L P (oval x) (oval y) m.
Proof.
  intros H. unfold op_saturating_rmul in H. destruct (op_rmul b r x y m) as [c|] eqn:HC; [|discriminate]. injection H as <-.
  destruct (op_rmul_is _ _ _ _ _ _ HC) as (L & P & -> & Ex & Ey & ->). exists L, P. auto.
Qed.

Lemma rounds_above m q z h : rounds m q z -> (Zq h < q)%Q -> h <= z.
Proof.
  intros H Hq. apply rounds_slack in H. apply Qabs_Qle_condition in H. assert (slack m <= 1)%Q by (destruct m; discriminate).
  apply Z.lt_succ_r. unfold Z.succ. apply Zq_lt. rewrite Zq_succ. lra.
Qed.
Lemma rounds_under m q z l : rounds m q z -> (q < Zq l)%Q -> z <= l.
Proof.
  intros H Hq. apply rounds_slack in H. apply Qabs_Qle_condition in H. assert (slack m <= 1)%Q by (destruct m; discriminate).
  apply Z.lt_succ_r. unfold Z.succ. apply Zq_lt. rewrite Zq_succ. lra.
Qed.
Lemma dec_scaled P z d : 0 <= P -> (dec P z < d -> Zq z < d * q10 P)%Q /\ (d < dec P z -> d * q10 P < Zq z)%Q.
Proof.
  intros HP. pose proof (q10_opp P HP) as E. assert (0 < q10 P)%Q as G by (rewrite q10_pos by assumption; change 0%Q with (Zq 0); apply Zq_lt, pow10_pos, HP).
  assert (Zq z == dec P z * q10 P)%Q as EZ by (unfold dec; rewrite <- Qmult_assoc, (Qmult_comm (q10 (- P))), E; ring).
  split; intros H; rewrite EZ; now apply Qmult_lt_r.
Qed.
Theorem srmul_clamps b L P x y m : valid b L P -> in_range L x -> in_range L y -> (m = Nearest -> ~ (L = L128 /\ P = 38)) ->
  exists z e, saturating_rmul b L P x y m = Ret z /\ rounds_to m P (dec P x * dec P y) e /\ clamped L e z.
Proof.
  intros HV Hx Hy HN. pose proof (valid_prec_38 _ _ (proj2 HV)) as HP. pose proof (lo_hi L) as HLH. pose proof (hi_pos L) as HHP.
  destruct (saturating_rmul_spec b L P x y m HV Hx Hy HN) as (z & Ez & v & Ev & Hz).
  assert (rounded_or_overflow L P m (dec P x * dec P y) (rmul b L P x y m)) as (e & Re & HE).
  { destruct m; [apply rmul_directed; (assumption || discriminate)| |apply rmul_directed; (assumption || discriminate)].
    apply rmul_nearest; try assumption. now apply HN. }
  exists z, e. split; [exact Ez|]. split; [exact Re|]. rewrite Ev in HE. unfold clamped. destruct HE as [[HR E]|[HR E]]; injection E as ->.
  - subst z. unfold in_range in *. lia.
  - unfold in_range in HR. destruct (dec_scaled P (hi L) (dec P x * dec P y) ltac:(lia)) as [S1 _]. destruct (dec_scaled P (lo L) (dec P x * dec P y) ltac:(lia)) as [_ S2].
    destruct Hz as [[K ->]|[K ->]]; [pose proof (rounds_above _ _ _ _ Re (S1 K))|pose proof (rounds_under _ _ _ _ Re (S2 K))]; unfold in_range; repeat split; intros; lia.
Qed.
Theorem op_srmul_clamps b r x y m o : typed x -> typed y -> (forall L P, r = KFp L P -> supported b L) ->
  op_saturating_rmul b r x y m = Some o ->
  exists L P, r = KFp L P /\ ((m = Nearest -> ~ (L = L128 /\ P = 38)) ->
    exists z e, o = Ret z /\ rounds_to m P (value x * value y) e /\ clamped L e z).
Proof.
  intros Tx Ty HS H. destruct (op_srmul_ok _ _ _ _ _ _ H) as (L & P & -> & Ex & Ey & ->). exists L, P. split; [reflexivity|]. intros HN.
  rewrite (value_fp _ _ _ Ex), (value_fp _ _ _ Ey). pose proof (typed_fp _ _ _ Ex Tx) as [VP Rx]. pose proof (typed_fp _ _ _ Ey Ty) as [_ Ry].
  apply srmul_clamps; try assumption. split; [exact (HS L P eq_refl)|exact VP].
Qed.
