(** * MacroFacts: the operations generated by [impl_op!]. *)
From Verif Require Import Base Promo ConstFn Ops Macros Spec SpecMacro BaseFacts RoundFacts SimpleProofs MulDiv.
From Verif Require Import Fixed.
Open Scope Z_scope.

Lemma layout_eqb_eq L L' : layout_eqb L L' = true -> L = L'.
Proof. destruct L, L'; (reflexivity || discriminate). Qed.
Lemma int_operand_fits t t' z : int_operand t t' = true -> fits t z -> fits t' z.
Proof.
  intros H F. unfold fits in *. destruct t, t'; try discriminate H;
    cbv [imin imax is_signed width] in *; cbn in F |- *; lia.
Qed.
Lemma promote_ok r o o' : promote r o = Some o' -> typed o -> typed o' /\ (value o' == value o)%Q.
Proof.
  destruct r as [L P|t], o as [[L' P'|t'] v]; unfold promote; cbn [okind oval]; intros H T; try discriminate.
  - destruct (layout_eqb L L' && (P =? P')); [|discriminate]. injection H as <-. split; [exact T|reflexivity].
  - destruct (int_operand t' (lty L)) eqn:E; [|discriminate]. injection H as <-.
    split; [exact (int_operand_fits _ _ _ E T)|reflexivity].
  - destruct (int_operand t' t) eqn:E; [|discriminate]. injection H as <-.
    split; [exact (int_operand_fits _ _ _ E T)|reflexivity].
Qed.
(** The target of a promotion: the result type itself, or its integer. *)
Lemma promote_kind r o o' : promote r o = Some o' ->
  oval o' = oval o /\ (okind o' = r /\ okind o' = okind o \/
    (exists L P, r = KFp L P /\ okind o' = KInt (lty L)) \/ (exists t, r = KInt t /\ okind o' = KInt t)).
Proof.
  destruct r as [L P|t], o as [[L' P'|t'] v]; unfold promote; cbn [okind oval]; intros H; try discriminate.
  - destruct (layout_eqb L L' && (P =? P')) eqn:E; [|discriminate]. injection H as <-. cbn [okind oval].
    apply andb_true_iff in E as [E1 E2]. apply layout_eqb_eq in E1. apply Z.eqb_eq in E2. subst. auto.
  - destruct (int_operand t' (lty L)); [|discriminate]. injection H as <-. cbn. eauto 8.
  - destruct (int_operand t' t); [|discriminate]. injection H as <-. cbn. eauto 8.
Qed.
Lemma computes_fp L P d o : valid_prec L P -> exact_or L P d Overflow o -> computes (KFp L P) d o.
Proof.
  intros HP [(r & [Hr E] & ->)|[N ->]].
  - left. exists r. split; [|reflexivity]. split; [split; assumption|exact E].
  - right. split; [|reflexivity]. intros z [[_ Hz] E]. exact (N z (conj Hz E)).
Qed.
Lemma computes_int t z : computes (KInt t) (Zq z) (Ret (ok_or (chk t z) Overflow)).
Proof.
  destruct (fits_dec t z) as [F|F].
  - left. exists z. rewrite (chk_some _ _ F). split; [split; [exact F|reflexivity]|reflexivity].
  - right. rewrite (chk_none _ _ F). split; [|reflexivity]. intros y [Hy E]. apply F.
    unfold value in E; cbn [okind oval] in E. rewrite <- (proj1 (Zq_eq y z) E). exact Hy.
Qed.
Lemma computes_proper k d d' o : (d == d')%Q -> computes k d o -> computes k d' o.
Proof.
  intros E [(z & [T V] & ->)|[N ->]].
  - left. exists z. split; [split; [exact T|now rewrite V]|reflexivity].
  - right. split; [|reflexivity]. intros z [T V]. apply (N z). split; [exact T|now rewrite V].
Qed.
Lemma low_imin t : low (KInt t) = imin t. Proof. reflexivity. Qed.
Lemma high_imax t : high (KInt t) = imax t. Proof. reflexivity. Qed.
Lemma imin_imax t : imin t < imax t. Proof. destruct t; reflexivity. Qed.
Lemma saturates_int t z : saturates (KInt t) (Zq z) (sat t z).
Proof.
  unfold saturates, value. cbn [okind oval]. cbv zeta. rewrite low_imin, high_imax, !Zq_le, !Zq_lt, Zq_eq.
  pose proof (imin_imax t). unfold sat. destruct (Z.ltb_spec z (imin t)); [|destruct (Z.ltb_spec (imax t) z)]; lia.
Qed.
Lemma saturates_fp L P d z : clamps L P d z -> saturates (KFp L P) d z.
Proof. intros (A & B & C & D). unfold saturates, value. cbn [okind oval low high]. auto. Qed.
Lemma saturates_proper k d d' z : (d == d')%Q -> saturates k d z -> saturates k d' z.
Proof.
  unfold saturates. cbv zeta. intros E (A & B & C & D). repeat split; try apply A; rewrite <- E; assumption.
Qed.

(** The operand kinds each operation accepts. *)
Lemma kinds_fp L P x x' : promote (KFp L P) x = Some x' ->
  okind x' = KFp L P /\ x' = x \/ (exists t, okind x = KInt t) /\ okind x' = KInt (lty L).
Proof.
  destruct x as [[L' P'|t'] v]; unfold promote; cbn [okind oval]; intros H.
  - destruct (layout_eqb L L' && (P =? P')) eqn:E; [|discriminate]. injection H as <-. cbn [okind oval].
    apply andb_true_iff in E as [E1 E2]. apply layout_eqb_eq in E1. apply Z.eqb_eq in E2. subst. auto.
  - destruct (int_operand t' (lty L)); [|discriminate]. injection H as <-. right. cbn. eauto.
Qed.
Ltac promoted H :=
  match type of H with
  | match promote ?r ?x with _ => _ end = _ => 
      let x' := fresh "x'" in let K := fresh "K" in destruct (promote r x) as [x'|] eqn:K; [|discriminate H]
  end.
Lemma value_fp o L P : okind o = KFp L P -> value o = dec P (oval o).
Proof. intros H. unfold value. now rewrite H. Qed.
Lemma value_int o t : okind o = KInt t -> value o = Zq (oval o).
Proof. intros H. unfold value. now rewrite H. Qed.
Lemma typed_fp o L P : okind o = KFp L P -> typed o -> valid_prec L P /\ in_range L (oval o).
Proof. intros H. unfold typed. now rewrite H. Qed.


Theorem op_cadd_ok r x y o : typed x -> typed y -> op_cadd r x y = Some o -> computes r (value x + value y) o.
Proof.
  intros Tx Ty H. unfold op_cadd in H.
  destruct (promote r x) as [x'|] eqn:Kx; [|discriminate]. destruct (promote r y) as [y'|] eqn:Ky; [|discriminate].
  destruct (promote_ok _ _ _ Kx Tx) as [Tx' Vx]. destruct (promote_ok _ _ _ Ky Ty) as [Ty' Vy].
  apply (computes_proper r (value x' + value y')); [now rewrite Vx, Vy|]. clear Vx Vy.
  destruct r as [L P|t].
  - destruct (kinds_fp _ _ _ _ Kx) as [[Ex _]|[_ Ex]], (kinds_fp _ _ _ _ Ky) as [[Ey _]|[_ Ey]]; rewrite Ex, ?Ey in H; try discriminate.
    injection H as <-. rewrite (value_fp _ _ _ Ex), (value_fp _ _ _ Ey). apply computes_fp; [apply (typed_fp _ _ _ Ex Tx')|apply cadd_spec].
  - destruct (okind x') as [|t1] eqn:Ex; [discriminate|]. destruct (okind y') as [|t2] eqn:Ey; [discriminate|].
    injection H as <-. rewrite (value_int _ _ Ex), (value_int _ _ Ey).
    apply (computes_proper _ (Zq (oval x' + oval y'))); [apply Zq_add|]. exact (computes_int t _).
Qed.
Theorem op_csub_ok r x y o : typed x -> typed y -> op_csub r x y = Some o -> computes r (value x - value y) o.
Proof.
  intros Tx Ty H. unfold op_csub in H.
  destruct (promote r x) as [x'|] eqn:Kx; [|discriminate]. destruct (promote r y) as [y'|] eqn:Ky; [|discriminate].
  destruct (promote_ok _ _ _ Kx Tx) as [Tx' Vx]. destruct (promote_ok _ _ _ Ky Ty) as [Ty' Vy].
  apply (computes_proper r (value x' - value y')); [now rewrite Vx, Vy|]. clear Vx Vy.
  destruct r as [L P|t].
  - destruct (kinds_fp _ _ _ _ Kx) as [[Ex _]|[_ Ex]], (kinds_fp _ _ _ _ Ky) as [[Ey _]|[_ Ey]]; rewrite Ex, ?Ey in H; try discriminate.
    injection H as <-. rewrite (value_fp _ _ _ Ex), (value_fp _ _ _ Ey). apply computes_fp; [apply (typed_fp _ _ _ Ex Tx')|apply csub_spec].
  - destruct (okind x') as [|t1] eqn:Ex; [discriminate|]. destruct (okind y') as [|t2] eqn:Ey; [discriminate|].
    injection H as <-. rewrite (value_int _ _ Ex), (value_int _ _ Ey).
    apply (computes_proper _ (Zq (oval x' - oval y'))); [unfold Zq, Z.sub, Qminus; rewrite inject_Z_plus, inject_Z_opp; reflexivity|]. exact (computes_int t _).
Qed.
Theorem op_cmul_ok r x y o : typed x -> typed y -> op_cmul r x y = Some o -> computes r (value x * value y) o.
Proof.
  intros Tx Ty H. unfold op_cmul in H.
  destruct (promote r x) as [x'|] eqn:Kx; [|discriminate]. destruct (promote r y) as [y'|] eqn:Ky; [|discriminate].
  destruct (promote_ok _ _ _ Kx Tx) as [Tx' Vx]. destruct (promote_ok _ _ _ Ky Ty) as [Ty' Vy].
  apply (computes_proper r (value x' * value y')); [now rewrite Vx, Vy|]. clear Vx Vy.
  destruct r as [L P|t].
  - destruct (kinds_fp _ _ _ _ Kx) as [[Ex _]|[_ Ex]], (kinds_fp _ _ _ _ Ky) as [[Ey _]|[_ Ey]]; rewrite Ex, ?Ey in H; try discriminate.
    + injection H as <-. rewrite (value_fp _ _ _ Ex), (value_int _ _ Ey). apply computes_fp; [apply (typed_fp _ _ _ Ex Tx')|apply cmul_spec].
    + injection H as <-. rewrite (value_int _ _ Ex), (value_fp _ _ _ Ey).
      apply (computes_proper _ (dec P (oval y') * Zq (oval x'))); [apply Qmult_comm|].
      apply computes_fp; [apply (typed_fp _ _ _ Ey Ty')|rewrite cmul_comm; apply cmul_spec].
  - destruct (okind x') as [|t1] eqn:Ex; [discriminate|]. destruct (okind y') as [|t2] eqn:Ey; [discriminate|].
    injection H as <-. rewrite (value_int _ _ Ex), (value_int _ _ Ey).
    apply (computes_proper _ (Zq (oval x' * oval y'))); [apply Zq_mul|]. exact (computes_int t _).
Qed.
Theorem op_sadd_ok r x y z : typed x -> typed y -> op_saturating_add r x y = Some z -> saturates r (value x + value y) z.
Proof.
  intros Tx Ty H. unfold op_saturating_add in H.
  destruct (promote r x) as [x'|] eqn:Kx; [|discriminate]. destruct (promote r y) as [y'|] eqn:Ky; [|discriminate].
  destruct (promote_ok _ _ _ Kx Tx) as [Tx' Vx]. destruct (promote_ok _ _ _ Ky Ty) as [Ty' Vy].
  apply (saturates_proper r (value x' + value y')); [now rewrite Vx, Vy|]. clear Vx Vy.
  destruct r as [L P|t].
  - destruct (kinds_fp _ _ _ _ Kx) as [[Ex _]|[_ Ex]], (kinds_fp _ _ _ _ Ky) as [[Ey _]|[_ Ey]]; rewrite Ex, ?Ey in H; try discriminate.
    injection H as <-. rewrite (value_fp _ _ _ Ex), (value_fp _ _ _ Ey). apply saturates_fp, sat_add_spec.
  - destruct (okind x') as [|t1] eqn:Ex; [discriminate|]. destruct (okind y') as [|t2] eqn:Ey; [discriminate|].
    injection H as <-. rewrite (value_int _ _ Ex), (value_int _ _ Ey).
    apply (saturates_proper _ (Zq (oval x' + oval y'))); [apply Zq_add|]. exact (saturates_int t _).
Qed.
Theorem op_ssub_ok r x y z : typed x -> typed y -> op_saturating_sub r x y = Some z -> saturates r (value x - value y) z.
Proof.
  intros Tx Ty H. unfold op_saturating_sub in H.
  destruct (promote r x) as [x'|] eqn:Kx; [|discriminate]. destruct (promote r y) as [y'|] eqn:Ky; [|discriminate].
  destruct (promote_ok _ _ _ Kx Tx) as [Tx' Vx]. destruct (promote_ok _ _ _ Ky Ty) as [Ty' Vy].
  apply (saturates_proper r (value x' - value y')); [now rewrite Vx, Vy|]. clear Vx Vy.
  destruct r as [L P|t].
  - destruct (kinds_fp _ _ _ _ Kx) as [[Ex _]|[_ Ex]], (kinds_fp _ _ _ _ Ky) as [[Ey _]|[_ Ey]]; rewrite Ex, ?Ey in H; try discriminate.
    injection H as <-. rewrite (value_fp _ _ _ Ex), (value_fp _ _ _ Ey). apply saturates_fp, sat_sub_spec.
  - destruct (okind x') as [|t1] eqn:Ex; [discriminate|]. destruct (okind y') as [|t2] eqn:Ey; [discriminate|].
    injection H as <-. rewrite (value_int _ _ Ex), (value_int _ _ Ey).
    apply (saturates_proper _ (Zq (oval x' - oval y'))); [unfold Zq, Z.sub, Qminus; rewrite inject_Z_plus, inject_Z_opp; reflexivity|]. exact (saturates_int t _).
Qed.
(** [rmul] and [rdiv] are those of the operands. *)
Theorem op_rmul_is r x y b m o : op_rmul b r x y m = Some o ->
  exists L P, r = KFp L P /\ okind x = r /\ okind y = r /\ o = rmul b L P (oval x) (oval y) m.
Proof.
  intros H. unfold op_rmul in H.
  destruct (promote r x) as [x'|] eqn:Kx; [|discriminate]. destruct (promote r y) as [y'|] eqn:Ky; [|discriminate].
  destruct r as [L P|t].
  - destruct (kinds_fp _ _ _ _ Kx) as [[Ex Sx]|[_ Ex]], (kinds_fp _ _ _ _ Ky) as [[Ey Sy]|[_ Ey]]; rewrite Ex, ?Ey in H; try discriminate.
    injection H as <-. subst. exists L, P. auto.
  - discriminate.
Qed.
Theorem op_rdiv_is r x y b m o : op_rdiv b r x y m = Some o ->
  match r, okind x, okind y with
  | KFp L P, KFp L1 P1, KFp L2 P2 => okind x = r /\ okind y = r /\ o = rdiv b L P (oval x) (oval y) m
  | KFp L P, KFp L1 P1, KInt _ => okind x = r /\ o = rdiv_int b L (oval x) (oval y) m
  | KFp L P, KInt _, KFp L2 P2 => okind y = r /\ o = int_rdiv_fp b L P (oval x) (oval y) m
  | KInt t, KInt _, KInt _ => o = int_rdiv b t (oval x) (oval y) m
  | KFp L P, KInt _, KInt _ =>
      exists l, try_from_int b L P (oval x) = l /\
        o = (l <- l ;; match l with Err _ => Ret (Err Overflow) | Ok l => rdiv_int b L l (oval y) m end)
  | KInt _, _, _ => False
  end.
Proof.
  intros H. unfold op_rdiv in H.
  destruct (promote r x) as [x'|] eqn:Kx; [|discriminate]. destruct (promote r y) as [y'|] eqn:Ky; [|discriminate].
  destruct (promote_kind _ _ _ Kx) as [Vx _]. destruct (promote_kind _ _ _ Ky) as [Vy _].
  destruct r as [L P|t].
  - destruct (kinds_fp _ _ _ _ Kx) as [[Ex Sx]|[[tx Sx] Ex]], (kinds_fp _ _ _ _ Ky) as [[Ey Sy]|[[ty Sy] Ey]];
      rewrite Ex, ?Ey in H; rewrite Vx, Vy in H; injection H as <-.
    + subst. rewrite Ex, Ey. auto.
    + subst x'. rewrite Ex, Sy. auto.
    + subst y'. rewrite Sx, Ey. auto.
    + rewrite Sx, Sy. eauto.
  - destruct (okind x') as [|t1] eqn:Ex; [discriminate|]. destruct (okind y') as [|t2] eqn:Ey; [discriminate|].
    assert (forall o o', promote (KInt t) o = Some o' -> exists t', okind o = KInt t') as HK
      by (intros [[L P|t'] v] o'; cbn; [discriminate|eauto]).
    destruct (HK _ _ Kx) as [tx ->]. destruct (HK _ _ Ky) as [ty ->]. rewrite Vx, Vy in H. now injection H as <-.
Qed.
Theorem op_rmul_round r x y b m o : typed x -> typed y -> (forall L P, r = KFp L P -> supported b L) -> op_rmul b r x y m = Some o ->
  exists L P, r = KFp L P /\ ((m = Nearest -> ~ (L = L128 /\ P = 38)) -> rounded_or_overflow L P m (value x * value y) o).
Proof.
  intros Tx Ty Hb H. destruct (op_rmul_is _ _ _ b m o H) as (L & P & -> & Ex & Ey & ->). exists L, P. split; [reflexivity|].
  destruct (typed_fp _ _ _ Ex Tx) as [HP Hx]. destruct (typed_fp _ _ _ Ey Ty) as [_ Hy].
  rewrite (value_fp _ _ _ Ex), (value_fp _ _ _ Ey). intros Hm.
  assert (valid b L P) as Hv by (split; [exact (Hb L P eq_refl)|exact HP]).
  destruct m; first [apply rmul_nearest; auto | apply rmul_directed; auto; discriminate].
Qed.
(** Which declarations type-check. *)
Lemma op_typed_add L P x y : op_cadd (KFp L P) x y <> None <-> okind x = KFp L P /\ okind y = KFp L P.
Proof.
  unfold op_cadd. split.
  - intros H. destruct (promote _ x) as [x'|] eqn:Kx; [|congruence]. destruct (promote _ y) as [y'|] eqn:Ky; [|congruence].
    destruct (kinds_fp _ _ _ _ Kx) as [[Ex Sx]|[_ Ex]], (kinds_fp _ _ _ _ Ky) as [[Ey Sy]|[_ Ey]]; rewrite Ex, ?Ey in H; try congruence.
    subst. auto.
  - intros [Ex Ey]. unfold promote. rewrite Ex, Ey.
    assert (layout_eqb L L && (P =? P) = true) as -> by (rewrite Z.eqb_refl; destruct L; reflexivity). rewrite Ex, Ey. discriminate.
Qed.
