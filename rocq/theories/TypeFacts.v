(** * TypeFacts: which operands the operations of [impl_op!] take. *)
From Verif Require Import Base Promo ConstFn Ops Fixed Spec Macros.
From Verif Require Import SpecTypes.
Open Scope Z_scope.

Lemma layout_eqb_eq a c : layout_eqb a c = true <-> a = c.
Proof. destruct a, c; cbn; split; congruence. Qed.
Lemma int_operand_spec t t' : int_operand t t' = true <-> sized t /\ sized t' /\ width t <= width t'.
Proof.
  unfold sized. destruct t, t'; cbn -[Z.le]; split; intros H; try discriminate H; try reflexivity;
    try (split; [|split]; [auto 8|auto 8|vm_compute; discriminate]);
    destruct H as (A & C & D); exfalso;
    repeat match goal with K : _ \/ _ |- _ => destruct K as [K|K]; try discriminate K end; try contradiction; now apply D.
Qed.
Lemma sized_lty L : sized (lty L) /\ width (lty L) = bits L.
Proof. destruct L; split; cbn; auto 8. Qed.
Lemma promote_some r o : promote r o <> None <-> widens (okind o) r.
Proof.
  unfold promote, widens. destruct r as [L P|t'], (okind o) as [L' P'|t].
  - destruct (layout_eqb L L' && (P =? P')) eqn:K.
    + apply andb_prop in K as [K1 K2]. apply layout_eqb_eq in K1. split; [intros _; split; [auto|lia]|discriminate].
    + split; [congruence|]. intros [-> ->]. rewrite (proj2 (layout_eqb_eq L L) eq_refl), Z.eqb_refl in K. discriminate.
  - destruct (sized_lty L) as [S W]. rewrite <- W. destruct (int_operand t (lty L)) eqn:K.
    + apply int_operand_spec in K as (A & _ & C). split; [auto|discriminate].
    + split; [congruence|]. intros [A C]. rewrite (proj2 (int_operand_spec t (lty L))) in K by auto. discriminate.
  - split; [congruence|contradiction].
  - destruct (int_operand t t') eqn:K.
    + apply int_operand_spec in K. split; [auto|discriminate].
    + split; [congruence|]. intros H. apply int_operand_spec in H. congruence.
Qed.
(** The kind after promotion. *)
Lemma promote_kind r o o' : promote r o = Some o' ->
  match okind o, r with KFp _ _, KFp _ _ => okind o' = r | KInt _, KFp L _ => okind o' = KInt (lty L) | _, _ => okind o' = r end.
Proof.
  unfold promote. destruct r as [L P|t'], (okind o) as [L' P'|t] eqn:Ko; try discriminate.
  - destruct (_ && _) eqn:K; [|discriminate]. intros [= <-]. apply andb_prop in K as [K1 K2]. apply layout_eqb_eq in K1.
    apply Z.eqb_eq in K2. congruence.
  - destruct (int_operand _ _); [|discriminate]. now intros [= <-].
  - destruct (int_operand _ _); [|discriminate]. now intros [= <-].
Qed.
Ltac opt r x y :=
  let Kx := fresh in let Ky := fresh in let Wx := fresh in let Wy := fresh in
  pose proof (promote_some r x) as Wx; pose proof (promote_some r y) as Wy;
  destruct (promote r x) as [x'|] eqn:Kx;
  [apply promote_kind in Kx; destruct (promote r y) as [y'|] eqn:Ky;
    [apply promote_kind in Ky; destruct Wx as [Wx _]; specialize (Wx ltac:(discriminate)); destruct Wy as [Wy _]; specialize (Wy ltac:(discriminate))
    |assert (~ widens (okind y) r) by (intros K; apply Wy in K; congruence)]
  |assert (~ widens (okind x) r) by (intros K; apply Wx in K; congruence)].
Lemma widens_self L P k : k = KFp L P -> widens k (KFp L P).
Proof. intros ->. cbn. auto. Qed.
Ltac shapes r x y :=
  opt r x y; try (split; [congruence|tauto]);
  destruct r as [L P|t]; destruct (okind x) as [Lx Px|tx] eqn:Ex, (okind y) as [Ly Py|ty] eqn:Ey;
    cbv iota in *; try contradiction;
    repeat match goal with K : okind ?o' = _ |- _ => rewrite K in *; clear K end.
Ltac unfixed := match goal with
  | |- (_ <> None) <-> _ => first
      [ split; [intros _|intros _; discriminate]
      | split; [congruence|] ]
  end.
Ltac fx L P := intros (_ & _ & K); destruct K as [? ?]; [now exists L, P|discriminate].
Lemma cadd_types r x y : op_cadd r x y <> None <->
  widens (okind x) r /\ widens (okind y) r /\ (fixed r -> okind x = r /\ okind y = r).
Proof.
  unfold op_cadd. shapes r x y; unfixed; try (split; [assumption|split; [assumption|]]); try fx L P.
  - intros _. cbn in *. intuition congruence.
  - intros (? & ? & ?). discriminate.
Qed.
Lemma csub_types r x y : op_csub r x y <> None <->
  widens (okind x) r /\ widens (okind y) r /\ (fixed r -> okind x = r /\ okind y = r).
Proof.
  unfold op_csub. shapes r x y; unfixed; try (split; [assumption|split; [assumption|]]); try fx L P.
  - intros _. cbn in *. intuition congruence.
  - intros (? & ? & ?). discriminate.
Qed.
Lemma sadd_types r x y : op_saturating_add r x y <> None <->
  widens (okind x) r /\ widens (okind y) r /\ (fixed r -> okind x = r /\ okind y = r).
Proof.
  unfold op_saturating_add. shapes r x y; unfixed; try (split; [assumption|split; [assumption|]]); try fx L P.
  - intros _. cbn in *. intuition congruence.
  - intros (? & ? & ?). discriminate.
Qed.
Lemma ssub_types r x y : op_saturating_sub r x y <> None <->
  widens (okind x) r /\ widens (okind y) r /\ (fixed r -> okind x = r /\ okind y = r).
Proof.
  unfold op_saturating_sub. shapes r x y; unfixed; try (split; [assumption|split; [assumption|]]); try fx L P.
  - intros _. cbn in *. intuition congruence.
  - intros (? & ? & ?). discriminate.
Qed.
Lemma cmul_types r x y : op_cmul r x y <> None <->
  widens (okind x) r /\ widens (okind y) r /\ (fixed r -> okind x = r <-> okind y <> r).
Proof.
  unfold op_cmul. shapes r x y; unfixed; try (split; [assumption|split; [assumption|]]).
  - intros (_ & _ & K). cbn in *. destruct H1 as [-> ->], H2 as [-> ->]. destruct K as [K _]; [now exists L, P|]. now destruct K.
  - intros _. cbn in *. split; [discriminate|intuition congruence].
  - intros _. cbn in *. split; [discriminate|intuition congruence].
  - intros (_ & _ & K). destruct K as [_ K]; [now exists L, P|]. discriminate K. discriminate.
  - intros (? & ? & ?). discriminate.
Qed.
Lemma rmul_types b m r x y : op_rmul b r x y m <> None <-> fixed r /\ okind x = r /\ okind y = r.
Proof.
  unfold op_rmul. opt r x y.
  - destruct r as [L P|t]; destruct (okind x) as [Lx Px|tx] eqn:Ex, (okind y) as [Ly Py|ty] eqn:Ey;
      cbv iota in *; try contradiction;
      repeat match goal with K : okind ?o' = _ |- _ => rewrite K in *; clear K end.
    all: split; [intros K; try congruence|intros (K & K1 & K2); try discriminate].
    + split; [now exists L, P|]. cbn in *. intuition congruence.
    + destruct K as (? & ? & ?). discriminate.
  - split; [congruence|]. intros ((L & P & ->) & E1 & E2). exfalso. match goal with K : ~ widens _ _ |- _ => apply K end. now apply widens_self.
  - split; [congruence|]. intros ((L & P & ->) & E1 & E2). exfalso. match goal with K : ~ widens _ _ |- _ => apply K end. now apply widens_self.
Qed.
Lemma rdiv_types b m r x y : op_rdiv b r x y m <> None <-> widens (okind x) r /\ widens (okind y) r.
Proof. unfold op_rdiv. shapes r x y; unfixed; auto. Qed.
