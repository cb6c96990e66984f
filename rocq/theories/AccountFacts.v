(** * AccountFacts: chains of exchanges and accounts with interest. *)
From Coq Require Import Lia QArith Lqa.
From Verif Require Import Base Promo Ops Spec BaseFacts RoundFacts ArithProofs PrimPromo SimpleProofs MulDiv OrderFacts DecProofs LawFacts Programs ProgramFacts.
From Verif Require Import SpecRound SpecUndo Undo Series SeriesFacts.
From Verif Require Import Account.
From Verif Require Import Fixed.
Open Scope Z_scope.

(** Rounded down is below, rounded up is above. *)
Definition side (m : mode) (a e : Q) : Prop := match m with Floor => (a <= e)%Q | Ceil => (e <= a)%Q | Nearest => True end.
Lemma side_one m P d r : 0 <= P -> rounds_to m P d r -> side m (dec P r) d.
Proof.
  intros HP H. pose proof (off_one m P d r HP H) as K. pose proof (q10_nonneg (- P)). unfold off_q, side in *. destruct m; [lra|exact I|lra].
Qed.
Lemma side_mult m a e k : (0 <= k)%Q -> side m a e -> side m (a * k) (e * k).
Proof. intros K. unfold side. destruct m; intros H; [|exact I|]; now apply Qmult_le_compat_r. Qed.
Lemma side_trans m a e f : side m a e -> side m e f -> side m a f.
Proof. unfold side. destruct m; intros; [lra|exact I|lra]. Qed.
Lemma side_add m a e k : side m a e -> side m (a + k) (e + k).
Proof. unfold side. destruct m; intros; [lra|exact I|lra]. Qed.
Lemma side_compat m a a' e e' : (a == a')%Q -> (e == e')%Q -> side m a e -> side m a' e'.
Proof. unfold side. destruct m; intros A B H; [|exact I|]; now rewrite <- A, <- B. Qed.
Lemma side_refl m a : side m a a.
Proof. unfold side. destruct m; [apply Qle_refl|exact I|apply Qle_refl]. Qed.

Lemma dec_nonneg P x : 0 <= x -> (0 <= dec P x)%Q.
Proof. intros H. unfold dec. apply Qmult_le_0_compat; [|apply q10_nonneg]. unfold Zq, Qle, inject_Z. cbn. lia. Qed.

(** ** Exchanges *)
Section chain.
Context (b : build) (L : layout) (P : Z) (Hv : valid b L P).

Lemma chain_side m l : m <> Nearest -> Forall (fun f => in_range L (fst f) /\ 0 <= fst f /\ snd f = m) l -> forall x r, in_range L x ->
  run_mul b L P x l = Ret (Ok r) -> in_range L r /\ side m (dec P r) (dec P x * qproduct P l).
Proof using Hv.
  intros Hm. assert (0 <= P) as HP by apply Hv. assert (tame m L P) as T by (intros K; congruence).
  induction 1 as [|[y m'] l (Ry & Hy & Em) H IH]; intros x r Rx E; cbn [run_mul qproduct fst snd] in *.
  - assert (r = x) as -> by congruence. split; [exact Rx|]. eapply side_compat; [reflexivity| |apply side_refl]. ring.
  - subst m'. destruct (product b L P x y m Hv Rx Ry T) as [(p & F & Rp & Hp)|F]; rewrite F in E; cbn [try_ bind] in E; [|discriminate E].
    destruct (IH p r Rp E) as [Rr Hr]. split; [exact Rr|].
    eapply side_trans; [exact Hr|]. eapply side_compat; [reflexivity| |apply side_mult; [|apply (side_one m P _ _ HP Hp)]]; [ring|].
    clear - H HP. induction H as [|[z m''] l (A & B & C) _ IH]; cbn [qproduct fst snd] in *; [discriminate|].
    apply Qmult_le_0_compat; [now apply dec_nonneg|exact IH].
Qed.
End chain.

(** ** Accounts *)
Section account.
Context (b : build) (L : layout) (P : Z) (Hv : valid b L P) (m : mode) (r : Z) (Ht : tame m L P) (Rr : in_range L r).

Lemma account_total l : Forall (in_range L) l -> forall x, in_range L x ->
  (exists y, account b L P m r x l = Ret (Ok y) /\ in_range L y /\
     (Qabs (dec P y - (dec P x * qpow (1 + dec P r) (length l) + qpoly P (1 + dec P r) l)) <=
      tolerance m P * geom (Qabs (1 + dec P r)) (length l))%Q /\
     (- 10 ^ P <= r -> side m (dec P y) (dec P x * qpow (1 + dec P r) (length l) + qpoly P (1 + dec P r) l))) \/
  account b L P m r x l = Ret (Err Overflow).
Proof using Hv Ht Rr.
  assert (0 <= P) as HP by apply Hv. set (X := (1 + dec P r)%Q). set (s := tolerance m P).
  induction 1 as [|f l Rf _ IH]; intros x Rx.
  - left. exists x. split; [reflexivity|]. split; [exact Rx|]. cbn [length qpow qpoly geom]. split.
    + setoid_replace (dec P x - (dec P x * 1 + 0))%Q with 0%Q by ring. rewrite Qmult_0_r. apply Qle_refl.
    + intros _. eapply side_compat; [reflexivity| |apply side_refl]. ring.
  - cbn [account]. destruct (product b L P x r m Hv Rx Rr Ht) as [(i & E & Ri & Hi)|E]; rewrite E; cbn [try_ bind]; [|right; reflexivity].
    destruct (sum_cases L P x i) as [(z & F & Rz & Hz)|F]; rewrite F; cbn [try_ bind]; [|right; reflexivity].
    destruct (sum_cases L P z f) as [(w & G & Rw & Hw)|G]; rewrite G; cbn [try_ bind]; [|right; reflexivity].
    destruct (IH w Rw) as [(y & K & Ry & Hy & Sy)|K]; [left|right; exact K]. exists y. split; [exact K|]. split; [exact Ry|].
    cbn [length qpow qpoly geom]. set (Xn := qpow X (length l)) in *.
    assert (dec P w == dec P x * X + dec P f + (dec P i - dec P x * dec P r))%Q as Ew by (rewrite Hw, Hz; unfold X; ring).
    split.
    + setoid_replace (dec P y - (dec P x * (X * Xn) + (dec P f * Xn + qpoly P X l)))%Q
        with ((dec P y - (dec P w * Xn + qpoly P X l)) + (dec P i - dec P x * dec P r) * Xn)%Q by (rewrite Ew; ring).
      eapply Qle_trans; [apply Qabs_triangle|]. rewrite Qabs_Qmult. apply rounds_to_slack in Hi; [|exact HP].
      assert (Qabs Xn == qpow (Qabs X) (length l))%Q as En by apply qpow_abs. rewrite En.
      assert (Qabs (dec P i - dec P x * dec P r) * qpow (Qabs X) (length l) <= s * qpow (Qabs X) (length l))%Q
        by (apply Qmult_le_compat_r; [exact Hi|apply qpow_nonneg, Qabs_nonneg]).
      lra.
    + intros Hr. assert (0 <= X)%Q as HX.
      { unfold X. setoid_replace (1 + dec P r)%Q with (dec P (10 ^ P + r)).
        - apply dec_nonneg. lia.
        - rewrite dec_add. setoid_replace (dec P (10 ^ P)) with 1%Q; [reflexivity|]. rewrite dec_alt by exact HP. field.
          pose proof (pow10_pos P HP). unfold Zq, inject_Z, Qeq. cbn. lia. }
      eapply side_trans; [exact (Sy Hr)|].
      apply (side_compat m (dec P w * Xn + qpoly P X l) _ ((dec P x * X + dec P f) * Xn + qpoly P X l)); [reflexivity|ring|].
      apply side_add, side_mult; [now apply qpow_nonneg|].
      apply (side_compat m (dec P i + (dec P x + dec P f)) _ (dec P x * dec P r + (dec P x + dec P f))); [rewrite Ew; unfold X; ring|unfold X; ring|].
      apply side_add. now apply side_one.
Qed.
End account.

Lemma account_error b L P m r x l : valid b L P -> tame m L P -> in_range L r -> in_range L x -> Forall (in_range L) l ->
  (exists y, account b L P m r x l = Ret (Ok y) /\ in_range L y /\
     (Qabs (dec P y - (dec P x * qpow (1 + dec P r) (length l) + qpoly P (1 + dec P r) l)) <=
      slack m * q10 (- P) * geom (Qabs (1 + dec P r)) (length l))%Q) \/
  account b L P m r x l = Ret (Err Overflow).
Proof.
  intros Hv Ht Rr Rx Rl. destruct (account_total b L P Hv m r Ht Rr l Rl x Rx) as [(y & E & Ry & H & _)|E]; [left|right; exact E].
  exists y. split; [exact E|]. split; [exact Ry|exact H].
Qed.
Lemma account_floor b L P r x l y : valid b L P -> in_range L r -> - 10 ^ P <= r -> in_range L x -> Forall (in_range L) l ->
  account b L P Floor r x l = Ret (Ok y) -> (dec P y <= dec P x * qpow (1 + dec P r) (length l) + qpoly P (1 + dec P r) l)%Q.
Proof.
  intros Hv Rr Hr Rx Rl E. assert (tame Floor L P) as Ht by (intros K; congruence).
  destruct (account_total b L P Hv Floor r Ht Rr l Rl x Rx) as [(y' & E' & _ & _ & H)|E']; rewrite E in E'; [|discriminate E'].
  injection E' as <-. exact (H Hr).
Qed.
Lemma account_ceil b L P r x l y : valid b L P -> in_range L r -> - 10 ^ P <= r -> in_range L x -> Forall (in_range L) l ->
  account b L P Ceil r x l = Ret (Ok y) -> (dec P x * qpow (1 + dec P r) (length l) + qpoly P (1 + dec P r) l <= dec P y)%Q.
Proof.
  intros Hv Rr Hr Rx Rl E. assert (tame Ceil L P) as Ht by (intros K; congruence).
  destruct (account_total b L P Hv Ceil r Ht Rr l Rl x Rx) as [(y' & E' & _ & _ & H)|E']; rewrite E in E'; [|discriminate E'].
  injection E' as <-. exact (H Hr).
Qed.
(** Without withdrawals the balance grows by at least the interest of the first period each time. *)
Lemma account_simple b L P m r i0 : valid b L P -> tame m L P -> in_range L r -> 0 <= r -> forall l, Forall (fun f => in_range L f /\ 0 <= f) l ->
  forall x0 x y, in_range L x0 -> in_range L x -> 0 <= x0 <= x -> rmul b L P x0 r m = Ret (Ok i0) ->
  account b L P m r x l = Ret (Ok y) -> x + Z.of_nat (length l) * i0 <= y.
Proof.
  intros Hv Ht Rr Hr. pose proof (pow10_pos P (proj1 (proj2 Hv))) as Hc. induction 1 as [|f l [Rf Hf] _ IH]; intros x0 x y R0 Rx Hx E0 E.
  - cbn [account length] in *. assert (y = x) as -> by congruence. lia.
  - cbn [account] in E. destruct (product b L P x r m Hv Rx Rr Ht) as [(i & F & Ri & _)|F]; rewrite F in E; cbn [try_ bind] in E; [|discriminate E].
    rewrite cadd_eq in E. destruct (chkr L (x + i)) as [z|] eqn:G; cbn [try_ bind] in E; [|discriminate E]. apply chkr_inv in G as [-> Rz].
    rewrite cadd_eq in E. destruct (chkr L (x + i + f)) as [w|] eqn:G; cbn [try_ bind] in E; [|discriminate E]. apply chkr_inv in G as [-> Rw].
    destruct (rmul_tame m b L P x0 r i0 Hv Ht R0 Rr E0) as [_ A0]. destruct (rmul_tame m b L P x r i Hv Ht Rx Rr F) as [_ A].
    assert (i0 <= i) as Hi by (apply (zrounds_mono m (x0 * r) (x * r) (10 ^ P) i0 i Hc); [nia|exact A0|exact A]).
    assert (0 <= i0) as H0. { apply (zrounds_mono m 0 (x0 * r) (10 ^ P) 0 i0 Hc); [nia| |exact A0]. destruct m; cbn [zrounds]; lia. }
    assert (in_range L (x + i + f)) as R' by exact Rw.
    specialize (IH x0 (x + i + f) y R0 R' ltac:(lia) E0 E). cbn [length]. rewrite Nat2Z.inj_succ. lia.
Qed.
Lemma account_first b L P m r x i l y : valid b L P -> tame m L P -> in_range L r -> 0 <= r -> in_range L x -> 0 <= x ->
  Forall (fun f => in_range L f /\ 0 <= f) l -> rmul b L P x r m = Ret (Ok i) -> account b L P m r x l = Ret (Ok y) ->
  x + Z.of_nat (length l) * i <= y.
Proof. intros Hv Ht Rr Hr Rx Hx Hl E F. exact (account_simple b L P m r i Hv Ht Rr Hr l Hl x x y Rx Rx ltac:(lia) E F). Qed.

Lemma chain_down b L P x l r : valid b L P -> in_range L x -> Forall (fun f => in_range L (fst f) /\ 0 <= fst f /\ snd f = Floor) l ->
  run_mul b L P x l = Ret (Ok r) -> (dec P r <= dec P x * qproduct P l)%Q.
Proof. intros Hv Rx H E. assert (Floor <> Nearest) as N by discriminate. exact (proj2 (chain_side b L P Hv Floor l N H x r Rx E)). Qed.
Lemma chain_up b L P x l r : valid b L P -> in_range L x -> Forall (fun f => in_range L (fst f) /\ 0 <= fst f /\ snd f = Ceil) l ->
  run_mul b L P x l = Ret (Ok r) -> (dec P x * qproduct P l <= dec P r)%Q.
Proof. intros Hv Rx H E. assert (Ceil <> Nearest) as N by discriminate. exact (proj2 (chain_side b L P Hv Ceil l N H x r Rx E)). Qed.
Lemma dec_le_inv P x y : (dec P x <= dec P y)%Q -> x <= y.
Proof.
  intros H. unfold dec in H. apply Qmult_le_r in H; [|apply q10_gt0]. apply Zq_le. exact H.
Qed.
Lemma chain_cycle b L P x l r : valid b L P -> in_range L x -> 0 <= x -> Forall (fun f => in_range L (fst f) /\ 0 <= fst f /\ snd f = Floor) l ->
  (qproduct P l <= 1)%Q -> run_mul b L P x l = Ret (Ok r) -> r <= x.
Proof.
  intros Hv Rx Hx H K E. pose proof (chain_down b L P x l r Hv Rx H E) as A. apply (dec_le_inv P).
  pose proof (dec_nonneg P x Hx). eapply Qle_trans; [exact A|]. rewrite <- (Qmult_1_r (dec P x)) at 2.
  rewrite (Qmult_comm (dec P x) (qproduct P l)), (Qmult_comm (dec P x) 1). now apply Qmult_le_compat_r.
Qed.
