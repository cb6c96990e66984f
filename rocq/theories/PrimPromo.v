(** * PrimPromo: the primitive promotions i32, i64, i128 satisfy [promo_ok]. *)
From Verif Require Import Base Promo Fixed Spec BaseFacts ArithProofs.

Lemma fits_abs t H a : imin t = - H -> imax t = H - 1 -> Z.abs a < H -> fits t a.
Proof. unfold fits. lia. Qed.

Definition prim_ok (b : build) (l t : ity) (H : Z) :
  imin t = - H -> imax t = H - 1 -> imin t <= imin l -> imax l <= imax t ->
  promo_ok (prim_promo b l t) l H.
Proof.
  intros E1 E2 E3 E4.
  refine {| R := fun (x : pt (prim_promo b l t)) (a : Z) => x = a /\ fits t a |};
    cbn [prim_promo pt p_from p_mul p_div p_add p_sub p_try p_ge p_eq p_one].
  - intros x [H1 H2]. split; [reflexivity|]. unfold fits. lia.
  - intros x y a c [-> Fa] [-> Fc] Hb. exists (a * c).
    assert (fits t (a * c)) by (eapply fits_abs; eassumption).
    rewrite mul_ok by assumption. auto.
  - intros x y a c [-> Fa] [-> Fc] Hc Hb. exists (Z.quot a c).
    assert (fits t (Z.quot a c)).
    { eapply fits_abs; try eassumption. pose proof (abs_quot_le a c Hc). lia. }
    rewrite div_ok by assumption. auto.
  - intros x y a c [-> Fa] [-> Fc] Hb. exists (a + c).
    assert (fits t (a + c)) by (eapply fits_abs; eassumption).
    rewrite add_ok by assumption. auto.
  - intros x y a c [-> Fa] [-> Fc] Hb. exists (a - c).
    assert (fits t (a - c)) by (eapply fits_abs; eassumption).
    rewrite sub_ok by assumption. auto.
  - intros x a [-> Fa]. reflexivity.
  - intros x y a c [-> Fa] [-> Fc]. reflexivity.
  - intros x y a c [-> Fa] [-> Fc]. reflexivity.
  - split; [reflexivity|]. unfold fits. unfold imin, imax in *. destruct t; simpl in *; lia.
Defined.

Definition promo16 b : promotes b L16 := prim_ok b I16 I32 (cap L16) eq_refl eq_refl ltac:(vm_compute; discriminate) ltac:(vm_compute; discriminate).
Definition promo32 b : promotes b L32 := prim_ok b I32 I64 (cap L32) eq_refl eq_refl ltac:(vm_compute; discriminate) ltac:(vm_compute; discriminate).
Definition promo64 b : promotes b L64 := prim_ok b I64 I128 (cap L64) eq_refl eq_refl ltac:(vm_compute; discriminate) ltac:(vm_compute; discriminate).
