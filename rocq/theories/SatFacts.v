(** * SatFacts: what a saturating balance ends up with. *)
From Coq Require Import Lia QArith Permutation.
From Verif Require Import Base Promo Ops Spec BaseFacts RoundFacts ArithProofs SimpleProofs OrderFacts DecProofs LawFacts Client.
From Verif Require Import SatRun.
From Verif Require Import Fixed.
Open Scope Z_scope.

Definition cut (a c z : Z) : Z := Z.max a (Z.min c z).
Lemma sat_cut L z : sat (lty L) z = cut (lo L) (hi L) z.
Proof. unfold sat, cut. rewrite imin_lty, imax_lty. pose proof (lo_hi L). pose proof (hi_pos L). destruct (Z.ltb_spec z (lo L)), (Z.ltb_spec (hi L) z); lia. Qed.
Lemma sat_step_cut L acc s : sat_step L acc s = cut (lo L) (hi L) (acc + delta s).
Proof. destruct s; cbn [sat_step delta]; unfold fp_saturating_add, fp_saturating_sub, saturating_add, saturating_sub; rewrite sat_cut; reflexivity. Qed.

Lemma sat_form L l : exists a c, lo L <= a /\ a <= c /\ c <= hi L /\ forall acc, in_range L acc -> sat_run L acc l = cut a c (acc + change l).
Proof.
  pose proof (lo_hi L). pose proof (hi_pos L).
  induction l as [|s l (a & c & Ha & Hac & Hc & IH)].
  - exists (lo L), (hi L). do 3 (split; [lia|]). intros acc R. cbn [sat_run change]. unfold cut, in_range in *. lia.
  - exists (cut a c (lo L + change l)), (cut a c (hi L + change l)). unfold cut in *. do 3 (split; [lia|]).
    intros acc R. cbn [sat_run change]. rewrite sat_step_cut. unfold cut. rewrite IH by (unfold in_range; lia). lia.
Qed.
Lemma sat_run_range L l acc : in_range L acc -> in_range L (sat_run L acc l).
Proof. intros R. destruct (sat_form L l) as (a & c & ? & ? & ? & E). rewrite E by exact R. unfold cut, in_range. lia. Qed.
Lemma sat_apart L l acc acc' : in_range L acc -> in_range L acc' -> acc <= acc' ->
  sat_run L acc l <= sat_run L acc' l /\ sat_run L acc' l - sat_run L acc l <= acc' - acc.
Proof. intros R R' Ho. destruct (sat_form L l) as (a & c & ? & ? & ? & E). rewrite !E by assumption. unfold cut. lia. Qed.
Lemma sat_monotone L l l' acc acc' : in_range L acc -> in_range L acc' -> acc <= acc' -> Forall2 (fun s s' => delta s <= delta s') l l' ->
  sat_run L acc l <= sat_run L acc' l'.
Proof.
  intros R R' Ho F. revert acc acc' R R' Ho. pose proof (lo_hi L). pose proof (hi_pos L).
  induction F as [|s s' l l' Hs F IH]; intros acc acc' R R' Ho; cbn [sat_run]; [exact Ho|].
  apply IH; rewrite !sat_step_cut; unfold cut, in_range; lia.
Qed.
Lemma sat_exact L l acc r : in_range L acc -> run_steps L acc l = Ok r -> sat_run L acc l = r.
Proof.
  revert acc. induction l as [|s l IH]; intros acc R; cbn [run_steps sat_run]; [intros [= ->]; reflexivity|].
  intros H. destruct (do_step L acc s) as [v|e] eqn:E; [|discriminate H].
  assert (v = acc + delta s /\ in_range L v) as [Ev Rv].
  { destruct s; cbn [do_step delta] in *; [rewrite cadd_eq in E|rewrite csub_eq in E]; apply chkr_inv in E; destruct E; subst; split; assumption || lia. }
  rewrite sat_step_cut. replace (cut _ _ _) with v by (unfold cut, in_range in *; lia). now apply IH.
Qed.
Lemma clamps_compat L P d d' r : (d == d')%Q -> clamps L P d' r -> clamps L P d r.
Proof. intros E. unfold clamps. now setoid_rewrite E. Qed.
Lemma sat_one_raw L l acc : in_range L acc -> Forall (fun s => 0 <= delta s) l \/ Forall (fun s => delta s <= 0) l ->
  sat_run L acc l = cut (lo L) (hi L) (acc + change l).
Proof.
  intros R F. revert acc R. pose proof (lo_hi L). pose proof (hi_pos L). destruct F as [F|F]; induction F as [|s l Hs F IH]; intros acc R; cbn [sat_run change].
  - unfold cut, in_range in *. lia.
  - assert (0 <= change l) by (clear IH; induction F; cbn [change]; lia).
    rewrite sat_step_cut, IH by (unfold cut, in_range in *; lia). unfold cut, in_range in *. lia.
  - unfold cut, in_range in *. lia.
  - assert (change l <= 0) by (clear IH; induction F; cbn [change]; lia).
    rewrite sat_step_cut, IH by (unfold cut, in_range in *; lia). unfold cut, in_range in *. lia.
Qed.
Lemma sat_one_way L P l acc : in_range L acc -> Forall (fun s => 0 <= delta s) l \/ Forall (fun s => delta s <= 0) l ->
  clamps L P (dec P acc + qtotal P l) (sat_run L acc l).
Proof.
  intros R F. rewrite (sat_one_raw L l acc R F), <- sat_cut. assert (qtotal P l == dec P (change l))%Q as Q.
  { clear. induction l as [|s l IH]; cbn [qtotal change]; [unfold dec; change (Zq 0) with 0%Q; ring|]. rewrite IH, dec_add. destruct s; cbn [qdelta delta]; [reflexivity|].
    unfold dec. rewrite Zq_opp. ring. }
  eapply clamps_compat; [|apply sat_clamps]. rewrite Q. symmetry. apply dec_add.
Qed.
(** Order does not matter then. *)
Lemma change_perm l l' : Permutation l l' -> change l = change l'.
Proof. intros H. induction H; cbn [change]; lia. Qed.

(** Hashing. *)
Lemma hash_log L l h : hash_slice (fun h t z => h ++ [(t, z)]) L h l = h ++ map (pair (lty L)) l.
Proof.
  unfold hash_slice. revert h. induction l as [|x l IH]; intros h; cbn [fold_left map]; [now rewrite app_nil_r|].
  rewrite IH. unfold hash_into. now rewrite <- app_assoc.
Qed.
Lemma hash_slice_eq L l l' : l = l' <-> forall (H : Type) (write : H -> ity -> Z -> H) h, hash_slice write L h l = hash_slice write L h l'.
Proof.
  split; [now intros ->|]. intros E. specialize (E _ (fun h t z => h ++ [(t, z)]) []). rewrite !hash_log in E. cbn [app] in E.
  revert l' E. induction l as [|x l IH]; intros [|x' l'] E; cbn [map] in E; try discriminate E; [reflexivity|].
  injection E as -> E. f_equal. now apply IH.
Qed.
Lemma hash_eq L x y : fp_eq x y = true <-> forall (H : Type) (write : H -> ity -> Z -> H) h, hash_into write L h x = hash_into write L h y.
Proof.
  unfold fp_eq. rewrite Z.eqb_eq. split; [now intros ->|]. intros E. specialize (E Z (fun _ _ z => z) 0). exact E.
Qed.
Lemma hash_writes L x : hash_into (fun h t z => h ++ [(t, z)]) L [] x = [(lty L, x)].
Proof. reflexivity. Qed.
Lemma sat_order L l l' acc : in_range L acc -> Forall (fun s => 0 <= delta s) l \/ Forall (fun s => delta s <= 0) l -> Permutation l l' ->
  sat_run L acc l = sat_run L acc l'.
Proof.
  intros R F Hp. assert (Forall (fun s => 0 <= delta s) l' \/ Forall (fun s => delta s <= 0) l') as F'.
  { destruct F as [F|F]; [left|right]; eapply Permutation_Forall; eassumption. }
  rewrite !sat_one_raw by assumption. now rewrite (change_perm _ _ Hp).
Qed.
