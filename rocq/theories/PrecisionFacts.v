(** * PrecisionFacts: directed results at one precision and at a finer one. *)
From Coq Require Import Lia QArith Qpower Lqa.
From Verif Require Import Base Promo Ops Spec BaseFacts RoundFacts ArithProofs PrimPromo SimpleProofs MulDiv Sqrt256 Refute ProgramFacts OrderFacts LawFacts Str SpecText ShowFacts.
From Verif Require Import Fixed.
Open Scope Z_scope.

Lemma fine P P' r : 0 <= P <= P' -> (dec P r == dec P' (r * 10 ^ (P' - P)))%Q.
Proof.
  intros H. unfold dec. rewrite Zq_mul, <- (q10_pos (P' - P)) by lia.
  replace (- P) with ((P' - P) + (- P')) by lia. unfold q10. rewrite Qpower_plus by discriminate. ring.
Qed.
Lemma scaled P d z : 0 <= P -> ((dec P z <= d)%Q <-> (Zq z <= d * q10 P)%Q) /\ ((dec P z < d)%Q <-> (Zq z < d * q10 P)%Q) /\
  ((d <= dec P z)%Q <-> (d * q10 P <= Zq z)%Q) /\ ((d < dec P z)%Q <-> (d * q10 P < Zq z)%Q).
Proof.
  intros HP. pose proof (dec_scaled P z HP) as E. pose proof (q10_gt0 P) as G.
  rewrite <- (Qmult_le_r (dec P z) d _ G), <- (Qmult_lt_r (dec P z) d _ G), <- (Qmult_le_r d (dec P z) _ G), <- (Qmult_lt_r d (dec P z) _ G), E. tauto.
Qed.
Lemma rt_floor P d r : 0 <= P -> (rounds_to Floor P d r <-> (dec P r <= d)%Q /\ (d < dec P (r + 1))%Q).
Proof. intros HP. unfold rounds_to, rounds. pose proof (scaled P d r HP). pose proof (scaled P d (r + 1) HP). tauto. Qed.
Lemma rt_ceil P d r : 0 <= P -> (rounds_to Ceil P d r <-> (dec P (r - 1) < d)%Q /\ (d <= dec P r)%Q).
Proof. intros HP. unfold rounds_to, rounds. pose proof (scaled P d r HP). pose proof (scaled P d (r - 1) HP). tauto. Qed.

(** Rounding to the finer precision first changes nothing. *)
Lemma finer_first m P P' d r r' : m <> Nearest -> 0 <= P <= P' -> rounds_to m P' d r' -> rounds_to m P d r -> rounds_to m P (dec P' r') r.
Proof.
  intros Hm HP. destruct m; [|congruence|].
  - rewrite !rt_ceil by lia. intros [A B] [C D]. split.
    + apply Qlt_le_trans with d; assumption.
    + rewrite (fine P P') in D |- * by exact HP. apply dec_le. assert (r' - 1 < r * 10 ^ (P' - P)); [|lia].
      apply (dec_lt P'). apply Qlt_le_trans with d; assumption.
  - rewrite !rt_floor by lia. intros [A B] [C D]. split.
    + rewrite (fine P P') in C |- * by exact HP. apply dec_le. assert (r * 10 ^ (P' - P) < r' + 1); [|lia].
      apply (dec_lt P'). apply Qle_lt_trans with d; assumption.
    + apply Qle_lt_trans with d; assumption.
Qed.
Lemma finer m L P P' d d' o r' : m <> Nearest -> 0 <= P <= P' -> (d == d')%Q -> rounds_to m P' d' r' -> rounded_or_overflow L P m d o ->
  rounded_or_overflow L P m (dec P' r') o.
Proof.
  intros Hm HP E H (r & A & B). exists r. split; [|exact B]. apply finer_first with d; try assumption.
  unfold rounds_to in *. eapply rounds_compat; [|exact H]. now rewrite E.
Qed.
Lemma got L P m d r : rounded_or_overflow L P m d (Ret (Ok r)) -> in_range L r /\ rounds_to m P d r.
Proof. intros (z & A & [[B C]|[_ C]]); [|discriminate C]. injection C as ->. auto. Qed.
Lemma nonzero_same P P' y y' : (dec P y == dec P' y')%Q -> y <> 0 -> y' <> 0.
Proof. intros E H ->. apply H. apply (dec_eq P). rewrite E. unfold dec, Zq. ring. Qed.

Lemma dec_pos P x : 0 <= x -> (0 <= dec P x)%Q.
Proof. intros H. unfold dec. apply Qmult_le_0_compat; [change 0%Q with (Zq 0); apply Zq_le; exact H|apply q10_nonneg]. Qed.
Lemma root_lt u v w : (0 <= v)%Q -> (u * u <= w)%Q -> (w < v * v)%Q -> (u < v)%Q.
Proof. intros H A B. apply Qnot_le_lt. intros K. nra. Qed.
Lemma root_lt' u v w : (0 <= v)%Q -> (u * u < w)%Q -> (w <= v * v)%Q -> (u < v)%Q.
Proof. intros H A B. apply Qnot_le_lt. intros K. nra. Qed.
Lemma finer_root m P P' v v' r r' : m <> Nearest -> 0 <= P <= P' -> (v == v')%Q -> sqrt_rounds m P v r -> sqrt_rounds m P' v' r' -> rounds_to m P (dec P' r') r.
Proof.
  intros Hm HP E. unfold sqrt_rounds. intros [R A] [R' A']. destruct m; [|congruence|].
  - destruct A as [A B], A' as [A' B']. rewrite rt_ceil by lia. rewrite <- E in A', B'. split.
    + destruct (Z_le_gt_dec r 0) as [K|K].
      * apply Qlt_le_trans with 0%Q; [|now apply dec_pos]. assert (dec P (r - 1) < dec P 0)%Q as G by (apply SimpleProofs.dec_lt; lia).
        assert (dec P 0 == 0)%Q as Z0 by (unfold dec, Zq; ring). now rewrite Z0 in G.
      * apply root_lt' with v; [now apply dec_pos|apply B; lia|exact A'].
    + rewrite (fine P P') by exact HP. apply SimpleProofs.dec_le. destruct (Z_le_gt_dec r' 0) as [K|K]; [assert (0 <= r * 10 ^ (P' - P)) by (apply Z.mul_nonneg_nonneg; [exact R|apply Z.pow_nonneg; lia]); lia|].
      assert (r' - 1 < r * 10 ^ (P' - P)); [|lia]. apply (SimpleProofs.dec_lt P'). rewrite <- (fine P P') by exact HP.
      apply root_lt' with v; [now apply dec_pos|apply B'; lia|exact A].
  - destruct A as [A B], A' as [A' B']. rewrite rt_floor by lia. rewrite <- E in A', B'. split.
    + rewrite (fine P P') by exact HP. apply SimpleProofs.dec_le. assert (r * 10 ^ (P' - P) < r' + 1); [|lia].
      apply (SimpleProofs.dec_lt P'). rewrite <- (fine P P') by exact HP. apply root_lt with v; [apply dec_pos; lia|exact A|exact B'].
    + apply root_lt with v; [apply dec_pos; lia|exact A'|exact B].
Qed.

Section two.
Context (b b' : build) (L L' : layout) (P P' : Z) (Hv : valid b L P) (Hv' : valid b' L' P') (HP : P <= P') (m : mode) (Hm : m <> Nearest).
Context (x y x' y' : Z) (Rx : in_range L x) (Ry : in_range L y) (Rx' : in_range L' x') (Ry' : in_range L' y').
Context (Ex : (dec P x == dec P' x')%Q) (Ey : (dec P y == dec P' y')%Q).
Lemma both : 0 <= P <= P'.
Proof using Hv HP. split; [apply Hv|exact HP]. Qed.
Lemma finer_rmul r' : rmul b' L' P' x' y' m = Ret (Ok r') -> rounded_or_overflow L P m (dec P' r') (rmul b L P x y m).
Proof using Hv Hv' HP Hm Rx Ry Rx' Ry' Ex Ey.
  intros H. pose proof (rmul_directed b' L' P' Hv' x' y' Rx' Ry' m Hm) as K. rewrite H in K. apply got in K as [_ K].
  eapply finer; [exact Hm|exact both| |exact K|apply rmul_directed; assumption]. now rewrite Ex, Ey.
Qed.
Lemma finer_rdiv r' : y <> 0 -> rdiv b' L' P' x' y' m = Ret (Ok r') -> rounded_or_overflow L P m (dec P' r') (rdiv b L P x y m).
Proof using Hv Hv' HP Hm Rx Ry Rx' Ry' Ex Ey.
  intros Hy H. pose proof (rdiv_directed b' L' P' x' y' m Hv' Rx' Ry' (nonzero_same P P' y y' Ey Hy) Hm) as K. rewrite H in K. apply got in K as [_ K].
  eapply finer; [exact Hm|exact both| |exact K|apply rdiv_directed; assumption]. now rewrite Ex, Ey.
Qed.
Lemma finer_half : exists r r', half_sum b L x y m = Ret r /\ half_sum b' L' x' y' m = Ret r' /\ rounds_to m P (dec P' r') r.
Proof using Hv Hv' HP Hm Rx Ry Rx' Ry' Ex Ey.
  destruct (half_sum_rounded b L P x y m (proj1 both) Rx Ry ltac:(congruence)) as (r & E & _ & A).
  destruct (half_sum_rounded b' L' P' x' y' m ltac:(pose proof both; lia) Rx' Ry' ltac:(congruence)) as (r' & E' & _ & A').
  exists r, r'. split; [exact E|]. split; [exact E'|]. eapply finer_first; [exact Hm|exact both|exact A'|].
  unfold rounds_to in *. eapply rounds_compat; [|exact A]. now rewrite Ex, Ey.
Qed.
Lemma finer_rsqrt : 0 <= x -> exists r r', rsqrt b L P x m = Ret (Ok r) /\ rsqrt b' L' P' x' m = Ret (Ok r') /\ rounds_to m P (dec P' r') r.
Proof using Hv Hv' HP Hm Rx Rx' Ex.
  intros Hx. pose proof both as HB.
  assert (0 <= x') as Hx' by (apply (SimpleProofs.dec_le P'); rewrite <- Ex; unfold dec at 1; rewrite Qmult_0_l; apply (dec_pos P x Hx)).
  destruct (rsqrt_spec b L P x m Hv Rx Hx) as (r & E & _ & A). destruct (rsqrt_spec b' L' P' x' m Hv' Rx' Hx') as (r' & E' & _ & A').
  exists r, r'. split; [exact E|]. split; [exact E'|]. eapply finer_root; [exact Hm|exact HB|exact Ex|exact A|exact A'].
Qed.
Lemma finer_recip r' : x <> 0 -> recip b' L' P' x' m = Ret (Ok r') -> rounded_or_overflow L P m (dec P' r') (recip b L P x m).
Proof using Hv Hv' HP Hm Rx Rx' Ex.
  intros Hx H. pose proof (recip_rounded b' L' P' x' m Hv' Rx' (nonzero_same P P' x x' Ex Hx) ltac:(congruence)) as K. rewrite H in K. apply got in K as [_ K].
  eapply finer; [exact Hm|exact both| |exact K|apply recip_rounded; [assumption..|congruence]]. now rewrite Ex.
Qed.
Lemma same_sum r r' : cadd L x y = Ok r -> cadd L' x' y' = Ok r' -> (dec P r == dec P' r')%Q.
Proof using Ex Ey.
  rewrite !cadd_eq. intros A B. apply chkr_inv in A as [-> _], B as [-> _]. now rewrite !dec_add, Ex, Ey.
Qed.
Lemma same_diff r r' : csub L x y = Ok r -> csub L' x' y' = Ok r' -> (dec P r == dec P' r')%Q.
Proof using Ex Ey.
  rewrite !csub_eq. intros A B. apply chkr_inv in A as [-> _], B as [-> _]. now rewrite !dec_sub, Ex, Ey.
Qed.
Lemma same_times n r r' : cmul L x n = Ok r -> cmul L' x' n = Ok r' -> (dec P r == dec P' r')%Q.
Proof using Ex.
  rewrite !cmul_eq. intros A B. apply chkr_inv in A as [-> _], B as [-> _]. now rewrite !dec_mul, Ex.
Qed.
Lemma same_order : fp_cmp x y = fp_cmp x' y'.
Proof using Ex Ey.
  destruct (order_spec P x y) as (A & B & C & _), (order_spec P' x' y') as (A' & B' & C' & _). rewrite Ex, Ey in A, B, C.
  destruct (fp_cmp x' y'); tauto.
Qed.
Lemma same_text : printable b L P x -> printable b' L' P' x' -> to_string b L P x = to_string b' L' P' x'.
Proof using Hv Hv' Rx Rx' Ex.
  intros A B. destruct (to_string_ok b L P x Hv Rx A) as (s & E & C & _), (to_string_ok b' L' P' x' Hv' Rx' B) as (s' & E' & C' & _).
  rewrite E, E'. f_equal. eapply canonical_unique; [exact C|exact C'|exact Ex].
Qed.
End two.
Lemma finer_nearest : exists r r' s, rdiv dev L64 0 5 11 Nearest = Ret (Ok r) /\ rdiv dev L64 1 50 110 Nearest = Ret (Ok r') /\
  rounds_to Nearest 0 (dec 1 r') s /\ s <> r.
Proof. exists 0, 5, 1. repeat split; vm_compute; congruence. Qed.
