(** * RoundFacts: an integer rounding function and its agreement with [Spec.rounds]. *)
From Coq Require Import Lqa Qpower.
From Verif Require Import Base Promo Spec BaseFacts.

(** The rational [n / d] (d <> 0) rounded in mode [m]. *)
Definition rnd (m : mode) (n d : Z) : Z :=
  match m with
  | Floor => n / d
  | Ceil => - ((- n) / d)
  | Nearest => (Z.sgn n * Z.sgn d) * ((2 * Z.abs n + Z.abs d) / (2 * Z.abs d))
  end.

(** Integer form of [rounds] for a positive denominator. *)
Definition zrounds (m : mode) (n d z : Z) : Prop :=
  match m with
  | Floor => z * d <= n < (z + 1) * d
  | Ceil => (z - 1) * d < n <= z * d
  | Nearest => 2 * Z.abs (n - z * d) <= d /\ (2 * Z.abs (n - z * d) = d -> Z.abs n <= Z.abs (z * d))
  end.

Lemma Qlt_div_l a n d : 0 < d -> ((Zq a < Zq n / Zq d)%Q <-> a * d < n).
Proof.
  intros Hd. destruct d as [|d|]; try lia. unfold Zq, Qlt, Qdiv, Qmult, Qinv, inject_Z. simpl. lia.
Qed.
Lemma Qle_div_l a n d : 0 < d -> ((Zq a <= Zq n / Zq d)%Q <-> a * d <= n).
Proof.
  intros Hd. destruct d as [|d|]; try lia. unfold Zq, Qle, Qdiv, Qmult, Qinv, inject_Z. simpl. lia.
Qed.
Lemma Qlt_div_r a n d : 0 < d -> ((Zq n / Zq d < Zq a)%Q <-> n < a * d).
Proof.
  intros Hd. destruct d as [|d|]; try lia. unfold Zq, Qlt, Qdiv, Qmult, Qinv, inject_Z. simpl. lia.
Qed.
Lemma Qle_div_r a n d : 0 < d -> ((Zq n / Zq d <= Zq a)%Q <-> n <= a * d).
Proof.
  intros Hd. destruct d as [|d|]; try lia. unfold Zq, Qle, Qdiv, Qmult, Qinv, inject_Z. simpl. lia.
Qed.

Lemma Qabs_sub_div n d z : 0 < d ->
  (Qabs (Zq n / Zq d - Zq z) == Zq (Z.abs (n - z * d)) / Zq d)%Q.
Proof.
  intros Hd. destruct d as [|d|]; try lia.
  unfold Zq, Qeq, Qabs, Qdiv, Qmult, Qinv, Qminus, Qplus, Qopp, inject_Z. simpl.
  rewrite ?Pos.mul_1_r, ?Z.mul_1_r. f_equal. lia.
Qed.

Lemma rounds_zrounds m n d z : 0 < d -> (rounds m (Zq n / Zq d) z <-> zrounds m n d z).
Proof.
  intros Hd. destruct m; unfold rounds, zrounds.
  - rewrite Qlt_div_l, Qle_div_r by assumption. reflexivity.
  - rewrite !(Qabs_sub_div n d z Hd).
    assert ((Qabs (Zq n / Zq d) <= Qabs (Zq z))%Q <-> Z.abs n <= Z.abs (z * d)) as Ha.
    { destruct d as [|d|]; try lia.
      unfold Zq, Qle, Qabs, Qdiv, Qmult, Qinv, inject_Z. simpl.
      rewrite Z.abs_mul. rewrite ?Z.mul_1_r. simpl. lia. }
    rewrite Ha.
    assert ((Zq (Z.abs (n - z * d)) / Zq d <= 1 # 2)%Q <-> 2 * Z.abs (n - z * d) <= d) as Hl.
    { generalize (Z.abs (n - z * d)). intros a. destruct d as [|d|]; try lia.
      unfold Zq, Qle, Qdiv, Qmult, Qinv, inject_Z. cbn [Qnum Qden]. lia. }
    assert ((Zq (Z.abs (n - z * d)) / Zq d == 1 # 2)%Q <-> 2 * Z.abs (n - z * d) = d) as He.
    { generalize (Z.abs (n - z * d)). intros a. destruct d as [|d|]; try lia.
      unfold Zq, Qeq, Qdiv, Qmult, Qinv, inject_Z. cbn [Qnum Qden]. lia. }
    rewrite Hl, He. reflexivity.
  - rewrite Qle_div_l, Qlt_div_r by assumption. reflexivity.
Qed.

(** The rounding of a rational is unique. *)
Lemma zrounds_unique m n d z z' : 0 < d -> zrounds m n d z -> zrounds m n d z' -> z = z'.
Proof.
  intros Hd. destruct m; unfold zrounds; intros H H'; [nia| |nia].
  assert (forall k, zrounds Nearest n d k -> ~ zrounds Nearest n d (k + 1)) as Hk.
  { intros k [H1 H2] [H3 H4]. replace ((k + 1) * d) with (k * d + d) in * by lia.
    assert (0 <= k * d \/ k * d <= - d) by (destruct (Z_le_dec 0 k); [left|right]; nia).
    remember (k * d) as p. lia. }
  assert (z = z' \/ z = z' + 1 \/ z' = z + 1) as [E|[E|E]].
  { destruct H as [H1 _], H' as [H1' _].
    assert (Z.abs ((z - z') * d) <= d) as Ha.
    { replace ((z - z') * d) with (z * d - z' * d) by lia. lia. }
    assert (- d <= (z - z') * d <= d) by lia. nia. }
  - assumption.
  - subst z. exfalso. exact (Hk z' H' H).
  - subst z'. exfalso. exact (Hk z H H').
Qed.

Lemma rnd_zrounds m n d : 0 < d -> zrounds m n d (rnd m n d).
Proof.
  intros Hd. destruct m; unfold zrounds, rnd.
  - pose proof (Z.div_mod (- n) d ltac:(lia)). pose proof (Z.mod_pos_bound (- n) d Hd). nia.
  - pose proof (Z.div_mod (2 * Z.abs n + Z.abs d) (2 * Z.abs d) ltac:(lia)) as E.
    pose proof (Z.mod_pos_bound (2 * Z.abs n + Z.abs d) (2 * Z.abs d) ltac:(lia)) as M.
    revert E M. set (q := (2 * Z.abs n + Z.abs d) / (2 * Z.abs d)).
    set (r := (2 * Z.abs n + Z.abs d) mod (2 * Z.abs d)). intros E M.
    rewrite (Z.abs_eq d) in * by lia. rewrite (Z.sgn_pos d), Z.mul_1_r by lia.
    destruct (Z.sgn_spec n) as [[Hn ->]|[[Hn ->]|[Hn ->]]].
    + rewrite (Z.abs_eq n) in * by lia. split; nia.
    + subst n. cbn [Z.mul Z.sub Z.opp Z.add Z.abs]. lia.
    + rewrite (Z.abs_neq n) in * by lia. split; nia.
  - pose proof (Z.div_mod n d ltac:(lia)). pose proof (Z.mod_pos_bound n d Hd). nia.
Qed.

Lemma rnd_opp m n d : d <> 0 -> rnd m (- n) (- d) = rnd m n d.
Proof.
  intros Hd. destruct m; unfold rnd.
  - rewrite Z.opp_involutive. f_equal. rewrite <- (Z.div_opp_opp n (- d)) by lia. f_equal; lia.
  - rewrite !Z.sgn_opp, !Z.abs_opp. f_equal. lia.
  - apply Z.div_opp_opp. assumption.
Qed.

Lemma Qdiv_opp n d : d <> 0 -> (Zq (- n) / Zq (- d) == Zq n / Zq d)%Q.
Proof.
  intros Hd. destruct d as [|d|d]; [congruence| |];
    unfold Zq, Qeq, Qdiv, Qmult, Qinv, inject_Z; simpl; lia.
Qed.

#[export] Instance rounds_proper m : Proper (Qeq ==> eq ==> iff) (rounds m).
Proof.
  intros q q' E z z' <-. destruct m; unfold rounds; rewrite E; reflexivity.
Qed.

Lemma rnd_rounds m n d : d <> 0 -> rounds m (Zq n / Zq d) (rnd m n d).
Proof.
  intros Hd. destruct (Z_lt_dec 0 d) as [H|H].
  - apply rounds_zrounds; [assumption|]. apply rnd_zrounds. assumption.
  - rewrite <- (Qdiv_opp n d Hd), <- (rnd_opp m n d Hd).
    apply rounds_zrounds; [lia|]. apply rnd_zrounds. lia.
Qed.

Lemma Qfrac q : exists n d, 0 < d /\ (q == Zq n / Zq d)%Q.
Proof.
  exists (Qnum q), (Zpos (Qden q)). split; [lia|]. destruct q as [n d]. unfold Zq.
  simpl. apply Qmake_Qdiv.
Qed.
Lemma rounds_unique m q z z' : rounds m q z -> rounds m q z' -> z = z'.
Proof.
  destruct (Qfrac q) as (n & d & Hd & E). rewrite E, !rounds_zrounds by assumption.
  apply zrounds_unique. assumption.
Qed.
Lemma rounds_rnd m n d z : d <> 0 -> rounds m (Zq n / Zq d) z -> z = rnd m n d.
Proof. intros Hd H. eapply rounds_unique; [exact H|]. apply rnd_rounds. assumption. Qed.
Lemma rnd_eq m n d z : 0 < d -> zrounds m n d z -> rnd m n d = z.
Proof. intros Hd H. eapply zrounds_unique; [exact Hd| |exact H]. apply rnd_zrounds, Hd. Qed.

(** Powers of ten as rationals. *)
Lemma q10_pos e : 0 <= e -> (q10 e == Zq (10 ^ e))%Q.
Proof.
  intros H. unfold q10, Zq. rewrite Zpower_Qpower by assumption. reflexivity.
Qed.
Lemma q10_neg e : 0 <= e -> (q10 (- e) == / Zq (10 ^ e))%Q.
Proof.
  intros H. unfold q10. rewrite Qpower_opp. rewrite <- q10_pos by assumption. reflexivity.
Qed.
Lemma Zq_nonzero d : d <> 0 -> ~ (Zq d == 0)%Q.
Proof. unfold Zq, Qeq. simpl. lia. Qed.
Lemma dec_alt P r : 0 <= P -> (dec P r == Zq r / Zq (10 ^ P))%Q.
Proof. intros H. unfold dec, Qdiv. rewrite q10_neg by assumption. reflexivity. Qed.
Lemma Zq_mul x y : (Zq (x * y) == Zq x * Zq y)%Q.
Proof. unfold Zq. rewrite inject_Z_mult. reflexivity. Qed.
Lemma Zq_add x y : (Zq (x + y) == Zq x + Zq y)%Q.
Proof. unfold Zq. rewrite inject_Z_plus. reflexivity. Qed.
Lemma Zq_opp x : (Zq (- x) == - Zq x)%Q.
Proof. unfold Zq. rewrite inject_Z_opp. reflexivity. Qed.
Lemma Zq_le x y : (Zq x <= Zq y)%Q <-> x <= y.
Proof. unfold Zq. rewrite <- Zle_Qle. reflexivity. Qed.
Lemma Zq_lt x y : (Zq x < Zq y)%Q <-> x < y.
Proof. unfold Zq. rewrite <- Zlt_Qlt. reflexivity. Qed.
Lemma Zq_eq x y : (Zq x == Zq y)%Q <-> x = y.
Proof. unfold Zq. apply inject_Z_injective. Qed.
