(** * FloatFacts: what the binary64 operations of [SpecFloat] compute, in integer terms.
    No real numbers are used. *)
From Coq Require Import SpecFloat.
From Verif Require Import Base Sqrt BaseFacts.
Ltac Zify.zify_post_hook ::= idtac.

Lemma pow2_pos n : 0 <= n -> 0 < 2 ^ n.
Proof. intros. apply Z.pow_pos_nonneg; lia. Qed.
Lemma pow2_le n m : n <= m -> 2 ^ n <= 2 ^ m.
Proof. intros H. destruct (Z_lt_le_dec m 0).
  - rewrite !Z.pow_neg_r by lia. lia.
  - apply Z.pow_le_mono_r; lia. Qed.

Lemma digits2_spec p : 2 ^ (Zpos (digits2_pos p) - 1) <= Zpos p < 2 ^ Zpos (digits2_pos p).
Proof.
  induction p as [p IH|p IH|]; cbn [digits2_pos]; [..|cbn; lia].
  all: set (d := digits2_pos p) in *.
  all: replace (Zpos (Pos.succ d) - 1) with (Z.succ (Zpos d - 1)) by lia.
  all: replace (Zpos (Pos.succ d)) with (Z.succ (Zpos d)) by lia.
  all: rewrite !Z.pow_succ_r by lia; lia.
Qed.
Lemma pow2_between a c z : 2 ^ (a - 1) <= z < 2 ^ a -> 2 ^ (c - 1) <= z < 2 ^ c -> 0 < a -> 0 < c -> a = c.
Proof.
  intros H1 H2 Ha Hc. destruct (Z.lt_trichotomy a c) as [H|[H|H]]; [|assumption|]; exfalso.
  - pose proof (pow2_le a (c - 1) ltac:(lia)). lia.
  - pose proof (pow2_le c (a - 1) ltac:(lia)). lia.
Qed.
Lemma digits2_eq m n : 0 < n -> 2 ^ (n - 1) <= m < 2 ^ n -> Zdigits2 m = n.
Proof.
  intros Hn H. pose proof (pow2_pos (n - 1) ltac:(lia)). destruct m as [|p|p]; try lia. cbn [Zdigits2].
  apply (pow2_between _ _ (Zpos p)); try assumption; try lia. apply digits2_spec.
Qed.
Lemma digits2_pos_spec m : 0 < m -> 0 < Zdigits2 m /\ 2 ^ (Zdigits2 m - 1) <= m < 2 ^ Zdigits2 m.
Proof. intros H. destruct m as [|p|p]; try lia. cbn [Zdigits2]. split; [lia|]. apply digits2_spec. Qed.

(** ** Shifting right with a round and a sticky bit *)
(** [n / d] lies between [shr_m] and its successor, as the two bits say. *)
Definition near_rec (n d : Z) (x : shr_record) : Prop :=
  0 <= shr_m x /\ 0 < d /\ exists e, 0 <= e < d /\ 2 * n = (2 * shr_m x + Z.b2z (shr_r x)) * d + e /\
    (shr_s x = false <-> e = 0).

Lemma shr_1_near n d x : near_rec n d x -> near_rec n (2 * d) (shr_1 x) /\ shr_m (shr_1 x) = shr_m x / 2.
Proof.
  destruct x as [m r s]. intros (Hm & Hd & e & He & E & S). cbn [shr_m shr_r shr_s] in *.
  assert (forall m' b, m = 2 * m' + Z.b2z b -> 0 <= m' ->
    near_rec n (2 * d) (Build_shr_record m' b (orb r s)) /\ m' = m / 2) as K.
  { intros m' bb Em Hm'. split.
    - unfold near_rec. cbn [shr_m shr_r shr_s]. split; [assumption|]. split; [lia|].
      exists (Z.b2z r * d + e). split; [destruct r; cbn [Z.b2z]; lia|]. split.
      + rewrite E, Em. ring.
      + destruct r, s; cbn [orb Z.b2z] in *; try (split; [discriminate|lia]).
        split; [intros H; apply S in H; lia|reflexivity].
    - apply Z.div_unique with (Z.b2z bb); [destruct bb; cbn; lia|assumption]. }
  unfold shr_1. destruct m as [|[p|p|]|p]; try lia.
  - apply (K 0 false); cbn; lia.
  - apply (K (Zpos p) true); cbn [Z.b2z]; lia.
  - apply (K (Zpos p) false); cbn [Z.b2z]; lia.
  - apply (K 0 true); cbn; lia.
Qed.
Lemma iter_pos_add {A} (f : A -> A) p : forall x, SpecFloat.iter_pos f p x = Nat.iter (Pos.to_nat p) f x.
Proof.
  assert (forall n m x, Nat.iter (n + m) f x = Nat.iter n f (Nat.iter m f x)) as Hi
    by (intros n m x; induction n; cbn; [reflexivity|now f_equal]).
  induction p as [p IH|p IH|]; intros x; cbn [SpecFloat.iter_pos].
  - rewrite !IH, <- Hi. replace (Pos.to_nat p~1) with ((Pos.to_nat p + Pos.to_nat p) + 1)%nat by lia.
    rewrite (Hi _ 1%nat). reflexivity.
  - rewrite !IH, <- Hi. f_equal. lia.
  - reflexivity.
Qed.
Lemma iter_near k : forall n d x, near_rec n d x -> near_rec n (2 ^ Z.of_nat k * d) (Nat.iter k shr_1 x) /\
  shr_m (Nat.iter k shr_1 x) = shr_m x / 2 ^ Z.of_nat k.
Proof.
  induction k as [|k IH]; intros n d x H.
  - cbn [Nat.iter]. change (2 ^ Z.of_nat 0) with 1. rewrite Z.mul_1_l, Z.div_1_r. split; [assumption|reflexivity].
  - change (Nat.iter (S k) shr_1 x) with (shr_1 (Nat.iter k shr_1 x)). destruct (IH n d x H) as [H1 H2]. destruct (shr_1_near _ _ _ H1) as [H3 H4].
    replace (Z.of_nat (S k)) with (Z.succ (Z.of_nat k)) by lia. rewrite Z.pow_succ_r by lia.
    split; [now rewrite <- Z.mul_assoc|]. rewrite H4, H2, Z.div_div by (try apply Z.pow_nonzero; lia).
    now rewrite (Z.mul_comm 2).
Qed.
Lemma shr_near n d x e k : near_rec n d x -> 0 <= k -> exists x',
  SpecFloat.shr x e k = (x', e + k) /\ near_rec n (2 ^ k * d) x' /\ shr_m x' = shr_m x / 2 ^ k.
Proof.
  intros H Hk. unfold SpecFloat.shr. destruct k as [|p|p]; [|..|lia].
  - exists x. change (2 ^ 0) with 1. rewrite Z.add_0_r, Z.mul_1_l, Z.div_1_r. repeat split; assumption || apply H.
  - rewrite iter_pos_add. eexists. split; [reflexivity|].
    pose proof (iter_near (Pos.to_nat p) n d x H) as K. rewrite positive_nat_Z in K. exact K.
Qed.

(** [n / d] lies between [m] and [m + 1] as the location says. *)
Definition located (n d m : Z) (l : location) : Prop := near_rec n d (shr_record_of_loc m l).
Lemma located_exact m : 0 <= m -> located m 1 m loc_Exact.
Proof. intros H. unfold located, near_rec. cbn. split; [assumption|]. split; [lia|]. exists 0. repeat split; lia. Qed.

Lemma shr_m_of_loc m l : shr_m (shr_record_of_loc m l) = m.
Proof. now destruct l as [|[]]. Qed.

(** Rounding the shifted mantissa to nearest: at most half a unit away. *)
Lemma rne_near n d x : near_rec n d x ->
  let N := round_nearest_even (shr_m x) (loc_of_shr_record x) in
  shr_m x <= N <= shr_m x + 1 /\ 2 * Z.abs (N * d - n) <= d.
Proof.
  destruct x as [m r s]. intros (Hm & Hd & e & He & E & S). cbn [shr_m shr_r shr_s] in *.
  destruct r, s; cbn [loc_of_shr_record round_nearest_even Z.b2z] in *; cbv zeta.
  - split; nia.
  - assert (e = 0) by (apply S; reflexivity). subst e. destruct (Z.even m); split; nia.
  - split; nia.
  - split; nia.
Qed.

(** ** [binary_round_aux] on mantissas of at least 53 bits: correct rounding *)
Lemma fexp_normal e : -1074 <= e - 53 -> fexp f64prec f64emax e = e - 53.
Proof. intros H. unfold fexp, emin, f64prec, f64emax. lia. Qed.

Lemma round_aux_spec s n d m e l : located n d m l -> 2 ^ 52 <= m -> -1074 <= e -> Zdigits2 m + e <= 1023 ->
  exists M k, binary_round_aux f64prec f64emax s m e l = S754_finite s M (e + k) /\
    0 <= k /\ 2 ^ 52 <= Zpos M < 2 ^ 53 /\ 2 * Z.abs (Zpos M * (2 ^ k * d) - n) <= 2 ^ (Zdigits2 m - 53) * d /\
    Zdigits2 m - 53 <= k <= Zdigits2 m - 52.
Proof.
  intros Hl Hm He Hmax.
  destruct (digits2_pos_spec m ltac:(lia)) as [Hd0 Hd]. set (D := Zdigits2 m) in *.
  assert (53 <= D) as HD. { apply Z.le_ngt. intros H. pose proof (pow2_le D 52 ltac:(lia)). lia. }
  unfold binary_round_aux, shr_fexp. fold D. rewrite fexp_normal by lia.
  replace (D + e - 53 - e) with (D - 53) by lia.
  destruct (shr_near n d (shr_record_of_loc m l) e (D - 53) Hl ltac:(lia)) as (x & E & Hx & Hsm).
  rewrite E. rewrite shr_m_of_loc in Hsm.
  pose proof (rne_near _ _ _ Hx) as HN. cbv zeta in HN.
  set (N := round_nearest_even (shr_m x) (loc_of_shr_record x)) in *. clearbody N.
  assert (2 ^ 52 <= shr_m x < 2 ^ 53) as Hsx.
  { rewrite Hsm. pose proof (pow2_pos (D - 53) ltac:(lia)) as Hp. split.
    - apply Z.div_le_lower_bound; [lia|]. rewrite <- Z.pow_add_r by lia. replace (D - 53 + 52) with (D - 1) by lia. lia.
    - apply Z.div_lt_upper_bound; [lia|]. rewrite <- Z.pow_add_r by lia. replace (D - 53 + 53) with D by lia. lia. }
  assert (2 ^ 52 <= N <= 2 ^ 53) as Hn by lia. destruct HN as [_ HN].
  assert (N < 2 ^ 53 \/ N = 2 ^ 53) as [Hc|Hc] by lia.
  - rewrite (digits2_eq N 53) by (change (53 - 1) with 52; lia).
    rewrite fexp_normal by lia. replace (53 + (e + (D - 53)) - 53 - (e + (D - 53))) with 0 by lia.
    cbn [SpecFloat.shr shr_record_of_loc shr_m].
    destruct N as [|p|p]; [lia| |lia]. unfold f64prec, f64emax.
    replace (Zle_bool (e + (D - 53)) (1024 - 53)) with true by lia.
    exists p, (D - 53). repeat split; assumption || lia.
  - rewrite (digits2_eq N 54) by (change (54 - 1) with 53; lia).
    rewrite fexp_normal by lia. replace (54 + (e + (D - 53)) - 53 - (e + (D - 53))) with 1 by lia.
    subst N. destruct (shr_near _ _ _ (e + (D - 53)) 1 (located_exact (2 ^ 53) ltac:(lia)) ltac:(lia)) as (x' & E' & Hx' & Hs').
    rewrite E'. rewrite shr_m_of_loc in Hs'. rewrite Hs'.
    change (2 ^ 53 / 2 ^ 1) with (Zpos 4503599627370496). cbv beta iota.
    unfold f64prec, f64emax. replace (Zle_bool (e + (D - 53) + 1) (1024 - 53)) with true by lia.
    exists 4503599627370496%positive, (D - 52). replace (e + (D - 53) + 1) with (e + (D - 52)) by lia.
    split; [reflexivity|]. split; [lia|]. split; [lia|]. split; [|lia].
    replace (D - 52) with (Z.succ (D - 53)) by lia. rewrite Z.pow_succ_r by lia.
    change (2 ^ 53) with (2 * 4503599627370496) in HN.
    set (w := 2 ^ (D - 53) * d) in *. replace (2 * 2 ^ (D - 53) * d) with (2 * w) by (unfold w; ring). lia.
Qed.


(** ** Integer to float *)
(** [M * 2^E] is [x] rounded to 53 bits. *)
Definition rounded53 (x M E : Z) : Prop :=
  2 ^ 52 <= M < 2 ^ 53 /\ (E <= 0 -> M = x * 2 ^ (- E)) /\
  (0 <= E -> 2 * Z.abs (M * 2 ^ E - x) <= 2 ^ E).

Lemma binary_round_pos s p : Zpos p < 2 ^ 900 -> exists M E,
  binary_round f64prec f64emax s p 0 = S754_finite s M E /\ rounded53 (Zpos p) (Zpos M) E /\
  Zdigits2 (Zpos p) - 53 <= E <= Zdigits2 (Zpos p) - 52 /\ (Zpos p < 2 ^ 53 -> E <= 0).
Proof.
  intros Hp. unfold binary_round, shl_align. rewrite Z.add_0_r.
  pose proof (digits2_spec p) as Hd. cbn [Zdigits2]. set (D := Zpos (digits2_pos p)) in *.
  assert (0 < D) as HD by (unfold D; lia). clearbody D.
  assert (D <= 900) as HD9. { apply Z.le_ngt. intros H. pose proof (pow2_le 900 (D - 1) ltac:(lia)). lia. }
  rewrite fexp_normal by lia. rewrite Z.sub_0_r.
  destruct (Z_lt_le_dec D 53) as [Hs|Hs].
  - destruct (D - 53) as [|q|q] eqn:Eq; try lia.
    assert (Zpos (shift_pos q p) = Zpos p * 2 ^ (53 - D)) as Em
      by (rewrite shift_pos_correct; rewrite Z.mul_comm; f_equal; replace (53 - D) with (Zpos q) by lia; reflexivity).
    set (m := Zpos (shift_pos q p)) in *. clearbody m.
    assert (2 ^ 52 <= m < 2 ^ 53) as Hm.
    { rewrite Em. pose proof (pow2_pos (53 - D) ltac:(lia)).
      replace (2 ^ 52) with (2 ^ (D - 1) * 2 ^ (53 - D)) by (rewrite <- Z.pow_add_r by lia; f_equal; lia).
      replace (2 ^ 53) with (2 ^ D * 2 ^ (53 - D)) by (rewrite <- Z.pow_add_r by lia; f_equal; lia).
      split; [apply Z.mul_le_mono_nonneg_r; lia|apply Z.mul_lt_mono_pos_r; lia]. }
    assert (Zdigits2 m = 53) as Ed by (apply digits2_eq; [lia|exact Hm]).
    destruct (round_aux_spec s m 1 m (Zneg q) loc_Exact) as (M & k & E & Hk & HM & Herr & Hkb);
      try (rewrite ?Ed; lia). { apply located_exact. lia. }
    rewrite Ed in *. change (2 ^ (53 - 53) * 1) with 1 in Herr. rewrite Z.mul_1_r in Herr.
    assert (k = 0).
    { assert (k = 0 \/ k = 1) as [K|K] by lia; [assumption|]. subst k. change (2 ^ 1) with 2 in Herr. lia. }
    subst k. change (2 ^ 0) with 1 in Herr. exists M, (Zneg q + 0). split; [exact E|]. rewrite Z.add_0_r.
    split; [|lia]. split; [lia|]. split; [|lia]. intros _.
    replace (- Zneg q) with (53 - D) by lia. lia.
  - assert (exists mz ez, match D - 53 with Zneg d => (shift_pos d p, D - 53) | _ => (p, 0) end = (mz, ez) /\ mz = p /\ ez = 0)
      as (mz & ez & -> & -> & ->) by (exists p, 0; destruct (D - 53) eqn:K; auto; lia).
    assert (Zdigits2 (Zpos p) = D) as Ed by (apply digits2_eq; assumption).
    destruct (round_aux_spec s (Zpos p) 1 (Zpos p) 0 loc_Exact) as (M & k & E & Hk & HM & Herr & Hkb).
    { apply located_exact. lia. } { pose proof (pow2_le 52 (D - 1) ltac:(lia)). lia. } { lia. } { lia. }
    rewrite Ed in *. clear Ed. rewrite !Z.mul_1_r in Herr. exists M, (0 + k). split; [exact E|]. cbn [Z.add].
    assert (Zpos p < 2 ^ 53 -> k = 0) as Hex.
    { intros H. assert (D = 53). { assert (D <= 53); [|lia]. apply Z.le_ngt. intros K. pose proof (pow2_le 53 (D - 1) ltac:(lia)). lia. }
      subst D. change (2 ^ (53 - 53)) with 1 in Herr.
      assert (k = 0 \/ k = 1) as [K|K] by lia; [assumption|]. subst k. change (2 ^ 1) with 2 in Herr. lia. }
    assert (2 ^ (D - 53) <= 2 ^ k) as Hpk by (apply pow2_le; lia).
    split; [|split; [lia|intros H; rewrite (Hex H); lia]].
    split; [lia|]. split; [|intros _; lia].
    intros H0. assert (k = 0) by lia. subst k. change (2 ^ 0) with 1 in *. change (2 ^ (-0)) with 1.
    assert (D = 53) by lia. subst D. change (2 ^ (53 - 53)) with 1 in Herr. lia.
Qed.

Lemma int_to_f64_pos x : 0 < x < 2 ^ 900 -> exists M E,
  int_to_f64 x = S754_finite false M E /\ rounded53 x (Zpos M) E /\
  Zdigits2 x - 53 <= E <= Zdigits2 x - 52 /\ (x < 2 ^ 53 -> E <= 0).
Proof.
  intros H. destruct x as [|p|p]; try lia. apply (binary_round_pos false p). lia.
Qed.
Lemma SFopp_round_aux s m e l : binary_round_aux f64prec f64emax (negb s) m e l =
  SFopp (binary_round_aux f64prec f64emax s m e l).
Proof.
  unfold binary_round_aux. destruct (shr_fexp _ _ _ _ _) as [a c]. destruct (shr_fexp _ _ _ _ _) as [a' c'].
  destruct (shr_m a'); try reflexivity. now destruct (Zle_bool _ _).
Qed.
Lemma int_to_f64_opp x : x <> 0 -> int_to_f64 (- x) = SFopp (int_to_f64 x).
Proof.
  assert (forall s p, binary_round f64prec f64emax (negb s) p 0 = SFopp (binary_round f64prec f64emax s p 0)) as K.
  { intros s p. unfold binary_round. destruct (shl_align _ _ _). apply SFopp_round_aux. }
  intros H. destruct x as [|p|p]; [congruence|..]; unfold int_to_f64, binary_normalize, Z.opp.
  - exact (K false p).
  - exact (K true p).
Qed.
