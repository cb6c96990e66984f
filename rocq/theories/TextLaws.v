(** * TextLaws: laws of parsing and printing that follow from C26, C29 and C60. *)
From Coq Require Import QArith Qabs.
From Verif Require Import Base Promo Ops Fixed Str Float Spec SpecText SpecF64 BaseFacts SimpleProofs RoundFacts MulDiv OrderFacts StrFacts ShowFacts.
From Verif Require Import F64Back.
From Verif Require Import Fixed.
Open Scope Z_scope.

Lemma rounds_mono m q q' z z' : (q <= q')%Q -> rounds m q z -> rounds m q' z' -> z <= z'.
Proof.
  intros Hq H H'. destruct (Z_le_gt_dec z z') as [|C]; [assumption|exfalso]. destruct m.
  - destruct H as [A _], H' as [_ B]. assert (Zq z' <= Zq (z - 1))%Q by (unfold Zq; rewrite <- Zle_Qle; lia).
    apply (Qlt_irrefl q). eapply Qle_lt_trans; [exact Hq|]. eapply Qle_lt_trans; [exact B|]. eapply Qle_lt_trans; [eassumption|exact A].
  - destruct (Qfrac q) as (n & d & Hd & E), (Qfrac q') as (n' & d' & Hd' & E').
    assert (Zq n / Zq d == Zq (n * d') / Zq (d * d'))%Q as F.
    { unfold Zq. rewrite !inject_Z_mult. field. split; change 0%Q with (inject_Z 0); rewrite inject_Z_injective; lia. }
    assert (Zq n' / Zq d' == Zq (n' * d) / Zq (d * d'))%Q as F'.
    { unfold Zq. rewrite !inject_Z_mult. field. split; change 0%Q with (inject_Z 0); rewrite inject_Z_injective; lia. }
    assert (0 < d * d') as G by (apply Z.mul_pos_pos; assumption).
    rewrite E, F in Hq, H. rewrite E', F' in Hq, H'. apply rounds_zrounds in H, H'; try assumption.
    apply Z.gt_lt, Z.lt_nge in C. apply C, (zrounds_mono Nearest (n * d') (n' * d) (d * d')); try assumption. clear C.
    apply (Qmult_le_r _ _ (Zq (d * d'))) in Hq; [|unfold Zq; change 0%Q with (inject_Z 0); rewrite <- Zlt_Qlt; assumption].
    assert (forall a, (Zq a / Zq (d * d') * Zq (d * d') == Zq a)%Q) as D.
    { intros a. field. unfold Zq. change 0%Q with (inject_Z 0). rewrite inject_Z_injective. lia. }
    rewrite !D in Hq.
    unfold Zq in Hq. rewrite <- Zle_Qle in Hq. exact Hq.
  - destruct H as [A _], H' as [_ B]. assert (Zq (z' + 1) <= Zq z)%Q by (unfold Zq; rewrite <- Zle_Qle; lia).
    apply (Qlt_irrefl q'). eapply Qlt_le_trans; [exact B|]. eapply Qle_trans; [eassumption|]. eapply Qle_trans; [exact A|exact Hq].
Qed.
Lemma rounds_exists q : exists z, rounds Nearest q z.
Proof.
  destruct (Qfrac q) as (n & d & Hd & E). exists (rnd Nearest n d). apply (rounds_compat _ _ _ _ (Qeq_sym _ _ E)).
  apply rounds_zrounds; [assumption|]. apply rnd_zrounds. lia.
Qed.

(** ** C90 *)
Lemma spelled_parse b L P s neg i f x : valid b L P -> spells s neg i f -> (P = 0 -> f = None) ->
  (from_str b L P s = Ret (Ok x) <-> in_range L x /\ rounds_to Nearest P (spelled neg i f) x).
Proof.
  intros HV HS H0. rewrite from_str_ok by assumption. split.
  - intros (n' & i' & f' & S & _ & R). destruct (spells_unique s n' i' f' neg i f S HS) as (-> & -> & ->). exact R.
  - intros [R1 R2]. exists neg, i, f. auto.
Qed.
Lemma same_number : forall b b' L P s neg i f s' neg' i' f', valid b L P -> valid b' L P ->
  spells s neg i f -> spells s' neg' i' f' -> (P = 0 -> f = None) -> (P = 0 -> f' = None) ->
  (spelled neg i f == spelled neg' i' f')%Q -> from_str b L P s = from_str b' L P s'.
Proof.
  intros b b' L P s neg i f s' neg' i' f' V V' S S' H0 H0' E.
  assert (K : forall x, from_str b L P s = Ret (Ok x) <-> from_str b' L P s' = Ret (Ok x)).
  { intros x. rewrite (spelled_parse b L P s neg i f x V S H0), (spelled_parse b' L P s' neg' i' f' x V' S' H0').
    unfold rounds_to. split; intros [R1 R2]; (split; [exact R1|]); revert R2; apply rounds_compat; rewrite E; reflexivity. }
  destruct (parse_total b L P false s V) as [(x & Ex)|Ex].
  - unfold from_str in *. rewrite Ex. symmetry. apply K. exact Ex.
  - destruct (parse_total b' L P false s' V') as [(x & Ex')|Ex']; unfold from_str in *; [|congruence].
    apply K in Ex'. congruence.
Qed.
Lemma same_exact : forall b b' L P s neg i f s' neg' i' f', valid b L P -> valid b' L P ->
  spells s neg i f -> spells s' neg' i' f' -> places f <= P -> places f' <= P ->
  (spelled neg i f == spelled neg' i' f')%Q -> from_str_exact b L P s = from_str_exact b' L P s'.
Proof.
  intros b b' L P s neg i f s' neg' i' f' V V' S S' H0 H0' E.
  assert (one : forall b s neg i f s' neg' i' f' x, valid b L P -> spells s neg i f -> places f <= P -> spells s' neg' i' f' ->
     (spelled neg i f == spelled neg' i' f')%Q -> forall b', valid b' L P -> from_str_exact b' L P s' = Ret (Ok x) -> from_str_exact b L P s = Ret (Ok x)).
  { clear. intros b s neg i f s' neg' i' f' x V S H0 S' E b' V' H. apply (from_str_exact_ok b' L P s' x V') in H.
    destruct H as (n2 & i2 & f2 & S2 & _ & [R1 R2]). destruct (spells_unique s' n2 i2 f2 neg' i' f' S2 S') as (-> & -> & ->).
    apply (from_str_exact_ok b L P s x V). exists neg, i, f. split; [exact S|]. split; [exact H0|]. split; [exact R1|]. rewrite R2. symmetry. exact E. }
  destruct (parse_total b L P true s V) as [(x & Ex)|Ex].
  - unfold from_str_exact in *. rewrite Ex. symmetry. apply (one b' s' neg' i' f' s neg i f x) with (b' := b); try assumption. symmetry. assumption.
  - destruct (parse_total b' L P true s' V') as [(x & Ex')|Ex']; unfold from_str_exact in *; [|congruence].
    apply (one b s neg i f s' neg' i' f' x) with (b' := b') in Ex'; try assumption. unfold from_str_exact in Ex'. congruence.
Qed.
Lemma parse_mono : forall b b' L P s neg i f s' neg' i' f' x x', valid b L P -> valid b' L P ->
  spells s neg i f -> spells s' neg' i' f' -> (spelled neg i f <= spelled neg' i' f')%Q ->
  from_str b L P s = Ret (Ok x) -> from_str b' L P s' = Ret (Ok x') -> x <= x'.
Proof.
  intros b b' L P s neg i f s' neg' i' f' x x' V V' S S' E H H'.
  apply from_str_ok in H; [|assumption]. apply from_str_ok in H'; [|assumption].
  destruct H as (n2 & i2 & f2 & S2 & _ & _ & R). destruct (spells_unique s n2 i2 f2 neg i f S2 S) as (-> & -> & ->).
  destruct H' as (n3 & i3 & f3 & S3 & _ & _ & R'). destruct (spells_unique s' n3 i3 f3 neg' i' f' S3 S') as (-> & -> & ->).
  apply (rounds_mono Nearest _ _ _ _) with (2 := R) (3 := R'). apply Qmult_le_compat_r; [exact E|]. apply Qlt_le_weak, q10_gt0.
Qed.
Lemma parse_between : forall b b' L P s1 n1 i1 f1 x1 s2 n2 i2 f2 x2 s neg i f, valid b L P -> valid b' L P ->
  spells s1 n1 i1 f1 -> spells s2 n2 i2 f2 -> spells s neg i f -> (P = 0 -> f = None) ->
  (spelled n1 i1 f1 <= spelled neg i f)%Q -> (spelled neg i f <= spelled n2 i2 f2)%Q ->
  from_str b L P s1 = Ret (Ok x1) -> from_str b L P s2 = Ret (Ok x2) -> exists x, from_str b' L P s = Ret (Ok x) /\ x1 <= x <= x2.
Proof.
  intros b b' L P s1 n1 i1 f1 x1 s2 n2 i2 f2 x2 s neg i f V V' S1 S2 S H0 E1 E2 H1 H2.
  destruct (rounds_exists (spelled neg i f * q10 P)) as [x R]. exists x.
  apply from_str_ok in H1; [|assumption]. apply from_str_ok in H2; [|assumption].
  destruct H1 as (n' & i' & f' & S' & _ & I1 & R1). destruct (spells_unique s1 n' i' f' n1 i1 f1 S' S1) as (-> & -> & ->).
  destruct H2 as (n' & i' & f' & S'' & _ & I2 & R2). destruct (spells_unique s2 n' i' f' n2 i2 f2 S'' S2) as (-> & -> & ->).
  assert (x1 <= x) by (apply (rounds_mono Nearest _ _ _ _) with (2 := R1) (3 := R); apply Qmult_le_compat_r; [exact E1|]; apply Qlt_le_weak, q10_gt0).
  assert (x <= x2) by (apply (rounds_mono Nearest _ _ _ _) with (2 := R) (3 := R2); apply Qmult_le_compat_r; [exact E2|]; apply Qlt_le_weak, q10_gt0).
  split; [|lia]. apply (spelled_parse b' L P s neg i f x V' S H0). split; [|exact R]. unfold in_range in *. lia.
Qed.
Lemma exact_order : forall b b' L P s neg i f s' neg' i' f' x x', valid b L P -> valid b' L P ->
  spells s neg i f -> spells s' neg' i' f' -> from_str_exact b L P s = Ret (Ok x) -> from_str_exact b' L P s' = Ret (Ok x') ->
  (x < x' <-> (spelled neg i f < spelled neg' i' f')%Q) /\ (x = x' <-> (spelled neg i f == spelled neg' i' f')%Q).
Proof.
  intros b b' L P s neg i f s' neg' i' f' x x' V V' S S' H H'.
  apply from_str_exact_ok in H; [|assumption]. apply from_str_exact_ok in H'; [|assumption].
  destruct H as (n2 & i2 & f2 & S2 & _ & _ & R). destruct (spells_unique s n2 i2 f2 neg i f S2 S) as (-> & -> & ->).
  destruct H' as (n3 & i3 & f3 & S3 & _ & _ & R'). destruct (spells_unique s' n3 i3 f3 neg' i' f' S3 S') as (-> & -> & ->).
  rewrite <- R, <- R'. split.
  - pose proof (dec_le P x' x) as K. split; intros C.
    + apply Qnot_le_lt. rewrite K. lia.
    + apply Z.nle_gt. rewrite <- K. apply Qlt_not_le. exact C.
  - split; [intros ->; reflexivity|]. intros C. assert (x <= x') by (apply (dec_le P); rewrite C; apply Qle_refl).
    assert (x' <= x) by (apply (dec_le P); rewrite C; apply Qle_refl). lia.
Qed.
Lemma canonical_spells s d : canonical s d -> exists neg i f, spells s neg i (Some f) /\ (spelled neg i (Some f) == d)%Q.
Proof.
  intros (i & f & Di & Df & Es & _ & _ & E). destruct (Qlt_le_dec d 0) as [C|C].
  - exists true, i, f. split; [|exact E]. exists [], [45], []. rewrite app_nil_r.
    split; [constructor|]. split; [constructor|]. split; [exact Di|]. split; [reflexivity|]. split; [exact Df|exact Es].
  - exists false, i, f. split; [|exact E]. exists [], [], []. rewrite app_nil_r.
    split; [constructor|]. split; [constructor|]. split; [exact Di|]. split; [left; reflexivity|]. split; [exact Df|exact Es].
Qed.
Lemma print_injective : forall b b' L P x y s, valid b L P -> valid b' L P -> in_range L x -> in_range L y ->
  printable b L P x -> printable b' L P y -> to_string b L P x = Ret s -> to_string b' L P y = Ret s -> x = y.
Proof.
  intros b b' L P x y s V V' Hx Hy Px Py Ex Ey.
  destruct (to_string_ok b L P x V Hx Px) as (s1 & E1 & C1 & _). rewrite Ex in E1. injection E1 as <-.
  destruct (to_string_ok b' L P y V' Hy Py) as (s2 & E2 & C2 & _). rewrite Ey in E2. injection E2 as <-.
  destruct (canonical_spells _ _ C1) as (n & i & f & S & Q1). destruct (canonical_spells _ _ C2) as (n' & i' & f' & S' & Q2).
  destruct (spells_unique _ _ _ _ _ _ _ S S') as (-> & -> & Ef). injection Ef as ->. rewrite Q1 in Q2.
  assert (x <= y) by (apply (dec_le P); rewrite Q2; apply Qle_refl). assert (y <= x) by (apply (dec_le P); rewrite Q2; apply Qle_refl). lia.
Qed.
(** ** C88, text and floats *)
Lemma text_float : forall b b' L P s neg i f x raw, valid b L P -> valid b' L P -> spells s neg i f ->
  from_str_exact b L P s = Ret (Ok x) -> x <> lo L -> Z.abs x <= 10 ^ 15 -> f64_nearest (spelled neg i f) raw ->
  try_from_f64 b' L P raw = Ret (Ok x).
Proof.
  intros b b' L P s neg i f x raw V V' S H Hl H15 [F N]. apply from_str_exact_ok in H; [|assumption].
  destruct H as (n2 & i2 & f2 & S2 & _ & R1 & R). destruct (spells_unique s n2 i2 f2 neg i f S2 S) as (-> & -> & ->).
  apply nearest_back; try assumption. split; [exact F|]. intros raw' F'. rewrite R. apply N. exact F'.
Qed.
