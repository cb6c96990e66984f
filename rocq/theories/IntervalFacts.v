(** * IntervalFacts: bounds rounded outwards enclose the value. *)
From Coq Require Import QArith Qabs Lqa.
From Verif Require Import Base Promo ConstFn Ops Str Spec SpecText BaseFacts RoundFacts ArithProofs SimpleProofs MulDiv DecProofs ProgramFacts.
From Verif Require Import Interval.
From Verif Require Import Fixed.
Open Scope Z_scope.

Lemma min_le x y : fp_min x y <= x /\ fp_min x y <= y /\ (fp_min x y = x \/ fp_min x y = y).
Proof. unfold fp_min, fp_cmp. destruct (Z.compare_spec x y); lia. Qed.
Lemma max_le x y : x <= fp_max x y /\ y <= fp_max x y /\ (fp_max x y = x \/ fp_max x y = y).
Proof. unfold fp_max, fp_cmp. destruct (Z.compare_spec x y); lia. Qed.
Lemma try_ok {A B E} (o : outcome (result A E)) (f : A -> outcome (result B E)) v :
  try_ o f = Ret (Ok v) -> exists a, o = Ret (Ok a) /\ f a = Ret (Ok v).
Proof. destruct o as [[a|e]| | |]; cbn; intros H; try discriminate. eauto. Qed.

(** ** Corners *)
Lemma below a l h : (l <= a <= h -> forall c, l * c <= a * c \/ h * c <= a * c)%Q.
Proof.
  intros [H1 H2] c. destruct (Qlt_le_dec c 0) as [C|C]; [right|left].
  - setoid_replace (h * c)%Q with (- (h * - c))%Q by ring. setoid_replace (a * c)%Q with (- (a * - c))%Q by ring.
    apply Qopp_le_compat, Qmult_le_compat_r; lra.
  - now apply Qmult_le_compat_r.
Qed.
Lemma above a l h : (l <= a <= h -> forall c, a * c <= l * c \/ a * c <= h * c)%Q.
Proof.
  intros H c. destruct (below a l h H (- c)%Q) as [K|K]; [left|right]; lra.
Qed.
Lemma corner_below a c l h l' h' : (l <= a <= h -> l' <= c <= h' ->
  l * l' <= a * c \/ l * h' <= a * c \/ h * l' <= a * c \/ h * h' <= a * c)%Q.
Proof.
  intros H H'. assert (forall x, (x * l' <= x * c \/ x * h' <= x * c)%Q) as K.
  { intros x. destruct (below c l' h' H' x) as [K|K]; [left|right]; lra. }
  destruct (below a l h H c) as [J|J]; [destruct (K l)|destruct (K h)]; lra.
Qed.
Lemma corner_above a c l h l' h' : (l <= a <= h -> l' <= c <= h' ->
  a * c <= l * l' \/ a * c <= l * h' \/ a * c <= h * l' \/ a * c <= h * h')%Q.
Proof.
  intros H H'. assert (forall x, (x * c <= x * l' \/ x * c <= x * h')%Q) as K.
  { intros x. destruct (above c l' h' H' x) as [K|K]; [left|right]; lra. }
  destruct (above a l h H c) as [J|J]; [destruct (K l)|destruct (K h)]; lra.
Qed.
Lemma inv_between c l h : (l <= c <= h -> 0 < l \/ h < 0 -> / h <= / c <= / l)%Q.
Proof.
  assert (forall x y, 0 < x -> x <= y -> / y <= / x)%Q as K.
  { intros x y Hx Hy. assert (0 < y)%Q by lra. rewrite <- (Qmult_1_l (/ y)). apply Qle_shift_div_r; [assumption|].
    setoid_replace (/ x * y)%Q with (y / x)%Q by (field; lra). apply Qle_shift_div_l; lra. }
  intros [H1 H2] [C|C]; [split; apply K; lra|].
  assert (forall x, x < 0 -> / x == - / (- x))%Q as E by (intros x Hx; field; lra).
  rewrite (E h), (E c), (E l) by lra. pose proof (K (- h) (- c) ltac:(lra) ltac:(lra))%Q. pose proof (K (- c) (- l) ltac:(lra) ltac:(lra))%Q. lra.
Qed.

(** ** Directed rounding *)
Lemma floor_below P d r : 0 <= P -> rounds_to Floor P d r -> (dec P r <= d)%Q.
Proof.
  intros HP [H _]. pose proof (q10_opp P HP) as E. setoid_replace d with (d * q10 P * q10 (- P))%Q by (rewrite <- Qmult_assoc, E; ring).
  unfold dec. apply Qmult_le_compat_r; [exact H|apply q10_nonneg].
Qed.
Lemma ceil_above P d r : 0 <= P -> rounds_to Ceil P d r -> (d <= dec P r)%Q.
Proof.
  intros HP [_ H]. pose proof (q10_opp P HP) as E. setoid_replace d with (d * q10 P * q10 (- P))%Q by (rewrite <- Qmult_assoc, E; ring).
  unfold dec. apply Qmult_le_compat_r; [exact H|apply q10_nonneg].
Qed.
Lemma dec_mono P x y : 0 <= P -> x <= y -> (dec P x <= dec P y)%Q.
Proof. intros HP H. unfold dec. apply Qmult_le_compat_r; [now apply Zq_le|apply q10_nonneg]. Qed.
Lemma rounded_ok L P m d o r : rounded_or_overflow L P m d o -> o = Ret (Ok r) -> in_range L r /\ rounds_to m P d r.
Proof. intros (z & Hz & [[HL ->]|[_ ->]]) E; [injection E as <-; auto|discriminate]. Qed.

Lemma least_ok L P (f : Q -> Q -> Q) op l h l' h' r : 0 <= P ->
  (forall x y, (x = l \/ x = h) -> (y = l' \/ y = h') -> rounded_or_overflow L P Floor (f (dec P x) (dec P y)) (op x y)) ->
  least op l h l' h' = Ret (Ok r) ->
  in_range L r /\ forall x y, (x = l \/ x = h) -> (y = l' \/ y = h') -> (dec P r <= f (dec P x) (dec P y))%Q.
Proof.
  intros HP H E. unfold least in E.
  apply try_ok in E as (a & Ea & E). apply try_ok in E as (b & Eb & E). apply try_ok in E as (c & Ec & E). apply try_ok in E as (d & Ed & E). injection E as <-.
  apply (rounded_ok _ _ _ _ _ _ (H l l' ltac:(auto) ltac:(auto))) in Ea as [La Ra]. apply (rounded_ok _ _ _ _ _ _ (H l h' ltac:(auto) ltac:(auto))) in Eb as [Lb Rb].
  apply (rounded_ok _ _ _ _ _ _ (H h l' ltac:(auto) ltac:(auto))) in Ec as [Lc Rc]. apply (rounded_ok _ _ _ _ _ _ (H h h' ltac:(auto) ltac:(auto))) in Ed as [Ld Rd].
  apply floor_below in Ra, Rb, Rc, Rd; try assumption.
  pose proof (min_le a b) as (M1 & M2 & M3). pose proof (min_le c d) as (M4 & M5 & M6). pose proof (min_le (fp_min a b) (fp_min c d)) as (M7 & M8 & M9).
  split. { destruct M9 as [-> | ->]; [destruct M3 as [-> | ->]|destruct M6 as [-> | ->]]; assumption. }
  intros x y [-> | ->] [-> | ->]; (eapply Qle_trans; [apply dec_mono; [assumption|]|eassumption]); lia.
Qed.
Lemma greatest_ok L P (f : Q -> Q -> Q) op l h l' h' r : 0 <= P ->
  (forall x y, (x = l \/ x = h) -> (y = l' \/ y = h') -> rounded_or_overflow L P Ceil (f (dec P x) (dec P y)) (op x y)) ->
  greatest op l h l' h' = Ret (Ok r) ->
  in_range L r /\ forall x y, (x = l \/ x = h) -> (y = l' \/ y = h') -> (f (dec P x) (dec P y) <= dec P r)%Q.
Proof.
  intros HP H E. unfold greatest in E.
  apply try_ok in E as (a & Ea & E). apply try_ok in E as (b & Eb & E). apply try_ok in E as (c & Ec & E). apply try_ok in E as (d & Ed & E). injection E as <-.
  apply (rounded_ok _ _ _ _ _ _ (H l l' ltac:(auto) ltac:(auto))) in Ea as [La Ra]. apply (rounded_ok _ _ _ _ _ _ (H l h' ltac:(auto) ltac:(auto))) in Eb as [Lb Rb].
  apply (rounded_ok _ _ _ _ _ _ (H h l' ltac:(auto) ltac:(auto))) in Ec as [Lc Rc]. apply (rounded_ok _ _ _ _ _ _ (H h h' ltac:(auto) ltac:(auto))) in Ed as [Ld Rd].
  apply ceil_above in Ra, Rb, Rc, Rd; try assumption.
  pose proof (max_le a b) as (M1 & M2 & M3). pose proof (max_le c d) as (M4 & M5 & M6). pose proof (max_le (fp_max a b) (fp_max c d)) as (M7 & M8 & M9).
  split. { destruct M9 as [-> | ->]; [destruct M3 as [-> | ->]|destruct M6 as [-> | ->]]; assumption. }
  intros x y [-> | ->] [-> | ->]; (eapply Qle_trans; [eassumption|apply dec_mono; [assumption|]]); lia.
Qed.

(** ** Enclosure *)
Lemma exact_ok L P d (o : result Z aerr) r : exact_or L P d Overflow (Ret o) -> Ret o = Ret (Ok r) -> in_range L r /\ (dec P r == d)%Q.
Proof. intros [(z & [Hz1 Hz2] & E)|[_ E]] H; rewrite H in E; [injection E as <-; auto|discriminate]. Qed.
Lemma rounded_total L P m d o : rounded_or_overflow L P m d o -> exists r, o = Ret r.
Proof. intros (z & _ & [[_ ->]|[_ ->]]); eauto. Qed.
Lemma try_total {A B E} (o : outcome (result A E)) (f : A -> outcome (result B E)) :
  (exists r, o = Ret r) -> (forall a, o = Ret (Ok a) -> exists r, f a = Ret r) -> exists r, try_ o f = Ret r.
Proof. intros [[a|e] ->] H; cbn; [now apply H|eauto]. Qed.
Lemma least_total L P (f : Q -> Q -> Q) m op l h l' h' :
  (forall x y, (x = l \/ x = h) -> (y = l' \/ y = h') -> rounded_or_overflow L P m (f (dec P x) (dec P y)) (op x y)) ->
  (exists r, least op l h l' h' = Ret r) /\ exists r, greatest op l h l' h' = Ret r.
Proof.
  intros H. assert (forall x y, (x = l \/ x = h) -> (y = l' \/ y = h') -> exists r, op x y = Ret r) as K by (intros x y Hx Hy; eapply rounded_total; now apply H).
  split; (apply try_total; [apply K; auto|intros a _]; apply try_total; [apply K; auto|intros c _]; apply try_total; [apply K; auto|intros d _];
    apply try_total; [apply K; auto|intros d' _]; eauto).
Qed.
Lemma dec_lt P x y : 0 <= P -> (dec P x <= dec P y)%Q -> x <= y.
Proof.
  intros HP H. pose proof (q10_opp P HP) as E. pose proof (q10_nonneg P) as G. apply (Qmult_le_compat_r _ _ (q10 P)) in H; [|exact G]. unfold dec in H.
  rewrite <- !Qmult_assoc, (Qmult_comm (q10 (- P))), E, !Qmult_1_r in H. unfold Zq in H. now rewrite <- Zle_Qle in H.
Qed.
Lemma dec_zero P : (dec P 0 == 0)%Q.
Proof. unfold dec. change (Zq 0) with 0%Q. ring. Qed.
Lemma dec_pos P x : 0 <= P -> 0 < x -> (0 < dec P x)%Q.
Proof.
  intros HP H. apply Qnot_le_lt. intros C. rewrite <- (dec_zero P) in C. apply dec_lt in C; lia.
Qed.
Lemma dec_neg P x : 0 <= P -> x < 0 -> (dec P x < 0)%Q.
Proof.
  intros HP H. apply Qnot_le_lt. intros C. rewrite <- (dec_zero P) in C. apply dec_lt in C; lia.
Qed.

Definition good (b : build) (L : layout) (P : Z) (e : expr) : Prop :=
  (exists r, enclose b L P e = Ret r) /\
  forall l h, enclose b L P e = Ret (Ok (l, h)) -> in_range L l /\ in_range L h /\ (exists q, may_be P e q) /\
    forall q, may_be P e q -> (dec P l <= q <= dec P h)%Q.

Lemma good_all b L P e : valid b L P -> leaves L e -> good b L P e.
Proof.
  intros HV. pose proof (valid_prec_38 _ _ (proj2 HV)) as HP. assert (0 <= P) as HP0 by lia. clear HP.
  induction e as [l h|e IH|e IH e' IH'|e IH e' IH'|e IH e' IH'|e IH e' IH']; cbn [leaves]; intros HL.
  - split; [cbn; eauto|]. cbn. intros l1 h1 E. injection E as <- <-. destruct HL as (H1 & H2 & H3). split; [assumption|]. split; [assumption|].
    pose proof (dec_mono P l h HP0 H3). split; [exists (dec P l); constructor; lra|]. intros q Hq. now inversion Hq; subst.
  - destruct (IH HL) as [T K]. split.
    + cbn [enclose]. apply try_total; [exact T|]. intros [l h] E. apply try_total; [eauto|]. intros a _. apply try_total; eauto.
    + cbn [enclose]. intros l1 h1 E. apply try_ok in E as ([l h] & E1 & E). apply try_ok in E as (a & E2 & E). apply try_ok in E as (c & E3 & E). injection E as <- <-.
      destruct (K l h E1) as (H1 & H2 & [q Hq] & H3). apply (exact_ok L P _ _ _ (cneg_spec L P h)) in E2 as [La Da]. apply (exact_ok L P _ _ _ (cneg_spec L P l)) in E3 as [Lc Dc].
      split; [assumption|]. split; [assumption|]. split; [exists (- q)%Q; econstructor; [exact Hq|reflexivity]|].
      intros q' Hq'. inversion Hq'; subst. match goal with H : may_be P e ?v |- _ => specialize (H3 v H) end. lra.
  - destruct HL as [HL HL']. destruct (IH HL) as [T K], (IH' HL') as [T' K']. split.
    + cbn [enclose]. apply try_total; [exact T|]. intros [l h] E. apply try_total; [exact T'|]. intros [l' h'] E'. apply try_total; [eauto|]. intros a _. apply try_total; eauto.
    + cbn [enclose]. intros l1 h1 E. apply try_ok in E as ([l h] & E1 & E). apply try_ok in E as ([l' h'] & E1' & E). apply try_ok in E as (a & E2 & E). apply try_ok in E as (c & E3 & E). injection E as <- <-.
      destruct (K l h E1) as (H1 & H2 & [q Hq] & H3). destruct (K' l' h' E1') as (H1' & H2' & [q' Hq'] & H3').
      apply (exact_ok L P _ _ _ (cadd_spec L P l l')) in E2 as [La Da]. apply (exact_ok L P _ _ _ (cadd_spec L P h h')) in E3 as [Lc Dc].
      split; [assumption|]. split; [assumption|]. split; [exists (q + q')%Q; econstructor; [exact Hq|exact Hq'|reflexivity]|].
      intros r Hr. inversion Hr; subst. match goal with H : may_be P e ?v |- _ => specialize (H3 v H) end. match goal with H : may_be P e' ?v |- _ => specialize (H3' v H) end. lra.
  - destruct HL as [HL HL']. destruct (IH HL) as [T K], (IH' HL') as [T' K']. split.
    + cbn [enclose]. apply try_total; [exact T|]. intros [l h] E. apply try_total; [exact T'|]. intros [l' h'] E'. apply try_total; [eauto|]. intros a _. apply try_total; eauto.
    + cbn [enclose]. intros l1 h1 E. apply try_ok in E as ([l h] & E1 & E). apply try_ok in E as ([l' h'] & E1' & E). apply try_ok in E as (a & E2 & E). apply try_ok in E as (c & E3 & E). injection E as <- <-.
      destruct (K l h E1) as (H1 & H2 & [q Hq] & H3). destruct (K' l' h' E1') as (H1' & H2' & [q' Hq'] & H3').
      apply (exact_ok L P _ _ _ (csub_spec L P l h')) in E2 as [La Da]. apply (exact_ok L P _ _ _ (csub_spec L P h l')) in E3 as [Lc Dc].
      split; [assumption|]. split; [assumption|]. split; [exists (q - q')%Q; econstructor; [exact Hq|exact Hq'|reflexivity]|].
      intros r Hr. inversion Hr; subst. match goal with H : may_be P e ?v |- _ => specialize (H3 v H) end. match goal with H : may_be P e' ?v |- _ => specialize (H3' v H) end. lra.
  - destruct HL as [HL HL']. destruct (IH HL) as [T K], (IH' HL') as [T' K'].
    assert (forall l h l' h' m, m <> Nearest -> in_range L l -> in_range L h -> in_range L l' -> in_range L h' ->
      forall x y, (x = l \/ x = h) -> (y = l' \/ y = h') -> rounded_or_overflow L P m (dec P x * dec P y) (rmul b L P x y m)) as KR.
    { intros l h l' h' m Hm H1 H2 H3 H4 x y Hx Hy. apply rmul_directed; try assumption; [destruct Hx as [-> | ->]|destruct Hy as [-> | ->]]; assumption. }
    split.
    + cbn [enclose]. apply try_total; [exact T|]. intros [l h] E. apply try_total; [exact T'|]. intros [l' h'] E'.
      destruct (K l h E) as (H1 & H2 & _). destruct (K' l' h' E') as (H1' & H2' & _).
      apply try_total; [eapply (least_total L P Qmult); apply (KR l h l' h' Floor); (discriminate || assumption)|]. intros a _.
      apply try_total; [eapply (least_total L P Qmult); apply (KR l h l' h' Ceil); (discriminate || assumption)|]. eauto.
    + cbn [enclose]. intros l1 h1 E. apply try_ok in E as ([l h] & E1 & E). apply try_ok in E as ([l' h'] & E1' & E). apply try_ok in E as (a & E2 & E). apply try_ok in E as (c & E3 & E). injection E as <- <-.
      destruct (K l h E1) as (H1 & H2 & [q Hq] & H3). destruct (K' l' h' E1') as (H1' & H2' & [q' Hq'] & H3').
      apply (least_ok L P Qmult _ _ _ _ _ _ HP0 (KR l h l' h' Floor ltac:(discriminate) H1 H2 H1' H2')) in E2 as [La Da].
      apply (greatest_ok L P Qmult _ _ _ _ _ _ HP0 (KR l h l' h' Ceil ltac:(discriminate) H1 H2 H1' H2')) in E3 as [Lc Dc].
      split; [assumption|]. split; [assumption|]. split; [exists (q * q')%Q; econstructor; [exact Hq|exact Hq'|reflexivity]|].
      intros r Hr. inversion Hr as [| | | |? ? u v ? Hu Hv Er|]; subst. specialize (H3 u Hu). specialize (H3' v Hv). rewrite Er. split.
      * destruct (corner_below _ _ _ _ _ _ H3 H3') as [J|[J|[J|J]]]; (eapply Qle_trans; [apply Da|exact J]); auto.
      * destruct (corner_above _ _ _ _ _ _ H3 H3') as [J|[J|[J|J]]]; (eapply Qle_trans; [exact J|apply Dc]); auto.
  - destruct HL as [HL HL']. destruct (IH HL) as [T K], (IH' HL') as [T' K'].
    assert (forall l h l' h' m, m <> Nearest -> in_range L l -> in_range L h -> in_range L l' -> in_range L h' -> l' <> 0 -> h' <> 0 ->
      forall x y, (x = l \/ x = h) -> (y = l' \/ y = h') -> rounded_or_overflow L P m (dec P x / dec P y) (rdiv b L P x y m)) as KR.
    { intros l h l' h' m Hm H1 H2 H3 H4 N1 N2 x y Hx Hy. apply rdiv_directed; try assumption; [destruct Hx as [-> | ->]|destruct Hy as [-> | ->]..]; assumption. }
    assert (forall l h l' h', enclose b L P e = Ret (Ok (l, h)) -> enclose b L P e' = Ret (Ok (l', h')) ->
      fp_le l' ZERO && fp_le ZERO h' = false -> l' <> 0 /\ h' <> 0 /\ (0 < l' \/ h' < 0)) as KZ.
    { intros l h l' h' _ E' C. destruct (K' l' h' E') as (_ & _ & [q' Hq'] & H3'). specialize (H3' q' Hq').
      assert (l' <= h') by (apply (dec_lt P); [assumption|lra]). unfold fp_le, ZERO in C. lia. }
    split.
    + cbn [enclose]. apply try_total; [exact T|]. intros [l h] E. apply try_total; [exact T'|]. intros [l' h'] E'.
      destruct (K l h E) as (H1 & H2 & _). destruct (K' l' h' E') as (H1' & H2' & _).
      destruct (fp_le l' ZERO && fp_le ZERO h') eqn:C; [eauto|]. destruct (KZ l h l' h' E E' C) as (N1 & N2 & _).
      apply try_total; [eapply (least_total L P Qdiv); apply (KR l h l' h' Floor); (discriminate || assumption)|]. intros a _.
      apply try_total; [eapply (least_total L P Qdiv); apply (KR l h l' h' Ceil); (discriminate || assumption)|]. eauto.
    + cbn [enclose]. intros l1 h1 E. apply try_ok in E as ([l h] & E1 & E). apply try_ok in E as ([l' h'] & E1' & E).
      destruct (fp_le l' ZERO && fp_le ZERO h') eqn:C; [discriminate E|]. destruct (KZ l h l' h' E1 E1' C) as (N1 & N2 & NS).
      apply try_ok in E as (a & E2 & E). apply try_ok in E as (c & E3 & E). injection E as <- <-.
      destruct (K l h E1) as (H1 & H2 & [q Hq] & H3). destruct (K' l' h' E1') as (H1' & H2' & [q' Hq'] & H3').
      apply (least_ok L P Qdiv _ _ _ _ _ _ HP0 (KR l h l' h' Floor ltac:(discriminate) H1 H2 H1' H2' N1 N2)) in E2 as [La Da].
      apply (greatest_ok L P Qdiv _ _ _ _ _ _ HP0 (KR l h l' h' Ceil ltac:(discriminate) H1 H2 H1' H2' N1 N2)) in E3 as [Lc Dc].
      assert (0 < dec P l' \/ dec P h' < 0)%Q as NS' by (destruct NS as [N|N]; [left; now apply dec_pos|right; now apply dec_neg]).
      split; [assumption|]. split; [assumption|]. split; [exists (q / q')%Q; econstructor; [exact Hq|exact Hq'| |reflexivity]; specialize (H3' q' Hq'); lra|].
      intros r Hr. inversion Hr as [| | | | |? ? u v ? Hu Hv Nv Er]; subst. specialize (H3 u Hu). specialize (H3' v Hv). rewrite Er.
      pose proof (inv_between _ _ _ H3' NS') as HI. unfold Qdiv. split.
      * destruct (corner_below _ _ _ _ _ _ H3 HI) as [J|[J|[J|J]]]; (eapply Qle_trans; [apply Da|exact J]); auto.
      * destruct (corner_above _ _ _ _ _ _ H3 HI) as [J|[J|[J|J]]]; (eapply Qle_trans; [exact J|apply Dc]); auto.
Qed.
Lemma enclose_sound b L P e l h q : valid b L P -> leaves L e -> enclose b L P e = Ret (Ok (l, h)) -> may_be P e q ->
  in_range L l /\ in_range L h /\ (dec P l <= q <= dec P h)%Q.
Proof. intros HV HL HE Hq. destruct (good_all b L P e HV HL) as [_ K]. destruct (K l h HE) as (H1 & H2 & _ & H3). auto. Qed.
Lemma enclose_total b L P e : valid b L P -> leaves L e -> exists r, enclose b L P e = Ret r.
Proof. intros HV HL. exact (proj1 (good_all b L P e HV HL)). Qed.
Lemma enclose_defined b L P e l h : valid b L P -> leaves L e -> enclose b L P e = Ret (Ok (l, h)) -> exists q, may_be P e q.
Proof. intros HV HL HE. destruct (good_all b L P e HV HL) as [_ K]. destruct (K l h HE) as (_ & _ & H & _). exact H. Qed.
