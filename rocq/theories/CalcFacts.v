(** * CalcFacts: the calculator gives the rounded result, and only that. *)
From Coq Require Import Lia QArith Lqa.
From Verif Require Import Base Promo Ops Str Spec SpecText BaseFacts RoundFacts ArithProofs PrimPromo SimpleProofs MulDiv OrderFacts DecProofs LawFacts StrFacts ShowFacts CallFacts.
From Verif Require Import Calc.
From Verif Require Import Fixed.
Open Scope Z_scope.

Lemma rounds_exact m P r : 0 <= P -> rounds_to m P (dec P r) r.
Proof.
  intros HP. unfold rounds_to. apply (rounds_compat m (Zq r / Zq 1)).
  - rewrite dec_scaled by exact HP. change (Zq 1) with 1%Q. field.
  - apply rounds_zrounds; [lia|]. destruct m; cbn [zrounds]; lia.
Qed.
Lemma dec_zero P y : (dec P y == 0)%Q -> y = 0.
Proof.
  intros H. unfold dec in H. apply Qmult_integral in H as [H|H].
  - unfold Zq, inject_Z, Qeq in H. cbn in H. lia.
  - pose proof (q10_gt0 (- P)) as K. rewrite H in K. discriminate K.
Qed.
Lemma answer_compat L P m o u u' v v' w : (u == u')%Q -> (v == v')%Q -> answer L P m o u v w -> answer L P m o u' v' w.
Proof.
  intros E F [H (r & A & B & C)]. split.
  - intros K. rewrite <- F. exact (H K).
  - exists r. split; [|split; assumption]. unfold rounds_to in *. eapply rounds_compat; [|exact A]. destruct o; cbn [exactly]; rewrite E, F; reflexivity.
Qed.

Lemma exact_total b L P s : valid b L P ->
  (exists x, from_str_exact b L P s = Ret (Ok x)) \/ from_str_exact b L P s = Ret (Err ConvertError).
Proof. exact (parse_total b L P true s). Qed.

Section calc.
Context (b : build) (L : layout) (P : Z) (Hv : valid b L P) (m : mode) (HL : ~ (L = L128 /\ P = 38)).

Lemma compute_val o x y : (o = Over -> m <> Nearest) -> in_range L x -> in_range L y ->
  (exists r, compute b L P m o x y = Ret (Ok r) /\ in_range L r /\ rounds_to m P (exactly o (dec P x) (dec P y)) r /\ (o = Over -> y <> 0)) \/
  (exists e, compute b L P m o x y = Ret (Err e) /\ forall r, in_range L r -> rounds_to m P (exactly o (dec P x) (dec P y)) r -> o = Over /\ y = 0).
Proof using Hv HL.
  intros Hm Rx Ry. assert (0 <= P) as HP by apply Hv. destruct o; cbn [compute exactly].
  - rewrite cadd_eq. destruct (chkr_spec L (x + y)) as [[R E]|[R E]]; rewrite E.
    + left. exists (x + y). split; [reflexivity|]. split; [exact R|]. split; [|discriminate].
      unfold rounds_to. eapply rounds_compat; [|apply (rounds_exact m P (x + y) HP)]. now rewrite dec_add.
    + right. exists Overflow. split; [reflexivity|]. intros r Rr H. exfalso. apply R. replace (x + y) with r; [exact Rr|].
      eapply rounds_unique; [exact H|]. eapply rounds_compat; [|apply (rounds_exact m P (x + y) HP)]. now rewrite dec_add.
  - rewrite csub_eq. assert (dec P (x - y) == dec P x - dec P y)%Q as D by apply dec_sub.
    destruct (chkr_spec L (x - y)) as [[R E]|[R E]]; rewrite E.
    + left. exists (x - y). split; [reflexivity|]. split; [exact R|]. split; [|discriminate].
      unfold rounds_to. eapply rounds_compat; [|apply (rounds_exact m P (x - y) HP)]. now rewrite D.
    + right. exists Overflow. split; [reflexivity|]. intros r Rr H. exfalso. apply R. replace (x - y) with r; [exact Rr|].
      eapply rounds_unique; [exact H|]. eapply rounds_compat; [|apply (rounds_exact m P (x - y) HP)]. now rewrite D.
  - assert (rounded_or_overflow L P m (dec P x * dec P y) (rmul b L P x y m)) as M by (destruct m; [apply rmul_directed; try assumption; discriminate|apply rmul_nearest; assumption|apply rmul_directed; try assumption; discriminate]).
    destruct M as (r & H & [[R E]|[R E]]); rewrite E.
    + left. exists r. split; [reflexivity|]. split; [exact R|]. split; [exact H|discriminate].
    + right. exists Overflow. split; [reflexivity|]. intros r' Rr H'. exfalso. apply R. now replace r with r' by (eapply rounds_unique; eassumption).
  - destruct (Z.eq_dec y 0) as [Ey|Ey].
    + right. exists DivisionByZero. subst y. split; [apply rdiv_zero|]. auto.
    + destruct (rdiv_directed b L P x y m Hv Rx Ry Ey (Hm eq_refl)) as (r & H & [[R E]|[R E]]); rewrite E.
      * left. exists r. split; [reflexivity|]. split; [exact R|]. split; [exact H|auto].
      * right. exists Overflow. split; [reflexivity|]. intros r' Rr H'. exfalso. apply R. now replace r with r' by (eapply rounds_unique; eassumption).
Qed.

Context (HP : 0 < P).
Lemma all_printable x : printable b L P x.
Proof using HP HL. split; [lia|]. intros E F. exfalso. auto. Qed.

Lemma reads_parse s d : reads L P s d <-> exists x, from_str_exact b L P s = Ret (Ok x) /\ in_range L x /\ (dec P x == d)%Q.
Proof using Hv.
  split.
  - intros (neg & i & f & x & A & B & C & D). exists x. split; [apply from_str_exact_ok; [exact Hv|]; exists neg, i, f; auto|].
    destruct C as [R C]. split; [exact R|]. now rewrite C.
  - intros (x & E & R & D). apply from_str_exact_ok in E; [|exact Hv]. destruct E as (neg & i & f & A & B & C).
    exists neg, i, f, x. split; [exact A|]. split; [exact B|]. split; [exact C|]. destruct C as [_ C]. now rewrite <- C.
Qed.
Lemma calc_cases o s t : (o = Over -> m <> Nearest) ->
  (exists w, calc b L P m o s t = Ret (Ok w)) \/ (exists e, calc b L P m o s t = Ret (Err e)).
Proof using Hv HP HL.
  intros Hm. unfold calc. destruct (exact_total b L P s Hv) as [(x & E)|E]; rewrite E; cbn [bind]; [|right; eauto].
  destruct (exact_total b L P t Hv) as [(y & F)|F]; rewrite F; cbn [bind]; [|right; eauto].
  assert (in_range L x) as Rx by (apply from_str_exact_ok in E as (? & ? & ? & _ & _ & [K _]); [exact K|exact Hv]).
  assert (in_range L y) as Ry by (apply from_str_exact_ok in F as (? & ? & ? & _ & _ & [K _]); [exact K|exact Hv]).
  destruct (compute_val o x y Hm Rx Ry) as [(r & G & R & _)|(e & G & _)]; rewrite G; cbn [bind]; [|right; eauto].
  destruct (to_string_ok b L P r Hv R (all_printable r)) as (w & W & _). rewrite W. cbn [bind]. left. eauto.
Qed.
Lemma calc_spec o s t w : (o = Over -> m <> Nearest) -> calc b L P m o s t = Ret (Ok w) <-> exists u v, reads L P s u /\ reads L P t v /\ answer L P m o u v w.
Proof using Hv HP HL.
  intros Hm. split.
  - unfold calc. intros C.
    destruct (exact_total b L P s Hv) as [(x & E)|E]; rewrite E in C; cbn [bind] in C; [|discriminate C].
    destruct (exact_total b L P t Hv) as [(y & F)|F]; rewrite F in C; cbn [bind] in C; [|discriminate C].
    assert (in_range L x) as Rx by (apply from_str_exact_ok in E as (? & ? & ? & _ & _ & [K _]); [exact K|exact Hv]).
    assert (in_range L y) as Ry by (apply from_str_exact_ok in F as (? & ? & ? & _ & _ & [K _]); [exact K|exact Hv]).
    destruct (compute_val o x y Hm Rx Ry) as [(r & G & R & H & N)|(e & G & _)]; rewrite G in C; cbn [bind] in C; [|discriminate C].
    destruct (to_string_ok b L P r Hv R (all_printable r)) as (w' & W & Cw & _). rewrite W in C. cbn [bind] in C. injection C as <-.
    exists (dec P x), (dec P y). split; [apply reads_parse; exists x; split; [exact E|split; [exact Rx|reflexivity]]|].
    split; [apply reads_parse; exists y; split; [exact F|split; [exact Ry|reflexivity]]|].
    split; [intros Ho K; apply dec_zero in K; now apply (N Ho)|]. exists r. auto.
  - intros (u & v & A & B & C). apply reads_parse in A as (x & E & Rx & Dx). apply reads_parse in B as (y & F & Ry & Dy).
    assert (answer L P m o (dec P x) (dec P y) w) as [N (r & H & R & Cw)] by (eapply answer_compat; [symmetry; exact Dx|symmetry; exact Dy|exact C]).
    unfold calc. rewrite E. cbn [bind]. rewrite F. cbn [bind].
    destruct (compute_val o x y Hm Rx Ry) as [(r' & G & R' & H' & N')|(e & G & K)].
    + assert (r' = r) as -> by (eapply rounds_unique; eassumption). rewrite G. cbn [bind].
      destruct (to_string_ok b L P r Hv R (all_printable r)) as (w' & W & Cw' & _). rewrite W. cbn [bind]. do 2 f_equal.
      eapply canonical_unique; [exact Cw'|exact Cw|reflexivity].
    + exfalso. destruct (K r R H) as [Ho ->]. apply (N Ho). unfold dec, Zq. apply Qmult_0_l.
Qed.
End calc.
Lemma calc_total b L P m o s t : valid b L P -> 0 < P -> ~ (L = L128 /\ P = 38) -> (o = Over -> m <> Nearest) ->
  (exists w, calc b L P m o s t = Ret (Ok w)) \/ (exists e, calc b L P m o s t = Ret (Err e)).
Proof. intros Hv HP HL Hm. now apply calc_cases. Qed.
Lemma calc_exact b L P m o s t w : valid b L P -> 0 < P -> ~ (L = L128 /\ P = 38) -> (o = Over -> m <> Nearest) ->
  (calc b L P m o s t = Ret (Ok w) <-> exists u v, reads L P s u /\ reads L P t v /\ answer L P m o u v w).
Proof. intros Hv HP HL Hm. now apply calc_spec. Qed.

(** Which error is reported. *)
Section errors.
Context (b : build) (L : layout) (P : Z) (Hv : valid b L P) (m : mode) (HL : ~ (L = L128 /\ P = 38)).
Lemma compute_err o x y e : (o = Over -> m <> Nearest) -> in_range L x -> in_range L y -> compute b L P m o x y = Ret (Err e) ->
  (o = Over /\ y = 0 /\ e = DivisionByZero) \/ ((o = Over -> y <> 0) /\ e = Overflow).
Proof using Hv HL.
  intros Hm Rx Ry. destruct o; cbn [compute]; intros C.
  - right. rewrite cadd_eq in C. destruct (chkr_spec L (x + y)) as [[_ E]|[_ E]]; rewrite E in C; [discriminate C|]. injection C as <-. split; [discriminate|reflexivity].
  - right. rewrite csub_eq in C. destruct (chkr_spec L (x - y)) as [[_ E]|[_ E]]; rewrite E in C; [discriminate C|]. injection C as <-. split; [discriminate|reflexivity].
  - right. assert (rounded_or_overflow L P m (dec P x * dec P y) (rmul b L P x y m)) as M by (destruct m; [apply rmul_directed; try assumption; discriminate|apply rmul_nearest; assumption|apply rmul_directed; try assumption; discriminate]).
    destruct M as (r & _ & [[_ E]|[_ E]]); rewrite E in C; [discriminate C|]. injection C as <-. split; [discriminate|reflexivity].
  - destruct (Z.eq_dec y 0) as [->|Ey].
    + left. rewrite rdiv_zero in C. injection C as <-. auto.
    + right. destruct (rdiv_directed b L P x y m Hv Rx Ry Ey (Hm eq_refl)) as (r & _ & [[_ E]|[_ E]]); rewrite E in C; [discriminate C|]. injection C as <-. auto.
Qed.
Context (HP : 0 < P).
Lemma exact_range s x : from_str_exact b L P s = Ret (Ok x) -> in_range L x.
Proof using Hv. intros E. apply from_str_exact_ok in E as (? & ? & ? & _ & _ & [K _]); [exact K|exact Hv]. Qed.
Lemma calc_unread_ o s t : (o = Over -> m <> Nearest) ->
  calc b L P m o s t = Ret (Err (Unread ConvertError)) <-> ~ (exists u v, reads L P s u /\ reads L P t v).
Proof using Hv HP HL.
  intros Hm. split.
  - intros C (u & v & A & B). apply (reads_parse b L P Hv) in A as (x & E & Rx & _). apply (reads_parse b L P Hv) in B as (y & F & Ry & _).
    unfold calc in C. rewrite E in C. cbn [bind] in C. rewrite F in C. cbn [bind] in C.
    destruct (compute_val b L P Hv m HL o x y Hm Rx Ry) as [(r & G & R & _)|(e & G & _)]; rewrite G in C; cbn [bind] in C; [|discriminate C].
    destruct (to_string_ok b L P r Hv R (all_printable b L P HL HP r)) as (w & W & _). rewrite W in C. discriminate C.
  - intros N. unfold calc. destruct (exact_total b L P s Hv) as [(x & E)|E]; rewrite E; cbn [bind]; [|reflexivity].
    destruct (exact_total b L P t Hv) as [(y & F)|F]; rewrite F; cbn [bind]; [|reflexivity].
    exfalso. apply N. exists (dec P x), (dec P y).
    split; apply (reads_parse b L P Hv); eexists; split; try eassumption; (split; [eapply exact_range; eassumption|reflexivity]).
Qed.
Lemma calc_failed_ o s t u v : (o = Over -> m <> Nearest) -> reads L P s u -> reads L P t v ->
  (calc b L P m o s t = Ret (Err (Failed DivisionByZero)) <-> o = Over /\ (v == 0)%Q) /\
  (calc b L P m o s t = Ret (Err (Failed Overflow)) <-> (o = Over -> ~ (v == 0)%Q) /\ forall r, rounds_to m P (exactly o u v) r -> ~ in_range L r).
Proof using Hv HP HL.
  intros Hm A B. apply (reads_parse b L P Hv) in A as (x & E & Rx & Dx). apply (reads_parse b L P Hv) in B as (y & F & Ry & Dy).
  assert (forall r, rounds_to m P (exactly o u v) r <-> rounds_to m P (exactly o (dec P x) (dec P y)) r) as RC.
  { intros r. unfold rounds_to. split; apply rounds_compat; destruct o; cbn [exactly]; rewrite Dx, Dy; reflexivity. }
  assert ((v == 0)%Q <-> y = 0) as Z0.
  { split; [intros K; apply (dec_zero P); now rewrite Dy|intros ->; rewrite <- Dy; unfold dec, Zq; apply Qmult_0_l]. }
  unfold calc. rewrite E. cbn [bind]. rewrite F. cbn [bind].
  destruct (compute_val b L P Hv m HL o x y Hm Rx Ry) as [(r & G & R & H & N)|(e & G & K)]; rewrite G; cbn [bind].
  - destruct (to_string_ok b L P r Hv R (all_printable b L P HL HP r)) as (w & W & _). rewrite W. cbn [bind].
    split; split; try discriminate.
    + intros [Ho Hz]. exfalso. apply (N Ho). now apply Z0.
    + intros [_ Q]. exfalso. apply (Q r); [now apply RC|exact R].
  - destruct (compute_err o x y e Hm Rx Ry G) as [(Ho & Hy & ->)|(Hn & ->)]; split; split; try discriminate; try reflexivity.
    + intros _. split; [exact Ho|now apply Z0].
    + intros [Q _]. exfalso. apply (Q Ho). now apply Z0.
    + intros [Ho Hz]. exfalso. apply (Hn Ho). now apply Z0.
    + intros _. split; [intros Ho Hz; apply (Hn Ho); now apply Z0|]. intros r H R. destruct (K r R (proj1 (RC r) H)) as [Ho Hy]. now apply (Hn Ho).
Qed.
End errors.
Lemma calc_unread b L P m o s t : valid b L P -> 0 < P -> ~ (L = L128 /\ P = 38) -> (o = Over -> m <> Nearest) ->
  (calc b L P m o s t = Ret (Err (Unread ConvertError)) <-> ~ (exists u v, reads L P s u /\ reads L P t v)).
Proof. intros Hv HP HL Hm. now apply calc_unread_. Qed.
Lemma calc_failed b L P m o s t u v : valid b L P -> 0 < P -> ~ (L = L128 /\ P = 38) -> (o = Over -> m <> Nearest) ->
  reads L P s u -> reads L P t v ->
  (calc b L P m o s t = Ret (Err (Failed DivisionByZero)) <-> o = Over /\ (v == 0)%Q) /\
  (calc b L P m o s t = Ret (Err (Failed Overflow)) <-> (o = Over -> ~ (v == 0)%Q) /\ forall r, rounds_to m P (exactly o u v) r -> ~ in_range L r).
Proof. intros Hv HP HL Hm. now apply calc_failed_. Qed.
