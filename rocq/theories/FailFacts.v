(** * FailFacts: programs fail only at a step that must fail; bounds of intervals are attained. *)
From Coq Require Import Lia QArith Qabs Lqa.
From Verif Require Import Base Promo Ops Spec BaseFacts RoundFacts ArithProofs SimpleProofs MulDiv OrderFacts DecProofs LawFacts Programs ProgramFacts Client.
From Verif Require Import SpecRound SpecUndo Undo CallFacts Sqrt256 Series SeriesFacts Account Pool PoolFacts Interval IntervalFacts.
From Verif Require Import Str Float Codec SpecCalls Calls Clients ConstFn Macros.
From Verif Require Import Fixed.
Open Scope Z_scope.

Lemma product_cases b L P x y m : valid b L P -> in_range L x -> in_range L y -> tame m L P ->
  exists p, rounds_to m P (dec P x * dec P y) p /\
    ((in_range L p /\ rmul b L P x y m = Ret (Ok p)) \/ (~ in_range L p /\ rmul b L P x y m = Ret (Err Overflow))).
Proof. intros V R R' T. destruct (rmul_any b L P V x y R R' m T) as (p & Hp & K). exists p. auto. Qed.
Lemma cadd_cases L x y : (in_range L (x + y) /\ cadd L x y = Ok (x + y)) \/ (~ in_range L (x + y) /\ cadd L x y = Err Overflow).
Proof. rewrite cadd_eq. destruct (in_range_dec L (x + y)) as [R|R]; [left; now rewrite chkr_ok|right; now rewrite chkr_err]. Qed.
Lemma csub_cases L x y : (in_range L (x - y) /\ csub L x y = Ok (x - y)) \/ (~ in_range L (x - y) /\ csub L x y = Err Overflow).
Proof. rewrite csub_eq. destruct (in_range_dec L (x - y)) as [R|R]; [left; now rewrite chkr_ok|right; now rewrite chkr_err]. Qed.

Lemma dot_fails b L P m l e : valid b L P -> tame m L P -> Forall (pair_in L) l -> forall acc, in_range L acc -> dot b L P m acc l = Ret (Err e) ->
  e = Overflow /\ exists pre x y post s p, l = pre ++ (x, y) :: post /\ dot b L P m acc pre = Ret (Ok s) /\
    rounds_to m P (dec P x * dec P y) p /\ ~ (in_range L p /\ in_range L (s + p)).
Proof.
  intros V T. induction 1 as [|[x y] l [Rx Ry] _ IH]; intros acc Ra E; cbn [dot] in E; [discriminate E|]. cbn [fst snd] in *.
  destruct (product_cases b L P x y m V Rx Ry T) as (p & Hp & [[Rp F]|[Rp F]]); rewrite F in E; cbn [try_ bind] in E.
  2:{ injection E as <-. split; [reflexivity|]. exists [], x, y, l, acc, p. split; [reflexivity|]. split; [reflexivity|]. split; [exact Hp|tauto]. }
  destruct (cadd_cases L acc p) as [[Rs G]|[Rs G]]; rewrite G in E; cbn [try_ bind] in E.
  2:{ injection E as <-. split; [reflexivity|]. exists [], x, y, l, acc, p. split; [reflexivity|]. split; [reflexivity|]. split; [exact Hp|tauto]. }
  destruct (IH _ Rs E) as (-> & pre & x' & y' & post & s & q & -> & H & K). split; [reflexivity|].
  exists ((x, y) :: pre), x', y', post, s, q. split; [reflexivity|]. split; [|exact K]. cbn [dot]. rewrite F. cbn [try_ bind]. rewrite G. exact H.
Qed.
Lemma horner_fails b L P m x l e : valid b L P -> tame m L P -> in_range L x -> Forall (in_range L) l -> forall a, in_range L a ->
  horner b L P m x a l = Ret (Err e) ->
  e = Overflow /\ exists pre c post s p, l = pre ++ c :: post /\ horner b L P m x a pre = Ret (Ok s) /\
    rounds_to m P (dec P s * dec P x) p /\ ~ (in_range L p /\ in_range L (p + c)).
Proof.
  intros V T Rx. induction 1 as [|c l Rc _ IH]; intros a Ra E; cbn [horner] in E; [discriminate E|].
  destruct (product_cases b L P a x m V Ra Rx T) as (p & Hp & [[Rp F]|[Rp F]]); rewrite F in E; cbn [try_ bind] in E.
  2:{ injection E as <-. split; [reflexivity|]. exists [], c, l, a, p. split; [reflexivity|]. split; [reflexivity|]. split; [exact Hp|tauto]. }
  destruct (cadd_cases L p c) as [[Rs G]|[Rs G]]; rewrite G in E; cbn [try_ bind] in E.
  2:{ injection E as <-. split; [reflexivity|]. exists [], c, l, a, p. split; [reflexivity|]. split; [reflexivity|]. split; [exact Hp|tauto]. }
  destruct (IH _ Rs E) as (-> & pre & c' & post & s & q & -> & H & K). split; [reflexivity|].
  exists (c :: pre), c', post, s, q. split; [reflexivity|]. split; [|exact K]. cbn [horner]. rewrite F. cbn [try_ bind]. rewrite G. exact H.
Qed.
Lemma account_fails b L P m r l e : valid b L P -> tame m L P -> in_range L r -> Forall (in_range L) l -> forall x, in_range L x ->
  account b L P m r x l = Ret (Err e) ->
  e = Overflow /\ exists pre f post z i, l = pre ++ f :: post /\ account b L P m r x pre = Ret (Ok z) /\
    rounds_to m P (dec P z * dec P r) i /\ ~ (in_range L i /\ in_range L (z + i) /\ in_range L (z + i + f)).
Proof.
  intros V T Rr. induction 1 as [|f l Rf _ IH]; intros x Rx E; cbn [account] in E; [discriminate E|].
  destruct (product_cases b L P x r m V Rx Rr T) as (i & Hi & [[Ri F]|[Ri F]]); rewrite F in E; cbn [try_ bind] in E.
  2:{ injection E as <-. split; [reflexivity|]. exists [], f, l, x, i. split; [reflexivity|]. split; [reflexivity|]. split; [exact Hi|tauto]. }
  destruct (cadd_cases L x i) as [[Rs G]|[Rs G]]; rewrite G in E; cbn [try_ bind] in E.
  2:{ injection E as <-. split; [reflexivity|]. exists [], f, l, x, i. split; [reflexivity|]. split; [reflexivity|]. split; [exact Hi|tauto]. }
  destruct (cadd_cases L (x + i) f) as [[Rt G']|[Rt G']]; rewrite G' in E; cbn [try_ bind] in E.
  2:{ injection E as <-. split; [reflexivity|]. exists [], f, l, x, i. split; [reflexivity|]. split; [reflexivity|]. split; [exact Hi|tauto]. }
  destruct (IH _ Rt E) as (-> & pre & f' & post & s & q & -> & H & K). split; [reflexivity|].
  exists (f :: pre), f', post, s, q. split; [reflexivity|]. split; [|exact K]. cbn [account]. rewrite F. cbn [try_ bind]. rewrite G. cbn [try_ bind]. rewrite G'. exact H.
Qed.
Lemma run_mul_fails b L P l e : valid b L P -> Forall (fun f => in_range L (fst f) /\ tame (snd f) L P) l -> forall x, in_range L x ->
  run_mul b L P x l = Ret (Err e) ->
  e = Overflow /\ exists pre y m post z p, l = pre ++ (y, m) :: post /\ run_mul b L P x pre = Ret (Ok z) /\
    rounds_to m P (dec P z * dec P y) p /\ ~ in_range L p.
Proof.
  intros V. induction 1 as [|[y m] l [Ry T] _ IH]; intros x Rx E; cbn [run_mul] in E; [discriminate E|]. cbn [fst snd] in *.
  destruct (product_cases b L P x y m V Rx Ry T) as (p & Hp & [[Rp F]|[Rp F]]); rewrite F in E; cbn [try_ bind] in E.
  2:{ injection E as <-. split; [reflexivity|]. exists [], y, m, l, x, p. auto. }
  destruct (IH _ Rp E) as (-> & pre & y' & m' & post & s & q & -> & H & K). split; [reflexivity|].
  exists ((y, m) :: pre), y', m', post, s, q. split; [reflexivity|]. split; [|exact K]. cbn [app run_mul]. rewrite F. exact H.
Qed.

(** ** The pool *)
Lemma trade_app b L P l l' : forall p q, trade b L P p l = Ret (Ok q) -> trade b L P p (l ++ l') = trade b L P q l'.
Proof.
  induction l as [|t l IH]; intros p q E; cbn [trade app] in *; [now injection E as <-|].
  apply try_ok in E as (p' & F & E). rewrite F. cbn [try_ bind]. now apply IH.
Qed.
(** Every trade gives what is due, or the reserves cannot hold the payment. *)
Lemma trade_step b L P l x y x1 y1 d : valid b L P -> Forall (fun t => 0 <= snd t) l -> in_range L x -> in_range L y -> 0 < x -> 0 < y -> 0 <= d ->
  trade b L P (x, y) l = Ret (Ok (x1, y1)) ->
  ((in_range L (x1 + d) -> exists o, trade b L P (x, y) (l ++ [(false, d)]) = Ret (Ok (x1 + d, y1 - o)) /\ 0 <= o < y1 /\
      (0 <= dec P y1 * dec P d / dec P (x1 + d) - dec P o < (dec P y1 + 1) * q10 (- P))%Q) /\
   (~ in_range L (x1 + d) -> trade b L P (x, y) (l ++ [(false, d)]) = Ret (Err Overflow))) /\
  ((in_range L (y1 + d) -> exists o, trade b L P (x, y) (l ++ [(true, d)]) = Ret (Ok (x1 - o, y1 + d)) /\ 0 <= o < x1 /\
      (0 <= dec P x1 * dec P d / dec P (y1 + d) - dec P o < (dec P x1 + 1) * q10 (- P))%Q) /\
   (~ in_range L (y1 + d) -> trade b L P (x, y) (l ++ [(true, d)]) = Ret (Err Overflow))).
Proof.
  intros V Fl Rx Ry Hx Hy Hd E.
  destruct (trade_product b L P V l x y Fl Rx Ry Hx Hy) as [(x' & y' & E' & R1 & R2 & H1 & H2 & _)|E']; rewrite E in E'; [|discriminate E'].
  injection E' as <- <-. rewrite !(trade_app b L P l _ _ _ E). cbn [trade]. unfold swap. cbn [fst snd].
  split; split; intros R.
  - destruct (buy_fair b L P V x1 y1 d R1 R2 H1 H2 Hd R) as (o & F & K). exists o. rewrite F. split; [reflexivity|exact K].
  - rewrite (buy_over b L P x1 y1 d R1 Hd R). reflexivity.
  - destruct (buy_fair b L P V y1 x1 d R2 R1 H2 H1 Hd R) as (o & F & K). exists o. rewrite F. split; [reflexivity|exact K].
  - rewrite (buy_over b L P y1 x1 d R2 Hd R). reflexivity.
Qed.

(** ** Intervals *)
Section corners.
Context (L : layout) (P : Z) (m : mode) (f : Q -> Q -> Q) (op : Z -> Z -> outcome (result Z aerr)) (l h l' h' : Z)
  (H : forall x y, (x = l \/ x = h) -> (y = l' \/ y = h') -> rounded_or_overflow L P m (f (dec P x) (dec P y)) (op x y)).
Definition attained (r : Z) : Prop := exists x y, (x = l \/ x = h) /\ (y = l' \/ y = h') /\ rounds_to m P (f (dec P x) (dec P y)) r.
Lemma corners_cases (pick : Z -> Z -> Z) : (forall a c, pick a c = a \/ pick a c = c) ->
  let o := try_ (op l l') (fun a => try_ (op l h') (fun b => try_ (op h l') (fun c => try_ (op h h') (fun d =>
    Ret (Ok (pick (pick a b) (pick c d))))))) in
  (exists r, o = Ret (Ok r) /\ attained r) \/ (o = Ret (Err Overflow) /\ exists r, attained r /\ ~ in_range L r).
Proof using H.
  intros Hp o. subst o.
  destruct (H l l' (or_introl eq_refl) (or_introl eq_refl)) as (a & Ha & [[Ra Ea]|[Ra Ea]]); rewrite Ea; cbn [try_ bind];
    [|right; split; [reflexivity|]; exists a; split; [exists l, l'; auto|exact Ra]].
  destruct (H l h' (or_introl eq_refl) (or_intror eq_refl)) as (c & Hc & [[Rc Ec]|[Rc Ec]]); rewrite Ec; cbn [try_ bind];
    [|right; split; [reflexivity|]; exists c; split; [exists l, h'; auto|exact Rc]].
  destruct (H h l' (or_intror eq_refl) (or_introl eq_refl)) as (d & Hd & [[Rd Ed]|[Rd Ed]]); rewrite Ed; cbn [try_ bind];
    [|right; split; [reflexivity|]; exists d; split; [exists h, l'; auto|exact Rd]].
  destruct (H h h' (or_intror eq_refl) (or_intror eq_refl)) as (k & Hk & [[Rk Ek]|[Rk Ek]]); rewrite Ek; cbn [try_ bind];
    [|right; split; [reflexivity|]; exists k; split; [exists h, h'; auto|exact Rk]].
  left. eexists. split; [reflexivity|].
  destruct (Hp (pick a c) (pick d k)) as [-> | ->]; [destruct (Hp a c) as [-> | ->]|destruct (Hp d k) as [-> | ->]];
    [exists l, l'|exists l, h'|exists h, l'|exists h, h']; auto.
Qed.
End corners.
Section interval.
Context (b : build) (L : layout) (P : Z) (Hv : valid b L P).
Lemma enclose_mul e e' l h l' h' : leaves L e -> leaves L e' -> enclose b L P e = Ret (Ok (l, h)) -> enclose b L P e' = Ret (Ok (l', h')) ->
  let at_corner m r := exists x y, (x = l \/ x = h) /\ (y = l' \/ y = h') /\ rounds_to m P (dec P x * dec P y) r in
  (exists l1 h1, enclose b L P (Mul e e') = Ret (Ok (l1, h1)) /\ at_corner Floor l1 /\ at_corner Ceil h1) \/
  (enclose b L P (Mul e e') = Ret (Err Overflow) /\ exists m r, m <> Nearest /\ at_corner m r /\ ~ in_range L r).
Proof using Hv.
  intros HL HL' E E' at_corner. destruct (proj2 (good_all b L P e Hv HL) l h E) as (R1 & R2 & _). destruct (proj2 (good_all b L P e' Hv HL') l' h' E') as (R3 & R4 & _).
  assert (forall m, m <> Nearest -> forall x y, (x = l \/ x = h) -> (y = l' \/ y = h') -> rounded_or_overflow L P m (dec P x * dec P y) (rmul b L P x y m)) as K.
  { intros m Hm x y Hx Hy. apply rmul_directed; try assumption; [destruct Hx as [-> | ->]|destruct Hy as [-> | ->]]; assumption. }
  cbn [enclose]. rewrite E. cbn [try_ bind]. rewrite E'. cbn [try_ bind].
  destruct (corners_cases L P Floor Qmult (fun x y => rmul b L P x y Floor) l h l' h' (K Floor ltac:(discriminate)) fp_min (fun a c => proj2 (proj2 (min_le a c)))) as [(r & F & A)|(F & r & A & N)];
    fold (least (fun x y => rmul b L P x y Floor) l h l' h') in F; rewrite F; cbn [try_ bind]; [|right; split; [reflexivity|]; exists Floor, r; split; [discriminate|auto]].
  destruct (corners_cases L P Ceil Qmult (fun x y => rmul b L P x y Ceil) l h l' h' (K Ceil ltac:(discriminate)) fp_max (fun a c => proj2 (proj2 (max_le a c)))) as [(s & G & B)|(G & s & B & N)];
    fold (greatest (fun x y => rmul b L P x y Ceil) l h l' h') in G; rewrite G; cbn [try_ bind]; [|right; split; [reflexivity|]; exists Ceil, s; split; [discriminate|auto]].
  left. exists r, s. auto.
Qed.
Lemma enclose_div e e' l h l' h' : leaves L e -> leaves L e' -> enclose b L P e = Ret (Ok (l, h)) -> enclose b L P e' = Ret (Ok (l', h')) ->
  let at_corner m r := exists x y, (x = l \/ x = h) /\ (y = l' \/ y = h') /\ rounds_to m P (dec P x / dec P y) r in
  (l' <= 0 <= h' -> enclose b L P (Div e e') = Ret (Err DivisionByZero)) /\
  (~ (l' <= 0 <= h') ->
    (exists l1 h1, enclose b L P (Div e e') = Ret (Ok (l1, h1)) /\ at_corner Floor l1 /\ at_corner Ceil h1) \/
    (enclose b L P (Div e e') = Ret (Err Overflow) /\ exists m r, m <> Nearest /\ at_corner m r /\ ~ in_range L r)).
Proof using Hv.
  intros HL HL' E E' at_corner. destruct (proj2 (good_all b L P e Hv HL) l h E) as (R1 & R2 & _). destruct (proj2 (good_all b L P e' Hv HL') l' h' E') as (R3 & R4 & [q Hq] & Hb).
  assert (l' <= h') as Hlh. { assert (0 <= P) as HP by apply Hv. specialize (Hb q Hq). apply (dec_lt P); [exact HP|lra]. }
  cbn [enclose]. rewrite E. cbn [try_ bind]. rewrite E'. cbn [try_ bind]. unfold fp_le, ZERO. split; intros Z0.
  { replace ((l' <=? 0) && (0 <=? h')) with true by lia. reflexivity. }
  replace ((l' <=? 0) && (0 <=? h')) with false by lia.
  assert (forall m, m <> Nearest -> forall x y, (x = l \/ x = h) -> (y = l' \/ y = h') -> rounded_or_overflow L P m (dec P x / dec P y) (rdiv b L P x y m)) as K.
  { intros m Hm x y Hx Hy. apply rdiv_directed; try assumption; [destruct Hx as [-> | ->]|destruct Hy as [-> | ->]|]; try assumption. lia. }
  destruct (corners_cases L P Floor Qdiv (fun x y => rdiv b L P x y Floor) l h l' h' (K Floor ltac:(discriminate)) fp_min (fun a c => proj2 (proj2 (min_le a c)))) as [(r & F & A)|(F & r & A & N)];
    fold (least (fun x y => rdiv b L P x y Floor) l h l' h') in F; rewrite F; cbn [try_ bind]; [|right; split; [reflexivity|]; exists Floor, r; split; [discriminate|auto]].
  destruct (corners_cases L P Ceil Qdiv (fun x y => rdiv b L P x y Ceil) l h l' h' (K Ceil ltac:(discriminate)) fp_max (fun a c => proj2 (proj2 (max_le a c)))) as [(s & G & B)|(G & s & B & N)];
    fold (greatest (fun x y => rdiv b L P x y Ceil) l h l' h') in G; rewrite G; cbn [try_ bind]; [|right; split; [reflexivity|]; exists Ceil, s; split; [discriminate|auto]].
  left. exists r, s. auto.
Qed.
End interval.
Lemma enclose_linear b L P e e' l h l' h' : enclose b L P e = Ret (Ok (l, h)) -> enclose b L P e' = Ret (Ok (l', h')) ->
  let both o x y := (in_range L x /\ in_range L y /\ o = Ret (Ok (x, y))) \/ (~ (in_range L x /\ in_range L y) /\ o = Ret (Err Overflow)) in
  both (enclose b L P (Neg e)) (- h) (- l) /\ both (enclose b L P (Add e e')) (l + l') (h + h') /\ both (enclose b L P (Sub e e')) (l - h') (h - l').
Proof.
  intros E E' both. subst both. cbn [enclose]. rewrite E. cbn [try_ bind]. rewrite E'. cbn [try_ bind]. split; [|split].
  - rewrite !cneg_eq. destruct (in_range_dec L (- h)) as [A|A]; [rewrite (chkr_ok _ _ A)|rewrite (chkr_err _ _ A)]; cbn [try_ bind]; [|right; tauto].
    destruct (in_range_dec L (- l)) as [B|B]; [rewrite (chkr_ok _ _ B)|rewrite (chkr_err _ _ B)]; cbn [try_ bind]; [left|right]; tauto.
  - destruct (cadd_cases L l l') as [[A ->]|[A ->]]; cbn [try_ bind]; [|right; tauto]. destruct (cadd_cases L h h') as [[B ->]|[B ->]]; cbn [try_ bind]; [left|right]; tauto.
  - destruct (csub_cases L l h') as [[A ->]|[A ->]]; cbn [try_ bind]; [|right; tauto]. destruct (csub_cases L h l') as [[B ->]|[B ->]]; cbn [try_ bind]; [left|right]; tauto.
Qed.
Lemma enclose_inner b L P e e' k : (enclose b L P e = Ret (Err k) \/ ((exists l h, enclose b L P e = Ret (Ok (l, h))) /\ enclose b L P e' = Ret (Err k))) ->
  enclose b L P (Add e e') = Ret (Err k) /\ enclose b L P (Sub e e') = Ret (Err k) /\ enclose b L P (Mul e e') = Ret (Err k) /\ enclose b L P (Div e e') = Ret (Err k).
Proof. cbn [enclose]. intros [E|[(l & h & E) E']]; rewrite E; cbn [try_ bind]; [|rewrite E'; cbn [try_ bind]]; auto. Qed.

(** ** Lengths *)
Lemma norm_fits b L P m x y : valid b L P -> in_range L x -> in_range L y -> m <> Nearest ->
  (dec P x * dec P x + dec P y * dec P y + 2 * q10 (- P) <= dec P (hi L))%Q -> exists r, norm b L P m x y = Ret (Ok r).
Proof.
  intros V Rx Ry Hm H. assert (0 <= P) as HP by apply V. pose proof (lo_hi L). pose proof (hi_pos L). pose proof (q10_gt0 (- P)) as U.
  assert (forall z, (0 <= dec P z * dec P z)%Q) as Sq by (intros z; nra).
  assert (forall z, in_range L z -> (dec P z * dec P z + q10 (- P) <= dec P (hi L))%Q ->
    exists s, rmul b L P z z m = Ret (Ok s) /\ 0 <= s /\ (dec P s <= dec P z * dec P z + q10 (- P))%Q) as K.
  { intros z Rz Hz. destruct (rmul_directed b L P V z z Rz Rz m Hm) as (s & Hs & C).
    pose proof (off_one m P _ _ HP Hs) as O. unfold off_q in O. change (Zq 1) with 1%Q in O.
    assert (0 <= s) as S0.
    { assert (-1 < s); [|lia]. apply Z.nle_gt. intros C1. pose proof (dec_mono P s (-1) HP C1) as D. assert (dec P (-1) == - q10 (- P))%Q as D1 by (unfold dec; change (Zq (-1)) with (-1)%Q; ring).
      unfold rounds_to, rounds in Hs. specialize (Sq z). pose proof (q10_nonneg P). assert (0 <= dec P z * dec P z * q10 P)%Q by (apply Qmult_le_0_compat; assumption).
      destruct m; [|now elim Hm|]; destruct Hs as [S1 S2].
      - assert (0 <= Zq s)%Q as S3 by lra. unfold Zq in S3. change 0%Q with (inject_Z 0) in S3. rewrite <- Zle_Qle in S3. lia.
      - assert (0 < Zq (s + 1))%Q as S3 by lra. unfold Zq in S3. change 0%Q with (inject_Z 0) in S3. rewrite <- Zlt_Qlt in S3. lia. }
    assert (dec P s <= dec P z * dec P z + q10 (- P))%Q as S1 by (destruct m; [lra|now elim Hm|lra]).
    assert (s <= hi L) as S2 by (apply (dec_lt P); [exact HP|lra]).
    exists s. split; [|auto]. destruct C as [[_ C]|[C _]]; [exact C|]. elim C. unfold in_range. lia. }
  destruct (K x Rx) as (s & Es & S0 & S1); [specialize (Sq y); lra|]. destruct (K y Ry) as (t & Et & T0 & T1); [specialize (Sq x); lra|].
  assert (in_range L (s + t)) as R. { assert (s + t <= hi L); [|unfold in_range; lia]. apply (dec_lt P); [exact HP|]. rewrite dec_add. lra. }
  unfold norm. rewrite Es. cbn [try_ bind]. rewrite Et. cbn [try_ bind]. rewrite cadd_eq, chkr_ok by exact R. cbn [try_ bind].
  destruct (rsqrt_spec b L P (s + t) m V R ltac:(lia)) as (r & E & _). exists r. exact E.
Qed.

(** ** What a client sees *)
Lemma exec_give {A B : Type} b (g : B -> answer) (o : outcome B) (k : answer -> prog A) :
  bind (give g o) (fun a => exec b (k a)) = bind o (fun r => exec b (k (g r))).
Proof. now destruct o. Qed.
Lemma exec_answers : forall (A : Type) b L P (k : answer -> prog A),
  (forall v : A, exec b (Done v) = Ret v) /\
  (forall x y m, exec b (Ask L P (Rmul x y m) k) = bind (rmul b L P x y m) (fun r => exec b (k (Arith r)))) /\
  (forall x y m, exec b (Ask L P (SaturatingRmul x y m) k) = bind (saturating_rmul b L P x y m) (fun r => exec b (k (Plain r)))) /\
  (forall x y m, exec b (Ask L P (Rdiv x y m) k) = bind (rdiv b L P x y m) (fun r => exec b (k (Arith r)))) /\
  (forall x n m, exec b (Ask L P (RdivInt x n m) k) = bind (rdiv_int b L x n m) (fun r => exec b (k (Arith r)))) /\
  (forall t n d m, exec b (Ask L P (IntRdiv t n d m) k) = bind (int_rdiv b t n d m) (fun r => exec b (k (Arith r)))) /\
  (forall n x m, exec b (Ask L P (IntRdivFp n x m) k) = bind (int_rdiv_fp b L P n x m) (fun r => exec b (k (Arith r)))) /\
  (forall x m, exec b (Ask L P (Recip x m) k) = bind (recip b L P x m) (fun r => exec b (k (Arith r)))) /\
  (forall x y m, exec b (Ask L P (HalfSum x y m) k) = bind (half_sum b L x y m) (fun r => exec b (k (Plain r)))) /\
  (forall x m, exec b (Ask L P (Rsqrt x m) k) = bind (rsqrt b L P x m) (fun r => exec b (k (Arith r)))) /\
  (forall x, exec b (Ask L P (NextPowerOfTen x) k) = bind (next_power_of_ten b L x) (fun r => exec b (k (Arith r)))) /\
  (forall x m, exec b (Ask L P (Integral x m) k) = bind (integral b L P x m) (fun r => exec b (k (Plain r)))) /\
  (forall x, exec b (Ask L P (IntPart x Floor) k) = bind (floor b L P x) (fun r => exec b (k (Plain r)))) /\
  (forall x, exec b (Ask L P (IntPart x Nearest) k) = bind (round b L P x) (fun r => exec b (k (Plain r)))) /\
  (forall x, exec b (Ask L P (IntPart x Ceil) k) = bind (ceil b L P x) (fun r => exec b (k (Plain r)))) /\
  (forall n e, exec b (Ask L P (FromDecimal n e) k) = bind (from_decimal b L P n e) (fun r => exec b (k (Conv r)))) /\
  (forall x e, exec b (Ask L P (ToDecimal x e) k) = bind (to_decimal b L P x e) (fun r => exec b (k (Decimal r)))) /\
  (forall n, exec b (Ask L P (TryFromInt n) k) = bind (try_from_int b L P n) (fun r => exec b (k (Conv r)))) /\
  (forall s, exec b (Ask L P (FromStr s) k) = bind (from_str b L P s) (fun r => exec b (k (Conv r)))) /\
  (forall s, exec b (Ask L P (FromStrExact s) k) = bind (from_str_exact b L P s) (fun r => exec b (k (Conv r)))) /\
  (forall x, exec b (Ask L P (ToString x) k) = bind (to_string b L P x) (fun r => exec b (k (Text r)))) /\
  (forall x, exec b (Ask L P (Serialize x) k) = bind (serialize b L P x true false) (fun r => exec b (k (Token r)))) /\
  (forall raw, exec b (Ask L P (TryFromF64 raw) k) = bind (try_from_f64 b L P raw) (fun r => exec b (k (Conv r)))) /\
  (forall x, exec b (Ask L P (ToF64 x) k) = bind (to_f64 b L P x) (fun r => exec b (k (Float r)))).
Proof. intros A b L P k. split; [reflexivity|]. repeat (match goal with |- _ /\ _ => split end); intros; cbn [exec ask]; apply exec_give. Qed.

(** ** Width of the serialized integer *)
Lemma binary_width b L P x bw : let t := match L with L16 => I16 | L32 => I32 | L64 => I64 | L128 => I128 end in
  repr_serialize L x = TInt t x /\ serialize b L P x false bw = Ret (TInt t x) /\
  repr_option_serialize L (Some x) = TSome (TInt t x) /\ repr_option_serialize L None = TNone.
Proof. destruct L; repeat split. Qed.

(** ** Balances: an answer says that every intermediate balance fits *)
Lemma run_exact L P l : forall a r, in_range L a -> run_steps L a l = Ok r ->
  represents L P (dec P a + qtotal P l) r /\
  forall pre post, l = pre ++ post -> exists s, run_steps L a pre = Ok s /\ represents L P (dec P a + qtotal P pre) s.
Proof.
  assert (forall l a r, in_range L a -> run_steps L a l = Ok r -> in_range L r) as R.
  { clear l. induction l as [|s l IH]; intros a r Ha; cbn [run_steps]; [now intros [= <-]|]. rewrite do_step_val.
    destruct (in_range_dec L (a + SimpleProofs.delta s)) as [F|F]; [rewrite chkr_ok by exact F|rewrite chkr_err by exact F; discriminate]. now apply IH. }
  assert (forall l a r, in_range L a -> run_steps L a l = Ok r -> represents L P (dec P a + qtotal P l) r) as K.
  { intros l' a r Ha E. rewrite qtotal_dec, <- dec_add, repr_dec. rewrite <- (run_total _ _ _ _ E). split; [reflexivity|]. now apply (R l' a). }
  intros a r Ha E. split; [now apply K|]. intros pre post ->.
  assert (exists s, run_steps L a pre = Ok s) as [s F].
  { clear Ha. revert a E. induction pre as [|s pre IH]; intros a; cbn [app run_steps]; [now exists a|]. destruct (do_step L a s) as [z|e]; [apply IH|discriminate]. }
  exists s. split; [exact F|now apply K].
Qed.

(** ** C62: a literal has a value or does not compile *)
Definition stops {A} (o : outcome A) : Prop := (exists r, o = Ret r) \/ o = Panic.
Lemma stops_bind A B (x : outcome A) (f : A -> outcome B) : stops x -> (forall a, stops (f a)) -> stops (bind x f).
Proof. intros [[r ->]| ->] H; [apply H|now right]. Qed.
Lemma stops_ret A (x : A) : stops (Ret x).
Proof. left. now exists x. Qed.
Lemma stops_fit b t z : stops (fit b t z).
Proof. unfold fit. repeat match goal with |- stops (if ?c then _ else _) => destruct c end; first [now left; eexists|now right]. Qed.
Lemma stops_idx A (l : list A) i : stops (idx l i).
Proof. unfold idx. destruct (_ && _); [|now right]. destruct (nth_error _ _); [left; now eexists|now right]. Qed.
Lemma stops_div t x y : stops (div t x y).
Proof. unfold div. repeat match goal with |- stops (if ?c then _ else _) => destruct c end; first [now left; eexists|now right]. Qed.
Ltac stops := repeat first [apply stops_fit|apply stops_idx|apply stops_div|apply stops_ret|apply stops_bind; [|intros ?]].
Lemma stops_pow10 b p : stops (pow10 b p).
Proof.
  unfold pow10. destruct (_ <? _); stops. revert a. induction (Z.to_nat a1) as [|n IH]; intros r; cbn [pow10_loop]; stops. apply IH.
Qed.
Lemma stops_assert c : stops (const_assert c).
Proof. destruct c; [left; now exists tt|now right]. Qed.
Lemma stops_int b s i e : stops (parse_int b s i e).
Proof.
  unfold parse_int. generalize 0. generalize i at 2. induction (Z.to_nat (e - i)) as [|n IH]; intros j z; cbn [parse_int_loop]; unfold parse_digit; stops; first [apply stops_assert|apply stops_pow10|apply IH].
Qed.
Theorem literal_stops b L P s : (exists r, fixnum_const b L P s = Ret r /\ in_range L r) \/ fixnum_const b L P s = Panic.
Proof.
  enough (stops (v <- (coef <- pow10 b P ;; parse_fixed b s coef) ;; Ret v)) as H.
  { unfold fixnum_const. destruct (pow10 b P) as [c| | |]; cbn [bind] in *; try (destruct H as [[r H]|H]; discriminate H); [|now right].
    destruct (parse_fixed b s c) as [v| | |]; cbn [bind] in *; try (destruct H as [[r H]|H]; discriminate H); [|now right].
    left. exists (wrap (lty L) v). split; [reflexivity|]. apply fits_lty, fits_wrap. }
  stops; [apply stops_pow10|]. unfold parse_fixed. cbv zeta. stops. destruct (find s 46); stops;
    first [apply stops_int|apply stops_pow10|apply stops_assert].
Qed.
