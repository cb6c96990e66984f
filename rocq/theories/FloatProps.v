(** * FloatProps: the float properties in the form in which PropsFloat states them. *)
From Coq Require Import SpecFloat QArith Qabs Qpower.
From Verif Require Import Base PowerTable ConstFn Sqrt Promo Ops Fixed Float Codec Spec SpecF64 SpecBuild BaseFacts SimpleProofs
  F64Facts F64Rel F64Proofs ToF64 ProfileFacts.
From Verif Require Import Fixed.
Open Scope Z_scope.
Ltac Zify.zify_post_hook ::= idtac.

(** The rounding threshold of a magnitude. *)
Lemma f64rel_threshold P V z : 0 <= P <= 38 -> 0 <= V -> f64rel P V z ->
  9 * 2 ^ 49 * (z * 10 ^ (K0 - P) - V) <= 5 * 2 ^ 49 * 10 ^ (K0 - P) + 9 * V /\
  9 * 2 ^ 49 * (V - z * 10 ^ (K0 - P)) <= 4 * 2 ^ 49 * 10 ^ (K0 - P) + 9 * V.
Proof.
  intros HP HV (a & h & y & Ha & Hh & [A1 A2] & _ & Ey & B & E & ->).
  pose proof (K0_P P HP) as GS. set (S := 10 ^ (K0 - P)) in *. pose proof (c49_spec (y * 10 ^ h) S GS) as C.
  set (z := c49 (y * 10 ^ h) S) in *. clearbody z S.
  assert (9 * 2 ^ 52 * Z.abs (y * 10 ^ h - a) <= 50 * a) as D.
  { destruct E as [E|[H1 E]]; [rewrite <- E, Z.sub_diag; cbn [Z.abs]; lia|].
    pose proof (pow10_pos h ltac:(lia)) as G. pose proof (c49_spec a (10 ^ h) G) as K. rewrite <- Ey in K.
    assert (E10 : 10 ^ h = 10 * 10 ^ (h - 1)) by (rewrite <- Z.pow_succ_r by lia; f_equal; lia).
    rewrite E10 in *. set (p := 10 ^ (h - 1)) in *. clearbody p. clear - K E. lia. }
  set (Y := y * 10 ^ h) in *. clearbody Y. clear - C D A1 A2 HV Ha. unfold Kd in *.
  replace (9 * z * S) with (9 * (z * S)) in C by ring. set (w := z * S) in *. clearbody w. lia.
Qed.
Lemma err_Q4 (A B S V : Z) : 9 * 2 ^ 49 * (A - B) <= 4 * 2 ^ 49 * S + 9 * V ->
  (Zq A <= Zq B + (4 # 9) * Zq S + Zq V * Qpower (2 # 1) (-49))%Q.
Proof.
  intros H. change (Qpower (2 # 1) (-49)) with (1 # 562949953421312). unfold Zq, Qle, Qplus, Qmult, inject_Z. cbn [Qnum Qden]. lia.
Qed.
Lemma err_Q5 (A B S V : Z) : 9 * 2 ^ 49 * (A - B) <= 5 * 2 ^ 49 * S + 9 * V ->
  (Zq A <= Zq B + (5 # 9) * Zq S + Zq V * Qpower (2 # 1) (-49))%Q.
Proof.
  intros H. change (Qpower (2 # 1) (-49)) with (1 # 562949953421312). unfold Zq, Qle, Qplus, Qmult, inject_Z. cbn [Qnum Qden]. lia.
Qed.
Lemma conv_threshold : forall b L P raw x, valid b L P -> f64_finite raw -> try_from_f64 b L P raw = Ret (Ok x) ->
  (Qabs (dec P x) <= Qabs (f64_val raw) + (5 # 9) * q10 (- P) + Qabs (f64_val raw) * Qpower (2 # 1) (-49))%Q /\
  (Qabs (f64_val raw) <= Qabs (dec P x) + (4 # 9) * q10 (- P) + Qabs (f64_val raw) * Qpower (2 # 1) (-49))%Q.
Proof.
  intros b L P raw x HV H Hx. pose proof (valid_prec_38 _ _ (proj2 HV)) as HP.
  destruct (conv b L P raw HV H) as (z & Hz & Hr & E). rewrite E in Hx. unfold outcome_of in Hx.
  destruct (z <=? hi L) eqn:C; [|discriminate]. injection Hx as Hx.
  destruct (f64rel_threshold P _ z ltac:(lia) (V_nonneg raw H) Hr) as [K1 K2].
  assert (Z.abs x = z) as Ez by (subst x; destruct (f64_sign raw); lia).
  assert (Qabs (dec P x) * Zq T == Zq (z * 10 ^ (K0 - P)))%Q as Ed.
  { rewrite <- dec_abs, Ez. apply dec_T. lia. }
  assert (Ev := abs_T raw H). assert (Eq := q10_T P ltac:(lia)).
  split; apply (Qmult_le_r _ _ (Zq T) T_pos); rewrite !Qmult_plus_distr_l.
  - setoid_replace ((5 # 9) * q10 (- P) * Zq T)%Q with ((5 # 9) * (q10 (- P) * Zq T))%Q by ring.
    setoid_replace (Qabs (f64_val raw) * Qpower (2 # 1) (-49) * Zq T)%Q with (Qabs (f64_val raw) * Zq T * Qpower (2 # 1) (-49))%Q by ring.
    rewrite Ed, Ev, Eq. apply err_Q5. exact K1.
  - setoid_replace ((4 # 9) * q10 (- P) * Zq T)%Q with ((4 # 9) * (q10 (- P) * Zq T))%Q by ring.
    setoid_replace (Qabs (f64_val raw) * Qpower (2 # 1) (-49) * Zq T)%Q with (Qabs (f64_val raw) * Zq T * Qpower (2 # 1) (-49))%Q by ring.
    rewrite Ed, Ev, Eq. apply err_Q4. exact K2.
Qed.

Lemma total : forall b L P raw, valid b L P -> is_f64 raw ->
  try_from_f64 b L P raw = Ret (Err ConvertError) \/ exists x, try_from_f64 b L P raw = Ret (Ok x) /\ in_range L x.
Proof.
  intros b L P raw HV H. destruct (conv_total b L P raw HV H) as [E|(x & E & Hx & _)]; [now left|right].
  exists x. split; [exact E|]. pose proof (lo_hi L). unfold in_range. lia.
Qed.
Lemma never_min : forall b L P raw x, valid b L P -> is_f64 raw -> try_from_f64 b L P raw = Ret (Ok x) -> - hi L <= x <= hi L.
Proof.
  intros b L P raw x HV H E. destruct (conv_total b L P raw HV H) as [K|(y & K & Hy & _)]; rewrite K in E; [discriminate|].
  injection E as <-. exact Hy.
Qed.
Lemma signs : forall b L P raw x, valid b L P -> is_f64 raw -> try_from_f64 b L P raw = Ret (Ok x) ->
  (f64_sign raw = false -> 0 <= x) /\ (f64_sign raw = true -> x <= 0).
Proof.
  intros b L P raw x HV H E. destruct (conv_total b L P raw HV H) as [K|(y & K & _ & Hy)]; rewrite K in E; [discriminate|].
  injection E as <-. destruct (f64_sign raw); split; intros; congruence || assumption.
Qed.
Lemma negated : forall b L P raw, valid b L P -> is_f64 raw ->
  (forall x, try_from_f64 b L P raw = Ret (Ok x) -> try_from_f64 b L P (f64_negate raw) = Ret (Ok (- x))) /\
  (forall e, try_from_f64 b L P raw = Ret (Err e) -> try_from_f64 b L P (f64_negate raw) = Ret (Err e)).
Proof. intros b L P raw HV H. rewrite (conv_negate b L P raw HV H). split; intros ? ->; reflexivity. Qed.
Lemma negate_val : forall raw, is_f64 raw -> is_f64 (f64_negate raw) /\ (f64_val (f64_negate raw) == - f64_val raw)%Q.
Proof.
  intros raw H. destruct (negate_fields raw H) as (H1 & H2 & H3 & H4). split; [exact H1|]. unfold f64_val, f64_units. rewrite H2, H3, H4.
  set (u := if f64_exponent raw =? 0 then f64_fraction raw else (2 ^ 52 + f64_fraction raw) * 2 ^ (f64_exponent raw - 1)).
  destruct (f64_sign raw); cbn [negb]; unfold Zq; rewrite inject_Z_opp; ring.
Qed.
Lemma int_exact : forall b L P raw n, valid b L P -> f64_finite raw -> (f64_val raw == Zq n)%Q ->
  (- hi L <= n * 10 ^ P <= hi L -> try_from_f64 b L P raw = Ret (Ok (n * 10 ^ P))) /\
  (~ - hi L <= n * 10 ^ P <= hi L -> try_from_f64 b L P raw = Ret (Err ConvertError)).
Proof.
  intros b L P raw n HV H Hn. rewrite (conv_int b L P raw n HV H Hn).
  split; intros K; destruct (Z.abs (n * 10 ^ P) <=? hi L) eqn:C; try reflexivity; exfalso; lia.
Qed.
Lemma all_try_from_f64 : forall b b' L P raw, valid b L P -> valid b' L P -> is_f64 raw -> try_from_f64 b L P raw = try_from_f64 b' L P raw.
Proof.
  intros b b' L P raw V V' H. apply (never_panics _ (fun b => try_from_f64 b L P raw) (fun b => valid b L P)); try assumption.
  - intros. now apply strict_try_from_f64.
  - intros ?. apply checked_valid.
  - intros b0 V0. destruct (total b0 L P raw V0 H) as [->|(x & -> & _)]; discriminate.
Qed.
Lemma trip15 : forall b b' L P x, valid b L P -> valid b' L P -> in_range L x -> x <> lo L -> Z.abs x <= 10 ^ 15 ->
  exists f, to_f64 b L P x = Ret f /\ try_from_f64 b' L P (f64_to_bits f) = Ret (Ok x).
Proof.
  intros b b' L P x V V' Hx Hl H15. destruct (to_f64_error b L P x V Hx) as (f & E & _). exists f. split; [exact E|].
  rewrite (same_to_f64 b b' L P x V V') in E. exact (round_trip b' L P x f V' Hx Hl H15 E).
Qed.
Lemma trip15_serde : forall b b' L P x, valid b L P -> valid b' L P -> in_range L x -> x <> lo L -> Z.abs x <= 10 ^ 15 ->
  (exists tok, float_serialize b L P x = Ret tok /\ float_deserialize b' L P tok = Ret (Ok x)) /\
  (exists tok, float_option_serialize b L P (Some x) = Ret tok /\ float_option_deserialize b' L P tok = Ret (Ok (Some x))).
Proof.
  intros b b' L P x V V' Hx Hl H15. destruct (trip15 b b' L P x V V' Hx Hl H15) as (f & E & E').
  split; eexists; (split; [unfold float_serialize, float_option_serialize; rewrite E; reflexivity|]).
  - exact E'.
  - cbn. rewrite E'. reflexivity.
Qed.
Lemma to_sign : forall b L P x f, valid b L P -> in_range L x -> to_f64 b L P x = Ret f ->
  (x = 0 -> f64_to_bits f = 0) /\ (0 < x -> (0 < f64_val (f64_to_bits f))%Q) /\ (x < 0 -> (f64_val (f64_to_bits f) < 0)%Q).
Proof. exact to_f64_sign. Qed.
(** The round trip of a long number, of MIN, and a number rounded to the farther neighbour. *)
Lemma trip_wrong : exists x f, valid dev L64 12 /\ in_range L64 x /\ to_f64 dev L64 12 x = Ret f /\
  try_from_f64 dev L64 12 (f64_to_bits f) = Ret (Ok (x + 1)).
Proof. exists 4098149338057960. eexists. split; [|split; [|split; [vm_compute; reflexivity|]]]; example. Qed.
Lemma trip_min : exists f, to_f64 dev L16 2 (lo L16) = Ret f /\ try_from_f64 dev L16 2 (f64_to_bits f) = Ret (Err ConvertError).
Proof. eexists. split; [vm_compute; reflexivity|]. vm_compute. reflexivity. Qed.
Lemma not_nearest : exists raw x, valid dev L32 0 /\ f64_finite raw /\ try_from_f64 dev L32 0 raw = Ret (Ok x) /\ in_range L32 (x - 1) /\
  (Qabs (f64_val raw - dec 0 (x - 1)) < Qabs (f64_val raw - dec 0 x))%Q.
Proof. exists 4601778099247172813, 1. unfold f64_finite, is_f64. example. Qed.
