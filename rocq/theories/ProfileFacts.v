(** * ProfileFacts: overflow checks and debug assertions only ever add panics, and nothing but the
    square root depends on [std]. *)
From Coq Require Import SpecFloat.
From Verif Require Import Base PowerTable ConstFn Sqrt U256 I256 Promo Ops Fixed Str Float Codec Macros Spec SpecBuild.
From Verif Require Import SpecText BaseFacts MulDiv DecProofs StrFacts ShowFacts Sqrt256.
From Verif Require Import Fixed.
Open Scope Z_scope.

(** With [c] the first build is strict; without it both have the same profile. *)
Definition compat (c : bool) (b b' : build) : Prop :=
  if c then strict b else same_profile b b'.
Definition agree (c : bool) {A : Type} (o o' : outcome A) : Prop := (c = true /\ o = Panic) \/ o = o'.

Lemma agree_refl c A (o : outcome A) : agree c o o.
Proof. now right. Qed.
Lemma agree_bind c A B (o o' : outcome A) (f f' : A -> outcome B) :
  agree c o o' -> (forall x, agree c (f x) (f' x)) -> agree c (bind o f) (bind o' f').
Proof.
  intros [[H ->]| ->] K; [left; split; [exact H|reflexivity]|]. destruct o'; cbn; try (now right). apply K.
Qed.
Lemma agree_fit c b b' t z : compat c b b' -> agree c (fit b t z) (fit b' t z).
Proof.
  unfold fit, agree. intros H. destruct (fitsb t z); [now right|]. destruct c; cbn in H; destruct H as [E D].
  - rewrite E. now left.
  - rewrite E. now right.
Qed.
Lemma agree_dassert c b b' x : compat c b b' -> agree c (dassert b x) (dassert b' x).
Proof.
  unfold dassert, agree. intros H. destruct c; cbn in H; destruct H as [E D]; rewrite D; destruct x, (dbg b'); auto.
Qed.
Lemma agree_shl c b b' t x s : compat c b b' -> agree c (shl b t x s) (shl b' t x s).
Proof.
  unfold shl, agree. intros H. destruct (_ && _); [now right|]. destruct c; cbn in H; destruct H as [E D]; rewrite E; auto.
Qed.
Lemma agree_shr c b b' t x s : compat c b b' -> agree c (Base.shr b t x s) (Base.shr b' t x s).
Proof.
  unfold Base.shr, agree. intros H. destruct (_ && _); [now right|]. destruct c; cbn in H; destruct H as [E D]; rewrite E; auto.
Qed.
Create HintDb agr.
#[global] Hint Resolve agree_shl agree_shr agree_dassert agree_fit : agr.

(** Walks through two copies of the same program. *)
Ltac agr :=
  repeat lazymatch goal with
  | |- agree _ ?o ?o => apply agree_refl
  | |- agree _ (bind _ _) (bind _ _) => apply agree_bind; [|intros ?]
  | |- agree _ (try_ _ _) (try_ _ _) => unfold try_; apply agree_bind; [|intros ?]
  | |- agree _ (add _ _ _ _) _ => apply agree_fit; assumption
  | |- agree _ (sub _ _ _ _) _ => apply agree_fit; assumption
  | |- agree _ (mul _ _ _ _) _ => apply agree_fit; assumption
  | |- agree _ (neg _ _ _) _ => apply agree_fit; assumption
  | |- agree _ (iabs _ _ _) _ => apply agree_fit; assumption
  | |- agree _ (ipow _ _ _ _) _ => apply agree_fit; assumption
  | |- agree _ (let '(_, _) := ?x in _) _ => destruct x
  | |- agree _ (if ?x then _ else _) (if ?x then _ else _) => destruct x
  | |- agree _ (match ?x with _ => _ end) (match ?x with _ => _ end) => destruct x
  | |- agree _ _ _ => solve [auto with agr]
  end.

(** ** 256-bit integers *)
Lemma agree_for c S n : forall i (f f' : Z -> S -> outcome S) s, (forall i s, agree c (f i s) (f' i s)) ->
  agree c (for_ n i f s) (for_ n i f' s).
Proof. induction n; intros i f f' s H; cbn [for_]; [agr|]. apply agree_bind; [apply H|]. intros. now apply IHn. Qed.
Lemma agree_mul_row c b b' i bw me : compat c b b' -> forall j st, agree c (mul_row b i j bw me st) (mul_row b' i j bw me st).
Proof.
  intros H. induction me; intros; cbn [mul_row]; agr.
  unfold mul_step. destruct st. agr.
Qed.
Lemma agree_mul_rows c b b' me you : compat c b b' -> forall i ret, agree c (mul_rows b i me you ret) (mul_rows b' i me you ret).
Proof.
  intros H. induction you; intros; cbn [mul_rows]; agr. now apply agree_mul_row.
Qed.
Lemma agree_u256_mul c b b' x y : compat c b b' -> agree c (u256_mul b x y) (u256_mul b' x y).
Proof. intros H. unfold u256_mul, overflowing_mul, full_mul. agr. now apply agree_mul_rows. Qed.
#[global] Hint Resolve agree_u256_mul : agr.
Lemma agree_i256_neg c b b' x : compat c b b' -> agree c (i256_neg b x) (i256_neg b' x).
Proof. intros H. unfold i256_neg. agr. Qed.
#[global] Hint Resolve agree_i256_neg : agr.
Lemma agree_i256_mul c b b' x y : compat c b b' -> agree c (i256_mul b x y) (i256_mul b' x y).
Proof. intros H. unfold i256_mul. agr. Qed.
#[global] Hint Resolve agree_i256_mul : agr.
Lemma agree_i128_of_i256 c b b' x : compat c b b' -> agree c (i128_of_i256 b x) (i128_of_i256 b' x).
Proof. intros H. unfold i128_of_i256. agr. Qed.
#[global] Hint Resolve agree_i128_of_i256 : agr.
Lemma agree_u256_shl c b b' x s : compat c b b' -> agree c (u256_shl b x s) (u256_shl b' x s).
Proof. intros H. unfold u256_shl. cbv zeta. agr; apply agree_for; intros; agr. Qed.
Lemma agree_u256_shr c b b' x s : compat c b b' -> agree c (u256_shr b x s) (u256_shr b' x s).
Proof. intros H. unfold u256_shr. cbv zeta. agr; apply agree_for; intros; agr. Qed.
#[global] Hint Resolve agree_u256_shl agree_u256_shr : agr.
Lemma agree_full_shl c b b' x s : compat c b b' -> agree c (full_shl b x s) (full_shl b' x s).
Proof. intros H. unfold full_shl. agr. Qed.
Lemma agree_full_shr c b b' x s : compat c b b' -> agree c (full_shr b x s) (full_shr b' x s).
Proof. intros H. unfold full_shr. agr; apply agree_for; intros; agr. Qed.
Lemma agree_dmw_loop c b b' n y1 y0 un : compat c b b' -> forall q r, agree c (dmw_loop b n y1 y0 un q r) (dmw_loop b' n y1 y0 un q r).
Proof. intros H. induction n; intros; cbn [dmw_loop]; agr. Qed.
#[global] Hint Resolve agree_full_shl agree_full_shr agree_dmw_loop : agr.
Lemma agree_div_mod_word c b b' h l y : compat c b b' -> agree c (div_mod_word b h l y) (div_mod_word b' h l y).
Proof. intros H. unfold div_mod_word. cbv zeta. agr. Qed.
#[global] Hint Resolve agree_div_mod_word : agr.
Lemma agree_dms c b b' l y : compat c b b' -> agree c (dms b l y) (dms b' l y).
Proof. intros H. induction l; cbn [dms]; agr. Qed.
Lemma agree_qhat c b b' n v1 v2 uk : compat c b b' -> forall q r, agree c (qhat_loop b n v1 v2 uk q r) (qhat_loop b' n v1 v2 uk q r).
Proof. intros H. induction n; intros; cbn [qhat_loop]; agr. Qed.
Lemma agree_ov_mul_u64 c b b' l y : compat c b b' -> forall cr, agree c (ov_mul_u64 b l y cr) (ov_mul_u64 b' l y cr).
Proof. intros H. induction l; intros; cbn [ov_mul_u64]; agr. unfold mul_u64. agr. Qed.
#[global] Hint Resolve agree_dms agree_qhat agree_ov_mul_u64 : agr.
Lemma agree_knuth_step c b b' v n v1 v2 j u q : compat c b b' -> agree c (knuth_step b v n v1 v2 j u q) (knuth_step b' v n v1 v2 j u q).
Proof. intros H. unfold knuth_step, full_mul_u64. agr. Qed.
#[global] Hint Resolve agree_knuth_step : agr.
Lemma agree_knuth_loop c b b' v n v1 v2 k : compat c b b' -> forall u q, agree c (knuth_loop b v n v1 v2 k u q) (knuth_loop b' v n v1 v2 k u q).
Proof. intros H. induction k; intros; cbn [knuth_loop]; agr. Qed.
#[global] Hint Resolve agree_knuth_loop : agr.
Lemma agree_div_mod c b b' x y : compat c b b' -> agree c (div_mod b x y) (div_mod b' x y).
Proof. intros H. unfold div_mod, div_mod_small, div_mod_knuth, words. cbv zeta. agr. Qed.
#[global] Hint Resolve agree_div_mod : agr.
Lemma agree_i256_div c b b' x y : compat c b b' -> agree c (i256_div b x y) (i256_div b' x y).
Proof. intros H. unfold i256_div, u256_div. agr. Qed.
#[global] Hint Resolve agree_i256_div : agr.

(** ** Fixed-point operations *)
Ltac promo L := destruct L; cbn [promo_of prim_promo i256_promo pt p_from p_mul p_div p_add p_sub p_try p_sqrt p_ge p_eq p_one lty].

Lemma agree_rmul c b b' L P x y m : compat c b b' -> valid b L P -> valid b' L P -> agree c (rmul b L P x y m) (rmul b' L P x y m).
Proof.
  intros H V V'. unfold rmul. cbv zeta. rewrite !COEF_ok, !NEG_COEF_ok by assumption. cbn [bind]. promo L; agr.
Qed.
Lemma agree_rdiv c b b' L P x y m : compat c b b' -> valid b L P -> valid b' L P -> agree c (rdiv b L P x y m) (rdiv b' L P x y m).
Proof.
  intros H V V'. unfold rdiv. cbv zeta. rewrite !COEF_ok by assumption. cbn [bind]. promo L; agr.
Qed.
Lemma agree_int_rdiv c b b' t x y m : compat c b b' -> agree c (int_rdiv b t x y m) (int_rdiv b' t x y m).
Proof. intros H. unfold int_rdiv. agr. Qed.
#[global] Hint Resolve agree_rmul agree_rdiv agree_int_rdiv : agr.
Lemma same_try_from_int b b' L P x : valid b L P -> valid b' L P -> try_from_int b L P x = try_from_int b' L P x.
Proof. intros V V'. unfold try_from_int. now rewrite !COEF_ok by assumption. Qed.
Lemma agree_int_rdiv_fp c b b' L P x y m : compat c b b' -> valid b L P -> valid b' L P ->
  agree c (int_rdiv_fp b L P x y m) (int_rdiv_fp b' L P x y m).
Proof. intros H V V'. unfold int_rdiv_fp. rewrite (same_try_from_int b b') by assumption. agr. Qed.
Lemma agree_saturating_rmul c b b' L P x y m : compat c b b' -> valid b L P -> valid b' L P ->
  agree c (saturating_rmul b L P x y m) (saturating_rmul b' L P x y m).
Proof. intros H V V'. unfold saturating_rmul, default_saturating_mul. cbv zeta. agr. Qed.
Lemma agree_recip c b b' L P x m : compat c b b' -> valid b L P -> valid b' L P -> agree c (recip b L P x m) (recip b' L P x m).
Proof. intros H V V'. unfold recip, ONE. rewrite !COEF_ok by assumption. agr. Qed.
Lemma agree_half_sum c b b' L x y m : compat c b b' -> agree c (half_sum b L x y m) (half_sum b' L x y m).
Proof. intros H. unfold half_sum, rdiv_int. cbv zeta. agr. Qed.
Lemma agree_integral c b b' L P x m : compat c b b' -> valid b L P -> valid b' L P -> agree c (integral b L P x m) (integral b' L P x m).
Proof. intros H V V'. unfold integral. cbv zeta. rewrite !COEF_ok by assumption. agr. Qed.
Lemma agree_from_decimal c b b' L P x e : compat c b b' -> agree c (from_decimal b L P x e) (from_decimal b' L P x e).
Proof. intros H. unfold from_decimal. agr. Qed.
#[global] Hint Resolve agree_integral agree_from_decimal : agr.
Lemma agree_int_part c b b' L P x m : compat c b b' -> valid b L P -> valid b' L P -> agree c (int_part b L P x m) (int_part b' L P x m).
Proof. intros H V V'. unfold int_part. agr. Qed.
Lemma agree_npt c b b' L x : compat c b b' -> agree c (next_power_of_ten b L x) (next_power_of_ten b' L x).
Proof. intros H. unfold next_power_of_ten, npt_nonneg. cbv zeta. agr. Qed.
Lemma agree_to_decimal_loop c b b' L n e : compat c b b' -> forall x y, agree c (to_decimal_loop b L n e x y) (to_decimal_loop b' L n e x y).
Proof. intros H. induction n; intros; cbn [to_decimal_loop]; agr. Qed.
#[global] Hint Resolve agree_to_decimal_loop : agr.
Lemma agree_to_decimal c b b' L P x e : compat c b b' -> agree c (to_decimal b L P x e) (to_decimal b' L P x e).
Proof. intros H. unfold to_decimal. agr. Qed.

(** ** Strings *)
Lemma agree_push c b b' s x : compat c b b' -> f128 b = f128 b' -> agree c (push b s x) (push b' s x).
Proof. intros H E. unfold push, MAX_LEN. cbv zeta. rewrite E. agr. Qed.
Lemma agree_push_str c b b' s x : compat c b b' -> f128 b = f128 b' -> agree c (push_str b s x) (push_str b' s x).
Proof. intros H E. unfold push_str, MAX_LEN. cbv zeta. rewrite E. agr. Qed.
#[global] Hint Resolve agree_push agree_push_str : agr.
Lemma agree_to_string c b b' L P x : compat c b b' -> f128 b = f128 b' -> valid b L P -> valid b' L P ->
  agree c (to_string b L P x) (to_string b' L P x).
Proof. intros H E V V'. unfold to_string, stringify. cbv zeta. rewrite !COEF_ok by assumption. agr. Qed.

(** ** Floats *)
Lemma agree_scale_down c b b' n : compat c b b' -> forall x y z, agree c (scale_down b n x y z) (scale_down b' n x y z).
Proof. intros H. induction n; intros; cbn [scale_down]; agr. Qed.
Lemma agree_scale_up c b b' n : compat c b b' -> forall x y z, agree c (scale_up b n x y z) (scale_up b' n x y z).
Proof. intros H. induction n; intros; cbn [scale_up]; agr. Qed.
#[global] Hint Resolve agree_scale_down agree_scale_up : agr.
Lemma agree_absorb5 c b b' x y z : compat c b b' -> agree c (absorb5 b x y z) (absorb5 b' x y z).
Proof. intros H. unfold absorb5. cbv zeta. agr. Qed.
Lemma agree_cut c b b' x y : compat c b b' -> agree c (cut_digits b x y) (cut_digits b' x y).
Proof. intros H. unfold cut_digits. cbv zeta. agr. Qed.
Lemma agree_rescale c b b' P x y : compat c b b' -> agree c (rescale b P x y) (rescale b' P x y).
Proof. intros H. unfold rescale, rdiv_by_exponent_10. agr. Qed.
#[global] Hint Resolve agree_absorb5 agree_cut agree_rescale : agr.
Lemma agree_try_from_f64 c b b' L P raw : compat c b b' -> agree c (try_from_f64 b L P raw) (try_from_f64 b' L P raw).
Proof. intros H. unfold try_from_f64. cbv zeta. agr. Qed.
Lemma same_to_f64 b b' L P x : valid b L P -> valid b' L P -> to_f64 b L P x = to_f64 b' L P x.
Proof. intros V V'. unfold to_f64. now rewrite !COEF_ok by assumption. Qed.

(** ** Literals *)
Lemma same_Int b b' : f128 b = f128 b' -> Int b = Int b'.
Proof. unfold Int. now intros ->. Qed.
Lemma agree_pow10_loop c b b' n : compat c b b' -> f128 b = f128 b' -> forall r, agree c (pow10_loop b n r) (pow10_loop b' n r).
Proof. intros H E. induction n; intros; cbn [pow10_loop]; rewrite ?(same_Int b b' E); agr. Qed.
#[global] Hint Resolve agree_pow10_loop : agr.
Lemma agree_pow10 c b b' n : compat c b b' -> f128 b = f128 b' -> agree c (pow10 b n) (pow10 b' n).
Proof. intros H E. unfold pow10. agr. Qed.
#[global] Hint Resolve agree_pow10 : agr.
Lemma agree_parse_int_loop c b b' s n : compat c b b' -> f128 b = f128 b' -> forall i e r,
  agree c (parse_int_loop b s n i e r) (parse_int_loop b' s n i e r).
Proof. intros H E. induction n; intros; cbn [parse_int_loop]; rewrite ?(same_Int b b' E); agr. Qed.
#[global] Hint Resolve agree_parse_int_loop : agr.
Lemma agree_fixnum_const c b b' L P s : compat c b b' -> f128 b = f128 b' -> agree c (fixnum_const b L P s) (fixnum_const b' L P s).
Proof. intros H E. unfold fixnum_const, parse_fixed, parse_int. cbv zeta. rewrite (same_Int b b' E). agr. Qed.

(** ** Codec *)
Lemma agree_serialize c b b' L P x h w : compat c b b' -> f128 b = f128 b' -> valid b L P -> valid b' L P ->
  agree c (serialize b L P x h w) (serialize b' L P x h w).
Proof. intros H E V V'. unfold serialize, str_serialize. agr. now apply agree_to_string. Qed.
Lemma agree_deserialize c b b' L P q h tok : compat c b b' -> valid b L P -> valid b' L P ->
  agree c (deserialize b L P q h tok) (deserialize b' L P q h tok).
Proof.
  intros H V V'. unfold deserialize, visit, from_str.
  assert (A : forall s, agree c (parse_str b L P false s) (parse_str b' L P false s))
    by (intros; rewrite (parse_profiles b b') by assumption; apply agree_refl).
  assert (F : forall r, agree c (try_from_f64 b L P r) (try_from_f64 b' L P r)) by (intros; now apply agree_try_from_f64).
  assert (I : forall z, agree c (try_from_int b L P z) (try_from_int b' L P z))
    by (intros; rewrite (same_try_from_int b b') by assumption; apply agree_refl).
  agr.
Qed.

(** ** The two readings of [agree] *)
Lemma agree_strict A (o o' : outcome A) : agree true o o' -> unless_panic o o'.
Proof. intros [[_ K]|K]; [now left|now right]. Qed.
Lemma agree_same A (o o' : outcome A) : agree false o o' -> o = o'.
Proof. now intros [[K _]|K]. Qed.

(** The build with the same features and all checks on. *)
Definition checked (b : build) : build := {| ovf := true; dbg := true; std := std b; f128 := f128 b |}.
Lemma checked_strict b : strict (checked b).
Proof. now split. Qed.
Lemma checked_valid b L P : valid b L P -> valid (checked b) L P.
Proof. intros H; exact H. Qed.
(** An operation that cannot panic when checked is the same in all builds. *)
Lemma never_panics A (op : build -> outcome A) (ok : build -> Prop) :
  (forall b b', ok b -> ok b' -> strict b -> unless_panic (op b) (op b')) ->
  (forall b, ok b -> ok (checked b)) ->
  (forall b, ok b -> op b <> Panic) ->
  forall b b', ok b -> ok b' -> op b = op b'.
Proof.
  intros H C N b b' Hb Hb'. pose proof (N _ (C _ Hb)) as Np.
  destruct (H (checked b) b (C _ Hb) Hb (checked_strict b)) as [K|K]; [contradiction|].
  destruct (H (checked b) b' (C _ Hb) Hb' (checked_strict b)) as [K'|K']; [contradiction|]. congruence.
Qed.
Ltac strictly :=
  intros; apply agree_strict;
  match goal with H : strict ?b |- _ => assert (forall b', compat true b b') by (intros; exact H) end; auto with agr.
Ltac samely :=
  intros; apply agree_same;
  match goal with H : same_profile ?b ?b' |- _ => change (compat false b b') in H end; auto with agr.

Lemma strict_rmul : forall b b' L P x y m, strict b -> valid b L P -> valid b' L P -> unless_panic (rmul b L P x y m) (rmul b' L P x y m).
Proof. strictly. Qed.
Lemma strict_rdiv : forall b b' L P x y m, strict b -> valid b L P -> valid b' L P -> unless_panic (rdiv b L P x y m) (rdiv b' L P x y m).
Proof. strictly. Qed.
Lemma strict_int_rdiv : forall b b' t x y m, strict b -> unless_panic (int_rdiv b t x y m) (int_rdiv b' t x y m).
Proof. strictly. Qed.
Lemma strict_int_rdiv_fp : forall b b' L P x y m, strict b -> valid b L P -> valid b' L P ->
  unless_panic (int_rdiv_fp b L P x y m) (int_rdiv_fp b' L P x y m).
Proof. strictly. now apply agree_int_rdiv_fp. Qed.
Lemma strict_saturating_rmul : forall b b' L P x y m, strict b -> valid b L P -> valid b' L P ->
  unless_panic (saturating_rmul b L P x y m) (saturating_rmul b' L P x y m).
Proof. strictly. now apply agree_saturating_rmul. Qed.
Lemma strict_recip : forall b b' L P x m, strict b -> valid b L P -> valid b' L P -> unless_panic (recip b L P x m) (recip b' L P x m).
Proof. strictly. now apply agree_recip. Qed.
Lemma strict_half_sum : forall b b' L x y m, strict b -> unless_panic (half_sum b L x y m) (half_sum b' L x y m).
Proof. strictly. now apply agree_half_sum. Qed.
Lemma strict_integral : forall b b' L P x m, strict b -> valid b L P -> valid b' L P -> unless_panic (integral b L P x m) (integral b' L P x m).
Proof. strictly. Qed.
Lemma strict_int_part : forall b b' L P x m, strict b -> valid b L P -> valid b' L P -> unless_panic (int_part b L P x m) (int_part b' L P x m).
Proof. strictly. now apply agree_int_part. Qed.
Lemma strict_from_decimal : forall b b' L P x e, strict b -> unless_panic (from_decimal b L P x e) (from_decimal b' L P x e).
Proof. strictly. Qed.
Lemma strict_to_decimal : forall b b' L P x e, strict b -> unless_panic (to_decimal b L P x e) (to_decimal b' L P x e).
Proof. strictly. now apply agree_to_decimal. Qed.
Lemma strict_npt : forall b b' L x, strict b -> unless_panic (next_power_of_ten b L x) (next_power_of_ten b' L x).
Proof. strictly. now apply agree_npt. Qed.
Lemma strict_to_string : forall b b' L P x, strict b -> f128 b = f128 b' -> valid b L P -> valid b' L P ->
  unless_panic (to_string b L P x) (to_string b' L P x).
Proof. strictly. now apply agree_to_string. Qed.
Lemma strict_try_from_f64 : forall b b' L P raw, strict b -> unless_panic (try_from_f64 b L P raw) (try_from_f64 b' L P raw).
Proof. strictly. now apply agree_try_from_f64. Qed.
Lemma strict_fixnum_const : forall b b' L P s, strict b -> f128 b = f128 b' -> unless_panic (fixnum_const b L P s) (fixnum_const b' L P s).
Proof. strictly. now apply agree_fixnum_const. Qed.
Lemma strict_serialize : forall b b' L P x h w, strict b -> f128 b = f128 b' -> valid b L P -> valid b' L P ->
  unless_panic (serialize b L P x h w) (serialize b' L P x h w).
Proof. strictly. now apply agree_serialize. Qed.
Lemma strict_deserialize : forall b b' L P q h tok, strict b -> valid b L P -> valid b' L P ->
  unless_panic (deserialize b L P q h tok) (deserialize b' L P q h tok).
Proof. strictly. now apply agree_deserialize. Qed.

Lemma same_rmul : forall b b' L P x y m, same_profile b b' -> valid b L P -> valid b' L P -> rmul b L P x y m = rmul b' L P x y m.
Proof. samely. Qed.
Lemma same_rdiv : forall b b' L P x y m, same_profile b b' -> valid b L P -> valid b' L P -> rdiv b L P x y m = rdiv b' L P x y m.
Proof. samely. Qed.
Lemma same_int_rdiv : forall b b' t x y m, same_profile b b' -> int_rdiv b t x y m = int_rdiv b' t x y m.
Proof. samely. Qed.
Lemma same_int_rdiv_fp : forall b b' L P x y m, same_profile b b' -> valid b L P -> valid b' L P ->
  int_rdiv_fp b L P x y m = int_rdiv_fp b' L P x y m.
Proof. samely. now apply agree_int_rdiv_fp. Qed.
Lemma same_saturating_rmul : forall b b' L P x y m, same_profile b b' -> valid b L P -> valid b' L P ->
  saturating_rmul b L P x y m = saturating_rmul b' L P x y m.
Proof. samely. now apply agree_saturating_rmul. Qed.
Lemma same_recip : forall b b' L P x m, same_profile b b' -> valid b L P -> valid b' L P -> recip b L P x m = recip b' L P x m.
Proof. samely. now apply agree_recip. Qed.
Lemma same_integral : forall b b' L P x m, same_profile b b' -> valid b L P -> valid b' L P -> integral b L P x m = integral b' L P x m.
Proof. samely. Qed.
Lemma same_int_part : forall b b' L P x m, same_profile b b' -> valid b L P -> valid b' L P -> int_part b L P x m = int_part b' L P x m.
Proof. samely. now apply agree_int_part. Qed.
Lemma same_from_decimal : forall b b' L P x e, same_profile b b' -> from_decimal b L P x e = from_decimal b' L P x e.
Proof. samely. Qed.
Lemma same_to_string : forall b b' L P x, same_profile b b' -> f128 b = f128 b' -> valid b L P -> valid b' L P ->
  to_string b L P x = to_string b' L P x.
Proof. samely. now apply agree_to_string. Qed.
Lemma same_try_from_f64 : forall b b' L P raw, same_profile b b' -> try_from_f64 b L P raw = try_from_f64 b' L P raw.
Proof. samely. now apply agree_try_from_f64. Qed.
Lemma same_fixnum_const : forall b b' L P s, same_profile b b' -> f128 b = f128 b' -> fixnum_const b L P s = fixnum_const b' L P s.
Proof. samely. now apply agree_fixnum_const. Qed.
Lemma same_serialize : forall b b' L P x h w, same_profile b b' -> f128 b = f128 b' -> valid b L P -> valid b' L P ->
  serialize b L P x h w = serialize b' L P x h w.
Proof. samely. now apply agree_serialize. Qed.
Lemma same_deserialize : forall b b' L P q h tok, same_profile b b' -> valid b L P -> valid b' L P ->
  deserialize b L P q h tok = deserialize b' L P q h tok.
Proof. samely. now apply agree_deserialize. Qed.

(** ** Operations that are the same in every build *)
Lemma ro_ret L P m d o : rounded_or_overflow L P m d o -> o <> Panic.
Proof. intros (r & _ & [[_ ->]|[_ ->]]); discriminate. Qed.
Lemma all_rmul : forall b b' L P x y m, valid b L P -> valid b' L P -> in_range L x -> in_range L y ->
  (m = Nearest -> ~ (L = L128 /\ P = 38)) -> rmul b L P x y m = rmul b' L P x y m.
Proof.
  intros b b' L P x y m V V' Hx Hy G.
  apply (never_panics _ (fun b => rmul b L P x y m) (fun b => valid b L P)); try assumption.
  - intros. now apply strict_rmul.
  - intros ?. apply checked_valid.
  - intros b0 V0. destruct m.
    + eapply ro_ret, rmul_directed; try eassumption. discriminate.
    + eapply ro_ret, rmul_nearest; try eassumption. now apply G.
    + eapply ro_ret, rmul_directed; try eassumption. discriminate.
Qed.
Lemma all_rdiv : forall b b' L P x y m, valid b L P -> valid b' L P -> in_range L x -> in_range L y ->
  (m = Nearest -> y <> 0 -> Z.rem (x * 10 ^ P) y <> 0 -> 2 * Z.abs (Z.rem (x * 10 ^ P) y) <= hi L /\ y <> lo L) ->
  rdiv b L P x y m = rdiv b' L P x y m.
Proof.
  intros b b' L P x y m V V' Hx Hy G. destruct (Z.eq_dec y 0) as [->|Hy0]; [reflexivity|].
  apply (never_panics _ (fun b => rdiv b L P x y m) (fun b => valid b L P)); try assumption.
  - intros. now apply strict_rdiv.
  - intros ?. apply checked_valid.
  - intros b0 V0. destruct m.
    + eapply ro_ret, rdiv_directed; try eassumption. discriminate.
    + eapply ro_ret, rdiv_nearest_ok; try eassumption. intros. now apply G.
    + eapply ro_ret, rdiv_directed; try eassumption. discriminate.
Qed.
Lemma all_rdiv_int : forall b b' L x n m, in_range L x -> in_range L n ->
  (m = Nearest -> n <> 0 -> Z.rem x n <> 0 -> 2 * Z.abs (Z.rem x n) <= hi L /\ n <> lo L) ->
  rdiv_int b L x n m = rdiv_int b' L x n m.
Proof.
  intros b b' L x n m Hx Hn G. destruct (Z.eq_dec n 0) as [->|Hn0]; [reflexivity|].
  destruct (Z.eq_dec x (lo L)) as [->|Hl]; [destruct (Z.eq_dec n (-1)) as [->|Hn1]; [destruct L; reflexivity|]|].
  all: apply (never_panics _ (fun b => rdiv_int b L _ n m) (fun b => True)); trivial;
    [intros; now apply strict_int_rdiv|]; intros b0 _; eapply (ro_ret L 0), rdiv_int_rounded; try assumption; try lia; auto.
Qed.
Lemma all_half_sum : forall b b' L x y m, in_range L x -> in_range L y -> half_sum b L x y m = half_sum b' L x y m.
Proof.
  intros b b' L x y m Hx Hy. apply (never_panics _ (fun b => half_sum b L x y m) (fun b => True)); trivial.
  - intros. now apply strict_half_sum.
  - intros b0 _. destruct (half_sum_total b0 L x y m Hx Hy) as (r & -> & _). discriminate.
Qed.
Lemma all_integral : forall b b' L P x m, valid b L P -> valid b' L P -> in_range L x -> x <> lo L ->
  (m = Nearest -> ~ (L = L128 /\ P = 38)) -> integral b L P x m = integral b' L P x m.
Proof.
  intros b b' L P x m V V' Hx Hl G.
  apply (never_panics _ (fun b => integral b L P x m) (fun b => valid b L P)); try assumption.
  - intros. now apply strict_integral.
  - intros ?. apply checked_valid.
  - intros b0 V0. destruct (integral_rounded b0 L P x m V0 Hx Hl G) as (i & -> & _). discriminate.
Qed.
Lemma all_from_decimal : forall b b' L P x e, valid b L P -> valid b' L P -> 10 ^ (e + P) <= hi L ->
  from_decimal b L P x e = from_decimal b' L P x e.
Proof.
  intros b b' L P x e V V' G.
  apply (never_panics _ (fun b => from_decimal b L P x e) (fun b => valid b L P)); try assumption.
  - intros. now apply strict_from_decimal.
  - intros ?. apply checked_valid.
  - intros b0 V0. assert (- P <= e <= 10 \/ ~ (- P <= e <= 10)) as [He|He] by lia.
    + destruct (from_decimal_spec b0 L P x e V0 He G) as [(r & _ & ->)|[_ ->]]; discriminate.
    + rewrite from_decimal_bad by assumption. discriminate.
Qed.
Lemma all_int_part : forall b b' L P x m, valid b L P -> valid b' L P -> in_range L x -> x <> lo L ->
  (m = Nearest -> ~ (L = L128 /\ P = 38)) -> int_part b L P x m = int_part b' L P x m.
Proof.
  intros b b' L P x m V V' Hx Hl G. unfold int_part. rewrite (all_integral b b') by assumption.
  destruct (integral b' L P x m); cbn [bind]; try reflexivity.
  rewrite (all_from_decimal b b') by (try assumption; apply V). reflexivity.
Qed.
Lemma all_npt : forall b b' L x, in_range L x -> next_power_of_ten b L x = next_power_of_ten b' L x.
Proof.
  intros b b' L x Hx. apply (never_panics _ (fun b => next_power_of_ten b L x) (fun b => True)); trivial.
  - intros. now apply strict_npt.
  - intros b0 _. destruct (Z.lt_trichotomy x 0) as [H|[->|H]].
    + destruct (Z.eq_dec x (lo L)) as [->|Hl]; [rewrite npt_min; discriminate|].
      destruct (npt_neg_spec b0 L x Hx H Hl) as [(v & _ & ->)|[_ ->]]; discriminate.
    + rewrite npt_zero; discriminate.
    + destruct (npt_pos_spec b0 L x Hx H) as (k & _ & _ & _ & [[_ ->]|[_ ->]]); discriminate.
Qed.
Lemma all_to_decimal : forall b b' L P x k, valid b L P -> valid b' L P -> in_range L x -> fits I32 k ->
  to_decimal b L P x k = to_decimal b' L P x k.
Proof.
  intros b b' L P x k V V' Hx Hk. destruct (Z_lt_le_dec k (- P)) as [H|H]; [now rewrite !to_decimal_panic|].
  apply (never_panics _ (fun b => to_decimal b L P x k) (fun b => valid b L P)); try assumption.
  - intros. now apply strict_to_decimal.
  - intros ?. apply checked_valid.
  - intros b0 V0. destruct (to_decimal_spec b0 L P x k V0 Hx Hk H) as (a & e & -> & _). discriminate.
Qed.
Lemma all_rsqrt : forall b b' L P x m, valid b L P -> valid b' L P -> in_range L x -> rsqrt b L P x m = rsqrt b' L P x m.
Proof. intros. now apply rsqrt_wider. Qed.
Lemma all_to_string : forall b b' L P x, valid b L P -> valid b' L P -> in_range L x -> printable b L P x -> printable b' L P x ->
  to_string b L P x = to_string b' L P x.
Proof.
  intros b b' L P x V V' Hx Hp Hp'. destruct (to_string_ok b L P x V Hx Hp) as (s & -> & C & _).
  destruct (to_string_ok b' L P x V' Hx Hp') as (s' & -> & C' & _). f_equal. apply (canonical_unique _ _ _ _ C C'). reflexivity.
Qed.
