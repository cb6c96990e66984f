(** * CallFacts: exactly which calls panic. *)
From Coq Require Import QArith Qabs.
From Verif Require Import Base Promo Ops Fixed Str Float Codec Spec SpecText SpecF64 BaseFacts SimpleProofs ArithProofs RoundFacts MulDiv DecProofs OrderFacts
  StrFacts ShowFacts F64Proofs ToF64 SqrtFacts Sqrt256 F64Mono F64Faith FloatProps Refute.
From Verif Require Import SpecCalls Calls ShowMore.
From Verif Require Import Fixed.
Open Scope Z_scope.

Definition returns {A} (o : outcome A) : Prop := exists v, o = Ret v.
Lemma returns_forget A (o : outcome A) : returns o -> forget o = Ret tt.
Proof. intros [v ->]. reflexivity. Qed.
Lemma panic_forget A (o : outcome A) : o = Panic -> forget o = Panic.
Proof. intros ->. reflexivity. Qed.
Lemma undef_forget A (o : outcome A) : o = Undef -> forget o = Undef.
Proof. intros ->. reflexivity. Qed.
Lemma verdict A (o : outcome A) (p u : Prop) : (p -> o = Panic) -> (u -> o = Undef) -> p \/ u \/ returns o ->
  (forget o = Panic <-> p) /\ (forget o = Undef <-> u) /\ forget o <> NoFuel.
Proof.
  intros Hp Hu [H|[H|[v E]]].
  - pose proof (Hp H) as E. rewrite E in *. cbn. repeat split; try discriminate; try tauto. intros K. discriminate (Hu K).
  - pose proof (Hu H) as E. rewrite E in *. cbn. repeat split; try discriminate; try tauto. intros K. discriminate (Hp K).
  - rewrite E in *. cbn. repeat split; try discriminate; intros K; [discriminate (Hp K)|discriminate (Hu K)].
Qed.
Lemma ro_returns L P m d o : rounded_or_overflow L P m d o -> returns o.
Proof. intros (r & _ & [[_ E]|[_ E]]); eexists; exact E. Qed.
Lemma eo_returns L r o : exact_or_overflow L r o -> returns o.
Proof. intros [[_ E]|[_ E]]; eexists; exact E. Qed.
Lemma ex_returns (E : Type) L P d (e : E) o : exact_or L P d e o -> returns o.
Proof. intros [(r & _ & K)|[_ K]]; eexists; exact K. Qed.
Lemma in_range_dec L z : in_range L z \/ ~ in_range L z.
Proof. unfold in_range. lia. Qed.
Lemma nearest_dec (m : mode) : m = Nearest \/ m <> Nearest.
Proof. destruct m; (left; reflexivity) || (right; discriminate). Qed.
Lemma layout_dec L P : L = L128 /\ P = 38 \/ ~ (L = L128 /\ P = 38).
Proof. destruct (Z.eq_dec P 38), L; try (right; intros [? ?]; congruence). left. auto. Qed.

Lemma rmul_cases b L P x y m : valid b L P -> in_range L x -> in_range L y ->
  (ovf b = true /\ m = Nearest /\ doubling_product L P x y /\ rmul b L P x y m = Panic) \/ returns (rmul b L P x y m).
Proof.
  intros HV Hx Hy. destruct (nearest_dec m) as [->|Hm].
  2:{ right. eapply ro_returns. apply rmul_directed; assumption. }
  destruct (layout_dec L P) as [[-> ->]|HL].
  2:{ right. eapply ro_returns. apply rmul_nearest; assumption. }
  destruct (in_range_dec L128 (Z.quot (x * y) (10 ^ 38))) as [Hq|Hq].
  2:{ right. eexists. apply rmul38_overflow; assumption. }
  destruct (in_range_dec L128 (2 * Z.rem (x * y) (10 ^ 38))) as [Hr|Hr].
  { right. eapply ro_returns. apply rmul38_ok; assumption. }
  destruct (ovf b) eqn:Ho.
  - left. split; [reflexivity|]. split; [reflexivity|]. split; [split; [reflexivity|]; split; [reflexivity|]; split; assumption|].
    apply rmul38_panic; assumption.
  - right. destruct (Z.lt_trichotomy (x * y) 0) as [C|[C|C]].
    + destruct (rmul38_wrap_neg b x y HV Hx Hy Ho Hq Hr C) as (r & E & _). eexists. exact E.
    + exfalso. apply Hr. rewrite C. vm_compute. split; discriminate.
    + eapply ro_returns. apply rmul38_wrap_pos; assumption.
Qed.
Lemma rmul_panic b L P x y m : valid b L P -> in_range L x -> in_range L y -> ovf b = true /\ m = Nearest /\ doubling_product L P x y -> rmul b L P x y m = Panic.
Proof. intros HV Hx Hy (Ho & -> & -> & -> & Hq & Hr). apply rmul38_panic; assumption. Qed.

Lemma rdiv_cases b L P x y m : valid b L P -> in_range L x -> in_range L y ->
  (ovf b = true /\ m = Nearest /\ doubling (lo L) (hi L) (x * 10 ^ P) y) \/ returns (rdiv b L P x y m).
Proof.
  intros HV Hx Hy. destruct (Z.eq_dec y 0) as [->|Hy0]; [right; eexists; reflexivity|].
  destruct (nearest_dec m) as [->|Hm].
  2:{ right. eapply ro_returns. apply rdiv_directed; assumption. }
  destruct (in_range_dec L (Z.quot (x * 10 ^ P) y)) as [Hq|Hq].
  2:{ right. eexists. apply rdiv_overflow; assumption. }
  destruct (Z.eq_dec (Z.rem (x * 10 ^ P) y) 0) as [H0|H0].
  { right. eapply ro_returns. apply rdiv_nearest_ok; try assumption. intros K. congruence. }
  destruct (Z_le_gt_dec (2 * Z.abs (Z.rem (x * 10 ^ P) y)) (hi L)) as [H2|H2], (Z.eq_dec y (lo L)) as [Hl|Hl].
  2:{ right. eapply ro_returns. apply rdiv_nearest_ok; try assumption. intros _. split; assumption. }
  all: destruct (ovf b) eqn:Ho; [left; split; [reflexivity|]; split; [reflexivity|]; split; [assumption|]; split; [exact Hq|]; split; [assumption|lia]|right].
  all: eexists; apply rdiv_nearest_wrap; try assumption; lia.
Qed.
Lemma rdiv_panic b L P x y m : valid b L P -> in_range L x -> in_range L y ->
  ovf b = true /\ m = Nearest /\ doubling (lo L) (hi L) (x * 10 ^ P) y -> rdiv b L P x y m = Panic.
Proof. intros HV Hx Hy (Ho & -> & Hd & Hq & Hr & Hc). apply rdiv_nearest_panic; assumption. Qed.

Lemma quot_half n d : d <> 0 -> Z.abs d <> 1 -> 2 * Z.abs (Z.quot n d) <= Z.abs n.
Proof.
  intros H0 H1. rewrite <- (Z.quot_abs n d H0). rewrite Z.quot_div_nonneg by lia.
  apply (Z.le_trans _ (Z.abs d * (Z.abs n / Z.abs d))); [|apply Z.mul_div_le; lia].
  apply Z.mul_le_mono_nonneg_r; [apply Z.div_pos; lia|lia].
Qed.
Lemma int_rdiv_cases b t n d m : is_signed t = true -> fits t n -> fits t d ->
  ((n = imin t /\ d = -1) \/ (ovf b = true /\ m = Nearest /\ doubling (imin t) (imax t) n d)) \/ returns (int_rdiv b t n d m).
Proof.
  intros Ht Hn Hd. destruct (Z.eq_dec d 0) as [->|H0]; [right; eexists; reflexivity|].
  destruct (Z.eq_dec d (-1)) as [->|H1].
  { destruct (Z.eq_dec n (imin t)) as [->|Hm]; [left; left; split; reflexivity|]. right.
    destruct (int_rdiv_rounded b t n (-1) m Ht Hn Hd H0) as (r & _ & [[_ E]|[_ E]]); try (eexists; exact E).
    - intros [? _]. congruence.
    - intros _ K. exfalso. apply K. exact (eq_trans (Z.rem_opp_r n 1 ltac:(discriminate)) (Z.rem_1_r n)). }
  assert (~ (n = imin t /\ d = -1)) as HN by lia.
  assert (imin t <= Z.quot n d <= imax t) as HQ.
  { pose proof (signed_min t Ht) as A. pose proof (signed_max t Ht) as B. unfold fits in Hn. pose proof (abs_quot_le n d H0) as Q.
    destruct (Z.eq_dec n (imin t)) as [E|E]; [|clear - A B Hn Q E; lia].
    destruct (Z.eq_dec d 1) as [->|E1]; [rewrite Z.quot_1_r; exact Hn|].
    pose proof (quot_half n d H0 ltac:(clear - H1 E1; lia)) as Q2. clear - A B Hn Q Q2 E. lia. }
  destruct (nearest_dec m) as [->|Hm].
  2:{ right. destruct (int_rdiv_rounded b t n d m Ht Hn Hd H0 HN) as (r & _ & [[_ E]|[_ E]]); try (eexists; exact E). intros K. contradiction. }
  destruct (Z.eq_dec (Z.rem n d) 0) as [Hr|Hr].
  { right. destruct (int_rdiv_rounded b t n d Nearest Ht Hn Hd H0 HN) as (r & _ & [[_ E]|[_ E]]); try (eexists; exact E). intros _ K. contradiction. }
  assert (2 * Z.abs (Z.rem n d) <= imax t /\ d <> imin t \/ (imax t < 2 * Z.abs (Z.rem n d) \/ d = imin t)) as [C|C] by lia.
  { right. destruct (int_rdiv_rounded b t n d Nearest Ht Hn Hd H0 HN) as (r & _ & [[_ E]|[_ E]]); try (eexists; exact E). intros _ _. exact C. }
  destruct (ovf b) eqn:Ho; [left; right; repeat split; try assumption; lia|].
  right. eexists. apply int_rdiv_nearest_wrap; assumption.
Qed.
Lemma int_rdiv_panic b t n d m : is_signed t = true -> fits t n -> fits t d ->
  (n = imin t /\ d = -1) \/ (ovf b = true /\ m = Nearest /\ doubling (imin t) (imax t) n d) -> int_rdiv b t n d m = Panic.
Proof.
  intros Ht Hn Hd [[-> ->]|(Ho & -> & H0 & Hq & Hr & Hc)]; [apply int_rdiv_min; assumption|].
  apply int_rdiv_nearest_panic; try assumption. intros ->. apply Hr. exact (eq_trans (Z.rem_opp_r n 1 ltac:(discriminate)) (Z.rem_1_r n)).
Qed.

Lemma fraction_dec L P x : doubling_fraction L P x \/ ~ doubling_fraction L P x.
Proof. unfold doubling_fraction. destruct (layout_dec L P); [|tauto]. destruct (Z_lt_dec (hi L) (2 * Z.abs (Z.rem x (10 ^ 38)))); tauto. Qed.
Lemma fraction_small b L P x : valid b L P -> ~ doubling_fraction L P x -> 2 * Z.abs (Z.rem x (10 ^ P)) <= hi L.
Proof.
  intros HV HN. destruct (layout_dec L P) as [[-> ->]|HL]; [unfold doubling_fraction in HN; apply Z.nlt_ge; tauto|].
  pose proof (loss_small b L P HV HL) as A. pose proof (pow10_pos P (proj1 (proj2 HV))) as B.
  pose proof (Z.rem_bound_abs x (10 ^ P) ltac:(lia)) as C. rewrite (Z.abs_eq (10 ^ P)) in C by lia. lia.
Qed.
(** Without overflow checks the doubled fraction wraps to a negative number: the number is truncated. *)
Lemma integral38_wrap b x : valid b L128 38 -> in_range L128 x -> x <> lo L128 -> ovf b = false ->
  hi L128 < 2 * Z.abs (Z.rem x (10 ^ 38)) -> integral b L128 38 x Nearest = Ret (Z.quot x (10 ^ 38)).
Proof.
  intros Hv Hx Hlo Ho Hr. unfold integral. rewrite COEF_ok by assumption. cbn [bind].
  pose proof (coef_bounds b L128 38 Hv) as Hc. revert Hc Hr. generalize (10 ^ 38) as c. intros c Hc Hr.
  pose proof (lo_hi L128) as LH. pose proof (hi_pos L128) as HH. unfold in_range in Hx.
  assert (forall z, lo L128 <= z <= hi L128 -> fits (lty L128) z) as F by (intros z Hz; apply fits_lty; exact Hz).
  assert (c <> 0) as Hc0 by (clear - Hc; lia).
  pose proof (abs_quot_le x c Hc0) as Aq.
  assert (Z.quot (Z.abs x) c = Z.abs (Z.quot x c)) as Eq.
  { rewrite <- (Z.abs_eq c) at 1 by (clear - Hc; lia). apply Z.quot_abs. assumption. }
  assert (Z.rem (Z.abs x) c = Z.abs (Z.rem x c)) as Er.
  { rewrite <- (Z.abs_eq c) at 1 by (clear - Hc; lia). apply Z.rem_abs. assumption. }
  rewrite div_ok by (assumption || (apply F; clear - Aq Hx Hlo LH HH; lia)). cbn [bind].
  rewrite iabs_ok by (apply F; clear - Hx Hlo LH HH; lia). cbn [bind].
  rewrite rem_ok by (assumption || (rewrite Eq; apply F; clear - Aq Hx Hlo LH HH; lia)). cbn [bind].
  rewrite Er. cbn [mode_eqb]. unfold add at 1, fit. rewrite fitsb_false, Ho; [|rewrite fits_lty; unfold in_range; clear - Hr; lia].
  cbn [bind]. replace (c <=? _) with false; [reflexivity|]. symmetry. apply Z.leb_gt.
  pose proof (Z.rem_bound_abs x c Hc0) as B. rewrite (Z.abs_eq c) in B by (clear - Hc; lia).
  set (r := Z.abs (Z.rem x c)) in *. clearbody r. clear - B Hr Hc.
  assert (hi L128 = 2 ^ 127 - 1) as E by reflexivity. rewrite E in *.
  change (lty L128) with I128. unfold wrap. cbn [is_signed width]. change (2 ^ (128 - 1)) with (2 ^ 127). 
  replace ((r + r) mod 2 ^ 128) with (r + r) by (symmetry; apply Z.mod_small; lia).
  destruct (Z.ltb_spec (r + r) (2 ^ 127)); cbn; lia.
Qed.
Lemma integral_cases b L P x m : valid b L P -> in_range L x ->
  (ovf b = true /\ (x = lo L \/ (m = Nearest /\ doubling_fraction L P x))) \/ returns (integral b L P x m).
Proof.
  intros HV Hx. destruct (Z.eq_dec x (lo L)) as [->|Hl].
  { destruct (ovf b) eqn:Ho; [left; auto|]. right. eexists. apply integral_min_wrap; assumption. }
  destruct (nearest_dec m) as [->|Hm].
  2:{ right. eexists. apply integral_val; try assumption. intros K. contradiction. }
  destruct (fraction_dec L P x) as [D|D].
  2:{ right. eexists. apply integral_val; try assumption. intros _. apply (fraction_small b); assumption. }
  destruct (ovf b) eqn:Ho; [left; auto|]. destruct D as (-> & -> & D). right. eexists. apply integral38_wrap; assumption.
Qed.
Lemma integral_panic b L P x m : valid b L P -> in_range L x ->
  ovf b = true /\ (x = lo L \/ (m = Nearest /\ doubling_fraction L P x)) -> integral b L P x m = Panic.
Proof.
  intros HV Hx [Ho [->|(-> & -> & -> & D)]]; [apply integral_min_panic; assumption|].
  destruct (Z.eq_dec x (lo L128)) as [->|N]; [apply integral_min_panic; assumption|apply integral38_panic; assumption].
Qed.

Lemma int_part_cases b L P x m : valid b L P -> in_range L x ->
  ((ovf b = true /\ (x = lo L \/ (m = Nearest /\ doubling_fraction L P x))) \/
   (x <> lo L /\ ~ (m = Nearest /\ doubling_fraction L P x) /\ no_integer L P x m)) \/ returns (int_part b L P x m).
Proof.
  intros HV Hx. destruct (Z.eq_dec x (lo L)) as [->|Hl].
  { destruct (ovf b) eqn:Ho; [left; left; auto|]. right. destruct (int_part_min_wrap b L P m HV Ho) as (r & E & _). eexists. exact E. }
  assert ((m = Nearest /\ doubling_fraction L P x) \/ ~ (m = Nearest /\ doubling_fraction L P x)) as [D|D].
  { destruct (nearest_dec m), (fraction_dec L P x); tauto. }
  { destruct (ovf b) eqn:Ho; [left; left; auto|]. right. destruct D as (-> & -> & -> & D).
    unfold int_part. rewrite integral38_wrap by assumption. cbn [bind]. rewrite from_decimal_0 by assumption. cbn [bind].
    assert (in_range L128 (Z.quot x (10 ^ 38) * 10 ^ 38)) as F.
    { unfold in_range in *. pose proof (quot_rem_facts x (10 ^ 38) ltac:(discriminate)) as (E & _ & A & B).
      pose proof (lo_hi L128) as LH. pose proof (hi_pos L128) as HH. clear - Hx E A B LH HH. lia. }
    rewrite chk_some by (apply fits_lty; exact F). eexists. reflexivity. }
  assert (m = Nearest -> 2 * Z.abs (Z.rem x (10 ^ P)) <= hi L) as G by (intros ->; apply (fraction_small b); tauto).
  destruct (integral_val b L P x m HV Hx Hl G) as [E R].
  destruct (in_range_dec L (rnd m x (10 ^ P) * 10 ^ P)) as [F|F].
  - right. unfold int_part. rewrite E. cbn [bind]. rewrite from_decimal_0 by assumption. cbn [bind].
    rewrite chk_some by (apply fits_lty; exact F). eexists. reflexivity.
  - left. right. split; [assumption|]. split; [assumption|]. exists (rnd m x (10 ^ P)). split; [|exact F].
    apply (rounds_compat m (Zq x / Zq (10 ^ P))); [symmetry; apply dec_alt, HV|]. apply rnd_rounds. pose proof (pow10_pos P (proj1 (proj2 HV))). lia.
Qed.
Lemma int_part_panic b L P x m : valid b L P -> in_range L x ->
  (ovf b = true /\ (x = lo L \/ (m = Nearest /\ doubling_fraction L P x))) \/
   (x <> lo L /\ ~ (m = Nearest /\ doubling_fraction L P x) /\ no_integer L P x m) -> int_part b L P x m = Panic.
Proof.
  intros HV Hx [H|(Hl & D & i & Hi & F)]; [unfold int_part; now rewrite integral_panic by assumption|].
  assert (m = Nearest -> 2 * Z.abs (Z.rem x (10 ^ P)) <= hi L) as G by (intros ->; apply (fraction_small b); tauto).
  destruct (integral_val b L P x m HV Hx Hl G) as [E R]. pose proof (pow10_pos P (proj1 (proj2 HV))) as PP.
  assert (i = rnd m x (10 ^ P)) as ->.
  { eapply rounds_unique; [exact Hi|]. apply (rounds_compat m (Zq x / Zq (10 ^ P))); [symmetry; apply dec_alt, HV|]. apply rnd_rounds. lia. }
  unfold int_part. rewrite E. cbn [bind]. rewrite from_decimal_0 by assumption. cbn [bind].
  rewrite chk_none by (rewrite fits_lty; exact F). reflexivity.
Qed.

(** ** Formatting *)
Lemma to_string_cases b L P x : valid b L P -> in_range L x ->
  ((ovf b = true /\ ((P = 0 /\ x = lo L) \/ long_fraction L P x)) \/ (dbg b = true /\ overrun b L P x)) \/
  (dbg b = false /\ overrun b L P x) \/ returns (to_string b L P x).
Proof.
  intros HV Hx. destruct (Z.eq_dec P 0) as [->|HP].
  - destruct (Z.eq_dec x (lo L)) as [->|Hl].
    + destruct (ovf b) eqn:Ho; [left; left; auto|].
      destruct (Z_le_gt_dec (lo L) (- 10 ^ (buffer b - 4))) as [C|C].
      * assert (overrun b L 0 (lo L)) by (right; left; auto). destruct (dbg b); auto.
      * right. right. destruct (show_min_text b L HV Ho ltac:(lia)) as (i & _ & _ & _ & E). eexists. exact E.
    + destruct (Z_le_gt_dec x (- 10 ^ (buffer b - 3))) as [C|C].
      * assert (overrun b L 0 x) by (left; auto). destruct (dbg b); auto.
      * right. right. destruct (to_string_ok b L 0 x HV Hx) as (s & E & _); [|eexists; exact E].
        split; [intros _; unfold in_range in Hx; lia|intros _ K; discriminate K].
  - destruct (layout_dec L P) as [[-> ->]|HL].
    2:{ right. right. destruct (to_string_ok b L P x HV Hx) as (s & E & _); [|eexists; exact E]. split; [intros K; contradiction|intros K1 K2; tauto]. }
    destruct (Z_lt_dec (hi L128) (Z.abs x mod 10 ^ 38 + 10 ^ 38)) as [C|C].
    2:{ right. right. destruct (to_string_ok b L128 38 x HV Hx) as (s & E & _); [|eexists; exact E]. split; [intros K; contradiction|intros _ _; lia]. }
    destruct (ovf b) eqn:Ho; [left; left; split; [reflexivity|]; right; split; auto|].
    destruct (Z_lt_dec x 0) as [Cx|Cx], (Z.eq_dec ((2 ^ 128 - Z.abs x mod 10 ^ 38) mod 10) 0) as [Cm|Cm].
    2:{ assert (overrun b L128 38 x) by (right; right; split; [split; auto|]; auto). destruct (dbg b); auto. }
    all: right; right; destruct (show_38_text b x HV Hx Ho C) as (f & _ & _ & E); [|eexists; exact E].
    + right. exact Cm.
    + left. lia.
    + left. lia.
Qed.
Lemma overrun_out b L P x : valid b L P -> in_range L x -> overrun b L P x -> to_string b L P x = if dbg b then Panic else Undef.
Proof.
  intros HV Hx [(-> & Hl & C)|[(-> & -> & Ho & C)|((-> & -> & C) & Ho & Hn & Hm)]].
  - apply show_overrun; assumption.
  - apply show_min_overrun; assumption.
  - apply show_38_overrun; assumption.
Qed.
Lemma to_string_panic b L P x : valid b L P -> in_range L x ->
  (ovf b = true /\ ((P = 0 /\ x = lo L) \/ long_fraction L P x)) \/ (dbg b = true /\ overrun b L P x) -> to_string b L P x = Panic.
Proof.
  intros HV Hx [[Ho [[-> ->]|(-> & -> & C)]]|[Hd O]]; [apply show_min; assumption|apply show_38; assumption|].
  rewrite overrun_out, Hd by assumption. reflexivity.
Qed.
Lemma to_string_undef b L P x : valid b L P -> in_range L x -> dbg b = false /\ overrun b L P x -> to_string b L P x = Undef.
Proof. intros HV Hx [Hd O]. rewrite overrun_out, Hd by assumption. reflexivity. Qed.

Lemma false_panic (o : Prop) : False -> o. Proof. tauto. Qed.

Theorem panic_map b L P c : valid b L P -> proper L c ->
  (run b L P c = Panic <-> panics b L P c) /\ (run b L P c = Undef <-> undefined b L P c) /\ run b L P c <> NoFuel.
Proof.
  intros HV Hc. destruct c; cbn [run proper panics undefined] in *.
  - destruct Hc as [Hx Hy]. apply verdict; [apply rmul_panic; assumption|tauto|]. destruct (rmul_cases b L P x y m HV Hx Hy) as [H|H]; tauto.
  - destruct Hc as [Hx Hy]. apply verdict; [|tauto|].
    + intros H. unfold saturating_rmul, default_saturating_mul. now rewrite rmul_panic by assumption.
    + destruct (rmul_cases b L P x y m HV Hx Hy) as [H|[v E]]; [tauto|]. right. right.
      unfold saturating_rmul, default_saturating_mul. rewrite E. cbn [bind]. destruct v; eexists; reflexivity.
  - destruct Hc as [Hx Hy]. apply verdict; [apply rdiv_panic; assumption|tauto|]. destruct (rdiv_cases b L P x y m HV Hx Hy) as [H|H]; tauto.
  - destruct Hc as [Hx Hn]. unfold rdiv_int. rewrite <- (imin_lty L), <- (imax_lty L).
    apply verdict; [apply int_rdiv_panic|tauto|]; try apply signed_lty; try (apply fits_lty; assumption).
    destruct (int_rdiv_cases b (lty L) x n m (signed_lty L)) as [H|H]; try (apply fits_lty; assumption); tauto.
  - destruct Hc as (Ht & Hn & Hd). apply verdict; [apply int_rdiv_panic; assumption|tauto|]. destruct (int_rdiv_cases b t n d m Ht Hn Hd) as [H|H]; tauto.
  - destruct Hc as [Hn Hx]. rewrite int_rdiv_fp_val by assumption. destruct (in_range_dec L (n * 10 ^ P)) as [R|R].
    + rewrite fitsb_true by (apply fits_lty; exact R). apply verdict; [|tauto|].
      * intros (_ & H). apply rdiv_panic; assumption.
      * destruct (rdiv_cases b L P (n * 10 ^ P) x m HV R Hx) as [H|H]; tauto.
    + rewrite fitsb_false by (rewrite fits_lty; exact R). apply verdict; [tauto|tauto|]. right. right. eexists. reflexivity.
  - assert (recip b L P x m = rdiv b L P (10 ^ P) x m) as -> by (unfold recip, ONE; now rewrite COEF_ok by assumption).
    assert (in_range L (10 ^ P)) as R by (pose proof (coef_bounds b L P HV); pose proof (lo_hi L); unfold in_range; lia).
    apply verdict; [apply rdiv_panic; assumption|tauto|]. destruct (rdiv_cases b L P (10 ^ P) x m HV R Hc) as [H|H]; tauto.
  - destruct Hc as [Hx Hy]. apply verdict; [tauto|tauto|]. right. right. destruct (half_sum_total b L x y m Hx Hy) as (r & E & _). eexists. exact E.
  - apply verdict; [tauto|tauto|]. right. right. destruct (Z_lt_dec x 0); [eexists; apply rsqrt_neg; assumption|eexists; apply rsqrt_val; (assumption || lia)].
  - apply verdict; [tauto|tauto|]. right. right. destruct (Z.lt_trichotomy x 0) as [C|[->|C]].
    + destruct (Z.eq_dec x (lo L)) as [->|N]; [eexists; apply npt_min|].
      destruct (npt_neg_spec b L x Hc C N) as [(v & _ & E)|[_ E]]; eexists; exact E.
    + eexists. apply npt_zero.
    + destruct (npt_pos_spec b L x Hc C) as (k & _ & _ & _ & E). eapply eo_returns. exact E.
  - apply verdict; [apply integral_panic; assumption|tauto|]. destruct (integral_cases b L P x m HV Hc) as [H|H]; tauto.
  - replace (match m with Ceil => ceil b L P x | Nearest => round b L P x | Floor => floor b L P x end) with (int_part b L P x m) by (destruct m; reflexivity).
    apply verdict; [apply int_part_panic; assumption|tauto|]. destruct (int_part_cases b L P x m HV Hc) as [H|H]; tauto.
  - apply verdict; [|tauto|].
    + intros (Ho & He & Hh). apply from_decimal_panic; assumption.
    + assert (- P <= e <= 10 \/ ~ - P <= e <= 10) as [He|He] by lia; [|right; right; eexists; apply from_decimal_bad; assumption].
      destruct (Z_lt_dec (hi L) (10 ^ (e + P))) as [C|C].
      * destruct (ovf b) eqn:Ho; [left; auto|]. right. right. destruct (from_decimal_wrap b L P n e HV He C Ho) as (k & _ & [[_ E]|[_ E]]); eexists; exact E.
      * right. right. eapply ex_returns. apply from_decimal_spec; try assumption. lia.
  - destruct Hc as [Hx Hk]. apply verdict; [intros H; apply to_decimal_panic; assumption|tauto|].
    destruct (Z_lt_dec k (- P)) as [C|C]; [tauto|]. right. right.
    destruct (to_decimal_spec b L P x k HV Hx Hk ltac:(lia)) as (m & e & E & _). eexists. exact E.
  - apply verdict; [tauto|tauto|]. right. right. eapply ex_returns. apply try_from_int_spec. assumption.
  - apply verdict; [tauto|tauto|]. right. right. destruct (parse_total b L P false s HV) as [[v E]|E]; eexists; exact E.
  - apply verdict; [tauto|tauto|]. right. right. destruct (parse_total b L P true s HV) as [[v E]|E]; eexists; exact E.
  - apply verdict; [apply to_string_panic; assumption|apply to_string_undef; assumption|]. apply to_string_cases; assumption.
  - assert (forget (serialize b L P x true false) = forget (to_string b L P x)) as -> by (unfold serialize, str_serialize, forget, to_string; destruct (stringify b L P x); reflexivity).
    apply verdict; [apply to_string_panic; assumption|apply to_string_undef; assumption|]. apply to_string_cases; assumption.
  - apply verdict; [tauto|tauto|]. right. right. destruct (total b L P raw HV Hc) as [E|(v & E & _)]; eexists; exact E.
  - apply verdict; [tauto|tauto|]. right. right. destruct (to_f64_sums b L P x HV Hc) as (f & E & _). eexists. exact E.
Qed.
