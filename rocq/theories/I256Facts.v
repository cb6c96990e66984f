(** * I256Facts: signed 256-bit arithmetic, and the promotion of i128. *)
From Verif Require Import Base Sqrt U256 I256 Promo Fixed Spec BaseFacts ArithProofs WordFacts DivWord ShiftFacts KnuthFacts.
Ltac Zify.zify_post_hook ::= idtac.

(** Half of the range: a word is "negative" from [S63] on, a 256-bit integer from [H255] on. *)
Definition S63 : Z := 2 ^ 63.
Definition H255 : Z := 2 ^ 255.
Lemma S63_B : 2 * S63 = B. Proof. reflexivity. Qed.
Lemma H255_Bp : 2 * H255 = Bp 4. Proof. reflexivity. Qed.
Lemma H255_S63 : H255 = Bp 3 * S63. Proof. reflexivity. Qed.
Lemma H255_pos : 0 < H255. Proof. reflexivity. Qed.

(** The two's complement value. *)
Definition sval (x : i256) : Z := if lval x <? H255 then lval x else lval x - Bp 4.

Lemma sign_bit w : word w -> (Z.land w SIGN_MASK =? 0) = (w <? S63).
Proof.
  intros Hw. change SIGN_MASK with (2 ^ 63). pose proof S63_B as E. unfold word in Hw.
  destruct (divmod_ex w S63 ltac:(reflexivity)) as (q & r & D & M & Ew & Hr).
  assert (Z.testbit w 63 = negb (w <? S63)) as T.
  { destruct (Z.ltb_spec w S63) as [H|H]; cbn [negb].
    - apply Z.testbit_false; [lia|]. change (2 ^ 63) with S63. rewrite Z.div_small by lia. reflexivity.
    - apply Z.testbit_true; [lia|]. change (2 ^ 63) with S63. rewrite D. assert (q = 1) as -> by nia. reflexivity. }
  destruct (Z.ltb_spec w S63) as [H|H]; cbn [negb] in T.
  - apply Z.eqb_eq. apply Z.bits_inj'. intros n Hn. rewrite Z.land_spec, Z.bits_0, Z.pow2_bits_eqb by lia.
    destruct (Z.eqb_spec 63 n) as [<-|]; [rewrite T; reflexivity|apply andb_false_r].
  - apply Z.eqb_neq. intros Z0. assert (Z.testbit (Z.land w (2 ^ 63)) 63 = true) as T2.
    { rewrite Z.land_spec, T, Z.pow2_bits_eqb by lia. reflexivity. }
    rewrite Z0 in T2. discriminate.
Qed.

Lemma is_negative_spec x : wf 4 x -> is_negative x = Ret (negb (lval x <? H255)).
Proof.
  intros [Lx Fx]. unfold is_negative. rewrite (idx_ok x 3 0) by lia. cbn [bind].
  rewrite sign_bit by (apply nth_word; assumption). f_equal. f_equal.
  pose proof (lval_split 3 x ltac:(lia)) as E. rewrite (lval_skip 3 x ltac:(lia)) in E.
  rewrite (skipn_all2 x) in E by lia. cbn [lval] in E.
  pose proof (firstn_bound 3 x Fx ltac:(lia)) as FB. rewrite H255_S63.
  pose proof (Bp_pos 3). clear Fx Lx. generalize dependent (nth 3 x 0). intros w E.
  destruct (Z.ltb_spec w S63), (Z.ltb_spec (lval x) (Bp 3 * S63)); try reflexivity; nia.
Qed.

Lemma sval_sign x : wf 4 x -> (lval x <? H255) = (0 <=? sval x).
Proof.
  intros Hx. pose proof (wf_bound _ _ Hx). unfold sval. pose proof H255_Bp.
  destruct (Z.ltb_spec (lval x) H255); lia.
Qed.
Lemma sval_range x : wf 4 x -> - H255 <= sval x < H255.
Proof.
  intros Hx. pose proof (wf_bound _ _ Hx). unfold sval. pose proof H255_Bp.
  destruct (Z.ltb_spec (lval x) H255); lia.
Qed.
(** A residue in range is the value. *)
Lemma sval_mod x a : wf 4 x -> - H255 <= a < H255 -> lval x = a mod Bp 4 -> sval x = a.
Proof.
  intros Hx Ha E. unfold sval. pose proof H255_Bp. pose proof H255_pos.
  destruct (Z_lt_le_dec a 0) as [Hn|Hp].
  - assert (a mod Bp 4 = a + Bp 4) as E2.
    { symmetry. apply (Z.mod_unique_pos a (Bp 4) (-1)); lia. }
    rewrite E2 in E. replace (lval x <? H255) with false by lia. lia.
  - rewrite Z.mod_small in E by lia. replace (lval x <? H255) with true by lia. assumption.
Qed.
Lemma lval_sval x : wf 4 x -> lval x = sval x mod Bp 4.
Proof.
  intros Hx. pose proof (wf_bound _ _ Hx). unfold sval. destruct (lval x <? H255).
  - symmetry. apply Z.mod_small. lia.
  - apply (Z.mod_unique_pos _ (Bp 4) (-1)); lia.
Qed.
Lemma sval_nonneg x : wf 4 x -> 0 <= sval x -> lval x = sval x.
Proof. intros Hx H. pose proof (wf_bound _ _ Hx). unfold sval in *. destruct (Z.ltb_spec (lval x) H255); lia. Qed.
Lemma sval_small x : wf 4 x -> lval x < H255 -> sval x = lval x.
Proof. intros Hx H. unfold sval. replace (lval x <? H255) with true by lia. reflexivity. Qed.

(** ** Representation *)
Definition R256 (x : i256) (a : Z) : Prop := wf 4 x /\ sval x = a /\ Z.abs a < H255.

Lemma lval_from_i128 x : - 2 ^ 127 <= x < 2 ^ 127 -> wf 4 (from_i128 x) /\ sval (from_i128 x) = x.
Proof.
  intros Hx. pose proof B_pos as HB. unfold from_i128. change (2 ^ 64) with B.
  rewrite !wrap_u64. change 18446744073709551615 with (B - 1).
  destruct (divmod_ex x B HB) as (q & r & -> & -> & E & Hr). change (2 ^ 127) with (B * S63) in Hx.
  pose proof S63_B as SB. assert (- S63 <= q < S63) as Hq by (clear - E Hr Hx HB; nia).
  assert (r mod B = r) as _ by (apply Z.mod_small; lia).
  destruct (Z.ltb_spec x 0) as [Hn|Hp].
  - assert (q < 0) as Hq0 by (clear - E Hr Hn HB; nia).
    assert (q mod B = q + B) as -> by (symmetry; apply (Z.mod_unique_pos q B (-1)); lia).
    assert (wf 4 [r; q + B; B - 1; B - 1]) as W by (apply wf4; unfold word; lia).
    split; [exact W|]. apply sval_mod; [exact W|change H255 with (B * S63 * (B * B)); nia|].
    rewrite lval4, E. change (Bp 4) with (B * B * B * B).
    apply (Z.mod_unique_pos _ _ (-1)); [nia|ring].
  - assert (0 <= q) as Hq0 by (clear - E Hr Hp HB; nia).
    rewrite Z.mod_small by lia.
    assert (wf 4 [r; q; 0; 0]) as W by (apply wf4; unfold word; lia).
    split; [exact W|]. apply sval_mod; [exact W|change H255 with (B * S63 * (B * B)); nia|].
    rewrite lval4, E. change (Bp 4) with (B * B * B * B).
    rewrite Z.mod_small by nia. ring.
Qed.

Lemma not_spec x : Forall word x -> wf (length x) (u256_not x) /\ lval (u256_not x) = Bp (length x) - 1 - lval x.
Proof.
  intros Hx. induction Hx as [|w l Hw Hl [[L F] IH]].
  - cbn. split; [split; [reflexivity|constructor]|reflexivity].
  - cbn [u256_not map]. assert (wrap U64 (Z.lnot w) = B - 1 - w) as Ew.
    { rewrite wrap_u64. unfold word in Hw. unfold Z.lnot. symmetry.
      apply (Z.mod_unique_pos _ B (-1)); lia. }
    rewrite Ew. fold (u256_not l). split; [split|].
    + cbn [length]. congruence.
    + constructor; [unfold word in *; lia|assumption].
    + cbn [length lval]. rewrite Bp_S, IH. ring.
Qed.

Lemma words_eqb_eq x y : words_eqb x y = true <-> x = y.
Proof.
  revert y. induction x as [|a x IH]; intros [|c y]; cbn [words_eqb]; try (split; congruence).
  rewrite andb_true_iff, Z.eqb_eq, IH. split; [intros [-> ->]; reflexivity|].
  intros H. injection H as -> ->. auto.
Qed.

Lemma neg_spec b x : wf 4 x -> sval x <> - H255 ->
  exists z, i256_neg b x = Ret z /\ wf 4 z /\ sval z = - sval x.
Proof.
  intros Hx Hne. pose proof (sval_range x Hx) as Rg. unfold i256_neg.
  assert (words_eqb x I256_MIN = false) as ->.
  { apply not_true_is_false. intros H. apply words_eqb_eq in H. subst x. apply Hne. reflexivity. }
  rewrite dassert_ok by reflexivity. cbn [bind]. eexists. split; [reflexivity|].
  pose proof Hx as [Lx Fx]. destruct (not_spec x Fx) as [Wn En]. rewrite Lx in Wn, En.
  destruct (lval_from_i128 1 ltac:(split; [discriminate|reflexivity])) as [W1 _].
  destruct (add_mod (u256_not x) I256_ONE Wn W1) as [W E]. split; [exact W|].
  apply sval_mod; [exact W|lia|]. rewrite E, En. change (lval I256_ONE) with 1.
  rewrite (lval_sval x Hx). replace (Bp 4 - 1 - sval x mod Bp 4 + 1) with (- (sval x mod Bp 4) + 1 * Bp 4) by ring.
  rewrite Z.mod_add by (pose proof (Bp_pos 4); lia).
  rewrite <- (Z.sub_0_l (sval x mod Bp 4)), Zminus_mod_idemp_r. reflexivity.
Qed.

(** The operand's magnitude. *)
Lemma abs_step b x a : R256 x a -> exists z,
  (if negb (lval x <? H255) then i256_neg b x else Ret x) = Ret z /\ wf 4 z /\ lval z = Z.abs a.
Proof.
  intros (Hx & E & Hb). rewrite (sval_sign x Hx), E. destruct (Z.leb_spec 0 a) as [H|H]; cbn [negb].
  - exists x. split; [reflexivity|]. split; [assumption|]. rewrite sval_nonneg by (try assumption; lia). lia.
  - destruct (neg_spec b x Hx ltac:(lia)) as (z & Ez & Wz & Vz). exists z. split; [exact Ez|].
    split; [assumption|]. rewrite sval_nonneg by (try assumption; lia). lia.
Qed.

(** Attaching the sign of the result. *)
Lemma sign_step b r (nx ny : bool) a : wf 4 r -> lval r = Z.abs a -> Z.abs a < H255 ->
  (nx = ny -> 0 <= a) -> (nx <> ny -> a <= 0) ->
  exists z, (if Bool.eqb nx ny then Ret r else i256_neg b r) = Ret z /\ R256 z a.
Proof.
  intros Wr Er Hb H1 H2. assert (sval r = Z.abs a) as Sr by (rewrite sval_small; [assumption|assumption|lia]).
  destruct (Bool.eqb_spec nx ny) as [E|E].
  - exists r. split; [reflexivity|]. specialize (H1 E). split; [assumption|]. split; lia.
  - specialize (H2 E). destruct (neg_spec b r Wr ltac:(lia)) as (z & Ez & Wz & Vz). exists z.
    split; [assumption|]. split; [assumption|]. split; lia.
Qed.

Lemma i256_mul_spec b x y a c : R256 x a -> R256 y c -> Z.abs (a * c) < H255 ->
  exists z, i256_mul b x y = Ret z /\ R256 z (a * c).
Proof.
  intros Hx Hy Hb. unfold i256_mul. pose proof (proj1 Hx) as Wx. pose proof (proj1 Hy) as Wy.
  rewrite (is_negative_spec x Wx), (is_negative_spec y Wy). cbn [bind].
  destruct (abs_step b x a Hx) as (x' & -> & Wx' & Ex). cbn [bind].
  destruct (abs_step b y c Hy) as (y' & -> & Wy' & Ey). cbn [bind].
  destruct (u256_mul_spec b x' y' Wx' Wy') as (r & -> & Wr & Er).
  { rewrite Ex, Ey, <- Z.abs_mul. pose proof H255_Bp. pose proof H255_pos. lia. }
  cbn [bind]. apply sign_step; [assumption| |assumption| |].
  - rewrite Er, Ex, Ey. symmetry. apply Z.abs_mul.
  - rewrite !sval_sign by assumption. destruct Hx as (_ & -> & _), Hy as (_ & -> & _).
    destruct (Z.leb_spec 0 a), (Z.leb_spec 0 c); cbn [negb]; intros E; try discriminate; nia.
  - rewrite !sval_sign by assumption. destruct Hx as (_ & -> & _), Hy as (_ & -> & _).
    destruct (Z.leb_spec 0 a), (Z.leb_spec 0 c); cbn [negb]; intros E; try congruence; nia.
Qed.

Lemma abs_quot a c : c <> 0 -> Z.abs (Z.quot a c) = Z.abs a / Z.abs c.
Proof.
  intros H. rewrite <- Z.quot_abs by assumption. apply Z.quot_div_nonneg; lia.
Qed.

Lemma i256_div_spec b x y a c : R256 x a -> R256 y c -> c <> 0 ->
  exists z, i256_div b x y = Ret z /\ R256 z (Z.quot a c).
Proof.
  intros Hx Hy Hc. unfold i256_div. pose proof (proj1 Hx) as Wx. pose proof (proj1 Hy) as Wy.
  rewrite (is_negative_spec x Wx), (is_negative_spec y Wy). cbn [bind].
  destruct (abs_step b x a Hx) as (x' & -> & Wx' & Ex). cbn [bind].
  destruct (abs_step b y c Hy) as (y' & -> & Wy' & Ey). cbn [bind].
  destruct (u256_div_spec b x' y' Wx' Wy' ltac:(lia)) as (r & -> & Wr & Er). cbn [bind].
  pose proof (abs_quot_le a c Hc) as Hle. destruct Hx as (_ & Sx & Bx). destruct Hy as (_ & Sy & By).
  apply sign_step; [assumption| |lia| |].
  - rewrite Er, Ex, Ey, abs_quot by assumption. reflexivity.
  - rewrite !sval_sign by assumption. rewrite Sx, Sy.
    destruct (Z.leb_spec 0 a), (Z.leb_spec 0 c); cbn [negb]; intros E; try discriminate.
    + apply Z.quot_pos; lia.
    + rewrite <- Z.quot_opp_opp by lia. apply Z.quot_pos; lia.
  - rewrite !sval_sign by assumption. rewrite Sx, Sy.
    destruct (Z.leb_spec 0 a), (Z.leb_spec 0 c); cbn [negb]; intros E; try congruence.
    + assert (Z.quot a c = - Z.quot a (- c)) as -> by (rewrite Z.quot_opp_r by lia; lia).
      pose proof (Z.quot_pos a (- c) ltac:(lia) ltac:(lia)). lia.
    + assert (Z.quot a c = - Z.quot (- a) c) as -> by (rewrite Z.quot_opp_l by lia; lia).
      pose proof (Z.quot_pos (- a) c ltac:(lia) ltac:(lia)). lia.
Qed.

Lemma i256_add_spec x y a c : R256 x a -> R256 y c -> Z.abs (a + c) < H255 -> R256 (i256_add x y) (a + c).
Proof.
  intros (Wx & Ex & _) (Wy & Ey & _) Hb. unfold i256_add. destruct (add_mod x y Wx Wy) as [W E].
  split; [exact W|]. split; [|assumption]. apply sval_mod; [exact W|lia|].
  rewrite E, (lval_sval x Wx), (lval_sval y Wy), Ex, Ey. symmetry. apply Zplus_mod.
Qed.
Lemma i256_sub_spec x y a c : R256 x a -> R256 y c -> Z.abs (a - c) < H255 -> R256 (i256_sub x y) (a - c).
Proof.
  intros (Wx & Ex & _) (Wy & Ey & _) Hb. unfold i256_sub. destruct (sub_mod x y Wx Wy) as [W E].
  split; [exact W|]. split; [|assumption]. apply sval_mod; [exact W|lia|].
  rewrite E, (lval_sval x Wx), (lval_sval y Wy), Ex, Ey. symmetry. apply Zminus_mod.
Qed.

(** ** Comparisons *)
Lemma lex_cmp_app x y a c : length x = length y ->
  lex_cmp (x ++ [a]) (y ++ [c]) = match lex_cmp x y with Eq => a ?= c | r => r end.
Proof.
  revert y. induction x as [|d x IH]; intros [|e y] H; cbn [length] in H; try discriminate.
  - cbn. destruct (a ?= c); reflexivity.
  - cbn [app lex_cmp]. rewrite IH by lia. destruct (d ?= e); reflexivity.
Qed.
Lemma lex_rev x y : Forall word x -> Forall word y -> length x = length y ->
  lex_cmp (rev x) (rev y) = (lval x ?= lval y).
Proof.
  intros Hx. revert y. induction Hx as [|a x Ha Hx IH]; intros y Hy HL.
  - destruct y; [reflexivity|discriminate].
  - destruct Hy as [|c y Hc Hy]; [discriminate|]. cbn [rev].
    rewrite lex_cmp_app by (rewrite !rev_length; cbn [length] in HL; lia).
    cbn [length] in HL. rewrite IH by (try assumption; lia). cbn [lval]. unfold word in *.
    destruct (Z.compare_spec (lval x) (lval y)) as [E|E|E].
    + rewrite E. destruct (Z.compare_spec a c), (Z.compare_spec (a + B * lval y) (c + B * lval y)); try reflexivity; lia.
    + symmetry. apply Z.compare_lt_iff. nia.
    + symmetry. apply Z.compare_gt_iff. nia.
Qed.
Lemma u256_cmp_spec x y : wf 4 x -> wf 4 y -> u256_cmp x y = (lval x ?= lval y).
Proof. intros [Lx Fx] [Ly Fy]. apply lex_rev; congruence || assumption. Qed.

Lemma i256_cmp_spec x y : wf 4 x -> wf 4 y -> i256_cmp x y = Ret (sval x ?= sval y).
Proof.
  intros Wx Wy. unfold i256_cmp. rewrite (is_negative_spec x Wx), (is_negative_spec y Wy). cbn [bind].
  rewrite (u256_cmp_spec x y Wx Wy). pose proof (wf_bound _ _ Wx) as Bx. pose proof (wf_bound _ _ Wy) as By.
  pose proof H255_Bp. unfold sval.
  destruct (Z.ltb_spec (lval x) H255), (Z.ltb_spec (lval y) H255); cbn [negb]; f_equal; symmetry.
  - apply Z.compare_gt_iff. lia.
  - apply Z.compare_lt_iff. lia.
  - destruct (Z.compare_spec (lval x) (lval y)); [apply Z.compare_eq_iff|apply Z.compare_lt_iff|apply Z.compare_gt_iff]; lia.
Qed.

Lemma i256_eq_spec x y a c : R256 x a -> R256 y c -> words_eqb x y = (a =? c).
Proof.
  intros (Wx & Ex & _) (Wy & Ey & _).
  destruct (Z.eqb_spec a c) as [E|E].
  - apply words_eqb_eq. destruct Wx as [Lx Fx], Wy as [Ly Fy]. apply lval_inj; try assumption; [congruence|].
    rewrite (lval_sval x (conj Lx Fx)), (lval_sval y (conj Ly Fy)). congruence.
  - apply not_true_is_false. intros H. apply words_eqb_eq in H. congruence.
Qed.

(** ** Back to i128 *)
Lemma wrap_i128_hi w : word w -> wrap I128 (w * 2 ^ 64) = (if w <? S63 then w else w - B) * 2 ^ 64.
Proof.
  intros Hw. unfold wrap. change (is_signed I128) with true. cbv iota. change (width I128) with 128.
  change (2 ^ (128 - 1)) with (S63 * B). change (2 ^ 128) with (B * B). change (2 ^ 64) with B.
  pose proof S63_B as E. pose proof B_pos as HB. unfold word in Hw.
  destruct (Z.ltb_spec w S63).
  - rewrite Z.mod_small by nia. ring.
  - assert ((w * B + S63 * B) mod (B * B) = (w - B) * B + S63 * B) as ->; [|ring].
    symmetry. apply (Z.mod_unique_pos _ (B * B) 1); nia.
Qed.

(** The two low words of an integer that fits in 128 bits. *)
Lemma low_words w0 w1 w2 w3 a : wf 4 [w0; w1; w2; w3] -> sval [w0; w1; w2; w3] = a -> - 2 ^ 127 <= a < 2 ^ 127 ->
  w0 + (if w1 <? S63 then w1 else w1 - B) * 2 ^ 64 = a.
Proof.
  intros W E Ha. destruct (lval_from_i128 a Ha) as [Wf Ef].
  assert ([w0; w1; w2; w3] = from_i128 a) as EE.
  { apply lval_inj; [apply W|apply Wf|reflexivity|]. rewrite (lval_sval _ W), (lval_sval _ Wf). congruence. }
  unfold from_i128 in EE. rewrite !wrap_u64 in EE. change (2 ^ 64) with B in *.
  injection EE as E0 E1 _ _. clear W E Wf Ef. pose proof B_pos as HB. pose proof S63_B as SB.
  destruct (divmod_ex a B HB) as (q & r & D & M & Ea & Hr). rewrite M in E0. rewrite D in E1. clear D M.
  change (2 ^ 127) with (B * S63) in Ha. assert (- S63 <= q < S63) as Hq by (clear - Ea Hr Ha HB; nia).
  subst w0. destruct (Z_lt_le_dec q 0) as [Hn|Hp].
  - assert (q mod B = q + B) as Em by (symmetry; apply (Z.mod_unique_pos q B (-1)); lia).
    rewrite Em in E1. replace (w1 <? S63) with false by lia. subst w1. rewrite Ea. ring.
  - rewrite Z.mod_small in E1 by lia. replace (w1 <? S63) with true by lia. subst w1. rewrite Ea. ring.
Qed.

Lemma i128_of_i256_spec b x a : R256 x a -> i128_of_i256 b x = Ret (chk I128 a).
Proof.
  intros (Wx & Ex & Bx). unfold i128_of_i256.
  destruct (lval_from_i128 (imax I128) ltac:(split; [discriminate|reflexivity])) as [WM EM].
  destruct (lval_from_i128 (imin I128) ltac:(split; [discriminate|reflexivity])) as [Wm Em].
  unfold I256_I128_MAX, I256_I128_MIN.
  rewrite (i256_cmp_spec _ _ Wx WM), (i256_cmp_spec _ _ Wx Wm). cbn [bind]. rewrite EM, Em, Ex.
  unfold chk, fitsb. clear WM EM Wm Em.
  assert (forall c d, match c ?= d with Gt => true | _ => false end = negb (c <=? d)) as CG.
  { intros c d. destruct (Z.compare_spec c d), (Z.leb_spec c d); try reflexivity; lia. }
  assert (forall c d, match c ?= d with Lt => true | _ => false end = negb (d <=? c)) as CL.
  { intros c d. destruct (Z.compare_spec c d), (Z.leb_spec d c); try reflexivity; lia. }
  rewrite CG, CL. destruct (Z.leb_spec a (imax I128)) as [C|C]; cbn [negb]; [|rewrite andb_false_r; reflexivity].
  destruct (Z.leb_spec (imin I128) a) as [C2|C2]; cbn [negb andb]; [|reflexivity].
  assert (- 2 ^ 127 <= a < 2 ^ 127) as Rg.
  { clear - C C2. change (imin I128) with (- 2 ^ 127) in C2. change (imax I128) with (2 ^ 127 - 1) in C. lia. }
  destruct (wf4_inv x Wx) as (w0 & w1 & w2 & w3 & -> & H0 & H1 & H2 & H3).
  change (idx [w0; w1; w2; w3] 0) with (Ret w0). change (idx [w0; w1; w2; w3] 1) with (Ret w1). cbn [bind].
  unfold shl. change ((0 <=? 64) && (64 <? width I128)) with true. cbv iota. cbn [bind].
  rewrite wrap_i128_hi by assumption. rewrite lor_hi_lo by (lia || exact H0).
  rewrite (low_words _ _ _ _ _ Wx Ex Rg). reflexivity.
Qed.

(** ** The promotion of i128 *)
Definition promo128 (b : build) : promotes b L128.
Proof.
  assert (cap L128 = H255) as EC by reflexivity.
  refine {| R := (R256 : pt (i256_promo b) -> Z -> Prop) |};
    change (promo_of b L128) with (i256_promo b); rewrite ?EC;
    cbn [i256_promo pt p_from p_mul p_div p_add p_sub p_try p_ge p_eq p_one].
  - intros x Hx. assert (- 2 ^ 127 <= x < 2 ^ 127) as Hb.
    { unfold fits in Hx. change (imin (lty L128)) with (- 2 ^ 127) in Hx.
      change (imax (lty L128)) with (2 ^ 127 - 1) in Hx. lia. }
    destruct (lval_from_i128 x Hb) as [W E]. split; [exact W|]. split; [exact E|].
    assert (2 ^ 127 < H255) by reflexivity. lia.
  - intros x y a c Hx Hy Hb. apply i256_mul_spec; assumption.
  - intros x y a c Hx Hy Hc _. apply i256_div_spec; assumption.
  - intros x y a c Hx Hy Hb. eexists. split; [reflexivity|]. apply i256_add_spec; assumption.
  - intros x y a c Hx Hy Hb. eexists. split; [reflexivity|]. apply i256_sub_spec; assumption.
  - intros x a Hx. apply i128_of_i256_spec. assumption.
  - intros x y a c (Wx & Ex & _) (Wy & Ey & _). rewrite (i256_cmp_spec x y Wx Wy), Ex, Ey. cbn [bind].
    f_equal. destruct (Z.compare_spec a c), (Z.leb_spec c a); try reflexivity; lia.
  - intros x y a c Hx Hy. apply i256_eq_spec; assumption.
  - destruct (lval_from_i128 1 ltac:(split; [discriminate|reflexivity])) as [W E].
    split; [exact W|]. split; [exact E|]. reflexivity.
Defined.
