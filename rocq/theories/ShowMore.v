(** * ShowMore: formatting what does not fit, without overflow checks. *)
From Verif Require Import Base Promo Fixed Str Spec SpecText BaseFacts SimpleProofs StrFacts ShowFacts.
From Verif Require Import Fixed.
Open Scope Z_scope.

Lemma wrap_below z : hi L128 < z < 2 ^ 128 -> wrap I128 z = z - 2 ^ 128.
Proof.
  intros H. change (hi L128) with (2 ^ 127 - 1) in H. unfold wrap. change (is_signed I128) with true. cbv iota zeta. change (width I128) with 128.
  rewrite ?Z.mod_small by lia. change (128 - 1) with 127. destruct (Z.ltb_spec z (2 ^ 127)); lia.
Qed.
Lemma show_38_steps b x : valid b L128 38 -> in_range L128 x -> ovf b = false -> hi L128 < Z.abs x mod 10 ^ 38 + 10 ^ 38 ->
  exists f k, digits f /\ last f 0 <> 48 /\ Z.of_nat (length f) + Z.of_nat k = 39 /\
    numval f * 10 ^ Z.of_nat k = 2 ^ 128 - 10 ^ 38 - Z.abs x mod 10 ^ 38 /\
    to_string b L128 38 x = push_str b ((if x <? 0 then [45] else []) ++ [48 + Z.abs x / 10 ^ 38; 46]) f.
Proof.
  intros Hv Hx Ho Hb. pose proof (lo_hi L128) as Hl. destruct (quot_abs x (10 ^ 38) ltac:(lia)) as [Eq Er].
  pose proof (Z.mod_pos_bound (Z.abs x) (10 ^ 38) ltac:(lia)) as HF. set (F := Z.abs x mod 10 ^ 38) in *.
  assert (0 <= Z.abs x / 10 ^ 38 <= 1) as HA.
  { split; [apply Z.div_pos; lia|]. apply Z.lt_succ_r. apply Z.div_lt_upper_bound; [lia|]. unfold in_range in Hx.
    rewrite Hl in Hx. change (hi L128) with 170141183460469231731687303715884105727 in *. lia. }
  set (A := Z.abs x / 10 ^ 38) in *.
  assert (MAX_LEN b = 41) as EM by (unfold MAX_LEN; now rewrite (proj1 Hv eq_refl)).
  assert (W : wrap I128 (F + 10 ^ 38) = - (2 ^ 128 - 10 ^ 38 - F)).
  { rewrite wrap_below; [lia|]. split; [exact Hb|]. lia. }
  change (hi L128) with 170141183460469231731687303715884105727 in Hb.
  set (d := 2 ^ 128 - 10 ^ 38 - F) in *. assert (10 ^ 38 <= d < 10 ^ 39) as Hd by (unfold d; lia).
  destruct (itoa_spec d ltac:(lia)) as (ds & Ei & Dd & Dv & Dh).
  destruct (trim_end_spec ds) as (k & Ek & Hlast). set (f := trim_end_zeros ds) in *.
  assert (Ld : Z.of_nat (length ds) = 39).
  { pose proof (lead_length ds 39 Dd Dh ltac:(lia) ltac:(lia)) as H1. pose proof (numval_bound ds (proj2 Dd)) as H2.
    assert (38 < Z.of_nat (length ds)) by (apply (Z.pow_lt_mono_r_iff 10); lia). lia. }
  exists f, k. split.
  { split.
    - intros K. rewrite K in Ek. rewrite Ek in Dv. cbn [app] in Dv.
      pose proof (numval_zeros [] k) as Z0. cbn [app numval] in Z0. rewrite Z0 in Dv. lia.
    - destruct Dd as [_ Dd]. rewrite Ek in Dd. apply Forall_app in Dd. apply Dd. }
  split; [exact Hlast|]. split; [rewrite Ek, app_length, repeat_length in Ld; lia|].
  split; [rewrite <- numval_zeros, <- Ek; exact Dv|].
  unfold to_string, stringify.
  assert ((if Z.sgn x <? 0 then push b [] 45 else Ret []) = Ret (if x <? 0 then [45] else [])) as ->.
  { destruct (Z.ltb_spec x 0) as [Kx|Kx].
    - replace (Z.sgn x <? 0) with true by lia. apply push_ok; [cbn [length]|]; lia.
    - now replace (Z.sgn x <? 0) with false by lia. }
  cbn [bind]. rewrite COEF_ok by assumption. cbn [bind].
  assert (fits (lty L128) (Z.quot x (10 ^ 38))) as Fq by (rewrite fits_lty; apply quot_range; [lia|assumption]).
  rewrite div_ok by (lia || assumption). cbn [bind].
  rewrite iabs_ok by (rewrite Eq, fits_lty; unfold in_range; rewrite Hl; change (hi L128) with 170141183460469231731687303715884105727; lia).
  cbn [bind]. rewrite rem_ok by (lia || assumption). cbn [bind].
  rewrite iabs_ok by (rewrite Er, fits_lty; unfold in_range; rewrite Hl; change (hi L128) with 170141183460469231731687303715884105727; lia).
  cbn [bind]. rewrite Eq, Er.
  assert (itoa A = [48 + A]) as LA by (assert (A = 0 \/ A = 1) as [-> | ->] by lia; reflexivity). rewrite LA.
  rewrite push_str_ok by (rewrite EM; destruct (x <? 0); cbn [length]; lia). cbn [bind].
  rewrite push_ok by (rewrite ?app_length, ?EM; destruct (x <? 0); cbn [length]; lia). cbn [bind].
  replace (0 <? F) with true by lia.
  unfold add, fit. change (lty L128) with I128. rewrite fitsb_false.
  2:{ change I128 with (lty L128). rewrite fits_lty. unfold in_range. change (hi L128) with 170141183460469231731687303715884105727. lia. }
  rewrite Ho. cbn [bind]. rewrite W. unfold itoa at 1. replace (- d <? 0) with true by lia. rewrite Z.opp_involutive.
  unfold itoa in Ei. replace (d <? 0) with false in Ei by lia. rewrite Ei. cbn [str_from1 bind]. fold f.
  f_equal. rewrite <- app_assoc. reflexivity.
Qed.
Lemma show_38_text : forall b x, valid b L128 38 -> in_range L128 x -> ovf b = false -> hi L128 < Z.abs x mod 10 ^ 38 + 10 ^ 38 ->
  (0 <= x \/ (2 ^ 128 - Z.abs x mod 10 ^ 38) mod 10 = 0) ->
  exists f, digits f /\ numval f * 10 ^ 39 = (2 ^ 128 - 10 ^ 38 - Z.abs x mod 10 ^ 38) * 10 ^ Z.of_nat (length f) /\
    to_string b L128 38 x = Ret ((if x <? 0 then [45] else []) ++ (48 + Z.abs x / 10 ^ 38) :: 46 :: f).
Proof.
  intros b x Hv Hx Ho Hb Hc. destruct (show_38_steps b x Hv Hx Ho Hb) as (f & k & Df & Hl & Lk & Ev & E).
  exists f. split; [exact Df|]. split.
  { rewrite <- Ev, <- Lk, Z.pow_add_r by lia. ring. }
  rewrite E. assert (MAX_LEN b = 41) as EM by (unfold MAX_LEN; now rewrite (proj1 Hv eq_refl)).
  rewrite push_str_ok; [rewrite <- app_assoc; reflexivity|]. rewrite EM, app_length. cbn [length].
  destruct (Z.ltb_spec x 0) as [Kx|Kx]; cbn [length]; [|lia]. destruct Hc as [Hc|Hc]; [lia|].
  destruct (Z.eq_dec (Z.of_nat k) 0) as [K0|K0]; [|lia]. exfalso.
  rewrite K0, Z.mul_1_r in Ev. pose proof (last_mod f (proj1 Df) (proj2 Df)) as M. rewrite Ev in M.
  apply Hl. enough ((2 ^ 128 - 10 ^ 38 - Z.abs x mod 10 ^ 38) mod 10 = 0) by lia.
  replace (2 ^ 128 - 10 ^ 38 - Z.abs x mod 10 ^ 38) with (2 ^ 128 - Z.abs x mod 10 ^ 38 + (- 10 ^ 37) * 10) by lia.
  rewrite Z.mod_add by lia. exact Hc.
Qed.
Lemma show_38_overrun : forall b x, valid b L128 38 -> in_range L128 x -> ovf b = false -> hi L128 < Z.abs x mod 10 ^ 38 + 10 ^ 38 ->
  x < 0 -> (2 ^ 128 - Z.abs x mod 10 ^ 38) mod 10 <> 0 -> to_string b L128 38 x = if dbg b then Panic else Undef.
Proof.
  intros b x Hv Hx Ho Hb Hn Hc. destruct (show_38_steps b x Hv Hx Ho Hb) as (f & k & Df & Hl & Lk & Ev & E).
  rewrite E. assert (MAX_LEN b = 41) as EM by (unfold MAX_LEN; now rewrite (proj1 Hv eq_refl)).
  assert (Z.of_nat k = 0) as K0.
  { destruct (Z.eq_dec (Z.of_nat k) 0) as [K0|K0]; [exact K0|]. exfalso. apply Hc.
    replace (2 ^ 128 - Z.abs x mod 10 ^ 38) with (numval f * 10 ^ (Z.of_nat k - 1) * 10 + 10 ^ 37 * 10).
    - rewrite Z.mod_add, Z.mod_mul by lia. reflexivity.
    - rewrite <- Z.mul_assoc, (Z.mul_comm (10 ^ (Z.of_nat k - 1))), <- Z.pow_succ_r by lia. replace (Z.succ (Z.of_nat k - 1)) with (Z.of_nat k) by lia. lia. }
  unfold push_str. rewrite EM, app_length. replace (x <? 0) with true by lia. cbn [length].
  replace (Z.of_nat (1 + 2) + Z.of_nat (length f) <=? 41) with false by (symmetry; apply Z.leb_gt; lia).
  unfold dassert. destruct (dbg b); reflexivity.
Qed.
(** MIN at precision 0. *)
Lemma wrap_min L : wrap (lty L) (- lo L) = lo L.
Proof. destruct L; reflexivity. Qed.
Lemma show_min_steps b L : valid b L 0 -> ovf b = false -> exists i, digits i /\ numval i = - lo L /\ (hd 0 i = 48 -> i = [48]) /\ Z.of_nat (length i) = dlen L /\
  to_string b L 0 (lo L) = (t <- push_str b [45] (45 :: i) ;; t <- push b t 46 ;; push b t 48).
Proof.
  intros Hv Ho. pose proof (hi_pos L) as Hh. pose proof (lo_hi L) as Hl. pose proof (dlen_hi L) as [Hd1 Hd2]. pose proof (dlen_max b L (proj1 Hv)) as Hm.
  assert (5 <= dlen L) as Hd5 by (destruct L; cbn; lia).
  destruct (itoa_spec (- lo L) ltac:(lia)) as (i & Ei & Di & Dv & Dh). exists i. split; [exact Di|]. split; [exact Dv|]. split; [exact Dh|]. split.
  { pose proof (lead_length i (dlen L) Di Dh ltac:(lia) ltac:(lia)). pose proof (numval_bound i (proj2 Di)) as B.
    assert (dlen L - 1 < Z.of_nat (length i)) by (apply (Z.pow_lt_mono_r_iff 10); lia). lia. }
  unfold to_string, stringify.
  replace (Z.sgn (lo L) <? 0) with true by lia.
  rewrite push_ok by (cbn [length]; lia). cbn [bind].
  rewrite COEF_ok by assumption. cbn [bind]. change (10 ^ 0) with 1.
  assert (fits (lty L) (lo L)) as Fl by (rewrite fits_lty; unfold in_range; lia).
  rewrite div_ok by (lia || (rewrite Z.quot_1_r; assumption)). cbn [bind]. rewrite Z.quot_1_r.
  unfold iabs at 1, fit. rewrite fitsb_false by (rewrite fits_lty; unfold in_range; lia). rewrite Ho. cbn [bind].
  rewrite Z.abs_neq, wrap_min by lia.
  rewrite rem_ok by (lia || (rewrite Z.quot_1_r; assumption)). rewrite Z.rem_1_r. cbn [bind].
  change (iabs b (lty L) 0) with (fit b (lty L) 0). rewrite fit_ok by (rewrite fits_lty; unfold in_range; lia). cbn [bind].
  unfold itoa in Ei. replace (- lo L <? 0) with false in Ei by lia. unfold itoa. replace (lo L <? 0) with true by lia. rewrite Ei.
  change (0 <? 0) with false. reflexivity.
Qed.
Lemma show_min_text : forall b L, valid b L 0 -> ovf b = false -> - 10 ^ (buffer b - 4) < lo L ->
  exists i, digits i /\ numval i = - lo L /\ (hd 0 i = 48 -> i = [48]) /\ to_string b L 0 (lo L) = Ret (45 :: 45 :: i ++ [46; 48]).
Proof.
  intros b L Hv Ho Hb. destruct (show_min_steps b L Hv Ho) as (i & Di & Dv & Dh & Dl & ->). exists i. do 3 (split; [assumption|]).
  assert (dlen L + 4 <= MAX_LEN b).
  { clear - Hb. unfold MAX_LEN, buffer in *. apply Z.ltb_lt in Hb. apply Z.leb_le. destruct (f128 b), L; first [reflexivity | vm_compute in Hb; discriminate Hb]. }
  rewrite push_str_ok by (cbn [length]; lia). cbn [bind]. rewrite push_ok by (rewrite ?app_length; cbn [length]; lia). cbn [bind].
  rewrite push_ok by (rewrite ?app_length; cbn [length]; lia). cbn [app]. rewrite <- app_assoc. reflexivity.
Qed.
Lemma push_over b buf c : MAX_LEN b <= Z.of_nat (length buf) -> push b buf c = if dbg b then Panic else Undef.
Proof.
  intros H. unfold push. replace (Z.of_nat (length buf) <? MAX_LEN b) with false by lia. unfold dassert. destruct (dbg b); [reflexivity|].
  cbn [bind]. destruct (c <? 128); reflexivity.
Qed.
Lemma push_str_over b buf s : MAX_LEN b < Z.of_nat (length buf) + Z.of_nat (length s) -> push_str b buf s = if dbg b then Panic else Undef.
Proof.
  intros H. unfold push_str. replace (_ <=? MAX_LEN b) with false by lia. unfold dassert. destruct (dbg b); reflexivity.
Qed.
Lemma show_min_overrun : forall b L, valid b L 0 -> ovf b = false -> lo L <= - 10 ^ (buffer b - 4) ->
  to_string b L 0 (lo L) = if dbg b then Panic else Undef.
Proof.
  intros b L Hv Ho Hb. destruct (show_min_steps b L Hv Ho) as (i & Di & Dv & Dh & Dl & ->).
  assert (MAX_LEN b = dlen L + 2).
  { pose proof (dlen_max b L (proj1 Hv)) as Hm. clear - Hb Hm. unfold MAX_LEN, buffer in *. apply Z.leb_le in Hb, Hm.
    destruct (f128 b), L; first [reflexivity | vm_compute in Hb; discriminate Hb | vm_compute in Hm; discriminate Hm]. }
  rewrite push_str_ok by (cbn [length]; lia). cbn [bind]. rewrite push_over by (rewrite ?app_length; cbn [length]; lia).
  destruct (dbg b); reflexivity.
Qed.
