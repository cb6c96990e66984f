(** * U128Facts: between u128 and I256. *)
From Verif Require Import Base PowerTable Promo ConstFn Ops U256 I256 Spec BaseFacts FloatFacts SqrtFacts WordFacts DivWord
  ShiftFacts KnuthFacts I256Facts Sqrt256 Wide.
From Verif Require Import Reason.
From Verif Require Import Fixed.
Open Scope Z_scope.
Ltac Zify.zify_post_hook ::= idtac.

Theorem signed_of_u128 x : 0 <= x < 2 ^ 128 -> signed4 (i256_of_u128 x) x.
Proof.
  intros Hx. unfold i256_of_u128. rewrite !wrap_u64.
  assert (2 ^ 128 = 2 ^ 64 * 2 ^ 64) as E by reflexivity. rewrite E in Hx.
  assert (0 < 2 ^ 64) as Hp by reflexivity.
  assert (0 <= x / 2 ^ 64 < 2 ^ 64) as Hd by (split; [apply Z.div_pos; lia|apply Z.div_lt_upper_bound; lia]).
  rewrite (Z.mod_small (x / 2 ^ 64)) by exact Hd.
  exists x. split.
  - exists (x mod 2 ^ 64), (x / 2 ^ 64), 0, 0. split; [reflexivity|].
    split; [apply Z.mod_pos_bound; lia|]. split; [exact Hd|]. split; [lia|]. split; [lia|].
    pose proof (Z.div_mod x (2 ^ 64) ltac:(lia)). lia.
  - assert (2 ^ 64 * 2 ^ 64 < 2 ^ 255) by reflexivity. replace (x <? 2 ^ 255) with true by lia. reflexivity.
Qed.
Lemma four_low B w0 w1 w2 w3 u a (small : bool) : 0 < B -> 0 <= w0 < B -> 0 <= w1 < B -> 0 <= w2 < B -> 0 <= w3 < B ->
  u = w0 + B * w1 + (B * B) * w2 + (B * B * B) * w3 -> a = (if small then u else u - B * B * B * B) ->
  0 <= a -> a < B * B -> w3 = 0 /\ w2 = 0 /\ a = w0 + B * w1.
Proof.
  intros HB H0 H1 H2 H3 Eu Ea La Ha.
  assert (B * w1 <= B * (B - 1)) as M1 by (apply Z.mul_le_mono_nonneg_l; lia).
  assert ((B * B) * w2 <= (B * B) * (B - 1)) as M2 by (apply Z.mul_le_mono_nonneg_l; nia).
  assert ((B * B * B) * w3 <= (B * B * B) * (B - 1)) as M3 by (apply Z.mul_le_mono_nonneg_l; nia).
  assert (u = a) as -> by (destruct small; [congruence|lia]). clear Ea.
  assert (0 <= B * w1) by nia.
  assert (w3 = 0) as ->.
  { destruct (Z.eq_dec w3 0) as [E|E]; [exact E|]. assert (0 <= (B * B) * w2) by nia.
    assert ((B * B * B) * 1 <= (B * B * B) * w3) by (apply Z.mul_le_mono_nonneg_l; nia). nia. }
  assert (w2 = 0) as ->.
  { destruct (Z.eq_dec w2 0) as [E|E]; [exact E|].
    assert ((B * B) * 1 <= (B * B) * w2) by (apply Z.mul_le_mono_nonneg_l; nia). lia. }
  repeat split; lia.
Qed.
Theorem u128_of_signed b x a : signed4 x a ->
  u128_of_i256 b x = Ret (if (0 <=? a) && (a <? 2 ^ 128) then Ok a else Err TooBigInteger).
Proof.
  intros Hx. unfold u128_of_i256.
  assert (Hx' := Hx). destruct Hx' as (u & (w0 & w1 & w2 & w3 & -> & W0 & W1 & W2 & W3 & Eu) & Ea).
  assert (signed4 I256_U128_MAX (2 ^ 128 - 1)) as HM.
  { exists (2 ^ 128 - 1). split; [|reflexivity].
    exists 18446744073709551615, 18446744073709551615, 0, 0. repeat split; vm_compute; congruence. }
  assert (signed4 I256_ZERO 0) as H0 by (apply signed_of_i128; split; [discriminate|reflexivity]).
  rewrite (proj1 (signed_cmp b _ I256_U128_MAX a _ Hx HM)), (proj1 (signed_cmp b _ I256_ZERO a _ Hx H0)). cbn [bind].
  destruct (Z.compare_spec a (2 ^ 128 - 1)) as [C|C|C].
  3: { replace (a <? 2 ^ 128) with false by lia. now rewrite andb_false_r. }
  all: replace (a <? 2 ^ 128) with true by lia; rewrite andb_true_r.
  all: destruct (Z.compare_spec a 0) as [D|D|D]; [replace (0 <=? a) with true by lia|replace (0 <=? a) with false by lia; reflexivity|replace (0 <=? a) with true by lia].
  all: assert (w3 = 0 /\ w2 = 0 /\ a = w0 + 2 ^ 64 * w1) as (-> & -> & ->) by
         (apply (four_low (2 ^ 64) w0 w1 w2 w3 u a (u <? 2 ^ 255)); try assumption; try reflexivity; lia).
  all: change (idx [w0; w1; 0; 0] 0) with (Ret w0); change (idx [w0; w1; 0; 0] 1) with (Ret w1); cbn [bind];
    unfold shl; change ((0 <=? 64) && (64 <? width U128)) with true; cbv iota; cbn [bind];
    rewrite wrap_fits by (unfold fits; change (imin U128) with 0; change (imax U128) with (2 ^ 64 * 2 ^ 64 - 1); set (B := 2 ^ 64) in *; clearbody B; clear - W1; nia);
    rewrite lor_hi_lo by (lia || exact W0); do 3 f_equal; lia.
Qed.
