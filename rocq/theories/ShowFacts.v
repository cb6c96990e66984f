(** * ShowFacts: what [stringify] writes. *)
From Verif Require Import Base Promo ConstFn Ops Fixed Str Spec SpecText BaseFacts RoundFacts SimpleProofs StrFacts.
From Verif Require Import Fixed.
Ltac Zify.zify_post_hook ::= idtac.
Open Scope Z_scope.

(** ** Decimal digits of a non-negative number *)
Lemma log2_tenth z : 10 <= z -> Z.log2 (z / 10) < Z.log2 z.
Proof.
  intros H. apply Z.log2_lt_pow2.
  - apply Z.div_str_pos. lia.
  - apply Z.div_lt_upper_bound; [lia|]. pose proof (Z.log2_spec z ltac:(lia)) as [_ Hz].
    pose proof (Z.log2_nonneg z). rewrite Z.pow_succ_r in Hz by lia. nia.
Qed.
Lemma dec_digits_spec fuel z acc : 0 <= z -> Z.log2 z < Z.of_nat fuel ->
  exists ds, dec_digits fuel z acc = ds ++ acc /\ digits ds /\ numval ds = z /\ (hd 0 ds = 48 -> ds = [48]).
Proof.
  revert z acc. induction fuel as [|fuel IH]; intros z acc Hz Hf; [pose proof (Z.log2_nonneg z); lia|].
  cbn [dec_digits]. pose proof (Z.mod_pos_bound z 10 ltac:(lia)) as Hm. pose proof (Z.div_mod z 10 ltac:(lia)) as Hd.
  assert (digit (48 + z mod 10)) as Hc by (unfold digit; lia).
  destruct (Z.eqb_spec (z / 10) 0) as [E|E].
  - exists [48 + z mod 10]. split; [reflexivity|]. split; [split; [discriminate|repeat constructor; unfold digit in Hc; lia]|].
    split; [cbn [numval length]; change (10 ^ Z.of_nat 0) with 1; lia|]. cbn [hd]. intros K. now rewrite K.
  - assert (10 <= z) as H10.
    { destruct (Z_lt_le_dec z 10); [|assumption]. exfalso. apply E. apply Z.div_small. lia. }
    pose proof (log2_tenth z H10) as Hl.
    destruct (IH (z / 10) ((48 + z mod 10) :: acc)) as (ds & E1 & Hds & Hv & Hh); [apply Z.div_pos; lia|lia|].
    exists (ds ++ [48 + z mod 10]). split; [rewrite E1, <- app_assoc; reflexivity|].
    destruct Hds as [Hn Hds]. split; [split; [destruct ds; discriminate|apply Forall_app; auto]|].
    split; [rewrite numval_app; cbn [numval length]; change (10 ^ Z.of_nat 1) with 10; change (10 ^ Z.of_nat 0) with 1; lia|].
    destruct ds as [|c ds]; [congruence|]. cbn [hd app] in *. intros K. specialize (Hh K). injection Hh as -> ->.
    exfalso. apply E. rewrite <- Hv. reflexivity.
Qed.
Lemma itoa_spec z : 0 <= z -> exists ds, itoa z = ds /\ digits ds /\ numval ds = z /\ (hd 0 ds = 48 -> ds = [48]).
Proof.
  intros Hz. unfold itoa. replace (z <? 0) with false by lia. unfold itoa_nonneg.
  destruct (dec_digits_spec (S (Z.to_nat (Z.log2 z))) z []) as (ds & E & H); [assumption| |].
  - rewrite Nat2Z.inj_succ, Z2Nat.id; [lia|apply Z.log2_nonneg].
  - exists ds. split; [now rewrite E, app_nil_r|exact H].
Qed.
(** No leading zero: the length is determined by the value. *)
Lemma lead_bound ds : digits ds -> hd 0 ds <> 48 -> 10 ^ (Z.of_nat (length ds) - 1) <= numval ds.
Proof.
  intros [Hn Hd] Hh. destruct ds as [|c ds]; [congruence|]. cbn [hd numval length] in *.
  pose proof (Forall_inv Hd) as Hc. pose proof (numval_bound _ (Forall_inv_tail Hd)). unfold digit in Hc.
  replace (Z.of_nat (S (length ds)) - 1) with (Z.of_nat (length ds)) by lia. nia.
Qed.
Lemma lead_length ds k : digits ds -> (hd 0 ds = 48 -> ds = [48]) -> 0 < k -> numval ds < 10 ^ k -> Z.of_nat (length ds) <= k.
Proof.
  intros Hd Hh Hk Hv. destruct (Z.eq_dec (hd 0 ds) 48) as [E|E]; [rewrite (Hh E); cbn; lia|].
  pose proof (lead_bound ds Hd E) as Hb. apply Z.nlt_ge. intros K.
  assert (10 ^ k <= 10 ^ (Z.of_nat (length ds) - 1)) by (apply Z.pow_le_mono_r; lia). lia.
Qed.
Lemma numval_inj s t : length s = length t -> Forall digit s -> Forall digit t -> numval s = numval t -> s = t.
Proof.
  revert t. induction s as [|c s IH]; intros [|d t] L Hs Ht E; try discriminate L; [reflexivity|].
  cbn [numval length] in *. injection L as L. pose proof (Forall_inv Hs) as Hc. pose proof (Forall_inv Ht) as Hd.
  apply Forall_inv_tail in Hs. apply Forall_inv_tail in Ht.
  pose proof (numval_bound _ Hs) as B1. pose proof (numval_bound _ Ht) as B2. rewrite <- L in *.
  set (k := 10 ^ Z.of_nat (length s)) in *. assert (c = d) as -> by nia. f_equal. apply IH; auto. lia.
Qed.
Lemma lead_unique s t : digits s -> digits t -> (hd 0 s = 48 -> s = [48]) -> (hd 0 t = 48 -> t = [48]) ->
  numval s = numval t -> s = t.
Proof.
  intros Hs Ht Ls Lt E.
  assert (forall a c, digits a -> digits c -> (hd 0 a = 48 -> a = [48]) -> (hd 0 c = 48 -> c = [48]) -> numval a = numval c ->
    (length a <= length c)%nat) as H.
  { intros a c Ha Hc La Lc Eac. pose proof (numval_bound c (proj2 Hc)) as B.
    pose proof (lead_length a (Z.of_nat (length c)) Ha La). destruct Hc as [Hc _]. destruct c; [congruence|]. cbn [length] in *. lia. }
  apply numval_inj; try apply Hs; try apply Ht; [|assumption].
  pose proof (H s t Hs Ht Ls Lt E). pose proof (H t s Ht Hs Lt Ls (eq_sym E)). lia.
Qed.

(** ** Trailing zeros *)
Lemma drop_zeros_spec s : exists k, s = repeat 48 k ++ drop_zeros s /\ hd 0 (drop_zeros s) <> 48.
Proof.
  induction s as [|c s (k & E & H)]; [exists 0%nat; cbn; split; [reflexivity|lia]|]. cbn [drop_zeros].
  destruct (Z.eqb_spec c 48) as [->|Hc].
  - exists (S k). cbn. split; [now f_equal|exact H].
  - exists 0%nat. cbn. auto.
Qed.
Lemma trim_end_spec s : exists k, s = trim_end_zeros s ++ repeat 48 k /\ last (trim_end_zeros s) 0 <> 48.
Proof.
  unfold trim_end_zeros. destruct (drop_zeros_spec (rev s)) as (k & E & H). exists k.
  assert (rev (repeat 48 k) = repeat 48 k) as R.
  { clear. induction k; [reflexivity|]. cbn [repeat rev]. rewrite IHk. clear. induction k; cbn; [reflexivity|now f_equal]. }
  split.
  - apply (f_equal (@rev Z)) in E. rewrite rev_involutive, rev_app_distr, R in E. exact E.
  - destruct (drop_zeros (rev s)) as [|c t]; [cbn; lia|]. cbn [rev hd] in *. now rewrite last_last.
Qed.
Lemma numval_zeros s k : numval (s ++ repeat 48 k) = numval s * 10 ^ Z.of_nat k.
Proof.
  rewrite numval_app, repeat_length. enough (numval (repeat 48 k) = 0) by lia.
  induction k; [reflexivity|]. cbn [repeat numval]. lia.
Qed.
Lemma last_mod s : s <> [] -> Forall digit s -> numval s mod 10 = last s 0 - 48.
Proof.
  intros Hn Hd. destruct (exists_last Hn) as (t & c & ->). rewrite last_last, numval_app. cbn [numval length].
  change (10 ^ Z.of_nat 1) with 10. change (10 ^ Z.of_nat 0) with 1. apply Forall_app in Hd as [_ Hd].
  pose proof (Forall_inv Hd) as Hc. unfold digit in Hc. symmetry. apply (Z.mod_unique_pos _ _ (numval t)); lia.
Qed.

(** ** Canonical texts *)
Definition negq (d : Q) : bool := if Qlt_le_dec d 0 then true else false.
Lemma negq_dec P x : 0 <= P -> negq (dec P x) = (x <? 0).
Proof.
  intros HP. pose proof (pow10_pos P HP). unfold negq. destruct (Qlt_le_dec (dec P x) 0) as [H'|H']; rewrite dec_alt in H' by assumption; symmetry.
  - apply (proj1 (Qlt_div_r 0 x (10 ^ P) H)) in H'. apply Z.ltb_lt. lia.
  - apply (proj1 (Qle_div_l 0 x (10 ^ P) H)) in H'. apply Z.ltb_ge. lia.
Qed.
Lemma negq_compat d d' : (d == d')%Q -> negq d = negq d'.
Proof. intros E. unfold negq. destruct (Qlt_le_dec d 0), (Qlt_le_dec d' 0); try reflexivity; rewrite E in *; exfalso; eapply Qlt_not_le; eassumption. Qed.
Lemma canonical_alt s d : canonical s d <-> exists i f, digits i /\ digits f /\
  s = (if negq d then [45] else []) ++ i ++ 46 :: f /\
  (hd 0 i = 48 -> i = [48]) /\ (last f 0 = 48 -> f = [48]) /\ (spelled (negq d) i (Some f) == d)%Q.
Proof. unfold canonical, negq. destruct (Qlt_le_dec d 0); reflexivity. Qed.
Lemma canonical_spells s d : canonical s d -> exists neg i f, spells s neg i (Some f) /\ (spelled neg i (Some f) == d)%Q /\
  (last f 0 = 48 -> f = [48]).
Proof.
  rewrite canonical_alt. intros (i & f & Hi & Hf & E & _ & Hl & Ed). exists (negq d), i, f. split; [|auto].
  exists [], (if negq d then [45] else []), []. rewrite app_nil_r. cbn [app]. destruct (negq d); auto 10.
Qed.
(** Two canonical texts of the same decimal are the same text. *)
Lemma fraction_cmp i f i' f' : digits f -> digits f' -> (last f' 0 = 48 -> f' = [48]) ->
  (i * 10 ^ Z.of_nat (length f) + numval f) * 10 ^ Z.of_nat (length f') =
  (i' * 10 ^ Z.of_nat (length f') + numval f') * 10 ^ Z.of_nat (length f) ->
  (length f' <= length f)%nat.
Proof.
  intros [Hn Hf] [Hn' Hf'] Hl E. apply Nat.nlt_ge. intros K.
  assert (1 <= Z.of_nat (length f)) as H1 by (destruct f; [congruence|cbn [length]; lia]).
  set (n := Z.of_nat (length f)) in *. set (m := Z.of_nat (length f')) in *.
  assert (10 ^ m = 10 ^ n * 10 ^ (m - n)) as Em by (rewrite <- Z.pow_add_r by lia; f_equal; lia).
  assert (10 ^ (m - n) = 10 * 10 ^ (m - n - 1)) as Ek by (rewrite <- Z.pow_succ_r by lia; f_equal; lia).
  pose proof (pow10_pos n ltac:(lia)) as Hp.
  assert ((i * 10 ^ n + numval f) * 10 ^ (m - n) = i' * 10 ^ m + numval f') as E'.
  { apply (Z.mul_cancel_r _ _ (10 ^ n)); [lia|]. rewrite <- E, Em at 1. ring. }
  assert (numval f' mod 10 = 0) as M.
  { replace (numval f') with (((i * 10 ^ n + numval f) * 10 ^ (m - n - 1) - i' * 10 ^ n * 10 ^ (m - n - 1)) * 10).
    - apply Z.mod_mul. lia.
    - rewrite Em, Ek in E'. lia. }
  rewrite last_mod in M by assumption. pose proof (Hl ltac:(lia)) as H48. apply (f_equal (@length Z)) in H48. cbn [length] in H48. unfold n in H1. clear - K H1 H48. lia.
Qed.
Theorem canonical_unique s d s' d' : canonical s d -> canonical s' d' -> (d == d')%Q -> s = s'.
Proof.
  rewrite !canonical_alt. intros (i & f & Hi & Hf & -> & Hh & Hl & Ed) (i' & f' & Hi' & Hf' & -> & Hh' & Hl' & Ed') E.
  rewrite <- (negq_compat d d' E) in *. pose proof (Qeq_trans _ _ _ Ed (Qeq_trans _ _ _ E (Qeq_sym _ _ Ed'))) as Es. clear Ed Ed' E. rename Es into Ed'.
  rewrite !spelled_frac in Ed'. unfold places in Ed'. cbn [fraction] in Ed'.
  assert ((numval i * 10 ^ Z.of_nat (length f) + numval f) * 10 ^ Z.of_nat (length f') =
    (numval i' * 10 ^ Z.of_nat (length f') + numval f') * 10 ^ Z.of_nat (length f)) as E.
  { pose proof (pow10_pos (Z.of_nat (length f)) ltac:(lia)) as Hp. pose proof (pow10_pos (Z.of_nat (length f')) ltac:(lia)) as Hp'.
    revert Ed'. unfold Zq, Qeq, Qdiv, Qmult, Qinv, inject_Z. destruct (10 ^ Z.of_nat (length f)); try lia.
    destruct (10 ^ Z.of_nat (length f')); try lia. cbn [Qnum Qden]. destruct (negq d); cbn [sgz]; lia. }
  pose proof (fraction_cmp _ _ _ _ Hf Hf' Hl' E) as L1. pose proof (fraction_cmp _ _ _ _ Hf' Hf Hl (eq_sym E)) as L2.
  assert (length f = length f') as EL by lia. rewrite EL in E.
  apply Z.mul_cancel_r in E; [|pose proof (pow10_pos (Z.of_nat (length f')) ltac:(lia)); lia].
  pose proof (numval_bound f (proj2 Hf)) as B. pose proof (numval_bound f' (proj2 Hf')) as B'. rewrite EL in B.
  assert (numval i = numval i') as Ei by nia.
  rewrite (lead_unique i i') by assumption. rewrite (numval_inj f f'); try assumption; [reflexivity|apply Hf|apply Hf'|].
  rewrite Ei in E. lia.
Qed.
(** The canonical text of a representable decimal has at most [P] places, so it parses back. *)
Theorem canonical_parses b L P x s : valid b L P -> 0 < P -> in_range L x -> canonical s (dec P x) ->
  from_str_exact b L P s = Ret (Ok x) /\ from_str b L P s = Ret (Ok x).
Proof.
  intros Hv HP Hx Hc. destruct (canonical_spells _ _ Hc) as (neg & i & f & Hs & Ed & Hl).
  assert (from_str_exact b L P s = Ret (Ok x)) as E.
  { apply from_str_exact_ok; [assumption|]. exists neg, i, (Some f). split; [exact Hs|]. split; [|split; [exact Hx|now rewrite Ed]].
    unfold places. cbn [fraction]. destruct Hs as (_ & _ & _ & _ & _ & _ & _ & Hf & _).
    symmetry in Ed. apply dec_eq_spelled in Ed; [|lia]. unfold places in Ed. cbn [fraction] in Ed.
    apply Z.nlt_ge. intros K. set (n := Z.of_nat (length f)) in *.
    assert (10 ^ n = 10 ^ P * (10 * 10 ^ (n - P - 1))) as En.
    { rewrite <- Z.pow_succ_r by lia. rewrite <- Z.pow_add_r by lia. f_equal. lia. }
    assert (numval f mod 10 = 0) as M.
    { pose proof (pow10_pos P ltac:(lia)) as Hp.
      assert (x * (10 * 10 ^ (n - P - 1)) = sgz neg (numval i * 10 ^ n + numval f)) as E1.
      { apply (Z.mul_cancel_r _ _ (10 ^ P)); [lia|]. rewrite <- Ed, En at 1. ring. }
      replace (numval f) with ((sgz neg x * 10 ^ (n - P - 1) - numval i * 10 ^ P * 10 ^ (n - P - 1)) * 10).
      - apply Z.mod_mul. lia.
      - rewrite En in E1. destruct neg; cbn [sgz] in *; lia. }
    rewrite last_mod in M by apply Hf. pose proof (Hl ltac:(lia)) as H48. apply (f_equal (@length Z)) in H48. cbn [length] in H48. unfold n in K. clear - K HP H48. lia. }
  split; [exact E|]. now apply exact_refines.
Qed.

(** ** Formatting *)
Lemma push_ok b buf c : Z.of_nat (length buf) < MAX_LEN b -> c < 128 -> push b buf c = Ret (buf ++ [c]).
Proof. intros H Hc. unfold push. rewrite !dassert_ok by lia. cbn [bind]. now replace (_ <? MAX_LEN b) with true by lia. Qed.
Lemma push_str_ok b buf s : Z.of_nat (length buf) + Z.of_nat (length s) <= MAX_LEN b -> push_str b buf s = Ret (buf ++ s).
Proof. intros H. unfold push_str. rewrite dassert_ok by lia. cbn [bind]. now replace (_ <=? MAX_LEN b) with true by lia. Qed.
(** Decimal digits of the largest magnitude of a layout. *)
Definition dlen (L : layout) : Z := match L with L16 => 5 | L32 => 10 | L64 => 19 | L128 => 39 end.
Lemma dlen_hi L : 10 ^ (dlen L - 1) <= hi L /\ hi L + 1 < 10 ^ dlen L.
Proof. destruct L; split; vm_compute; congruence. Qed.
Lemma dlen_max b L : supported b L -> dlen L + 2 <= MAX_LEN b.
Proof. unfold supported, MAX_LEN. intros H. destruct L, (f128 b); cbn; try lia; discriminate (H eq_refl). Qed.

(** The digits written after the point. *)
Lemma frac_text P F : 0 <= P -> 0 < F < 10 ^ P ->
  exists f, str_from1 (itoa (F + 10 ^ P)) = Ret f /\ length f = Z.to_nat P /\
    digits (trim_end_zeros f) /\ Z.of_nat (length (trim_end_zeros f)) <= P /\ last (trim_end_zeros f) 0 <> 48 /\
    numval (trim_end_zeros f) * 10 ^ P = F * 10 ^ Z.of_nat (length (trim_end_zeros f)).
Proof.
  intros HP HF. destruct (itoa_spec (F + 10 ^ P) ltac:(lia)) as (ds & E & Hd & Hv & Hh).
  assert (hd 0 ds <> 48) as Hne.
  { intros K. rewrite (Hh K) in Hv. cbn in Hv. lia. }
  assert (Z.of_nat (length ds) = P + 1) as Hlen.
  { pose proof (lead_length ds (P + 1) Hd Hh ltac:(lia)) as H1. rewrite Z.pow_add_r in H1 by lia.
    pose proof (numval_bound ds (proj2 Hd)) as H2.
    assert (P < Z.of_nat (length ds)) by (apply (Z.pow_lt_mono_r_iff 10); lia). lia. }
  destruct ds as [|c f]; [cbn in Hlen; lia|]. exists f. rewrite E. split; [reflexivity|].
  cbn [length] in Hlen. assert (length f = Z.to_nat P) as Lf by lia. split; [exact Lf|].
  destruct Hd as [_ Hd]. pose proof (Forall_inv Hd) as Hc. apply Forall_inv_tail in Hd.
  pose proof (numval_bound f Hd) as Bf. rewrite Lf, Z2Nat.id in Bf by lia.
  cbn [numval] in Hv. rewrite Lf, Z2Nat.id in Hv by lia. cbn [hd] in Hne. unfold digit in Hc.
  assert (c = 49) as -> by nia. assert (numval f = F) as Ef by lia. clear Hv Hh Hc E Hne.
  destruct (trim_end_spec f) as (k & Et & Hl). set (g := trim_end_zeros f) in *.
  assert (numval g * 10 ^ Z.of_nat k = F) as Eg by (rewrite <- Ef, Et; symmetry; apply numval_zeros).
  assert (Z.of_nat (length g) + Z.of_nat k = P) as EP by (rewrite Et, app_length, repeat_length in Lf; lia).
  split; [split|].
  - intros K. rewrite K in Eg. cbn in Eg. lia.
  - rewrite Et in Hd. apply Forall_app in Hd. apply Hd.
  - split; [lia|]. split; [exact Hl|]. rewrite <- Eg, <- EP, Z.pow_add_r by lia. ring.
Qed.
Definition text (x : Z) (i f : list Z) : list Z := (if x <? 0 then [45] else []) ++ i ++ 46 :: f.
Lemma quot_abs x c : 0 < c -> Z.abs (Z.quot x c) = Z.abs x / c /\ Z.abs (Z.rem x c) = Z.abs x mod c.
Proof.
  intros Hc. rewrite Z.quot_div, Z.rem_mod by lia. rewrite (Z.sgn_pos c), (Z.abs_eq c) by lia.
  pose proof (Z.div_pos (Z.abs x) c ltac:(lia) Hc). pose proof (Z.mod_pos_bound (Z.abs x) c Hc).
  destruct (Z.eq_dec x 0) as [->|Hx]; [change (Z.abs 0) with 0; rewrite Z.div_0_l, Z.mod_0_l by lia; cbn; lia|].
  rewrite !Z.abs_mul. assert (Z.abs (Z.sgn x) = 1) as -> by lia. lia.
Qed.
Lemma quot_range L x c : 0 < c -> in_range L x -> in_range L (Z.quot x c).
Proof.
  intros Hc Hx. destruct (quot_abs x c Hc) as [E _]. pose proof (Z.div_le_upper_bound (Z.abs x) c (Z.abs x) Hc ltac:(nia)) as B.
  unfold in_range in *. pose proof (lo_hi L). pose proof (hi_pos L). destruct (Z_lt_le_dec x 0).
  - assert (Z.quot x c <= 0) by (rewrite <- (Z.opp_involutive x), Z.quot_opp_l by lia; pose proof (Z.quot_pos (- x) c); lia). lia.
  - assert (0 <= Z.quot x c) by (apply Z.quot_pos; lia). lia.
Qed.
Lemma stringify_val b L P x : valid b L P -> in_range L x -> (P = 0 -> x <> lo L) ->
  Z.abs x mod 10 ^ P + 10 ^ P <= hi L \/ Z.abs x mod 10 ^ P = 0 ->
  (P = 0 -> x < 0 -> dlen L + 3 <= MAX_LEN b \/ - x < 10 ^ (dlen L - 1)) ->
  exists i f, stringify b L P x = Ret (text x i f) /\ digits i /\ digits f /\
    numval i = Z.abs x / 10 ^ P /\ (hd 0 i = 48 -> i = [48]) /\ (last f 0 = 48 -> f = [48]) /\
    numval f * 10 ^ P = Z.abs x mod 10 ^ P * 10 ^ Z.of_nat (length f) /\
    Z.of_nat (length (text x i f)) <= MAX_LEN b.
Proof.
  intros Hv Hx Hmin Hfr Hbuf. pose proof (proj1 (proj2 Hv)) as HP. pose proof (pow10_pos P HP) as Hp.
  pose proof (proj2 (proj2 Hv)) as Hc. pose proof (lo_hi L) as Hlh. pose proof (hi_pos L) as Hhp. pose proof (dlen_hi L) as [Hd1 Hd2].
  pose proof (dlen_max b L (proj1 Hv)) as Hml.
  destruct (quot_abs x (10 ^ P) Hp) as [Eq Er].
  set (A := Z.abs x / 10 ^ P) in *. set (F := Z.abs x mod 10 ^ P) in *.
  assert (0 <= A) as HA by (apply Z.div_pos; lia). assert (0 <= F < 10 ^ P) as HF by (apply Z.mod_pos_bound; lia).
  assert (Z.abs x = 10 ^ P * A + F) as Ex by (apply Z.div_mod; lia).
  assert (A <= Z.abs x) as HAx by (clear - HA HF Ex Hp; nia).
  destruct (itoa_spec A HA) as (i & Ei & Hi & Hvi & Hhi).
  assert (5 <= dlen L) as Hd5 by (destruct L; cbn; lia).
  assert (P < dlen L) as HPd by (apply (Z.pow_lt_mono_r_iff 10); lia).
  assert (P = 0 /\ A = Z.abs x /\ F = 0 \/ 0 < P /\ A < hi L) as HPA.
  { destruct (Z.eq_dec P 0) as [E0|E0]; [left; split; [exact E0|]; rewrite E0 in *; change (10 ^ 0) with 1 in *; lia|right].
    split; [lia|]. assert (10 ^ P = 10 * 10 ^ (P - 1)) as E1 by (rewrite <- Z.pow_succ_r by lia; f_equal; lia).
    pose proof (pow10_pos (P - 1) ltac:(lia)). unfold in_range in Hx. clear - Hx Ex E1 HA HF Hlh Hhp H. nia. }
  assert (Z.of_nat (length i) <= dlen L - P) as Li.
  { apply lead_length; [assumption|assumption|lia|]. rewrite Hvi. apply (Z.mul_lt_mono_pos_l (10 ^ P)); [lia|].
    rewrite <- Z.pow_add_r by lia. replace (P + (dlen L - P)) with (dlen L) by lia. unfold in_range in Hx. lia. }
  assert (P = 0 -> x < 0 -> - x < 10 ^ (dlen L - 1) -> Z.of_nat (length i) <= dlen L - 1) as Li0.
  { intros E0 Hn Hb. destruct HPA as [(_ & EA & _)|]; [|lia]. apply lead_length; try assumption; lia. }
  assert (exists f, digits f /\ (last f 0 = 48 -> f = [48]) /\ numval f * 10 ^ P = F * 10 ^ Z.of_nat (length f) /\
    Z.of_nat (length f) <= Z.max P 1 /\
    forall buf, Z.of_nat (length buf) + Z.of_nat (length f) <= MAX_LEN b ->
     (if 0 <? F then fl <- add b (lty L) F (10 ^ P) ;; s <- str_from1 (itoa fl) ;; push_str b buf (trim_end_zeros s) else push b buf 48) = Ret (buf ++ f))
    as (f & Hf & Hlf & Hvf & Llf & Hpush).
  { destruct (Z.ltb_spec 0 F) as [K|K].
    - destruct (frac_text P F HP ltac:(lia)) as (f & E1 & _ & Hd & Hlen & Hla & Hval).
      exists (trim_end_zeros f). split; [exact Hd|]. split; [intros; congruence|]. split; [exact Hval|]. split; [lia|].
      intros buf Hb. rewrite add_ok by (rewrite fits_lty; unfold in_range; lia). cbn [bind]. rewrite E1. cbn [bind].
      now apply push_str_ok.
    - exists [48]. split; [split; [discriminate|repeat constructor; lia]|]. split; [reflexivity|].
      split; [replace F with 0 by lia; cbn [numval length]; lia|]. split; [cbn; lia|].
      intros buf Hb. cbn [length] in Hb. apply push_ok; lia. }
  exists i, f.
  assert (Z.of_nat (length (text x i f)) <= MAX_LEN b) as Hlen.
  { unfold text. rewrite !app_length. cbn [length]. destruct (Z.ltb_spec x 0) as [Kx|Kx]; cbn [length]; [|lia].
    destruct (Z.eq_dec P 0) as [E0|E0]; [|lia]. destruct (Hbuf E0 Kx) as [Hb|Hb]; [lia|]. specialize (Li0 E0 Kx Hb). lia. }
  split; [|repeat (split; [assumption|]); assumption].
  unfold stringify.
  assert ((if Z.sgn x <? 0 then push b [] 45 else Ret []) = Ret (if x <? 0 then [45] else [])) as ->.
  { destruct (Z.ltb_spec x 0) as [Kx|Kx].
    - replace (Z.sgn x <? 0) with true by lia. apply push_ok; [cbn [length]|]; lia.
    - now replace (Z.sgn x <? 0) with false by lia. }
  cbn [bind]. rewrite COEF_ok by assumption. cbn [bind].
  assert (fits (lty L) (Z.quot x (10 ^ P))) as Fq by (rewrite fits_lty; now apply quot_range).
  rewrite div_ok by (lia || assumption). cbn [bind].
  rewrite iabs_ok by (rewrite Eq, fits_lty; unfold in_range in *; destruct HPA as [(E0 & EA & _)|]; [specialize (Hmin E0)|]; lia).
  cbn [bind]. rewrite rem_ok by (lia || assumption). cbn [bind].
  rewrite iabs_ok by (rewrite Er, fits_lty; unfold in_range in *; lia). cbn [bind]. rewrite Eq, Er, Ei.
  unfold text in Hlen |- *. set (sg := if x <? 0 then [45] else []) in *.
  rewrite !app_length in Hlen. cbn [length] in Hlen.
  rewrite push_str_ok by lia. cbn [bind]. rewrite push_ok by (rewrite ?app_length; lia). cbn [bind].
  rewrite Hpush by (rewrite !app_length; cbn [length]; lia). now rewrite <- !app_assoc.
Qed.
Lemma text_canonical P x i f : 0 <= P -> digits i -> digits f -> numval i = Z.abs x / 10 ^ P ->
  (hd 0 i = 48 -> i = [48]) -> (last f 0 = 48 -> f = [48]) ->
  numval f * 10 ^ P = Z.abs x mod 10 ^ P * 10 ^ Z.of_nat (length f) -> canonical (text x i f) (dec P x).
Proof.
  intros HP Hi Hf Hvi Hhi Hlf Hvf. apply canonical_alt. exists i, f. rewrite negq_dec by assumption.
  repeat (split; [assumption || reflexivity|]). symmetry. apply dec_eq_spelled; [assumption|]. unfold places. cbn [fraction].
  pose proof (Z.div_mod (Z.abs x) (10 ^ P) ltac:(pose proof (pow10_pos P HP); lia)) as Ex.
  rewrite Hvi. set (A := Z.abs x / 10 ^ P) in *. set (F := Z.abs x mod 10 ^ P) in *. set (T := 10 ^ Z.of_nat (length f)) in *.
  set (p := 10 ^ P) in *. destruct (Z.ltb_spec x 0); cbn [sgz].
  - replace x with (- (p * A + F)) by lia. nia.
  - replace x with (p * A + F) by lia. nia.
Qed.
Lemma MAX_LEN_buffer b : MAX_LEN b = buffer b.
Proof. reflexivity. Qed.
Lemma frac_room L P F : valid_prec L P -> 0 <= F < 10 ^ P -> ~ (L = L128 /\ P = 38) -> F + 10 ^ P <= hi L.
Proof.
  intros [HP Hc] HF Hn. enough (2 * 10 ^ P <= hi L + 1) by lia.
  assert (P <= match L with L16 => 4 | L32 => 9 | L64 => 18 | L128 => 37 end) as B.
  { destruct L; apply Z.nlt_ge; intros K.
    - assert (10 ^ 5 <= 10 ^ P) by (apply Z.pow_le_mono_r; lia). change (hi L16) with 32767 in Hc. lia.
    - assert (10 ^ 10 <= 10 ^ P) by (apply Z.pow_le_mono_r; lia). change (hi L32) with 2147483647 in Hc. lia.
    - assert (10 ^ 19 <= 10 ^ P) by (apply Z.pow_le_mono_r; lia). change (hi L64) with 9223372036854775807 in Hc. lia.
    - assert (P <> 38) by (intros ->; auto). assert (10 ^ 39 <= 10 ^ P) by (apply Z.pow_le_mono_r; lia).
      change (hi L128) with 170141183460469231731687303715884105727 in Hc. lia. }
  apply Z.le_trans with (2 * 10 ^ (match L with L16 => 4 | L32 => 9 | L64 => 18 | L128 => 37 end)).
  - apply Z.mul_le_mono_nonneg_l; [lia|]. apply Z.pow_le_mono_r; lia.
  - destruct L; vm_compute; discriminate.
Qed.
Lemma room_cases b L : supported b L -> dlen L + 3 <= MAX_LEN b \/ dlen L + 2 = MAX_LEN b.
Proof. unfold supported, MAX_LEN. intros H. destruct L, (f128 b); cbn; try lia; discriminate (H eq_refl). Qed.
Theorem to_string_ok b L P x : valid b L P -> in_range L x -> printable b L P x ->
  exists s, to_string b L P x = Ret s /\ canonical s (dec P x) /\ Z.of_nat (length s) <= buffer b.
Proof.
  intros Hv Hx [H0 H38]. pose proof (proj1 (proj2 Hv)) as HP.
  destruct (stringify_val b L P x Hv Hx) as (i & f & E & Hi & Hf & Hvi & Hhi & Hlf & Hvf & Hlen).
  - intros E. specialize (H0 E). lia.
  - left. pose proof (Z.mod_pos_bound (Z.abs x) (10 ^ P) (pow10_pos P HP)).
    assert (L = L128 /\ P = 38 \/ ~ (L = L128 /\ P = 38)) as [[EL EP]|K] by (destruct L, (Z.eq_dec P 38); intuition congruence).
    + subst. apply H38; reflexivity.
    + apply frac_room; [apply Hv|assumption|assumption].
  - intros E Hn. destruct (room_cases b L (proj1 Hv)) as [K|K]; [left; exact K|right].
    specialize (H0 E). rewrite <- MAX_LEN_buffer, <- K in H0. replace (dlen L + 2 - 3) with (dlen L - 1) in H0 by lia. lia.
  - exists (text x i f). split; [exact E|]. split; [now apply text_canonical|exact Hlen].
Qed.
Theorem round_trip b L P x : valid b L P -> in_range L x -> printable b L P x -> 0 < P ->
  exists s, to_string b L P x = Ret s /\ from_str_exact b L P s = Ret (Ok x) /\ from_str b L P s = Ret (Ok x).
Proof.
  intros Hv Hx Hp HP. destruct (to_string_ok b L P x Hv Hx Hp) as (s & E & Hc & _). exists s. split; [exact E|].
  now apply canonical_parses.
Qed.
(** With precision 0 nothing printed is accepted back. *)
Theorem round_trip0 b L x : valid b L 0 -> in_range L x -> printable b L 0 x ->
  exists s, to_string b L 0 x = Ret s /\ from_str_exact b L 0 s = Ret (Err ConvertError) /\ from_str b L 0 s = Ret (Err ConvertError).
Proof.
  intros Hv Hx Hp. destruct (to_string_ok b L 0 x Hv Hx Hp) as (s & E & Hc & _). exists s. split; [exact E|].
  destruct (canonical_spells _ _ Hc) as (neg & i & f & Hs & _).
  assert (0 < Z.of_nat (length f)) as Hf.
  { destruct Hs as (_ & _ & _ & _ & _ & _ & _ & [Hn _] & _). destruct f; [congruence|cbn [length]; lia]. }
  unfold from_str_exact, from_str. rewrite !(parse_spelled b L 0 _ s neg i (Some f) Hv Hs). cbn [andb negb].
  replace (0 <? _) with true by lia. auto.
Qed.

(** ** The values it does not handle *)
Lemma iabs_overflow b t x : ovf b = true -> ~ fits t (Z.abs x) -> iabs b t x = Panic.
Proof. intros Ho Hf. unfold iabs, fit. rewrite (fitsb_false _ _ Hf), Ho. reflexivity. Qed.
Theorem show_min b L : valid b L 0 -> ovf b = true -> to_string b L 0 (lo L) = Panic.
Proof.
  intros Hv Ho. pose proof (hi_pos L) as Hh. pose proof (lo_hi L) as Hl. unfold to_string, stringify.
  replace (Z.sgn (lo L) <? 0) with true by lia.
  rewrite push_ok by (cbn [length]; pose proof (dlen_max b L (proj1 Hv)); destruct L; cbn in *; lia). cbn [bind].
  rewrite COEF_ok by assumption. cbn [bind]. change (10 ^ 0) with 1.
  rewrite div_ok by (lia || (rewrite Z.quot_1_r, fits_lty; unfold in_range; lia)). cbn [bind]. rewrite Z.quot_1_r.
  rewrite iabs_overflow; [reflexivity|assumption|]. rewrite fits_lty. unfold in_range. lia.
Qed.
Theorem show_overrun b L x : valid b L 0 -> in_range L x -> x <> lo L -> x <= - 10 ^ (buffer b - 3) ->
  to_string b L 0 x = if dbg b then Panic else Undef.
Proof.
  intros Hv Hx Hne Hb. pose proof (hi_pos L) as Hh. pose proof (lo_hi L) as Hl. pose proof (dlen_hi L) as [Hd1 Hd2].
  assert (5 <= dlen L) as Hd5 by (destruct L; cbn; lia). unfold in_range in Hx.
  pose proof (pow10_pos (buffer b - 3) ltac:(unfold buffer; destruct (f128 b); lia)) as Hbp.
  assert (dlen L + 2 = MAX_LEN b) as EM.
  { destruct (room_cases b L (proj1 Hv)) as [K|K]; [exfalso|exact K]. rewrite <- MAX_LEN_buffer in *.
    assert (10 ^ dlen L <= 10 ^ (MAX_LEN b - 3)) by (apply Z.pow_le_mono_r; lia). lia. }
  rewrite <- MAX_LEN_buffer, <- EM in *. replace (dlen L + 2 - 3) with (dlen L - 1) in * by lia.
  unfold to_string, stringify. replace (Z.sgn x <? 0) with true by lia.
  rewrite push_ok by (cbn [length]; lia). cbn [bind].
  rewrite COEF_ok by assumption. cbn [bind]. change (10 ^ 0) with 1.
  assert (in_range L x) as Hx' by (unfold in_range; lia).
  rewrite div_ok by (lia || (rewrite Z.quot_1_r, fits_lty; assumption)). cbn [bind]. rewrite Z.quot_1_r.
  rewrite iabs_ok by (rewrite fits_lty; unfold in_range; lia). cbn [bind].
  rewrite rem_ok by (lia || (rewrite Z.quot_1_r, fits_lty; assumption)). rewrite Z.rem_1_r. cbn [bind].
  change (iabs b (lty L) 0) with (fit b (lty L) 0). rewrite fit_ok by (rewrite fits_lty; unfold in_range; lia). cbn [bind].
  destruct (itoa_spec (Z.abs x) ltac:(lia)) as (i & -> & Hi & Hvi & Hhi).
  assert (Z.of_nat (length i) = dlen L) as Li.
  { assert (Z.of_nat (length i) <= dlen L) by (apply lead_length; try assumption; lia).
    pose proof (numval_bound i (proj2 Hi)) as B.
    assert (dlen L - 1 < Z.of_nat (length i)) by (apply (Z.pow_lt_mono_r_iff 10); lia). lia. }
  rewrite push_str_ok by (cbn [length app]; lia). cbn [bind].
  rewrite push_ok by (rewrite ?app_length; cbn [length app]; lia). cbn [bind].
  change (0 <? 0) with false. cbv iota. unfold push.
  replace (Z.of_nat (length ((([] ++ [45]) ++ i) ++ [46])) <? MAX_LEN b) with false
    by (symmetry; apply Z.ltb_ge; rewrite !app_length; cbn [length]; lia).
  unfold dassert. destruct (dbg b); reflexivity.
Qed.
Theorem show_38 b x : valid b L128 38 -> in_range L128 x -> ovf b = true -> hi L128 < Z.abs x mod 10 ^ 38 + 10 ^ 38 ->
  to_string b L128 38 x = Panic.
Proof.
  intros Hv Hx Ho Hb. pose proof (lo_hi L128) as Hl. destruct (quot_abs x (10 ^ 38) ltac:(lia)) as [Eq Er].
  pose proof (Z.mod_pos_bound (Z.abs x) (10 ^ 38) ltac:(lia)) as HF. set (F := Z.abs x mod 10 ^ 38) in *.
  assert (0 <= Z.abs x / 10 ^ 38 <= 1) as HA.
  { split; [apply Z.div_pos; lia|]. apply Z.lt_succ_r. apply Z.div_lt_upper_bound; [lia|]. unfold in_range in Hx.
    rewrite Hl in Hx. change (hi L128) with 170141183460469231731687303715884105727 in *. lia. }
  set (A := Z.abs x / 10 ^ 38) in *.
  assert (MAX_LEN b = 41) as EM by (unfold MAX_LEN; now rewrite (proj1 Hv eq_refl)).
  unfold to_string, stringify.
  assert ((if Z.sgn x <? 0 then push b [] 45 else Ret []) = Ret (if x <? 0 then [45] else [])) as ->.
  { destruct (Z.ltb_spec x 0) as [Kx|Kx].
    - replace (Z.sgn x <? 0) with true by lia. apply push_ok; [cbn [length]|]; lia.
    - now replace (Z.sgn x <? 0) with false by lia. }
  cbn [bind]. rewrite COEF_ok by assumption. cbn [bind].
  assert (fits (lty L128) (Z.quot x (10 ^ 38))) as Fq by (rewrite fits_lty; apply quot_range; [lia|assumption]).
  rewrite div_ok by (lia || assumption). cbn [bind].
  rewrite iabs_ok by (rewrite Eq, fits_lty; unfold in_range; rewrite Hl; change (hi L128) with 170141183460469231731687303715884105727; lia).
  cbn [bind]. rewrite rem_ok by (lia || assumption). cbn [bind].
  rewrite iabs_ok by (rewrite Er, fits_lty; unfold in_range; rewrite Hl; change (hi L128) with 170141183460469231731687303715884105727; lia).
  cbn [bind]. rewrite Eq, Er.
  assert (length (itoa A) = 1%nat) as LA by (assert (A = 0 \/ A = 1) as [-> | ->] by lia; reflexivity).
  rewrite push_str_ok by (rewrite LA, EM; destruct (x <? 0); cbn [length]; lia). cbn [bind].
  rewrite push_ok by (rewrite ?app_length, ?LA, ?EM; destruct (x <? 0); cbn [length]; lia). cbn [bind].
  replace (0 <? F) with true by (change (hi L128) with 170141183460469231731687303715884105727 in Hb; lia).
  unfold add, fit. rewrite fitsb_false by (rewrite fits_lty; unfold in_range; lia). rewrite Ho. reflexivity.
Qed.
(** Without overflow checks: an out-of-bounds write, a text with two signs, a wrong text. *)
Lemma show_undef : exists L x, valid release L 0 /\ in_range L x /\ to_string release L 0 x = Undef.
Proof. exists L128, (- 10 ^ 38). repeat split; vm_compute; congruence. Qed.
Lemma show_undef64 : exists b x, valid b L64 0 /\ in_range L64 x /\ to_string b L64 0 x = Undef.
Proof.
  exists {| ovf := false; dbg := false; std := true; f128 := false |}, (- 10 ^ 18).
  repeat split; vm_compute; congruence.
Qed.
Lemma show_two_signs : to_string release L16 0 (lo L16) = Ret [45; 45; 51; 50; 55; 54; 56; 46; 48].
Proof. vm_compute. reflexivity. Qed.
Lemma show_wrong38 : exists x s y, valid release L128 38 /\ in_range L128 x /\ to_string release L128 38 x = Ret s /\
  from_str release L128 38 s = Ret (Ok y) /\ y <> x.
Proof.
  exists 90000000000000000000000000000000000000.
  do 2 eexists. split; [repeat split; vm_compute; congruence|]. split; [split; vm_compute; congruence|].
  split; [vm_compute; reflexivity|]. split; [vm_compute; reflexivity|]. congruence.
Qed.
Lemma show_refuted : exists x, valid dev L16 0 /\ in_range L16 x /\ to_string dev L16 0 x = Panic.
Proof. exists (lo L16). repeat split; vm_compute; congruence. Qed.
Lemma round_trip_refuted : exists x s, valid dev L16 0 /\ in_range L16 x /\ to_string dev L16 0 x = Ret s /\
  from_str dev L16 0 s = Ret (Err ConvertError) /\ from_str_exact dev L16 0 s = Ret (Err ConvertError).
Proof.
  exists 7. eexists. split; [repeat split; vm_compute; congruence|]. split; [split; vm_compute; congruence|].
  split; [vm_compute; reflexivity|]. split; vm_compute; reflexivity.
Qed.
Lemma from_str_refuted : exists s neg i f x, valid dev L16 0 /\ spells s neg i f /\ in_range L16 x /\
  (dec 0 x == spelled neg i f)%Q /\ from_str dev L16 0 s = Ret (Err ConvertError).
Proof.
  exists [49; 46; 48], false, [49], (Some [48]), 1. split; [repeat split; vm_compute; congruence|]. split.
  - exists [], [], []. repeat split; try (repeat constructor; unfold digit; lia); try discriminate.
  - split; [split; vm_compute; congruence|]. split; vm_compute; reflexivity.
Qed.
