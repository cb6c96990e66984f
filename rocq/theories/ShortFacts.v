(** * ShortFacts: printed texts are as short as texts can be. *)
From Verif Require Import Base Promo Fixed Str Spec SpecText BaseFacts RoundFacts MulDiv StrFacts ShowFacts.
From Verif Require Import Fixed.
Ltac Zify.zify_post_hook ::= idtac.
Open Scope Z_scope.

(** A run of digits without leading zero is no longer than the numbers below it need. *)
Lemma digits_short i k : digits i -> (hd 0 i = 48 -> i = [48]) -> numval i < 10 ^ k -> 1 <= k -> Z.of_nat (length i) <= k.
Proof.
  intros [Hn Hd] Hl Hb Hk. destruct i as [|c t]; [congruence|]. cbn [hd numval length] in *.
  pose proof (Forall_inv Hd) as Hc. unfold digit in Hc.
  destruct (Z.eq_dec c 48) as [->|Nc].
  - specialize (Hl eq_refl). injection Hl as ->. cbn [length]. lia.
  - pose proof (numval_bound t (Forall_inv_tail Hd)) as Bt.
    assert (10 ^ Z.of_nat (length t) < 10 ^ k) as Hp.
    { pose proof (pow10_pos (Z.of_nat (length t)) ltac:(lia)). nia. }
    apply Z.pow_lt_mono_r_iff in Hp; lia.
Qed.
(** One without trailing zero is no longer than its value needs. *)
Lemma fraction_short f q y : digits f -> (last f 0 = 48 -> f = [48]) -> 0 <= q ->
  numval f * 10 ^ q = 10 ^ Z.of_nat (length f) * y -> Z.of_nat (length f) <= Z.max 1 q.
Proof.
  intros Hd Hl Hq E. set (n := Z.of_nat (length f)) in *.
  destruct (Z_le_gt_dec n q) as [H|H]; [lia|].
  assert (10 ^ n = 10 ^ q * (10 * 10 ^ (n - q - 1))) as En.
  { rewrite <- Z.pow_succ_r, <- Z.pow_add_r by lia. f_equal. lia. }
  pose proof (pow10_pos q Hq) as Hp.
  assert (numval f = 10 ^ (n - q - 1) * y * 10) as E'.
  { apply (Z.mul_cancel_r _ _ (10 ^ q)); [lia|]. rewrite E, En. ring. }
  assert (numval f mod 10 = 0) as M by (rewrite E'; apply Z.mod_mul; lia).
  enough (f = [48]) as -> by (cbn; lia).
  apply Hl. destruct Hd as [Hn Hf]. destruct (exists_last Hn) as (t & c & ->). rewrite last_last.
  apply Forall_app in Hf as [_ Hc]. apply Forall_inv in Hc. unfold digit in Hc.
  rewrite numval_app in M. cbn [numval length] in M. change (10 ^ Z.of_nat 1) with 10 in M. change (10 ^ Z.of_nat 0) with 1 in M.
  rewrite Z.add_comm, Z_mod_plus_full, Z.mul_1_r, Z.add_0_r, Z.mod_small in M by lia. lia.
Qed.
(** The length of the text of [y / 10^q] when [y] has at most [k + q] digits. *)
Lemma canonical_short P x t k q y : 0 <= P -> canonical t (dec P x) -> 1 <= k -> Z.abs x < 10 ^ (P + k) ->
  0 <= q <= P -> x = y * 10 ^ (P - q) ->
  Z.of_nat (length t) <= (if x <? 0 then 1 else 0) + k + 1 + Z.max 1 q.
Proof.
  intros HP Hc Hk Hb Hq Ex. apply canonical_alt in Hc as (i & f & Hi & Hf & -> & Hl & Hz & E).
  rewrite (negq_dec P x HP) in *. symmetry in E. apply (dec_eq_spelled P _ i (Some f) x HP) in E.
  unfold places in E. cbn [fraction] in E.
  pose proof (numval_bound i (proj2 Hi)) as Bi. pose proof (numval_bound f (proj2 Hf)) as Bf.
  set (n := Z.of_nat (length f)) in *. assert (0 <= n) as Hn by lia.
  pose proof (pow10_pos n Hn) as Hpn. pose proof (pow10_pos P HP) as HpP. pose proof (pow10_pos k ltac:(lia)) as Hpk.
  assert (Z.abs x * 10 ^ n = (numval i * 10 ^ n + numval f) * 10 ^ P) as Ea.
  { destruct (Z.ltb_spec x 0); cbn [sgz] in E; nia. }
  rewrite Z.pow_add_r in Hb by lia.
  assert (Z.of_nat (length i) <= k) as Li.
  { apply digits_short; auto.
    assert ((numval i * 10 ^ n) * 10 ^ P < (10 ^ k * 10 ^ n) * 10 ^ P) as Hlt.
    { assert (Z.abs x * 10 ^ n < 10 ^ P * 10 ^ k * 10 ^ n) by (apply Z.mul_lt_mono_pos_r; lia). nia. }
    apply Z.mul_lt_mono_pos_r in Hlt; [|lia]. apply Z.mul_lt_mono_pos_r in Hlt; lia. }
  assert (n <= Z.max 1 q) as Lf.
  { apply (fraction_short f q (Z.abs y - numval i * 10 ^ q)); auto; [lia|]. fold n.
    pose proof (pow10_pos (P - q) ltac:(lia)) as Hr.
    assert (10 ^ P = 10 ^ q * 10 ^ (P - q)) as EP by (rewrite <- Z.pow_add_r by lia; f_equal; lia).
    assert (Z.abs x = Z.abs y * 10 ^ (P - q)) as Ey by (rewrite Ex, Z.abs_mul, (Z.abs_eq (10 ^ (P - q))); lia).
    apply (Z.mul_cancel_r _ _ (10 ^ (P - q))); [lia|]. rewrite Ey, EP in Ea. nia. }
  rewrite !app_length. cbn [length]. fold n in Lf. destruct (x <? 0); cbn [length]; lia.
Qed.
Lemma sgz_abs neg v : 0 <= v -> Z.abs (sgz neg v) = v.
Proof. destruct neg; cbn; lia. Qed.
(** The length of a text that spells something. *)
Lemma spells_length s neg i f : spells s neg i f ->
  (if neg then 1 else 0) + Z.of_nat (length i) + match f with None => 0 | Some f => 1 + Z.of_nat (length f) end
    <= Z.of_nat (length s).
Proof.
  intros (pre & sg & post & _ & _ & _ & Hs & H).
  assert ((if neg then 1 else 0) <= Z.of_nat (length sg)) as L by (destruct neg; [subst sg; cbn; lia|lia]).
  destruct f as [f|]; [destruct H as [_ ->]|subst s]; rewrite !app_length; cbn [length]; lia.
Qed.
Lemma spells_digits s neg i f : spells s neg i f -> digits i /\ Forall digit (fraction f) /\
  (f <> None -> 1 <= places f).
Proof.
  intros (pre & sg & post & _ & _ & Hi & _ & H). split; [exact Hi|]. destruct f as [f|]; cbn [fraction].
  - destruct H as [[Hn Hf] _]. split; [exact Hf|]. intros _. unfold places. cbn [fraction]. destruct f; [congruence|cbn [length]; lia].
  - split; [constructor|congruence].
Qed.
(** Only texts with a minus sign are read as negative numbers. *)
Lemma short_rounds P s neg i f x t : 0 <= P -> spells s neg i f -> (P = 0 -> f = None) ->
  rounds_to Nearest P (spelled neg i f) x -> canonical t (dec P x) ->
  Z.of_nat (length t) <= Z.of_nat (length s) + match f with None => 2 | Some _ => 0 end.
Proof.
  intros HP Hs H0 Hr Hc. pose proof (spells_length _ _ _ _ Hs) as Ls. destruct (spells_digits _ _ _ _ Hs) as (Hi & Hf & Hp1).
  unfold rounds_to in Hr. apply (rounds_compat _ _ _ _ (spelled_scaled P neg i f HP)) in Hr.
  assert (places f = Z.of_nat (length (fraction f))) as Ep by reflexivity.
  pose proof (numval_bound i (proj2 Hi)) as Bi. pose proof (numval_bound _ Hf) as Bf. rewrite <- Ep in Bf.
  set (p := places f) in *. assert (0 <= p) as Hp by lia. pose proof (pow10_pos p Hp) as Hpp.
  apply rounds_zrounds in Hr; [|exact Hpp].
  set (V := numval i * 10 ^ p + numval (fraction f)) in *.
  set (l := Z.of_nat (length i)) in *.
  assert (1 <= l) as Hl by (destruct Hi as [Hn _]; unfold l; destruct i; [congruence|cbn [length]; lia]).
  pose proof (pow10_pos l ltac:(lia)) as Hpl. pose proof (pow10_pos P HP) as HpP.
  assert (0 <= V < 10 ^ (l + p)) as HV by (rewrite Z.pow_add_r by lia; unfold V; nia).
  assert ((if x <? 0 then 1 else 0) <= (if neg then 1 else 0)) as Hsg.
  { destruct neg; [destruct (x <? 0); lia|]. destruct (Z.ltb_spec x 0) as [Hx|]; [|lia]. exfalso.
    cbn [sgz] in Hr. destruct Hr as [Hr _].
    assert (0 <= V * 10 ^ P) by (apply Z.mul_nonneg_nonneg; lia). assert (x * 10 ^ p <= -1 * 10 ^ p) by (apply Z.mul_le_mono_nonneg_r; lia). lia. }
  destruct (Z_le_gt_dec p P) as [Hle|Hgt].
  - (* nothing to round *)
    assert (10 ^ P = 10 ^ (P - p) * 10 ^ p) as EP by (rewrite <- Z.pow_add_r by lia; f_equal; lia).
    assert (x = sgz neg V * 10 ^ (P - p)) as Ex.
    { apply (zrounds_unique Nearest _ (10 ^ p) _ _ Hpp Hr). unfold zrounds. rewrite EP.
      replace (sgz neg V * (10 ^ (P - p) * 10 ^ p)) with (sgz neg V * 10 ^ (P - p) * 10 ^ p) by ring. lia. }
    assert (Z.abs x < 10 ^ (P + l)) as Hb.
    { rewrite Ex, Z.abs_mul, sgz_abs, (Z.abs_eq (10 ^ (P - p))) by (try apply Z.pow_nonneg; lia).
      replace (P + l) with ((l + p) + (P - p)) by ring. rewrite (Z.pow_add_r 10 (l + p)) by lia.
      apply Z.mul_lt_mono_pos_r; [apply pow10_pos|]; lia. }
    pose proof (canonical_short P x t l p (sgz neg V) HP Hc Hl Hb ltac:(lia) Ex) as L.
    destruct f as [f|]; [|change p with 0 in L; lia]. specialize (Hp1 ltac:(discriminate)). unfold places in p. cbn [fraction] in *. lia.
  - (* rounded *)
    destruct f as [f|]; [|exfalso; unfold p, places in Hgt; cbn in Hgt; lia].
    assert (1 <= P) as HP1 by (destruct (Z.eq_dec P 0) as [E|]; [specialize (H0 E); discriminate|lia]).
    assert (10 ^ p = 10 ^ P * 10 ^ (p - P)) as EP by (rewrite <- Z.pow_add_r by lia; f_equal; lia).
    pose proof (pow10_pos (p - P) ltac:(lia)) as Hpd.
    assert (Z.abs x <= 10 ^ (P + l)) as Hb.
    { rewrite Z.pow_add_r in HV |- * by lia.
      assert (2 * Z.abs x * 10 ^ p <= 2 * V * 10 ^ P + 10 ^ p) as Hx
        by (destruct Hr as [Hr _]; rewrite <- (sgz_abs neg V) by lia; destruct neg; cbn [sgz] in *; lia).
      apply Z.nlt_ge. intros K. assert (10 ^ P * 10 ^ l + 1 <= Z.abs x) as K' by lia. nia. }
    cbn [fraction] in *.
    destruct (Z.eq_dec (Z.abs x) (10 ^ (P + l))) as [E|N].
    + assert (Z.abs x < 10 ^ (P + (l + 1))) as Hb' by (rewrite E; apply Z.pow_lt_mono_r; lia).
      assert (x = (if x <? 0 then - 10 ^ l else 10 ^ l) * 10 ^ (P - 0)) as Ex.
      { rewrite Z.sub_0_r. rewrite Z.pow_add_r in E by lia. destruct (Z.ltb_spec x 0); lia. }
      pose proof (canonical_short P x t (l + 1) 0 _ HP Hc ltac:(lia) Hb' ltac:(lia) Ex) as L. lia.
    + assert (x = x * 10 ^ (P - P)) as Ex by (rewrite Z.sub_diag, Z.pow_0_r; lia).
      pose proof (canonical_short P x t l P x HP Hc Hl ltac:(lia) ltac:(lia) Ex) as L. lia.
Qed.
Lemma spells_point s neg i f : spells s neg i f -> (In 46 s <-> f <> None).
Proof.
  intros (pre & sg & post & Hpre & Hpost & Hi & Hsg & H). split.
  - intros I. destruct f; [discriminate|]. exfalso. subst s. rewrite !in_app_iff in I.
    destruct I as [I|[[I|I]|I]].
    + rewrite Forall_forall in Hpre. specialize (Hpre _ I). unfold space in Hpre. lia.
    + destruct neg; [subst sg|destruct Hsg; subst sg]; cbn in I; intuition discriminate.
    + destruct Hi as [_ Hi]. rewrite Forall_forall in Hi. specialize (Hi _ I). unfold digit in Hi. lia.
    + rewrite Forall_forall in Hpost. specialize (Hpost _ I). unfold space in Hpost. lia.
  - intros N. destruct f as [f|]; [|congruence]. destruct H as [_ ->]. rewrite !in_app_iff. cbn [In]. auto 10.
Qed.
Lemma shortest b b' L P s x t : valid b L P -> valid b' L P -> in_range L x -> printable b L P x ->
  to_string b L P x = Ret t -> from_str b' L P s = Ret (Ok x) ->
  Z.of_nat (length t) <= Z.of_nat (length s) + 2 /\ (In 46 s -> Z.of_nat (length t) <= Z.of_nat (length s)).
Proof.
  intros V V' R Pr Ht Hs. destruct (to_string_ok b L P x V R Pr) as (t' & Et & Hc & _).
  rewrite Ht in Et. injection Et as <-. apply (from_str_ok b' L P s x V') in Hs as (neg & i & f & Sp & H0 & _ & Hr).
  pose proof (proj1 (proj2 V')) as HP.
  pose proof (short_rounds P s neg i f x t HP Sp H0 Hr Hc) as H. pose proof (spells_point _ _ _ _ Sp) as Hpt.
  split; [destruct f; lia|]. intros I. apply Hpt in I. destruct f; [lia|congruence].
Qed.
Lemma shortest_exact b b' L P s x t : valid b L P -> valid b' L P -> in_range L x -> printable b L P x ->
  to_string b L P x = Ret t -> from_str_exact b' L P s = Ret (Ok x) ->
  Z.of_nat (length t) <= Z.of_nat (length s) + 2 /\ (In 46 s -> Z.of_nat (length t) <= Z.of_nat (length s)).
Proof.
  intros V V' R Pr Ht Hs. destruct (to_string_ok b L P x V R Pr) as (t' & Et & Hc & _).
  rewrite Ht in Et. injection Et as <-. apply (from_str_exact_ok b' L P s x V') in Hs as (neg & i & f & Sp & Hp & _ & Ed).
  pose proof (proj1 (proj2 V')) as HP.
  destruct (spells_digits _ _ _ _ Sp) as (_ & _ & Hp1).
  assert (rounds_to Nearest P (spelled neg i f) x) as Hr.
  { unfold rounds_to. eapply rounds_compat; [symmetry; apply (spelled_scaled P neg i f HP)|].
    apply (dec_eq_spelled P neg i f x HP) in Ed.
    assert (0 < 10 ^ places f) as Hpp by (apply pow10_pos; unfold places; lia).
    apply rounds_zrounds; [exact Hpp|]. unfold zrounds. rewrite <- Ed. lia. }
  assert (P = 0 -> f = None) as H0.
  { intros ->. destruct f; [|reflexivity]. specialize (Hp1 ltac:(discriminate)). lia. }
  pose proof (short_rounds P s neg i f x t HP Sp H0 Hr Hc) as H. pose proof (spells_point _ _ _ _ Sp) as Hpt.
  split; [destruct f; lia|]. intros I. apply Hpt in I. destruct f; [lia|congruence].
Qed.
