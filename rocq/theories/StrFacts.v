(** * StrFacts: what [parse_str] does with every string. *)
From Verif Require Import Base Promo ConstFn Ops Fixed Str Spec SpecText BaseFacts RoundFacts SimpleProofs.
From Verif Require Import Fixed.
Ltac Zify.zify_post_hook ::= idtac.
Open Scope Z_scope.

(** ** Characters and digit strings *)
Lemma is_ws_space c : is_ws c = true <-> space c.
Proof. unfold is_ws, space. lia. Qed.
Lemma is_ws_not c : is_ws c = false <-> ~ space c.
Proof. rewrite <- is_ws_space. destruct (is_ws c); intuition congruence. Qed.
Lemma is_digit_digit c : is_digit c = true <-> digit c.
Proof. unfold is_digit, digit. lia. Qed.
Lemma all_digits s : forallb is_digit s = true <-> Forall digit s.
Proof.
  rewrite forallb_forall, Forall_forall. split; intros H c Hc; apply is_digit_digit, H, Hc.
Qed.
Lemma digit_not_space c : digit c -> ~ space c.
Proof. unfold digit, space. lia. Qed.

Lemma numval_app s t : numval (s ++ t) = numval s * 10 ^ Z.of_nat (length t) + numval t.
Proof.
  induction s as [|c s IH]; [reflexivity|]. cbn [app numval]. rewrite IH, app_length, Nat2Z.inj_add, Z.pow_add_r by lia. ring.
Qed.
Lemma digits_value_acc s a :
  fold_left (fun a c => 10 * a + (c - 48)) s a = a * 10 ^ Z.of_nat (length s) + numval s.
Proof.
  revert a. induction s as [|c s IH]; intros a; cbn [fold_left numval length].
  - change (10 ^ Z.of_nat 0) with 1. lia.
  - rewrite IH. rewrite Nat2Z.inj_succ, Z.pow_succ_r by lia. ring.
Qed.
Lemma digits_value_numval s : digits_value s = numval s.
Proof. unfold digits_value. rewrite digits_value_acc. lia. Qed.
Lemma numval_bound s : Forall digit s -> 0 <= numval s < 10 ^ Z.of_nat (length s).
Proof.
  induction 1 as [|c s Hc _ IH]; cbn [numval length]; [change (10 ^ Z.of_nat 0) with 1; lia|].
  rewrite Nat2Z.inj_succ, Z.pow_succ_r by lia. unfold digit in Hc. nia.
Qed.

(** ** Trimming *)
Lemma trim_start_split s : exists pre, Forall space pre /\ s = pre ++ trim_start s.
Proof.
  induction s as [|c s (pre & Hp & IH)]; [exists []; split; [constructor|reflexivity]|].
  cbn [trim_start]. destruct (is_ws c) eqn:K.
  - exists (c :: pre). split; [constructor; [now apply is_ws_space|assumption]|]. cbn. now f_equal.
  - exists []. split; [constructor|reflexivity].
Qed.
Lemma trim_start_skip pre s : Forall space pre -> trim_start (pre ++ s) = trim_start s.
Proof.
  induction 1 as [|c pre Hc _ IH]; [reflexivity|]. cbn. apply is_ws_space in Hc. now rewrite Hc.
Qed.
Lemma trim_start_stop c s : ~ space c -> trim_start (c :: s) = c :: s.
Proof. intros H. cbn. apply is_ws_not in H. now rewrite H. Qed.
Lemma trim_split s : exists pre post, Forall space pre /\ Forall space post /\ s = pre ++ trim s ++ post.
Proof.
  unfold trim. destruct (trim_start_split s) as (pre & Hp & E).
  destruct (trim_start_split (rev (trim_start s))) as (post & Hq & E').
  exists pre, (rev post). split; [assumption|]. split; [now apply Forall_rev|].
  rewrite <- rev_app_distr, <- E', rev_involutive. exact E.
Qed.
Lemma trim_body pre c s d post : Forall space pre -> Forall space post -> ~ space c -> ~ space d ->
  forall body, body = c :: s -> last body 0 = d -> trim (pre ++ body ++ post) = body.
Proof.
  intros Hp Hq Hc Hd body Eb El. unfold trim. rewrite trim_start_skip by assumption. rewrite Eb. cbn [app].
  rewrite trim_start_stop by assumption. change (c :: s ++ post) with ((c :: s) ++ post). rewrite <- Eb.
  rewrite rev_app_distr, trim_start_skip by now apply Forall_rev.
  destruct (exists_last (l := body)) as (l & e & E); [rewrite Eb; discriminate|]. rewrite E in El |- *. rewrite last_last in El. subst e.
  rewrite rev_app_distr. cbn [rev app]. rewrite trim_start_stop by assumption. cbn [rev]. now rewrite rev_involutive.
Qed.

(** ** Splitting at the point *)
Lemma split_once_none s p : split_once s p = None -> ~ In p s.
Proof.
  induction s as [|c s IH]; [auto|]. cbn. destruct (Z.eqb_spec c p); [discriminate|].
  destruct (split_once s p) as [[l r]|]; [discriminate|]. intuition.
Qed.
Lemma split_once_some s p l r : split_once s p = Some (l, r) -> s = l ++ p :: r.
Proof.
  revert l. induction s as [|c s IH]; [discriminate|]. intros l. cbn. destruct (Z.eqb_spec c p) as [->|Hc].
  - intros [= <- <-]. reflexivity.
  - destruct (split_once s p) as [[l' r']|] eqn:E; [|discriminate]. intros [= <- <-]. cbn. f_equal. now apply IH.
Qed.
Lemma split_once_at l p r : ~ In p l -> split_once (l ++ p :: r) p = Some (l, r).
Proof.
  induction l as [|c l IH]; intros H; cbn.
  - now rewrite Z.eqb_refl.
  - destruct (Z.eqb_spec c p) as [->|Hc]; [exfalso; apply H; now left|]. rewrite IH; [reflexivity|].
    intros K. apply H. now right.
Qed.
Lemma split_once_not s p : ~ In p s -> split_once s p = None.
Proof.
  induction s as [|c s IH]; intros H; [reflexivity|]. cbn. destruct (Z.eqb_spec c p) as [->|Hc].
  - exfalso. apply H. now left.
  - rewrite IH; [reflexivity|]. intros K. apply H. now right.
Qed.

(** ** Integers *)
Definition sgz (neg : bool) (v : Z) : Z := if neg then - v else v.
Definition sign_str (neg : bool) (sg : list Z) : Prop := if neg then sg = [45] else sg = [] \/ sg = [43].

Lemma parse_uint_digits i : digits i -> parse_uint i = Some (numval i).
Proof.
  intros [Hn Hd]. unfold parse_uint. destruct i as [|c i]; [congruence|]. apply all_digits in Hd. rewrite Hd.
  f_equal. apply digits_value_numval.
Qed.
Lemma parse_uint_inv s v : parse_uint s = Some v -> digits s /\ v = numval s.
Proof.
  unfold parse_uint. destruct s as [|c s]; [discriminate|]. destruct (forallb _ _) eqn:K; [|discriminate].
  intros [= <-]. apply all_digits in K. split; [split; [discriminate|assumption]|apply digits_value_numval].
Qed.
Lemma parse_int_digits t neg sg i : sign_str neg sg -> digits i ->
  parse_int_str t (sg ++ i) = chk t (sgz neg (numval i)).
Proof.
  intros Hs Hi. pose proof (parse_uint_digits i Hi) as E. unfold chk. destruct neg; cbn [sign_str] in Hs.
  - subst sg. cbn [app parse_int_str]. cbn [Z.eqb Pos.eqb]. rewrite E. reflexivity.
  - destruct Hs as [->| ->].
    + destruct i as [|c i]; [destruct Hi; congruence|]. destruct Hi as [_ Hi]. inversion Hi as [|? ? Hc _]; subst.
      cbn [app parse_int_str]. unfold digit in Hc. replace (c =? 43) with false by lia. replace (c =? 45) with false by lia.
      rewrite E. reflexivity.
    + cbn [app parse_int_str]. cbn [Z.eqb Pos.eqb]. rewrite E. reflexivity.
Qed.
Lemma parse_int_inv t s v : parse_int_str t s = Some v ->
  exists neg sg i, sign_str neg sg /\ digits i /\ s = sg ++ i /\ v = sgz neg (numval i) /\ fits t v.
Proof.
  unfold parse_int_str. destruct s as [|c r]; [discriminate|].
  destruct (Z.eqb_spec c 43) as [->|H43]; [|destruct (Z.eqb_spec c 45) as [->|H45]].
  - destruct (parse_uint r) as [u|] eqn:E; [|discriminate]. destruct (fitsb t u) eqn:F; [|discriminate]. intros [= <-].
    apply parse_uint_inv in E as [Hd ->]. exists false, [43], r. cbn. apply fitsb_fits in F. auto 6.
  - destruct (parse_uint r) as [u|] eqn:E; [|discriminate]. destruct (fitsb t (- u)) eqn:F; [|discriminate]. intros [= <-].
    apply parse_uint_inv in E as [Hd ->]. exists true, [45], r. cbn. apply fitsb_fits in F. auto 6.
  - destruct (parse_uint (c :: r)) as [u|] eqn:E; [|discriminate]. destruct (fitsb t u) eqn:F; [|discriminate]. intros [= <-].
    apply parse_uint_inv in E as [Hd ->]. exists false, [], (c :: r). cbn. apply fitsb_fits in F. auto 6.
Qed.
Lemma parse_frac t f : digits f -> parse_int_str t f = chk t (numval f).
Proof. intros H. apply (parse_int_digits t false [] f); [now left|assumption]. Qed.

Lemma digit_free i p : Forall digit i -> ~ digit p -> ~ In p i.
Proof. intros H Hp K. rewrite Forall_forall in H. auto. Qed.
Lemma sg_free neg sg : sign_str neg sg -> ~ In 46 sg.
Proof. destruct neg; cbn; [intros ->|intros [->| ->]]; cbn; intuition lia. Qed.
Lemma sg_int_free neg sg i : sign_str neg sg -> Forall digit i -> ~ In 46 (sg ++ i).
Proof.
  intros H Hi K. apply in_app_or in K as [K|K]; [exact (sg_free _ _ H K)|]. revert K. apply digit_free; [assumption|unfold digit; lia].
Qed.
Lemma last_digits (l : list Z) i : digits i -> digit (last (l ++ i) 0).
Proof.
  intros [Hn Hd]. destruct (exists_last Hn) as (j & e & ->). rewrite app_assoc, last_last.
  apply Forall_app in Hd as [_ Hd]. now inversion Hd.
Qed.
Lemma head_ns neg sg i rest : sign_str neg sg -> digits i -> exists c s, (sg ++ i) ++ rest = c :: s /\ ~ space c /\ (c = 45 <-> neg = true).
Proof.
  intros Hs [Hn Hd]. destruct i as [|c i]; [congruence|]. inversion Hd as [|? ? Hc _]; subst.
  destruct neg; cbn in Hs; [subst sg|destruct Hs; subst sg]; cbn [app].
  - exists 45, (c :: i ++ rest). unfold space. split; [reflexivity|]. split; [lia|tauto].
  - exists c, (i ++ rest). split; [reflexivity|]. split; [now apply digit_not_space|]. unfold digit in Hc. split; [lia|discriminate].
  - exists 43, (c :: i ++ rest). unfold space. split; [reflexivity|]. split; [lia|]. split; [lia|discriminate].
Qed.

(** The trimmed string of a spelled decimal. *)
Lemma spells_trim s neg i f : spells s neg i f -> exists sg, sign_str neg sg /\ digits i /\
  match f with None => trim s = sg ++ i | Some f => digits f /\ trim s = (sg ++ i) ++ 46 :: f end.
Proof.
  intros (pre & sg & post & Hp & Hq & Hi & Hs & Hf). exists sg. split; [exact Hs|]. split; [exact Hi|].
  destruct f as [f|].
  - destruct Hf as [Hf ->]. split; [exact Hf|]. rewrite app_assoc with (l := sg).
    destruct (head_ns neg sg i (46 :: f) Hs Hi) as (c & r & E & Hc & _).
    apply (trim_body pre c r (last ((sg ++ i) ++ 46 :: f) 0) post); auto.
    change (46 :: f) with ([46] ++ f). rewrite app_assoc. now apply digit_not_space, last_digits.
  - subst s. destruct (head_ns neg sg i [] Hs Hi) as (c & r & E & Hc & _). rewrite app_nil_r in E.
    apply (trim_body pre c r (last (sg ++ i) 0) post); auto. now apply digit_not_space, last_digits.
Qed.

(** ** The value of an accepted fraction, and the raw number [parse_str] makes of it *)
Definition frac_raw (P : Z) (f : list Z) : Z :=
  let n := Z.of_nat (length f) in
  if n <=? P then 10 ^ (P - n) * numval f
  else numval (firstn (Z.to_nat P) f) + (if 53 <=? nth (Z.to_nat P) f 0 then 1 else 0).
Definition parsed (L : layout) (r : Z) : outcome (result Z cerr) := Ret (ok_or (chk (lty L) r) ConvertError).

Lemma frac_raw_bound P f : 0 <= P -> Forall digit f -> 0 <= frac_raw P f <= 10 ^ P.
Proof.
  intros HP Hf. unfold frac_raw. destruct (Z.leb_spec (Z.of_nat (length f)) P).
  - pose proof (numval_bound f Hf). assert (0 < 10 ^ (P - Z.of_nat (length f))) by (apply pow10_pos; lia).
    replace P with (P - Z.of_nat (length f) + Z.of_nat (length f)) at 3 by lia. rewrite Z.pow_add_r by lia. nia.
  - assert (Forall digit (firstn (Z.to_nat P) f)) as Hn
      by (rewrite <- (firstn_skipn (Z.to_nat P) f), Forall_app in Hf; apply Hf).
    pose proof (numval_bound _ Hn) as B. rewrite firstn_length_le, Z2Nat.id in B by lia.
    destruct (53 <=? _); lia.
Qed.

Lemma idx_nth (l : list Z) i : 0 <= i < Z.of_nat (length l) -> idx l i = Ret (nth (Z.to_nat i) l 0).
Proof.
  intros H. unfold idx. replace ((0 <=? i) && (i <? Z.of_nat (length l))) with true by lia.
  destruct (nth_error l (Z.to_nat i)) as [x|] eqn:K.
  - rewrite (nth_error_nth _ _ 0 K). reflexivity.
  - apply nth_error_None in K. lia.
Qed.
Lemma parsed_int b L P v : valid b L P -> try_from_int b L P v = parsed L (v * 10 ^ P).
Proof. intros Hv. now apply try_from_int_val. Qed.
Lemma parsed_frac L c neg v fr : 0 < c -> 0 <= v -> 0 <= fr <= c -> c <= hi L ->
  match chk (lty L) (sgz neg v * c) with
  | None => Ret (Err ConvertError)
  | Some w => Ret (ok_or (chk (lty L) (w + sgz neg fr)) ConvertError)
  end = parsed L (sgz neg (v * c + fr)).
Proof.
  intros Hc Hv Hf Hh. pose proof (lo_hi L). unfold parsed. destruct (fits_dec (lty L) (sgz neg v * c)) as [F|F].
  - rewrite (chk_some _ _ F). do 3 f_equal. destruct neg; cbn [sgz]; ring.
  - rewrite (chk_none _ _ F). rewrite chk_none; [reflexivity|]. rewrite fits_lty in *. unfold in_range in *.
    destruct neg; cbn [sgz] in *; nia.
Qed.
Lemma wrap_usize38 z : 0 <= z <= 38 -> wrap USize z = z.
Proof. intros H. apply wrap_fits. unfold fits. change (imin USize) with 0. change (imax USize) with (2 ^ 64 - 1). lia. Qed.
Lemma wrap_u38 z : 0 <= z <= 38 -> wrap U32 z = z.
Proof. intros H. apply wrap_fits. unfold fits. change (imin U32) with 0. change (imax U32) with (2 ^ 32 - 1). lia. Qed.

Lemma parse_spelled b L P exact s neg i f : valid b L P -> spells s neg i f ->
  parse_str b L P exact s =
  match f with
  | None => parsed L (sgz neg (numval i * 10 ^ P))
  | Some f =>
      if exact && (P <? Z.of_nat (length f)) then Ret (Err ConvertError)
      else if negb exact && (P =? 0) then Ret (Err ConvertError)
      else parsed L (sgz neg (numval i * 10 ^ P + frac_raw P f))
  end.
Proof.
  intros Hv Hsp. destruct (spells_trim s neg i f Hsp) as (sg & Hs & Hi & Ht). clear Hsp.
  pose proof (proj1 (proj2 Hv)) as HP. pose proof (proj2 (proj2 Hv)) as Hc. pose proof (pow10_pos P HP) as Hp.
  pose proof (valid_prec_38 L P (proj2 Hv)) as HP38.
  pose proof (numval_bound i (proj2 Hi)) as Hnv. pose proof (lo_hi L) as Hlh.
  assert (forall v, sgz neg v * 10 ^ P = sgz neg (v * 10 ^ P)) as Esg by (intros; destruct neg; cbn [sgz]; ring).
  assert (chk (lty L) (sgz neg (numval i)) = None -> forall fr, 0 <= fr -> parsed L (sgz neg (numval i * 10 ^ P + fr)) = Ret (Err ConvertError)) as Hbig.
  { intros K fr Hfr. unfold parsed. rewrite chk_none; [reflexivity|]. intros F.
    assert (~ fits (lty L) (sgz neg (numval i))) as N by (intros F'; rewrite (chk_some _ _ F') in K; discriminate).
    apply N. clear N K. rewrite fits_lty in *. unfold in_range in *. destruct neg; cbn [sgz] in *; nia. }
  unfold parse_str. destruct f as [f|].
  2:{ rewrite Ht, split_once_not by (eapply sg_int_free; [exact Hs|apply Hi]).
      rewrite (parse_int_digits _ neg) by assumption.
      destruct (chk (lty L) (sgz neg (numval i))) as [v|] eqn:K.
      - unfold chk in K. destruct (fitsb _ _); [|discriminate]. injection K as <-. rewrite parsed_int, Esg by assumption. reflexivity.
      - specialize (Hbig eq_refl 0 ltac:(lia)). rewrite Z.add_0_r in Hbig. now rewrite Hbig. }
  destruct Ht as [Hf Ht]. rewrite Ht, split_once_at by (eapply sg_int_free; [exact Hs|apply Hi]).
  rewrite (parse_int_digits _ neg) by assumption.
  pose proof (frac_raw_bound P f HP (proj2 Hf)) as Hfb.
  destruct (chk (lty L) (sgz neg (numval i))) as [v|] eqn:K.
  2:{ rewrite (Hbig eq_refl) by lia. destruct (exact && (P <? Z.of_nat (length f))), (negb exact && (P =? 0)); reflexivity. }
  unfold chk in K. destruct (fitsb _ _) eqn:Kf; [|discriminate]. injection K as <-.
  rewrite (proj2 (all_digits f) (proj2 Hf)). cbn [negb].
  destruct (head_ns neg sg i (46 :: f) Hs Hi) as (c0 & r0 & E0 & _ & Hneg). rewrite E0.
  change (idx (c0 :: r0) 0) with (Ret c0). cbn [bind].
  assert ((if c0 =? 45 then -1 else 1) = sgz neg 1) as Esn.
  { destruct (Z.eqb_spec c0 45) as [Hc0|Hc0]; destruct neg; cbn; try reflexivity; exfalso; intuition congruence. }
  rewrite Esn. rewrite wrap_usize38 by lia.
  rewrite iabs_ok by (unfold fits; change (imin I32) with (-2147483648); change (imax I32) with 2147483647; lia). cbn [bind].
  rewrite Z.abs_eq by lia. rewrite wrap_usize38 by lia.
  destruct (exact && (P <? Z.of_nat (length f))) eqn:Kx; [reflexivity|].
  rewrite COEF_ok by assumption. cbn [bind].
  assert (Hmulsg : mul b (lty L) (sgz neg 1) (10 ^ P) = Ret (sgz neg (10 ^ P))).
  { rewrite mul_ok. - f_equal. destruct neg; cbn [sgz]; ring. - rewrite fits_lty. unfold in_range. destruct neg; cbn [sgz]; lia. }
  rewrite Hmulsg. cbn [bind].
  destruct (Z.leb_spec (Z.of_nat (length f)) P) as [Hle|Hgt].
  - (* all the digits are used *)
    replace (P <? Z.of_nat (length f)) with false by lia. rewrite andb_false_r. cbn [bind].
    assert (0 < Z.of_nat (length f)) by (destruct Hf as [Hf _]; destruct f; [congruence|cbn [length]; lia]).
    replace (P =? 0) with false by lia. rewrite andb_false_r.
    rewrite wrap_u38 by lia.
    set (n := Z.of_nat (length f)) in *.
    assert (10 ^ P = 10 ^ (P - n) * 10 ^ n) as Epow by (rewrite <- Z.pow_add_r by lia; f_equal; lia).
    assert (0 < 10 ^ n) by (apply pow10_pos; lia). assert (0 < 10 ^ (P - n)) by (apply pow10_pos; lia).
    assert (10 ^ n <= 10 ^ P) by nia.
    rewrite ipow_ok by (rewrite fits_lty; unfold in_range; lia). cbn [bind].
    replace (10 ^ P <? 10 ^ n) with false by lia. rewrite andb_false_r.
    rewrite dassert_ok by lia. cbn [bind].
    pose proof (numval_bound f (proj2 Hf)) as Hb. fold n in Hb.
    rewrite parse_frac by assumption. rewrite chk_some by (rewrite fits_lty; unfold in_range; lia).
    unfold checked_mul. unfold frac_raw in *. fold n in Hfb |- *. replace (n <=? P) with true in * by lia.
    rewrite <- (parsed_frac L (10 ^ P) neg (numval i) (10 ^ (P - n) * numval f)) by (assumption || lia).
    destruct (chk (lty L) (sgz neg (numval i) * 10 ^ P)) as [w|]; [|reflexivity].
    assert (Z.quot (sgz neg (10 ^ P)) (10 ^ n) = sgz neg (10 ^ (P - n))) as Eq.
    { rewrite Epow. destruct neg; cbn [sgz]; [rewrite <- Z.mul_opp_l|]; apply Z.quot_mul; lia. }
    assert (10 ^ (P - n) <= 10 ^ P) by nia.
    rewrite div_ok; [|lia|rewrite Eq, fits_lty; unfold in_range; destruct neg; cbn [sgz]; lia]. rewrite Eq. cbn [bind].
    assert (sgz neg (10 ^ (P - n)) * numval f = sgz neg (10 ^ (P - n) * numval f)) as Em by (destruct neg; cbn [sgz]; ring).
    rewrite mul_ok; rewrite Em; [|rewrite fits_lty; unfold in_range; destruct neg; cbn [sgz]; lia]. reflexivity.
  - (* cut after P digits *)
    replace (P <? Z.of_nat (length f)) with true in * by lia. rewrite andb_true_r in *. subst exact. cbn [negb andb].
    rewrite idx_nth by lia. cbn [bind].
    assert (length (firstn (Z.to_nat P) f) = Z.to_nat P) as El by (apply firstn_length_le; lia).
    rewrite El, Z2Nat.id by lia.
    rewrite wrap_u38 by lia.
    rewrite ipow_ok by (rewrite fits_lty; unfold in_range; lia). cbn [bind andb].
    rewrite dassert_ok by lia. cbn [bind].
    destruct (Z.eqb_spec P 0) as [->|Hne].
    { reflexivity. }
    assert (digits (firstn (Z.to_nat P) f)) as Hd.
    { split; [intros Z0; rewrite Z0 in El; cbn in El; lia|]. destruct Hf as [_ Hf].
      rewrite <- (firstn_skipn (Z.to_nat P) f), Forall_app in Hf. apply Hf. }
    pose proof (numval_bound _ (proj2 Hd)) as Hb. rewrite El, Z2Nat.id in Hb by lia.
    rewrite parse_frac by assumption. rewrite chk_some by (rewrite fits_lty; unfold in_range; lia).
    unfold checked_mul. unfold frac_raw in *. replace (Z.of_nat (length f) <=? P) with false in * by lia.
    rewrite <- (parsed_frac L (10 ^ P) neg (numval i)) by (assumption || lia).
    destruct (chk (lty L) (sgz neg (numval i) * 10 ^ P)) as [w|]; [|reflexivity].
    assert (Z.quot (sgz neg (10 ^ P)) (10 ^ P) = sgz neg 1) as Eq.
    { destruct neg; cbn [sgz]; [rewrite Z.quot_opp_l by lia|]; rewrite Z.quot_same by lia; reflexivity. }
    rewrite div_ok; [|lia|rewrite Eq, fits_lty; unfold in_range; destruct neg; cbn [sgz]; lia]. rewrite Eq. cbn [bind].
    set (u := numval (firstn (Z.to_nat P) f)) in *.
    assert (sgz neg 1 * u = sgz neg u) as Em by (destruct neg; cbn [sgz]; ring).
    rewrite mul_ok; rewrite Em; [|rewrite fits_lty; unfold in_range; destruct neg; cbn [sgz]; lia]. cbn [bind].
    destruct (53 <=? nth (Z.to_nat P) f 0).
    + rewrite dassert_ok by reflexivity. cbn [bind].
      assert (sgz neg u + sgz neg 1 = sgz neg (u + 1)) as Ea by (destruct neg; cbn [sgz]; ring).
      rewrite add_ok; rewrite Ea; [|rewrite fits_lty; unfold in_range; destruct neg; cbn [sgz]; lia]. reflexivity.
    + cbn [bind]. rewrite Z.add_0_r. reflexivity.
Qed.

(** Every other string is rejected. *)
Lemma spells_some pre post neg sg i f : Forall space pre -> Forall space post -> sign_str neg sg -> digits i -> digits f ->
  spells (pre ++ ((sg ++ i) ++ 46 :: f) ++ post) neg i (Some f).
Proof.
  intros. exists pre, sg, post. repeat (split; [assumption|]). now rewrite <- (app_assoc sg i).
Qed.
Lemma parse_cases b L P exact s : valid b L P ->
  (exists neg i f, spells s neg i f) \/ parse_str b L P exact s = Ret (Err ConvertError).
Proof.
  intros Hv. destruct (trim_split s) as (pre & post & Hp & Hq & E).
  pose proof (proj1 (proj2 Hv)) as HP. pose proof (proj2 (proj2 Hv)) as Hc. pose proof (pow10_pos P HP) as Hpp.
  pose proof (valid_prec_38 L P (proj2 Hv)) as HP38. pose proof (lo_hi L) as Hlh.
  unfold parse_str. destruct (split_once (trim s) 46) as [[l r]|] eqn:K.
  - apply split_once_some in K. destruct (parse_int_str (lty L) l) as [v|] eqn:Kv; [|right; reflexivity].
    apply parse_int_inv in Kv as (neg & sg & i & Hs & Hi & -> & -> & _).
    destruct (forallb is_digit r) eqn:Kr; [|right; reflexivity]. cbn [negb]. apply all_digits in Kr.
    destruct r as [|d r].
    2:{ left. exists neg, i, (Some (d :: r)). rewrite E, K. apply spells_some; try assumption. split; [discriminate|assumption]. }
    (* nothing after the point *)
    right. rewrite K. destruct (head_ns neg sg i [46] Hs Hi) as (c0 & r0 & E0 & _). rewrite E0.
    change (idx (c0 :: r0) 0) with (Ret c0). cbn [bind].
    rewrite wrap_usize38 by lia.
    rewrite iabs_ok by (unfold fits; change (imin I32) with (-2147483648); change (imax I32) with 2147483647; lia). cbn [bind].
    rewrite Z.abs_eq by lia. rewrite wrap_usize38 by lia.
    cbn [length Z.of_nat]. replace (P <? 0) with false by lia. rewrite !andb_false_r. cbn [bind length Z.of_nat].
    change (wrap U32 0) with 0. rewrite ipow_ok by (rewrite fits_lty; unfold in_range; change (10 ^ 0) with 1; lia).
    change (10 ^ 0) with 1. cbn [bind]. rewrite COEF_ok by assumption. cbn [bind].
    replace (10 ^ P <? 1) with false by lia. rewrite andb_false_r. rewrite dassert_ok by lia. reflexivity.
  - destruct (parse_int_str (lty L) (trim s)) as [v|] eqn:Kv; [|right; reflexivity].
    apply parse_int_inv in Kv as (neg & sg & i & Hs & Hi & E' & _). left. exists neg, i, None.
    exists pre, sg, post. rewrite <- E'. auto 8.
Qed.

(** ** In terms of decimals *)
Lemma spelled_frac neg i f : (spelled neg i f ==
  Zq (sgz neg (numval i * 10 ^ places f + numval (fraction f))) / Zq (10 ^ places f))%Q.
Proof.
  assert (0 <= places f) as H by (unfold places; lia). pose proof (pow10_pos _ H) as Hp.
  assert (~ (Zq (10 ^ places f) == 0)%Q) as Hz by (apply Zq_nonzero; lia).
  unfold spelled. cbv zeta. destruct neg; cbn [sgz]; rewrite (q10_neg (places f) H), ?Zq_opp, Zq_add, Zq_mul; field; assumption.
Qed.
Lemma spelled_scaled P neg i f : 0 <= P -> (spelled neg i f * q10 P ==
  Zq (sgz neg (numval i * 10 ^ places f + numval (fraction f)) * 10 ^ P) / Zq (10 ^ places f))%Q.
Proof.
  intros HP. assert (0 <= places f) as H by (unfold places; lia). pose proof (pow10_pos _ H) as Hp.
  assert (~ (Zq (10 ^ places f) == 0)%Q) as Hz by (apply Zq_nonzero; lia).
  rewrite spelled_frac, (q10_pos P HP), Zq_mul. field. assumption.
Qed.
Lemma dec_eq_spelled P neg i f r : 0 <= P -> ((dec P r == spelled neg i f)%Q <->
  r * 10 ^ places f = sgz neg (numval i * 10 ^ places f + numval (fraction f)) * 10 ^ P).
Proof.
  intros HP. assert (0 <= places f) as H by (unfold places; lia).
  pose proof (pow10_pos _ H) as Hp. pose proof (pow10_pos _ HP) as Hp'.
  rewrite spelled_frac, dec_alt by assumption.
  unfold Zq, Qeq, Qdiv, Qmult, Qinv, inject_Z. destruct (10 ^ P); try lia. destruct (10 ^ places f); try lia. cbn. lia.
Qed.
(** The raw value of a fraction that fits the precision, and of one that is cut. *)
Lemma raw_exact P i f : 0 <= P -> Z.of_nat (length f) <= P ->
  (i * 10 ^ P + frac_raw P f) * 10 ^ Z.of_nat (length f) = (i * 10 ^ Z.of_nat (length f) + numval f) * 10 ^ P.
Proof.
  intros HP Hn. unfold frac_raw. replace (_ <=? P) with true by lia. set (n := Z.of_nat (length f)) in *.
  assert (10 ^ P = 10 ^ (P - n) * 10 ^ n) as -> by (rewrite <- Z.pow_add_r by lia; f_equal; lia). ring.
Qed.
Lemma nth_split_digits f P : 0 <= P < Z.of_nat (length f) -> Forall digit f ->
  exists w r k, numval f = (numval (firstn (Z.to_nat P) f) * 10 + (nth (Z.to_nat P) f 0 - 48)) * k + r /\
    0 <= r < k /\ 10 ^ Z.of_nat (length f) = 10 ^ P * 10 * k /\ w = numval (firstn (Z.to_nat P) f) /\ 0 <= w < 10 ^ P /\
    digit (nth (Z.to_nat P) f 0).
Proof.
  intros H Hf.
  assert (Z.to_nat P < length f)%nat as HP by lia.
  pose proof (firstn_skipn (Z.to_nat P) f) as E.
  assert (exists t, skipn (Z.to_nat P) f = nth (Z.to_nat P) f 0 :: t) as [t Et].
  { clear - HP. revert f HP. induction (Z.to_nat P) as [|n IH]; intros f HP; destruct f as [|c f]; cbn in HP; try lia.
    - exists f. reflexivity.
    - cbn. apply IH. lia. }
  rewrite Et in E. set (c := nth (Z.to_nat P) f 0) in *. set (g := firstn (Z.to_nat P) f) in *.
  assert (length g = Z.to_nat P) as Lg by (apply firstn_length_le; lia).
  rewrite <- E in Hf. apply Forall_app in Hf as [Hg Hct]. pose proof (Forall_inv Hct) as Hc. pose proof (Forall_inv_tail Hct) as Ht.
  pose proof (numval_bound _ Ht) as Bt. pose proof (numval_bound _ Hg) as Bg. rewrite Lg, Z2Nat.id in Bg by lia.
  exists (numval g), (numval t), (10 ^ Z.of_nat (length t)). rewrite <- E at 1. rewrite numval_app. cbn [numval length].
  split; [rewrite Nat2Z.inj_succ, Z.pow_succ_r by lia; ring|]. split; [exact Bt|].
  split; [|auto]. rewrite <- E, app_length, Lg. cbn [length]. rewrite Nat2Z.inj_add, Nat2Z.inj_succ, Z2Nat.id, Z.pow_add_r, Z.pow_succ_r by lia. ring.
Qed.
Lemma raw_nearest P neg i f : 0 <= P -> 0 <= i -> Forall digit f ->
  zrounds Nearest (sgz neg (i * 10 ^ Z.of_nat (length f) + numval f) * 10 ^ P) (10 ^ Z.of_nat (length f))
    (sgz neg (i * 10 ^ P + frac_raw P f)).
Proof.
  intros HP Hi Hf. destruct (Z.leb_spec (Z.of_nat (length f)) P) as [Hn|Hn].
  - pose proof (raw_exact P i f HP Hn) as E. unfold zrounds.
    replace (sgz neg (i * 10 ^ Z.of_nat (length f) + numval f) * 10 ^ P)
      with (sgz neg (i * 10 ^ P + frac_raw P f) * 10 ^ Z.of_nat (length f)) by (destruct neg; cbn [sgz]; lia).
    rewrite Z.sub_diag. pose proof (pow10_pos (Z.of_nat (length f)) ltac:(lia)). cbn. lia.
  - destruct (nth_split_digits f P ltac:(lia) Hf) as (w & r & k & En & Hr & Ep & Ew & Hw & Hc).
    unfold frac_raw. replace (_ <=? P) with false by lia. rewrite En, Ep, <- Ew.
    set (c := nth (Z.to_nat P) f 0) in *. clearbody c. clear En Ep Ew Hn. unfold digit in Hc.
    pose proof (pow10_pos P HP) as Hp. set (T := 10 ^ P) in *. clearbody T.
    unfold zrounds.
    assert (forall e, sgz neg (i * (T * 10 * k) + ((w * 10 + (c - 48)) * k + r)) * T - sgz neg (i * T + (w + e)) * (T * 10 * k)
      = sgz neg (((c - 48) * k + r - e * 10 * k) * T)) as Ed by (intros e; destruct neg; cbn [sgz]; ring).
    assert (forall v, Z.abs (sgz neg v) = Z.abs v) as Ea by (intros v; destruct neg; cbn [sgz]; lia).
    set (N := i * (T * 10 * k) + ((w * 10 + (c - 48)) * k + r)) in *.
    destruct (Z.leb_spec 53 c) as [K|K]; rewrite Ed, Ea.
    + assert (5 * k <= (c - 48) * k <= 9 * k) as Hck by (split; apply Z.mul_le_mono_nonneg_r; lia).
      set (u := (c - 48) * k) in *.
      assert (Z.abs ((u + r - 1 * 10 * k) * T) = (10 * k - (u + r)) * T) as Eb by (rewrite Z.abs_mul; rewrite (Z.abs_neq (u + r - _)), Z.abs_eq by lia; ring).
      rewrite Eb. split.
      * replace (T * 10 * k) with (2 * (5 * k * T)) by ring. apply Z.mul_le_mono_nonneg_l; [lia|]. apply Z.mul_le_mono_nonneg_r; lia.
      * intros _. rewrite (Z.abs_mul _ T), (Z.abs_mul _ (T * 10 * k)), !Ea. rewrite (Z.abs_eq T), (Z.abs_eq (T * 10 * k)) by nia.
        assert (0 <= i * (T * 10 * k)) by (repeat apply Z.mul_nonneg_nonneg; lia).
        assert (0 <= w * 10 * k) by (apply Z.mul_nonneg_nonneg; lia).
        assert (0 <= i * T) by (apply Z.mul_nonneg_nonneg; lia).
        rewrite (Z.abs_eq N) by (unfold N; fold u; nia). rewrite Z.abs_eq by lia.
        replace ((i * T + (w + 1)) * (T * 10 * k)) with ((i * T * 10 * k + (w + 1) * 10 * k) * T) by ring.
        apply Z.mul_le_mono_nonneg_r; [lia|]. unfold N. fold u. nia.
    + assert (0 <= (c - 48) * k <= 4 * k) as Hck by (split; [apply Z.mul_nonneg_nonneg|apply Z.mul_le_mono_nonneg_r]; lia).
      set (u := (c - 48) * k) in *.
      assert (2 * Z.abs ((u + r - 0 * 10 * k) * T) < T * 10 * k) as Eb.
      { rewrite Z.abs_mul, !Z.abs_eq by lia. replace (T * 10 * k) with (2 * (5 * k * T)) by ring.
        apply Z.mul_lt_mono_pos_l; [lia|]. apply Z.mul_lt_mono_pos_r; lia. }
      split; lia.
Qed.

(** ** Parsing *)
Lemma parsed_cases L r : (in_range L r /\ parsed L r = Ret (Ok r)) \/ (~ in_range L r /\ parsed L r = Ret (Err ConvertError)).
Proof.
  unfold parsed. destruct (fits_dec (lty L) r) as [F|F].
  - left. rewrite (chk_some _ _ F). split; [now apply fits_lty|reflexivity].
  - right. rewrite (chk_none _ _ F). split; [now rewrite <- fits_lty|reflexivity].
Qed.
Lemma parsed_ok L r x : parsed L r = Ret (Ok x) <-> in_range L r /\ r = x.
Proof.
  destruct (parsed_cases L r) as [[H E]|[H E]]; rewrite E; split.
  - intros [= <-]. auto.
  - intros [_ ->]. reflexivity.
  - discriminate.
  - tauto.
Qed.
Theorem parse_total b L P exact s : valid b L P ->
  (exists x, parse_str b L P exact s = Ret (Ok x)) \/ parse_str b L P exact s = Ret (Err ConvertError).
Proof.
  intros Hv. destruct (parse_cases b L P exact s Hv) as [(neg & i & f & Hs)|E]; [|now right].
  rewrite (parse_spelled b L P exact s neg i f Hv Hs).
  assert (forall r, (exists x, parsed L r = Ret (Ok x)) \/ parsed L r = Ret (Err ConvertError)) as D.
  { intros r. destruct (parsed_cases L r) as [[_ E]|[_ E]]; [left; exists r|right]; assumption. }
  destruct f; [|apply D]. destruct (_ && _); [now right|]. destruct (_ && _); [now right|]. apply D.
Qed.
(** What the raw value of an exactly written decimal is. *)
Lemma spelled_raw P neg i f r : 0 <= P -> places f <= P ->
  ((dec P r == spelled neg i f)%Q <-> r = sgz neg (numval i * 10 ^ P + frac_raw P (fraction f))).
Proof.
  intros HP Hn. rewrite dec_eq_spelled by assumption. unfold places in *.
  pose proof (raw_exact P (numval i) (fraction f) HP Hn) as E. set (n := Z.of_nat _) in *.
  pose proof (pow10_pos n ltac:(unfold n; lia)). 
  replace (sgz neg (numval i * 10 ^ n + numval (fraction f)) * 10 ^ P)
    with (sgz neg (numval i * 10 ^ P + frac_raw P (fraction f)) * 10 ^ n) by (destruct neg; cbn [sgz]; lia).
  split; [|intros ->; reflexivity]. intros K. apply Z.mul_cancel_r in K; [exact K|lia].
Qed.
Lemma frac_raw_nil P : 0 <= P -> frac_raw P [] = 0.
Proof. intros H. unfold frac_raw. cbn [length Z.of_nat numval]. replace (0 <=? P) with true by lia. lia. Qed.
Theorem from_str_exact_ok b L P s x : valid b L P ->
  (from_str_exact b L P s = Ret (Ok x) <->
   exists neg i f, spells s neg i f /\ places f <= P /\ represents L P (spelled neg i f) x).
Proof.
  intros Hv. pose proof (proj1 (proj2 Hv)) as HP. unfold from_str_exact. split.
  - intros E. destruct (parse_cases b L P true s Hv) as [(neg & i & f & Hs)|E']; [|congruence].
    rewrite (parse_spelled b L P true s neg i f Hv Hs) in E. exists neg, i, f. split; [exact Hs|].
    assert (places f <= P) as Hp.
    { destruct f as [f|]; unfold places; cbn [fraction length]; [|lia]. cbn [andb] in E.
      destruct (Z.ltb_spec P (Z.of_nat (length f))); [discriminate|assumption]. }
    split; [exact Hp|]. 
    assert (parsed L (sgz neg (numval i * 10 ^ P + frac_raw P (fraction f))) = Ret (Ok x)) as E'.
    { destruct f as [f|]; cbn [fraction].
      - cbn [andb negb] in E. destruct (P <? _); [discriminate|]. exact E.
      - rewrite frac_raw_nil, Z.add_0_r by assumption. exact E. }
    apply parsed_ok in E' as [Hr E']. split; [now rewrite <- E'|]. apply spelled_raw; auto.
  - intros (neg & i & f & Hs & Hp & Hx & Ed). rewrite (parse_spelled b L P true s neg i f Hv Hs).
    apply spelled_raw in Ed; [|assumption|assumption]. subst x.
    destruct f as [f|]; cbn [fraction] in *.
    + unfold places in Hp. cbn [fraction] in Hp. replace (P <? _) with false by lia. cbn [andb negb]. apply parsed_ok. auto.
    + rewrite frac_raw_nil, Z.add_0_r in * by assumption. apply parsed_ok. auto.
Qed.
Lemma spelled_nearest P neg i f : 0 <= P -> Forall digit i -> Forall digit (fraction f) ->
  rounds_to Nearest P (spelled neg i f) (sgz neg (numval i * 10 ^ P + frac_raw P (fraction f))).
Proof.
  intros HP Hi Hf. pose proof (pow10_pos (places f) ltac:(unfold places; lia)) as Hp.
  unfold rounds_to. rewrite (spelled_scaled P neg i f HP). apply rounds_zrounds; [assumption|].
  apply raw_nearest; [assumption|apply numval_bound; assumption|assumption].
Qed.
Lemma spells_digits s neg i f : spells s neg i f -> Forall digit i /\ Forall digit (fraction f).
Proof.
  intros (pre & sg & post & _ & _ & [_ Hi] & _ & H). split; [exact Hi|]. destruct f as [f|]; [|constructor]. apply H.
Qed.
(** [from_str] at precision 0 accepts integers only. *)
Theorem from_str_ok b L P s x : valid b L P ->
  (from_str b L P s = Ret (Ok x) <->
   exists neg i f, spells s neg i f /\ (P = 0 -> f = None) /\ in_range L x /\ rounds_to Nearest P (spelled neg i f) x).
Proof.
  intros Hv. pose proof (proj1 (proj2 Hv)) as HP. unfold from_str.
  assert (forall neg i f, spells s neg i f -> (P = 0 -> f = None) ->
    parse_str b L P false s = parsed L (sgz neg (numval i * 10 ^ P + frac_raw P (fraction f)))) as Hval.
  { intros neg i f Hs H0. rewrite (parse_spelled b L P false s neg i f Hv Hs). destruct f as [f|]; cbn [fraction].
    - cbn [andb negb]. destruct (Z.eqb_spec P 0) as [E|_]; [specialize (H0 E); discriminate|]. reflexivity.
    - now rewrite frac_raw_nil, Z.add_0_r by assumption. }
  split.
  - intros E. destruct (parse_cases b L P false s Hv) as [(neg & i & f & Hs)|E']; [|congruence].
    assert (P = 0 -> f = None) as H0.
    { intros H0. destruct f as [f|]; [|reflexivity]. rewrite (parse_spelled b L P false s neg i _ Hv Hs) in E.
      cbn [andb negb] in E. replace (P =? 0) with true in E by lia. discriminate. }
    rewrite (Hval neg i f Hs H0) in E. apply parsed_ok in E as [Hr <-].
    exists neg, i, f. split; [exact Hs|]. split; [exact H0|]. split; [exact Hr|].
    apply spells_digits in Hs. now apply spelled_nearest.
  - intros (neg & i & f & Hs & H0 & Hx & Hr). rewrite (Hval neg i f Hs H0).
    apply spells_digits in Hs as [Hi Hf].
    rewrite (rounds_unique _ _ _ _ Hr (spelled_nearest P neg i f HP Hi Hf)) in *. apply parsed_ok. auto.
Qed.
Theorem from_str_rounds b L P s x : valid b L P -> 0 < P ->
  (from_str b L P s = Ret (Ok x) <->
   exists neg i f, spells s neg i f /\ in_range L x /\ rounds_to Nearest P (spelled neg i f) x).
Proof.
  intros Hv H0. rewrite from_str_ok by assumption. split; intros (neg & i & f & Hs & H); exists neg, i, f; intuition lia.
Qed.
Theorem from_str_point b L P s neg i f : valid b L P -> P = 0 -> spells s neg i (Some f) ->
  from_str b L P s = Ret (Err ConvertError).
Proof.
  intros Hv -> Hs. unfold from_str. rewrite (parse_spelled b L 0 false s neg i _ Hv Hs). reflexivity.
Qed.
Theorem exact_refines b L P s x : valid b L P -> from_str_exact b L P s = Ret (Ok x) -> from_str b L P s = Ret (Ok x).
Proof.
  intros Hv. rewrite from_str_exact_ok, from_str_ok by assumption.
  pose proof (proj1 (proj2 Hv)) as HP.
  intros (neg & i & f & Hs & Hp & Hx & Ed). exists neg, i, f. split; [exact Hs|]. split; [|split; [exact Hx|]].
  - intros ->. destruct f as [f|]; [|reflexivity]. exfalso. destruct Hs as (? & ? & ? & _ & _ & _ & _ & [Hn _] & _).
    unfold places in Hp. cbn [fraction] in Hp. destruct f; [congruence|cbn [length] in Hp; lia].
  - apply spelled_raw in Ed; [|assumption|assumption]. subst x. apply spells_digits in Hs. now apply spelled_nearest.
Qed.
Theorem parse_profiles b b' L P exact s : valid b L P -> valid b' L P -> parse_str b L P exact s = parse_str b' L P exact s.
Proof.
  intros Hv Hv'. destruct (parse_cases b L P exact s Hv) as [(neg & i & f & Hs)|E].
  - rewrite (parse_spelled b _ _ _ _ _ _ _ Hv Hs), (parse_spelled b' _ _ _ _ _ _ _ Hv' Hs). reflexivity.
  - destruct (parse_cases b' L P exact s Hv') as [(neg & i & f & Hs)|E']; [|congruence].
    rewrite (parse_spelled b _ _ _ _ _ _ _ Hv Hs), (parse_spelled b' _ _ _ _ _ _ _ Hv' Hs). reflexivity.
Qed.

(** A string spells one decimal only. *)
Lemma sg_unique neg sg i neg' sg' i' : sign_str neg sg -> sign_str neg' sg' -> digits i -> digits i' ->
  sg ++ i = sg' ++ i' -> neg = neg' /\ i = i'.
Proof.
  intros Hs Hs' [Hn Hd] [Hn' Hd']. destruct i as [|c i]; [congruence|]. destruct i' as [|c' i']; [congruence|].
  pose proof (Forall_inv Hd) as Hc. pose proof (Forall_inv Hd') as Hc'. unfold digit in *.
  destruct neg, neg'; cbn in Hs, Hs'; repeat match goal with H : _ \/ _ |- _ => destruct H end; subst; cbn [app];
    intros E; injection E; intros; try (exfalso; lia); subst; auto.
Qed.
Theorem spells_unique s neg i f neg' i' f' : spells s neg i f -> spells s neg' i' f' -> neg = neg' /\ i = i' /\ f = f'.
Proof.
  intros H H'. apply spells_trim in H as (sg & Hs & Hi & H). apply spells_trim in H' as (sg' & Hs' & Hi' & H').
  pose proof (sg_int_free _ _ _ Hs (proj2 Hi)) as Hf. pose proof (sg_int_free _ _ _ Hs' (proj2 Hi')) as Hf'.
  destruct f as [f|], f' as [f'|].
  - destruct H as [_ H], H' as [_ H']. rewrite H in H'. 
    pose proof (split_once_at (sg ++ i) 46 f Hf) as E. rewrite H', split_once_at in E by assumption. injection E as E ->.
    destruct (sg_unique _ _ _ _ _ _ Hs Hs' Hi Hi' (eq_sym E)). auto.
  - destruct H as [_ H]. exfalso. apply Hf'. rewrite <- H', H. apply in_or_app. right. now left.
  - destruct H' as [_ H']. exfalso. apply Hf. rewrite <- H, H'. apply in_or_app. right. now left.
  - rewrite H in H'. destruct (sg_unique _ _ _ _ _ _ Hs Hs' Hi Hi' H'). auto.
Qed.
