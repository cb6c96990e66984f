(** * ReasonFacts: the reasons of failed conversions. *)
From Coq Require Import String.
From Verif Require Import Base PowerTable Promo ConstFn Ops U256 I256 Str Float Spec SpecText SpecF64 BaseFacts RoundFacts SimpleProofs StrFacts FloatProps.
From Verif Require Import Reason SpecReason.
From Verif Require Import Fixed.
Open Scope Z_scope.

(** ** Dropping the reason gives the other model *)
Lemma forget_bind A (x : outcome A) (f : A -> outcome (result Z reason)) :
  forget (bind x f) = bind x (fun a => forget (f a)).
Proof. now destruct x. Qed.
Lemma bind_ext A B (x : outcome A) (f g : A -> outcome B) : (forall a, f a = g a) -> bind x f = bind x g.
Proof. intros H. destruct x; cbn; auto. Qed.
Lemma forget_ok_or o (r : reason) : forget (Ret (ok_or o r)) = Ret (ok_or o ConvertError).
Proof. now destruct o. Qed.
Lemma forget_if (c : bool) (x y : outcome (result Z reason)) : forget (if c then x else y) = if c then forget x else forget y.
Proof. now destruct c. Qed.
Lemma forget_try A (x : outcome (result A reason)) (x' : outcome (result A cerr)) (f : A -> outcome (result Z reason)) f' :
  (forall e, x = Ret (Err e) -> x' = Ret (Err ConvertError)) -> (forall a, x = Ret (Ok a) -> x' = Ret (Ok a)) ->
  (x = Panic -> x' = Panic) -> (x = Undef -> x' = Undef) -> (x = NoFuel -> x' = NoFuel) ->
  (forall a, forget (f a) = f' a) -> forget (try_ x f) = try_ x' f'.
Proof.
  intros He Ha Hp Hu Hn Hf. destruct x as [[a|e]| | |].
  - rewrite (Ha a eq_refl). cbn. apply Hf.
  - rewrite (He e eq_refl). reflexivity.
  - now rewrite (Hp eq_refl).
  - now rewrite (Hu eq_refl).
  - now rewrite (Hn eq_refl).
Qed.
Ltac forg := repeat first
  [ reflexivity
  | rewrite forget_ok_or
  | rewrite forget_bind; apply bind_ext; intros
  | rewrite forget_if
  | match goal with
    | |- forget (match ?x with _ => _ end) = _ => destruct x
    | |- (if ?c then _ else _) = _ => destruct c
    | |- bind _ _ = _ => apply bind_ext; intros
    end ].
Lemma forget_from_decimal b L P m e : forget (from_decimal_r b L P m e) = from_decimal b L P m e.
Proof. unfold from_decimal_r, from_decimal. cbv zeta. forg. Qed.
Lemma forget_try_from_int b L P v : forget (try_from_int_r b L P v) = try_from_int b L P v.
Proof. unfold try_from_int_r, try_from_int. forg. Qed.
Lemma forget_parse b L P exact s : forget (parse_str_r b L P exact s) = parse_str b L P exact s.
Proof.
  unfold parse_str_r, parse_str. cbv zeta. destruct (split_once (trim s) 46) as [[i f]|].
  - forg.
  - destruct (parse_int_str _ _); [apply forget_try_from_int|reflexivity].
Qed.
Lemma forget_rescale b P bits e : forget (rescale_r b P bits e) = rescale b P bits e.
Proof. unfold rescale_r, rescale. forg. now destruct (power_of_10 _) as [m|]; [destruct (checked_mul U128 bits m)|]. Qed.
Lemma forget_try_from_f64 b L P raw : forget (try_from_f64_r b L P raw) = try_from_f64 b L P raw.
Proof.
  unfold try_from_f64_r, try_from_f64. cbv zeta.
  rewrite forget_if. destruct (_ =? 2047); [reflexivity|]. rewrite forget_if. destruct (_ && _); [reflexivity|].
  rewrite forget_bind. apply bind_ext. intros [bits e2].
  do 2 (rewrite forget_bind; apply bind_ext; intros).
  rewrite forget_bind. apply bind_ext. intros [[b1 e5] e10].
  rewrite forget_bind. apply bind_ext. intros [[b2 e5'] e10'].
  rewrite forget_bind. apply bind_ext. intros [b3 e10''].
  pose proof (forget_rescale b P b3 e10'') as H.
  apply forget_try; try (intros; rewrite <- H); try (intros ? ->; reflexivity); try (intros ->; reflexivity); try (now rewrite H0).
  intros. forg.
Qed.

(** ** Parsing *)
Lemma core_trim s t : core s t -> trim s = t.
Proof.
  intros (pre & post & -> & Hp & Hq & Hh & Hl). destruct t as [|c t].
  - cbn [app]. unfold trim. rewrite trim_start_skip by assumption.
    rewrite <- (app_nil_r post), trim_start_skip by assumption. reflexivity.
  - destruct (exists_last (l := c :: t)) as (u & d & E); [discriminate|].
    apply (trim_body pre c t d post); auto.
    + now apply (Hh c t).
    + now apply (Hl d u).
    + rewrite E. apply last_last.
Qed.
Lemma trim_core s : core s (trim s).
Proof.
  unfold trim. destruct (trim_start_split s) as (pre & Hp & E).
  assert (forall l c u, trim_start l = c :: u -> ~ space c) as Hst.
  { intros l. induction l as [|a l IH]; intros c u; cbn [trim_start]; [discriminate|].
    destruct (is_ws a) eqn:K; [apply IH|]. intros [= -> _]. now apply is_ws_not. }
  set (m := trim_start s) in *.
  destruct (trim_start_split (rev m)) as (post & Hq & E').
  exists pre, (rev post). split; [|split; [assumption|split; [now apply Forall_rev|split]]].
  - rewrite <- rev_app_distr, <- E', rev_involutive. exact E.
  - intros c u H. destruct m as [|a m0] eqn:Em; [discriminate|].
    assert (rev (trim_start (rev m)) ++ rev post = m) as J.
    { rewrite Em, <- rev_app_distr, <- E', rev_involutive. reflexivity. }
    rewrite Em in J. rewrite H in J. cbn [app] in J. injection J as -> _. apply (Hst s a m0). now fold m.
  - intros c u H. apply (Hst (rev m) c (rev u)).
    rewrite <- (rev_involutive (trim_start (rev m))), H, rev_app_distr. reflexivity.
Qed.
Lemma reads_parse L s v : reads L s v <-> parse_int_str (lty L) s = Some v.
Proof.
  split.
  - intros [Hv (ds & Hd & H)].
    assert (exists neg sg, sign_str neg sg /\ s = sg ++ ds /\ v = sgz neg (numval ds)) as (neg & sg & Hs & -> & ->).
    { destruct H as [[-> ->]|[[-> | ->] ->]].
      - exists true, [45]. cbn. auto.
      - exists false, []. cbn. auto.
      - exists false, [43]. cbn. auto. }
    rewrite (parse_int_digits _ neg) by assumption. apply chk_some. now apply fits_lty.
  - intros H. apply parse_int_inv in H as (neg & sg & i & Hs & Hi & -> & -> & Hf).
    split; [now apply fits_lty|]. exists i. split; [assumption|].
    destruct neg; cbn in Hs |- *; [left; subst; auto|right]. destruct Hs as [->| ->]; auto.
Qed.
Lemma no_reads L s : (forall v, ~ reads L s v) -> parse_int_str (lty L) s = None.
Proof.
  intros H. destruct (parse_int_str (lty L) s) as [v|] eqn:K; [|reflexivity]. destruct (H v). now apply reads_parse.
Qed.

Theorem int_syntax b L P exact s t : core s t -> ~ In 46 t -> (forall v, ~ reads L t v) ->
  parse_str_r b L P exact s = Ret (Err IntegerSyntax).
Proof.
  intros Hc Hn Hr. unfold parse_str_r. rewrite (core_trim _ _ Hc). cbv zeta.
  rewrite split_once_not by assumption. now rewrite no_reads.
Qed.
Theorem int_value b L P exact s t v : valid b L P -> core s t -> ~ In 46 t -> reads L t v ->
  parse_str_r b L P exact s = if (lo L <=? v * 10 ^ P) && (v * 10 ^ P <=? hi L) then Ret (Ok (v * 10 ^ P)) else Ret (Err TooBigNumber).
Proof.
  intros Hv Hc Hn Hr. unfold parse_str_r. rewrite (core_trim _ _ Hc). cbv zeta.
  rewrite split_once_not by assumption. rewrite (proj1 (reads_parse L t v) Hr).
  unfold try_from_int_r. destruct Hr as [Hr _].
  unfold try_from. rewrite chk_some by now apply fits_lty. rewrite COEF_ok by assumption. cbn [bind].
  unfold checked_mul. destruct (fits_dec (lty L) (v * 10 ^ P)) as [F|F].
  - rewrite (chk_some _ _ F). apply fits_lty in F. unfold in_range in F. replace (_ && _) with true by lia. reflexivity.
  - rewrite (chk_none _ _ F). rewrite fits_lty in F. unfold in_range in F. replace (_ && _) with false by lia. reflexivity.
Qed.
Theorem integral_syntax b L P exact s i f : core s (i ++ 46 :: f) -> ~ In 46 i -> (forall v, ~ reads L i v) ->
  parse_str_r b L P exact s = Ret (Err IntegralSyntax).
Proof.
  intros Hc Hn Hr. unfold parse_str_r. rewrite (core_trim _ _ Hc). cbv zeta.
  rewrite split_once_at by assumption. now rewrite no_reads.
Qed.
Theorem digits_only b L P exact s i f v : core s (i ++ 46 :: f) -> ~ In 46 i -> reads L i v -> ~ Forall digit f ->
  parse_str_r b L P exact s = Ret (Err DigitsOnly).
Proof.
  intros Hc Hn Hr Hf. unfold parse_str_r. rewrite (core_trim _ _ Hc). cbv zeta.
  rewrite split_once_at by assumption. rewrite (proj1 (reads_parse L i v) Hr).
  destruct (forallb is_digit f) eqn:K; [|reflexivity]. destruct Hf. now apply all_digits.
Qed.
(** The steps up to the fraction. *)
Lemma parse_point b L P exact s i f v : valid b L P -> core s (i ++ 46 :: f) -> ~ In 46 i -> reads L i v -> Forall digit f ->
  let g := if P <? Z.of_nat (List.length f) then firstn (Z.to_nat P) f else f in
  exists k, (forall x e, k x = Ret (Err e) -> e = TooBigNumber) /\
  parse_str_r b L P exact s =
    if exact && (P <? Z.of_nat (List.length f)) then Ret (Err PrecisionTooHigh)
    else match parse_int_str (lty L) g with
         | None => Ret (Err FractionalSyntax)
         | Some u => match chk (lty L) (v * 10 ^ P) with None => Ret (Err TooBigIntegral) | Some w => k (u, w) end
         end.
Proof.
  intros Hv Hc Hn Hr Hf g. unfold parse_str_r. rewrite (core_trim _ _ Hc). cbv zeta.
  pose proof (proj1 (proj2 Hv)) as HP. pose proof (proj2 (proj2 Hv)) as Hco. pose proof (pow10_pos P HP) as Hp.
  pose proof (valid_prec_38 L P (proj2 Hv)) as HP38. pose proof (lo_hi L) as Hlh.
  rewrite split_once_at by assumption. rewrite (proj1 (reads_parse L i v) Hr).
  rewrite (proj2 (all_digits f) Hf). cbn [negb].
  assert (exists c r, i ++ 46 :: f = c :: r) as (c0 & r0 & E0).
  { destruct i as [|c i]; cbn [app]; eauto. }
  rewrite E0. change (idx (c0 :: r0) 0) with (Ret c0). cbn [bind]. rewrite wrap_usize38 by lia.
  rewrite iabs_ok by (unfold fits; change (imin I32) with (-2147483648); change (imax I32) with 2147483647; lia). cbn [bind].
  rewrite Z.abs_eq by lia. rewrite wrap_usize38 by lia.
  set (sg := if c0 =? 45 then -1 else 1).
  assert (Hrest : forall o : option Z, exists k, (forall x e, k x = Ret (Err e) -> e = TooBigNumber) /\
     forall u w, k (u, w) = (sc <- mul b (lty L) sg (10 ^ P) ;;
                    q <- div (lty L) sc (10 ^ Z.of_nat (List.length g)) ;;
                    final_fractional <- mul b (lty L) q u ;;
                    final_fractional <- match o with Some r => _ <- dassert b (negb exact) ;; add b (lty L) final_fractional r
                                        | None => Ret final_fractional end ;;
                    Ret (ok_or (checked_add (lty L) w final_fractional) TooBigNumber))).
  { intros o. exists (fun uw : Z * Z => let (u, w) := uw in sc <- mul b (lty L) sg (10 ^ P) ;;
                    q <- div (lty L) sc (10 ^ Z.of_nat (List.length g)) ;;
                    final_fractional <- mul b (lty L) q u ;;
                    final_fractional <- match o with Some r => _ <- dassert b (negb exact) ;; add b (lty L) final_fractional r
                                        | None => Ret final_fractional end ;;
                    Ret (ok_or (checked_add (lty L) w final_fractional) TooBigNumber)).
    split; [|intros u w; reflexivity].
    intros [u w] e. destruct (mul b (lty L) sg (10 ^ P)) as [z1| | |]; cbn [bind]; try discriminate.
    destruct (div _ _ _) as [z2| | |]; cbn [bind]; try discriminate.
    destruct (mul b (lty L) z2 u) as [z3| | |]; cbn [bind]; try discriminate.
    destruct (match o with Some _ => _ | None => _ end) as [z4| | |]; cbn [bind]; try discriminate.
    destruct (checked_add _ _ _); cbn; congruence. }
  assert (Hg : Z.of_nat (List.length g) <= P /\ (10 ^ P <? 10 ^ Z.of_nat (List.length g)) = false /\ 10 ^ Z.of_nat (List.length g) <= 10 ^ P /\ 0 < 10 ^ Z.of_nat (List.length g)).
  { assert (Z.of_nat (List.length g) <= P) as Hl.
    { unfold g. destruct (Z.ltb_spec P (Z.of_nat (List.length f))); [|lia]. rewrite firstn_length. lia. }
    assert (10 ^ Z.of_nat (List.length g) <= 10 ^ P) by (apply Z.pow_le_mono_r; lia).
    assert (0 < 10 ^ Z.of_nat (List.length g)) by (apply pow10_pos; lia). split; [assumption|]. split; [lia|]. lia. }
  destruct Hg as (Hg1 & Hg2 & Hg3 & Hg4).
  destruct (exact && (P <? Z.of_nat (List.length f))) eqn:Kx.
  { exists (fun _ => Panic). split; [discriminate|reflexivity]. }
  assert (Hmid : (if negb exact && (P <? Z.of_nat (List.length f)) then
                   extra <- idx f P ;; Ret (firstn (Z.to_nat P) f, if 53 <=? extra then Some sg else None)
                  else Ret (f, None)) = Ret (g, if P <? Z.of_nat (List.length f) then (if 53 <=? nth (Z.to_nat P) f 0 then Some sg else None) else None)).
  { unfold g. destruct (Z.ltb_spec P (Z.of_nat (List.length f))).
    - rewrite andb_true_r in *. subst exact. cbn [negb andb]. rewrite idx_nth by lia. reflexivity.
    - rewrite andb_false_r. reflexivity. }
  match goal with |- context [bind ?x _] => match x with if negb exact && _ then _ else _ => change x with (if negb exact && (P <? Z.of_nat (List.length f)) then
                   extra <- idx f P ;; Ret (firstn (Z.to_nat P) f, if 53 <=? extra then Some sg else None)
                  else Ret (f, None)) end end.
  rewrite Hmid. cbn [bind]. rewrite wrap_u38 by lia.
  rewrite ipow_ok by (rewrite fits_lty; unfold in_range; lia). cbn [bind]. rewrite COEF_ok by assumption. cbn [bind].
  rewrite Hg2, andb_false_r. rewrite dassert_ok by lia. cbn [bind].
  destruct (Hrest (if P <? Z.of_nat (List.length f) then (if 53 <=? nth (Z.to_nat P) f 0 then Some sg else None) else None)) as (k & Hk & Ek).
  exists k. split; [exact Hk|]. destruct (parse_int_str (lty L) g) as [u|]; [|reflexivity].
  unfold checked_mul. destruct (chk (lty L) (v * 10 ^ P)) as [w|]; [|reflexivity]. rewrite Ek. reflexivity.
Qed.
Lemma cut_digits_parse L P f : 0 <= P -> 10 ^ P <= hi L -> Forall digit f ->
  let g := if P <? Z.of_nat (List.length f) then firstn (Z.to_nat P) f else f in
  ((f = [] \/ P = 0) -> parse_int_str (lty L) g = None) /\ (digits f -> 0 < P -> exists u, parse_int_str (lty L) g = Some u).
Proof.
  intros HP Hh Hf g. split.
  - intros [-> | ->]; unfold g.
    + cbn [List.length Z.of_nat]. replace (P <? 0) with false by lia. reflexivity.
    + change (Z.to_nat 0) with O. cbn [firstn]. destruct (Z.ltb_spec 0 (Z.of_nat (List.length f))); [reflexivity|].
      destruct f; [reflexivity|cbn [List.length] in *; lia].
  - intros [Hn _] HP0. assert (digits g) as Hg.
    { unfold g. destruct (Z.ltb_spec P (Z.of_nat (List.length f))); [|split; assumption]. split.
      - intros E. apply (f_equal (@List.length Z)) in E. rewrite firstn_length in E. cbn [List.length] in E. lia.
      - rewrite <- (firstn_skipn (Z.to_nat P) f), Forall_app in Hf. apply Hf. }
    exists (numval g). rewrite parse_frac by assumption. apply chk_some. apply fits_lty.
    pose proof (numval_bound g (proj2 Hg)) as Hb.
    assert (Z.of_nat (List.length g) <= P) as Hl.
    { unfold g. destruct (Z.ltb_spec P (Z.of_nat (List.length f))); [|lia]. rewrite firstn_length. lia. }
    assert (10 ^ Z.of_nat (List.length g) <= 10 ^ P) by (apply Z.pow_le_mono_r; lia).
    unfold in_range. pose proof (lo_hi L). lia.
Qed.
Theorem precision_high b L P s i f v : valid b L P -> core s (i ++ 46 :: f) -> ~ In 46 i -> reads L i v -> Forall digit f ->
  P < Z.of_nat (List.length f) -> parse_str_r b L P true s = Ret (Err PrecisionTooHigh).
Proof.
  intros Hv Hc Hn Hr Hf Hl. destruct (parse_point b L P true s i f v Hv Hc Hn Hr Hf) as (k & _ & ->).
  replace (P <? _) with true by lia. reflexivity.
Qed.
Theorem fractional_syntax b L P exact s i f v : valid b L P -> core s (i ++ 46 :: f) -> ~ In 46 i -> reads L i v -> Forall digit f ->
  (exact = true -> Z.of_nat (List.length f) <= P) -> f = [] \/ P = 0 -> parse_str_r b L P exact s = Ret (Err FractionalSyntax).
Proof.
  intros Hv Hc Hn Hr Hf Hx Hz. destruct (parse_point b L P exact s i f v Hv Hc Hn Hr Hf) as (k & _ & ->).
  replace (exact && _) with false by (destruct exact; [specialize (Hx eq_refl); lia|reflexivity]).
  rewrite (proj1 (cut_digits_parse L P f (proj1 (proj2 Hv)) (proj2 (proj2 Hv)) Hf) Hz). reflexivity.
Qed.
Theorem too_big_integral b L P exact s i f v : valid b L P -> core s (i ++ 46 :: f) -> ~ In 46 i -> reads L i v -> digits f ->
  (exact = true -> Z.of_nat (List.length f) <= P) -> 0 < P -> ~ in_range L (v * 10 ^ P) ->
  parse_str_r b L P exact s = Ret (Err TooBigIntegral).
Proof.
  intros Hv Hc Hn Hr Hf Hx Hz Ho. destruct (parse_point b L P exact s i f v Hv Hc Hn Hr (proj2 Hf)) as (k & _ & ->).
  replace (exact && _) with false by (destruct exact; [specialize (Hx eq_refl); lia|reflexivity]).
  destruct (proj2 (cut_digits_parse L P f (proj1 (proj2 Hv)) (proj2 (proj2 Hv)) (proj2 Hf)) Hf Hz) as [u ->].
  rewrite chk_none by now rewrite fits_lty. reflexivity.
Qed.
Theorem too_big_sum b L P exact s i f v : valid b L P -> core s (i ++ 46 :: f) -> ~ In 46 i -> reads L i v -> digits f ->
  (exact = true -> Z.of_nat (List.length f) <= P) -> 0 < P -> in_range L (v * 10 ^ P) ->
  (exists x, parse_str_r b L P exact s = Ret (Ok x)) \/ parse_str_r b L P exact s = Ret (Err TooBigNumber).
Proof.
  intros Hv Hc Hn Hr Hf Hx Hz Ho.
  assert (forall e, parse_str_r b L P exact s = Ret (Err e) -> e = TooBigNumber) as He.
  { destruct (parse_point b L P exact s i f v Hv Hc Hn Hr (proj2 Hf)) as (k & Hk & ->).
    replace (exact && _) with false by (destruct exact; [specialize (Hx eq_refl); lia|reflexivity]).
    destruct (proj2 (cut_digits_parse L P f (proj1 (proj2 Hv)) (proj2 (proj2 Hv)) (proj2 Hf)) Hf Hz) as [u ->].
    rewrite chk_some by now rewrite fits_lty. apply Hk. }
  pose proof (forget_parse b L P exact s) as F.
  destruct (parse_total b L P exact s Hv) as [[x E]|E]; rewrite E in F;
    destruct (parse_str_r b L P exact s) as [[y|e]| | |]; try discriminate F.
  - left. eauto.
  - right. now rewrite (He e eq_refl).
Qed.
Lemma reads_spells L s i f v : pointed s i f -> reads L i v -> digits f ->
  exists neg ds, spells s neg ds (Some f) /\ v = sgz neg (numval ds).
Proof.
  intros [(pre & post & -> & Hp & Hq & _) _] [_ (ds & Hd & H)] Hf.
  assert (exists neg sg, sign_str neg sg /\ i = sg ++ ds /\ v = sgz neg (numval ds)) as (neg & sg & Hs & -> & ->).
  { destruct H as [[-> ->]|[[-> | ->] ->]].
    - exists true, [45]. cbn. auto.
    - exists false, []. cbn. auto.
    - exists false, [43]. cbn. auto. }
  exists neg, ds. split; [now apply spells_some|reflexivity].
Qed.
Lemma pointed_ok b L P exact s i f v : valid b L P -> pointed s i f -> reads L i v -> digits f ->
  (exact = true -> Z.of_nat (List.length f) <= P) -> 0 < P -> in_range L (v * 10 ^ P) ->
  exists neg ds x, spells s neg ds (Some f) /\ rounds_to Nearest P (spelled neg ds (Some f)) x /\
    ((in_range L x /\ parse_str_r b L P exact s = Ret (Ok x)) \/ (~ in_range L x /\ parse_str_r b L P exact s = Ret (Err TooBigNumber))).
Proof.
  intros Hv Hpt Hr Hf Hx Hz Ho. destruct (reads_spells L s i f v Hpt Hr Hf) as (neg & ds & Hs & _).
  pose proof (proj1 (proj2 Hv)) as HP.
  exists neg, ds, (sgz neg (numval ds * 10 ^ P + frac_raw P f)). split; [exact Hs|].
  destruct (spells_digits _ _ _ _ Hs) as [Hd1 Hd2]. split; [now apply (spelled_nearest P neg ds (Some f))|].
  pose proof (parse_spelled b L P exact s neg ds (Some f) Hv Hs) as E. cbv beta iota in E.
  replace (exact && _) with false in E by (destruct exact; [specialize (Hx eq_refl); lia|reflexivity]).
  assert (parse_str b L P exact s = parsed L (sgz neg (numval ds * 10 ^ P + frac_raw P f))) as E'.
  { rewrite E. destruct exact; cbn [negb andb]; [reflexivity|]. replace (P =? 0) with false by lia. now rewrite ?andb_false_r. }
  clear E. pose proof (forget_parse b L P exact s) as F. rewrite E' in F.
  destruct (too_big_sum b L P exact s i f v Hv (proj1 Hpt) (proj2 Hpt) Hr Hf Hx Hz Ho) as [[x E]|E]; rewrite E in F |- *; cbn [forget] in F.
  - left. symmetry in F. apply parsed_ok in F as [F F2]. subst x. auto.
  - right. destruct (parsed_cases L (sgz neg (numval ds * 10 ^ P + frac_raw P f))) as [[H E2]|[H E2]]; [congruence|auto].
Qed.
Lemma sgn_digits : forall f : list Z, Forall digit f \/ ~ Forall digit f.
Proof.
  intros f. destruct (forallb is_digit f) eqn:K; [left; now apply all_digits|right; intros H; apply all_digits in H; congruence].
Qed.
Lemma reads_dec L s : (exists v, reads L s v) \/ forall v, ~ reads L s v.
Proof.
  destruct (parse_int_str (lty L) s) as [v|] eqn:K; [left; exists v; now apply reads_parse|].
  right. intros v H. apply reads_parse in H. congruence.
Qed.
Lemma range_dec L z : in_range L z \/ ~ in_range L z.
Proof. unfold in_range. lia. Qed.
Lemma core_unique s t t' : core s t -> core s t' -> t = t'.
Proof. intros H H'. apply core_trim in H, H'. congruence. Qed.
Theorem parse_cause b L P exact s r : valid b L P -> (parse_str_r b L P exact s = Ret (Err r) <-> cause L P exact s r).
Proof.
  intros Hv. pose proof (proj1 (proj2 Hv)) as HP. split.
  - intros E. pose proof (trim_core s) as Hc. set (t := trim s) in *. clearbody t.
    destruct (split_once t 46) as [[i f]|] eqn:K.
    + assert (Hpt : pointed s i f).
      { assert (t = i ++ 46 :: f /\ ~ In 46 i) as [-> Hn]; [|split; assumption].
        clear - K. revert i K. induction t as [|c t IH]; [discriminate|]. intros i. cbn. destruct (Z.eqb_spec c 46) as [->|Hc].
        - intros [= <- <-]. auto.
        - destruct (split_once t 46) as [[l r]|]; [|discriminate]. intros [= <- <-].
          destruct (IH l eq_refl) as [-> Hn]. split; [reflexivity|]. intros [H|H]; auto. }
      clear K Hc t. destruct (reads_dec L i) as [[v Hr]|Hr].
      2: { rewrite (integral_syntax b L P exact s i f (proj1 Hpt) (proj2 Hpt) Hr) in E. injection E as <-. exists i, f. auto. }
      destruct (sgn_digits f) as [Hf|Hf].
      2: { rewrite (digits_only b L P exact s i f v (proj1 Hpt) (proj2 Hpt) Hr Hf) in E. injection E as <-. exists i, f, v. auto. }
      destruct (Z_lt_le_dec P (Z.of_nat (List.length f))) as [Hl|Hl]; [destruct exact|].
      { rewrite (precision_high b L P s i f v Hv (proj1 Hpt) (proj2 Hpt) Hr Hf Hl) in E. injection E as <-. split; [reflexivity|]. exists i, f, v. auto. }
      all: match type of E with parse_str_r _ _ _ ?e _ = _ =>
           assert (Hx : e = true -> Z.of_nat (List.length f) <= P) by (first [discriminate | intros; exact Hl]) end.
      all: assert (f = [] \/ P = 0 \/ (digits f /\ 0 < P)) as Hcase by
             (destruct f; [now left|right]; destruct (Z.eq_dec P 0); [now left|right; split; [split; [discriminate|exact Hf]|lia]]).
      all: destruct Hcase as [H0|[H0|[Hd Hz]]];
        [ rewrite (fractional_syntax b L P _ s i f v Hv (proj1 Hpt) (proj2 Hpt) Hr Hf Hx (or_introl H0)) in E; injection E as <-; exists i, f, v; auto 8
        | rewrite (fractional_syntax b L P _ s i f v Hv (proj1 Hpt) (proj2 Hpt) Hr Hf Hx (or_intror H0)) in E; injection E as <-; exists i, f, v; auto 8
        | ].
      all: destruct (range_dec L (v * 10 ^ P)) as [Ho|Ho];
        [|rewrite (too_big_integral b L P _ s i f v Hv (proj1 Hpt) (proj2 Hpt) Hr Hd Hx Hz Ho) in E; injection E as <-; exists i, f, v; auto 8].
      all: destruct (pointed_ok b L P _ s i f v Hv Hpt Hr Hd Hx Hz Ho) as (neg & ds & x & Hs & Hrd & [[Hi E2]|[Hi E2]]); [congruence|];
        rewrite E2 in E; injection E as <-; right; exists i, f, v, neg, ds; repeat (split; [assumption|]);
        intros y Hy; rewrite (rounds_unique _ _ _ _ Hy Hrd); exact Hi.
    + apply split_once_none in K. destruct (reads_dec L t) as [[v Hr]|Hr].
      * rewrite (int_value b L P exact s t v Hv Hc K Hr) in E.
        destruct (_ && _) eqn:Hb; [discriminate|]. injection E as <-. left. exists t, v. repeat (split; [assumption|]). unfold in_range. lia.
      * rewrite (int_syntax b L P exact s t Hc K Hr) in E. injection E as <-. exists t. auto.
  - destruct r; cbn [cause]; try contradiction.
    + intros [(t & v & Hc & Hn & Hr & Ho)|(i & f & v & neg & ds & Hpt & Hr & Hd & Hx & Hz & Ho & Hs & Hno)].
      * rewrite (int_value b L P exact s t v Hv Hc Hn Hr). unfold in_range in Ho. now replace (_ && _) with false by lia.
      * destruct (pointed_ok b L P _ s i f v Hv Hpt Hr Hd Hx Hz Ho) as (neg' & ds' & x & Hs' & Hrd & [[Hi E2]|[Hi E2]]); [|exact E2].
        destruct (spells_unique _ _ _ _ _ _ _ Hs Hs') as (-> & -> & _). destruct (Hno x Hrd Hi).
    + intros (t & Hc & Hn & Hr). now apply (int_syntax b L P exact s t).
    + intros (i & f & Hpt & Hr). now apply (integral_syntax b L P exact s i f); [apply Hpt|apply Hpt|].
    + intros (i & f & v & Hpt & Hr & Hf). now apply (digits_only b L P exact s i f v); [apply Hpt|apply Hpt| |].
    + intros (-> & i & f & v & Hpt & Hr & Hf & Hl). now apply (precision_high b L P s i f v); [assumption|apply Hpt|apply Hpt| | |].
    + intros (i & f & v & Hpt & Hr & Hf & Hx & H0). now apply (fractional_syntax b L P exact s i f v); [assumption|apply Hpt|apply Hpt| | | |].
    + intros (i & f & v & Hpt & Hr & Hf & Hx & Hz & Ho). now apply (too_big_integral b L P exact s i f v); [assumption|apply Hpt|apply Hpt| | | | |].
Qed.

(** ** Other conversions *)
Theorem decimal_reason b L P m e r : valid b L P -> from_decimal_r b L P m e = Ret (Err r) ->
  (r = UnsupportedExponent /\ ~ (- P <= e <= 10)) \/ (r = TooBigMantissa /\ - P <= e <= 10).
Proof.
  intros Hv. pose proof (proj1 (proj2 Hv)) as HP. pose proof (valid_prec_38 L P (proj2 Hv)) as HP38.
  unfold from_decimal_r. rewrite neg_ok by (unfold fits; change (imin I32) with (-2147483648); change (imax I32) with 2147483647; lia).
  cbn [bind]. destruct (Z.ltb_spec e (- P)); [intros [= <-]; left; split; [reflexivity|lia]|].
  destruct (Z.ltb_spec 10 e); [intros [= <-]; left; split; [reflexivity|lia]|]. cbn [orb].
  intros H1. right. split; [|lia]. revert H1.
  destruct (add b I32 e P) as [z| | |]; cbn [bind]; try discriminate.
  destruct (ipow _ _ _ _) as [q| | |]; cbn [bind]; try discriminate.
  destruct (checked_mul _ _ _); cbn; congruence.
Qed.
Theorem integer_reason b L P v r : try_from_int_r b L P v = Ret (Err r) -> r = TooBigNumber.
Proof.
  unfold try_from_int_r. destruct (try_from _ _); [|congruence]. destruct (COEF b L P); cbn [bind]; try discriminate.
  destruct (checked_mul _ _ _); cbn; congruence.
Qed.
Theorem float_reason b L P raw r : is_f64 raw -> try_from_f64_r b L P raw = Ret (Err r) ->
  (r = NotFinite <-> f64_exponent raw = 2047) /\ (r = TooBigNumber <-> f64_exponent raw <> 2047).
Proof.
  intros Hr. unfold try_from_f64_r. cbv zeta.
  assert (Z.land (raw / 2 ^ 52) 2047 = f64_exponent raw) as ->.
  { unfold f64_exponent. change 2047 with (Z.ones 11). apply Z.land_ones. lia. }
  destruct (Z.eqb_spec (f64_exponent raw) 2047) as [E|E].
  { intros [= <-]. split; split; congruence. }
  intros H. enough (r = TooBigNumber) as -> by (split; split; congruence). revert H.
  destruct (_ && _); [discriminate|].
  match goal with |- bind ?x _ = _ -> _ => destruct x as [[z1 z2]| | |] end; cbn [bind]; try discriminate.
  destruct (sub b I32 z2 52) as [z3| | |]; cbn [bind]; try discriminate.
  destruct (neg b I32 z3) as [z4| | |]; cbn [bind]; try discriminate.
  destruct (absorb5 b z1 z4 z3) as [[[z5 z6] z7]| | |]; cbn [bind]; try discriminate.
  destruct (scale_up b float_fuel z5 z6 z7) as [[[z8 z9] z10]| | |]; cbn [bind]; try discriminate.
  destruct (cut_digits b z8 z10) as [[z11 z12]| | |]; cbn [bind]; try discriminate.
  assert (forall e, rescale_r b P z11 z12 = Ret (Err e) -> e = TooBigNumber) as He.
  { intros e. unfold rescale_r. destruct (neg b I32 P) as [np| | |]; cbn [bind]; try discriminate.
    destruct (np <? z12).
    - destruct (add b I32 z12 P) as [q| | |]; cbn [bind]; try discriminate.
      destruct (power_of_10 _) as [w|]; [destruct (checked_mul _ _ _)|]; cbn; congruence.
    - destruct (z12 <? np); [|discriminate]. destruct (sub b I32 np z12) as [q| | |]; cbn [bind]; try discriminate.
      destruct (rdiv_by_exponent_10 _ _ _); cbn [bind]; discriminate. }
  destruct (rescale_r b P z11 z12) as [[z13|e]| | |]; cbn [try_ bind]; try discriminate.
  - destruct (try_from _ _); [|congruence]. destruct (_ =? 0); [discriminate|]. destruct (checked_neg _ _); cbn; congruence.
  - intros [= <-]. now apply He.
Qed.
Theorem texts_differ r r' : convert_as_str r = convert_as_str r' -> r = r'.
Proof. destruct r, r'; cbn; congruence. Qed.
Theorem arith_texts_differ e e' : arith_as_str e = arith_as_str e' -> e = e'.
Proof. destruct e, e'; cbn; congruence. Qed.
Theorem decimal_exponent b L P m e : valid b L P ->
  (from_decimal_r b L P m e = Ret (Err UnsupportedExponent) <-> ~ (- P <= e <= 10)).
Proof.
  intros Hv. split.
  - intros H. destruct (decimal_reason _ _ _ _ _ _ Hv H) as [[_ K]|[K _]]; [exact K|discriminate].
  - intros H. pose proof (proj1 (proj2 Hv)) as HP. pose proof (valid_prec_38 L P (proj2 Hv)) as HP38.
    unfold from_decimal_r. rewrite neg_ok by (unfold fits; change (imin I32) with (-2147483648); change (imax I32) with 2147483647; lia).
    cbn [bind]. now replace (_ || _) with true by lia.
Qed.
Theorem float_not_finite b L P raw : is_f64 raw ->
  (try_from_f64_r b L P raw = Ret (Err NotFinite) <-> f64_exponent raw = 2047).
Proof.
  intros Hr. split.
  - intros H. now apply (float_reason b L P raw _ Hr H).
  - intros H. unfold try_from_f64_r. cbv zeta.
    assert (Z.land (raw / 2 ^ 52) 2047 = f64_exponent raw) as ->.
    { unfold f64_exponent. change 2047 with (Z.ones 11). apply Z.land_ones. lia. }
    now rewrite H.
Qed.

(** ** The texts *)
Theorem decimal_text b L P m e r : valid b L P -> from_decimal_r b L P m e = Ret (Err r) ->
  (convert_as_str r = "unsupported exponent"%string /\ ~ (- P <= e <= 10)) \/
  (convert_as_str r = "too big mantissa"%string /\ - P <= e <= 10).
Proof. intros V H. destruct (decimal_reason b L P m e r V H) as [[-> K]|[-> K]]; [left|right]; now split. Qed.
Theorem integer_text b L P v r : try_from_int_r b L P v = Ret (Err r) -> convert_as_str r = "too big number"%string.
Proof. intros H. now rewrite (integer_reason b L P v r H). Qed.
Theorem float_text b L P raw r : is_f64 raw -> try_from_f64_r b L P raw = Ret (Err r) ->
  (convert_as_str r = "not finite"%string /\ f64_exponent raw = 2047) \/
  (convert_as_str r = "too big number"%string /\ f64_exponent raw <> 2047).
Proof.
  intros F H. destruct (float_reason b L P raw r F H) as [[_ A] [_ B]].
  destruct (Z.eq_dec (f64_exponent raw) 2047) as [K|K]; [left; rewrite (A K)|right; rewrite (B K)]; now split.
Qed.
Theorem parse_words :
  (convert_as_str IntegerSyntax = "can't parse integer" /\ convert_as_str IntegralSyntax = "can't parse integral part" /\
   convert_as_str DigitsOnly = "can't parse fractional part: must contain digits only" /\
   convert_as_str PrecisionTooHigh = "requested precision is too high" /\
   convert_as_str FractionalSyntax = "can't parse fractional part" /\ convert_as_str TooBigIntegral = "too big integral" /\
   convert_as_str TooBigNumber = "too big number")%string.
Proof. repeat split. Qed.
Theorem arith_words : arith_as_str Overflow = "overflow"%string /\ arith_as_str DivisionByZero = "division by zero"%string /\
  arith_as_str DomainViolation = "domain violation"%string.
Proof. repeat split. Qed.
