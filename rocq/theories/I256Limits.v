(** * I256Limits: signed 256-bit arithmetic for all operands, overflow and the least number included. *)
From Verif Require Import Base Sqrt U256 I256 Promo Spec BaseFacts FloatFacts SqrtFacts WordFacts DivWord ShiftFacts
  KnuthFacts I256Facts Sqrt256 Wide.
From Verif Require Import SpecWide.
Ltac Zify.zify_post_hook ::= idtac.

Lemma words_inj x y : wf 4 x -> wf 4 y -> lval x = lval y -> x = y.
Proof. intros [L1 F1] [L2 F2]. apply lval_inj; try assumption. congruence. Qed.
Lemma min_wf : wf 4 I256_MIN.
Proof. apply wf4; (split; [discriminate|reflexivity]). Qed.
Lemma one_wf : wf 4 I256_ONE.
Proof. apply wf4; (split; [discriminate|reflexivity]). Qed.
Lemma sval_wraps z v : wf 4 z -> lval z = v mod Bp 4 -> exists r, signed4 z r /\ wraps256 v r.
Proof.
  intros W E. exists (sval z). split; [apply signed4_wf; auto|]. split; [exact (sval_range z W)|].
  pose proof (Z.div_mod v (Bp 4) ltac:(pose proof (Bp_pos 4); lia)) as D. rewrite <- E in D. unfold sval. change (2 ^ 256) with (Bp 4).
  destruct (lval z <? H255); [exists (- (v / Bp 4))|exists (- (v / Bp 4) - 1)]; lia.
Qed.
Lemma min_words x : wf 4 x -> sval x = - H255 -> x = I256_MIN.
Proof.
  intros W E. apply words_inj; [exact W|exact min_wf|]. pose proof (wf_bound _ _ W). unfold sval in E. pose proof H255_Bp. pose proof H255_pos.
  change (lval I256_MIN) with H255. destruct (lval x <? H255); lia.
Qed.
Lemma neg_all b x : wf 4 x -> if dbg b && (lval x =? H255) then i256_neg b x = Panic
  else exists z, i256_neg b x = Ret z /\ wf 4 z /\ lval z = (- lval x) mod Bp 4.
Proof.
  intros Hx. pose proof (wf_bound _ _ Hx) as Bx. assert (words_eqb x I256_MIN = (lval x =? H255)) as EM.
  { destruct (Z.eqb_spec (lval x) H255) as [E|N].
    - apply words_eqb_eq. apply words_inj; [exact Hx|exact min_wf|exact E].
    - destruct (words_eqb x I256_MIN) eqn:E; [|reflexivity]. apply words_eqb_eq in E. subst x. exfalso. apply N. reflexivity. }
  destruct Hx as [Lx Fx]. destruct (not_spec x Fx) as [Wn Vn]. rewrite Lx in Wn, Vn.
  destruct (add_mod (u256_not x) I256_ONE Wn one_wf) as [W V]. change (lval I256_ONE) with 1 in V. rewrite Vn in V.
  assert ((Bp 4 - 1 - lval x + 1) mod Bp 4 = (- lval x) mod Bp 4) as EV.
  { replace (Bp 4 - 1 - lval x + 1) with (- lval x + 1 * Bp 4) by ring. apply Z.mod_add. pose proof (Bp_pos 4). lia. }
  rewrite EV in V. unfold i256_neg, dassert. rewrite EM. destruct (dbg b), (lval x =? H255); cbn [andb negb bind]; try reflexivity;
    (eexists; split; [reflexivity|]; auto).
Qed.
Lemma sval_min x : wf 4 x -> (lval x =? H255) = (sval x =? - H255).
Proof. intros W. pose proof (wf_bound _ _ W). unfold sval. pose proof H255_Bp. pose proof H255_pos. destruct (Z.ltb_spec (lval x) H255); lia. Qed.
Lemma abs_all b (x : i256) : wf 4 x -> if dbg b && (sval x =? - H255) then (if negb (lval x <? H255) then i256_neg b x else Ret x) = Panic
  else exists z, (if negb (lval x <? H255) then i256_neg b x else Ret x) = Ret z /\ wf 4 z /\ lval z = Z.abs (sval x).
Proof.
  intros W. pose proof (neg_all b x W) as N. rewrite <- (sval_min x W). pose proof (wf_bound _ _ W) as Bx. unfold sval.
  pose proof H255_Bp as E2. pose proof H255_pos as HP.
  destruct (Z.ltb_spec (lval x) H255) as [H|H]; cbn [negb].
  - replace (lval x =? H255) with false by lia. rewrite andb_false_r. exists x. repeat split; [apply W..|]. lia.
  - destruct (dbg b && (lval x =? H255)); [exact N|]. destruct N as (z & E & Wz & V). exists z. repeat split; [exact E|apply Wz..|].
    rewrite V, <- (Z.mod_add _ 1) by (pose proof (Bp_pos 4); lia). rewrite Z.mod_small by lia. lia.
Qed.
Lemma sign_all b (r : i256) (nx ny : bool) a : wf 4 r -> lval r = Z.abs a -> (nx = ny -> 0 <= a) -> (nx <> ny -> a <= 0) ->
  if dbg b && (a =? - H255) then (if Bool.eqb nx ny then Ret r else i256_neg b r) = Panic
  else exists z, (if Bool.eqb nx ny then Ret r else i256_neg b r) = Ret z /\ wf 4 z /\ lval z = a mod Bp 4.
Proof.
  intros W V Hp Hn. pose proof (wf_bound _ _ W) as Br. pose proof H255_pos as HP. destruct (Bool.eqb nx ny) eqn:E.
  - apply eqb_prop in E. specialize (Hp E). replace (a =? - H255) with false by lia. rewrite andb_false_r. exists r. repeat split; [apply W..|].
    rewrite Z.mod_small; lia.
  - apply eqb_false_iff in E. specialize (Hn E). pose proof (neg_all b r W) as N. replace (lval r =? H255) with (a =? - H255) in N by lia.
    replace (- lval r) with a in N by lia. exact N.
Qed.
Lemma min_abs a : - H255 <= a < H255 -> 0 <= Z.abs a <= H255. Proof. lia. Qed.

Theorem neg_at_limits b x a : signed4 x a ->
  (dbg b = true /\ a = - 2 ^ 255 -> i256_neg b x = Panic) /\
  (~ (dbg b = true /\ a = - 2 ^ 255) -> exists z r, i256_neg b x = Ret z /\ signed4 z r /\ wraps256 (- a) r).
Proof.
  intros Hx. apply signed4_wf in Hx as [W <-]. change (2 ^ 255) with H255. pose proof (neg_all b x W) as N. rewrite (sval_min x W) in N.
  split.
  - intros [D E]. apply Z.eqb_eq in E. rewrite D, E in N. exact N.
  - intros H. destruct (dbg b && (sval x =? - H255)) eqn:E.
    + exfalso. apply H. apply andb_true_iff in E as [E1 E2]. apply Z.eqb_eq in E2. auto.
    + destruct N as (z & E' & Wz & V). assert (lval z = (- sval x) mod Bp 4) as V'.
      { rewrite V. unfold sval. destruct (lval x <? H255); [reflexivity|].
        replace (- (lval x - Bp 4)) with (- lval x + 1 * Bp 4) by ring. symmetry. apply Z.mod_add. pose proof (Bp_pos 4). lia. }
      destruct (sval_wraps z _ Wz V') as (r & S & R). exists z, r. auto.
Qed.
Theorem add_at_limits x y a c : signed4 x a -> signed4 y c ->
  (exists r, signed4 (i256_add x y) r /\ wraps256 (a + c) r) /\ (exists r, signed4 (i256_sub x y) r /\ wraps256 (a - c) r).
Proof.
  intros Hx Hy. apply signed4_wf in Hx as [Wx <-]. apply signed4_wf in Hy as [Wy <-]. split.
  - destruct (add_mod x y Wx Wy) as [W V]. apply sval_wraps; [exact W|]. unfold i256_add. rewrite V, (lval_sval x Wx), (lval_sval y Wy).
    symmetry. apply Z.add_mod. pose proof (Bp_pos 4). lia.
  - destruct (sub_mod x y Wx Wy) as [W V]. apply sval_wraps; [exact W|]. unfold i256_sub. rewrite V, (lval_sval x Wx), (lval_sval y Wy).
    symmetry. apply Zminus_mod.
Qed.
Lemma signs x y : wf 4 x -> wf 4 y -> forall a, (0 <= sval x * sval y -> 0 <= a) -> (sval x * sval y <= 0 -> a <= 0) ->
  (negb (lval x <? H255) = negb (lval y <? H255) -> 0 <= a) /\ (negb (lval x <? H255) <> negb (lval y <? H255) -> a <= 0).
Proof.
  intros Wx Wy a Hp Hn. rewrite (sval_sign x Wx), (sval_sign y Wy).
  destruct (Z.leb_spec 0 (sval x)), (Z.leb_spec 0 (sval y)); cbn [negb]; (split; intros E; try congruence; try (exfalso; apply E; reflexivity));
    try (apply Hp; nia); try (apply Hn; nia).
Qed.
Theorem mul_at_limits b x y a c : signed4 x a -> signed4 y c ->
  let bad := 2 ^ 256 <= Z.abs (a * c) \/ (dbg b = true /\ (a = - 2 ^ 255 \/ c = - 2 ^ 255 \/ a * c = - 2 ^ 255)) in
  (bad -> i256_mul b x y = Panic) /\
  (~ bad -> exists z r, i256_mul b x y = Ret z /\ signed4 z r /\ wraps256 (a * c) r).
Proof.
  intros Hx Hy bad. apply signed4_wf in Hx as [Wx <-]. apply signed4_wf in Hy as [Wy <-]. subst bad. change (2 ^ 255) with H255. change (2 ^ 256) with (Bp 4).
  unfold i256_mul. rewrite (is_negative_spec x Wx), (is_negative_spec y Wy). cbn [bind].
  pose proof (abs_all b x Wx) as Ax. pose proof (abs_all b y Wy) as Ay.
  destruct (dbg b && (sval x =? - H255)) eqn:Dx.
  { rewrite Ax. cbn [bind]. apply andb_true_iff in Dx as [D1 D2]. apply Z.eqb_eq in D2. split; [reflexivity|]. intros H. exfalso. apply H. auto. }
  destruct Ax as (x' & -> & Wx' & Vx). cbn [bind].
  destruct (dbg b && (sval y =? - H255)) eqn:Dy.
  { rewrite Ay. cbn [bind]. apply andb_true_iff in Dy as [D1 D2]. apply Z.eqb_eq in D2. split; [reflexivity|]. intros H. exfalso. apply H. auto. }
  destruct Ay as (y' & -> & Wy' & Vy). cbn [bind].
  destruct (Z_lt_le_dec (Z.abs (sval x * sval y)) (Bp 4)) as [C|C].
  - assert (lval x' * lval y' = Z.abs (sval x * sval y)) as EV by (rewrite Vx, Vy; symmetry; apply Z.abs_mul).
    destruct (u256_mul_spec b x' y' Wx' Wy' ltac:(lia)) as (r & -> & Wr & Vr). cbn [bind].
    destruct (signs x y Wx Wy (sval x * sval y) ltac:(auto) ltac:(auto)) as [Sp Sn].
    pose proof (sign_all b r _ _ (sval x * sval y) Wr ltac:(lia) Sp Sn) as S.
    destruct (dbg b && (sval x * sval y =? - H255)) eqn:D.
    + apply andb_true_iff in D as [D1 D2]. apply Z.eqb_eq in D2. split; [intros _; exact S|]. intros H. exfalso. apply H. auto.
    + split.
      * intros [H|[D1 [H|[H|H]]]]; [lia|..]; exfalso; apply Z.eqb_eq in H; rewrite D1, H in *; discriminate.
      * intros _. destruct S as (z & E & Wz & V). destruct (sval_wraps z _ Wz V) as (v & S & R). exists z, v. auto.
  - split; [intros _|intros H; exfalso; apply H; auto].
    destruct (wide_mul b x' y' (lval x') (lval y')) as [_ M]; [apply unsigned4_wf; auto..|]. rewrite M; [reflexivity|].
    rewrite Vx, Vy, <- Z.abs_mul. exact C.
Qed.
Lemma quot_sign a c : c <> 0 -> (0 <= a * c -> 0 <= Z.quot a c) /\ (a * c <= 0 -> Z.quot a c <= 0).
Proof.
  intros Hc. assert (forall u w, 0 < w -> 0 <= u -> 0 <= Z.quot u w) as P by (intros u w H1 H2; apply Z.quot_pos; lia).
  assert (forall u w, 0 < w -> u <= 0 -> Z.quot u w <= 0) as N.
  { intros u w H1 H2. pose proof (P (- u) w H1 ltac:(lia)) as T. rewrite Z.quot_opp_l in T by lia. lia. }
  destruct (Z_lt_le_dec 0 c) as [C|C].
  - split; intros H; [apply P|apply N]; nia.
  - assert (Z.quot a c = - Z.quot a (- c)) as -> by (rewrite Z.quot_opp_r by lia; lia).
    split; intros H.
    + pose proof (N a (- c) ltac:(lia) ltac:(nia)). lia.
    + pose proof (P a (- c) ltac:(lia) ltac:(nia)). lia.
Qed.
Lemma quot_not_min a c : - H255 <= a < H255 -> a <> - H255 -> c <> 0 -> Z.quot a c <> - H255.
Proof.
  intros R N C E. assert (Z.abs (Z.quot a c) <= Z.abs a) as T.
  { rewrite (abs_quot a c C). apply Z.div_le_upper_bound; [clear - C; lia|]. clear - C. assert (1 <= Z.abs c) by lia. nia. }
  rewrite E in T. pose proof H255_pos as HP. revert R N T HP. generalize H255. clear. intros h. lia.
Qed.
Theorem div_at_limits b x y a c : signed4 x a -> signed4 y c ->
  let bad := c = 0 \/ (dbg b = true /\ (a = - 2 ^ 255 \/ c = - 2 ^ 255)) in
  (bad -> i256_div b x y = Panic) /\
  (~ bad -> exists z r, i256_div b x y = Ret z /\ signed4 z r /\ wraps256 (Z.quot a c) r).
Proof.
  intros Hx Hy bad. apply signed4_wf in Hx as [Wx <-]. apply signed4_wf in Hy as [Wy <-]. subst bad. change (2 ^ 255) with H255.
  unfold i256_div. rewrite (is_negative_spec x Wx), (is_negative_spec y Wy). cbn [bind].
  pose proof (abs_all b x Wx) as Ax. pose proof (abs_all b y Wy) as Ay.
  destruct (dbg b && (sval x =? - H255)) eqn:Dx.
  { rewrite Ax. cbn [bind]. apply andb_true_iff in Dx as [D1 D2]. apply Z.eqb_eq in D2. split; [reflexivity|]. intros H. exfalso. apply H. auto. }
  destruct Ax as (x' & -> & Wx' & Vx). cbn [bind].
  destruct (dbg b && (sval y =? - H255)) eqn:Dy.
  { rewrite Ay. cbn [bind]. apply andb_true_iff in Dy as [D1 D2]. apply Z.eqb_eq in D2. split; [reflexivity|]. intros H. exfalso. apply H. auto. }
  destruct Ay as (y' & -> & Wy' & Vy). cbn [bind]. unfold u256_div.
  destruct (wide_div_mod b x' y' (lval x') (lval y')) as [M0 M1]; [apply unsigned4_wf; auto..|].
  destruct (Z.eq_dec (sval y) 0) as [C|C].
  - rewrite (M1 ltac:(lia)). split; [reflexivity|intros H; exfalso; apply H; auto].
  - destruct (M0 ltac:(lia)) as (q & r & -> & Uq & _). cbn [bind fst]. apply unsigned4_wf in Uq as [Wq Vq].
    assert (lval q = Z.abs (Z.quot (sval x) (sval y))) as EV by (rewrite Vq, Vx, Vy; symmetry; apply abs_quot; exact C).
    destruct (quot_sign (sval x) (sval y) C) as [Qp Qn].
    destruct (signs x y Wx Wy _ Qp Qn) as [Sp Sn].
    pose proof (sign_all b q _ _ _ Wq EV Sp Sn) as S.
    destruct (dbg b && (Z.quot (sval x) (sval y) =? - H255)) eqn:D.
    + exfalso. apply andb_true_iff in D as [D1 D2]. apply Z.eqb_eq in D2. rewrite D1 in Dx. cbn [andb] in Dx. apply Z.eqb_neq in Dx.
      exact (quot_not_min _ _ (sval_range x Wx) Dx C D2).
    + split.
      * intros [H|[D1 [H|H]]]; [contradiction|..]; exfalso; apply Z.eqb_eq in H; rewrite D1, H in *; discriminate.
      * intros _. destruct S as (z & E & Wz & V). destruct (sval_wraps z _ Wz V) as (v & S & R). exists z, v. auto.
Qed.
Theorem i128_at_limits b x a : signed4 x a -> i128_of_i256 b x = Ret (if (- 2 ^ 127 <=? a) && (a <? 2 ^ 127) then Some a else None).
Proof.
  intros H. apply signed4_wf in H as [W <-]. pose proof (sval_range x W) as R.
  destruct (Z.eq_dec (sval x) (- H255)) as [E|N].
  - rewrite E. rewrite (min_words x W E). reflexivity.
  - rewrite (i128_of_i256_spec b x (sval x)) by (repeat split; [apply W..|lia]). unfold chk, fitsb.
    change (imin I128) with (- 2 ^ 127). change (imax I128) with (2 ^ 127 - 1).
    replace (sval x <=? 2 ^ 127 - 1) with (sval x <? 2 ^ 127) by (generalize (2 ^ 127); lia). reflexivity.
Qed.
Theorem sqrt_negative b x a : signed4 x a -> a < 0 ->
  (dbg b = true -> i256_sqrt b x = Panic) /\
  (dbg b = false -> exists z s, i256_sqrt b x = Ret z /\ unsigned4 z s /\ 0 <= s /\ s * s <= a + 2 ^ 256 < (s + 1) * (s + 1)).
Proof.
  intros H Hn. apply signed4_wf in H as [W <-]. unfold i256_sqrt.
  destruct (lval_from_i128 0 ltac:(split; [discriminate|reflexivity])) as [W0 V0].
  rewrite (i256_cmp_spec x I256_ZERO W W0). unfold I256_ZERO. rewrite V0. cbn [bind]. replace (sval x ?= 0) with Lt by (symmetry; exact Hn).
  unfold dassert. split; intros D; rewrite D; cbn [andb negb bind]; [reflexivity|].
  destruct (wide_sqrt b x (lval x)) as (z & s & E & U & Hs & Hb); [apply unsigned4_wf; auto|]. exists z, s. repeat split; try assumption.
  - replace (sval x + 2 ^ 256) with (lval x); [apply Hb|]. change (2 ^ 256) with (Bp 4). unfold sval in *. pose proof (wf_bound _ _ W). destruct (lval x <? H255); lia.
  - replace (sval x + 2 ^ 256) with (lval x); [apply Hb|]. change (2 ^ 256) with (Bp 4). unfold sval in *. pose proof (wf_bound _ _ W). destruct (lval x <? H255); lia.
Qed.
