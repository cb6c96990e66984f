(** * WordFacts: values of little-endian word lists; addition, subtraction and multiplication. *)
From Verif Require Import Base Sqrt U256 BaseFacts.

Definition word (w : Z) : Prop := 0 <= w < B.
Fixpoint lval (l : list Z) : Z :=
  match l with [] => 0 | w :: t => w + B * lval t end.
Definition wf (n : nat) (l : list Z) : Prop := length l = n /\ Forall word l.

Lemma B_val : B = 18446744073709551616. Proof. reflexivity. Qed.
Lemma B_pos : 0 < B. Proof. reflexivity. Qed.
#[global] Opaque B.

Definition Bp (n : nat) : Z := B ^ Z.of_nat n.
Lemma Bp_0 : Bp 0 = 1. Proof. reflexivity. Qed.
Lemma Bp_S n : Bp (S n) = B * Bp n.
Proof. unfold Bp. rewrite Nat2Z.inj_succ, Z.pow_succ_r by lia. reflexivity. Qed.
Lemma Bp_pos n : 0 < Bp n.
Proof. unfold Bp. apply Z.pow_pos_nonneg; [exact B_pos|lia]. Qed.
Lemma Bp_add n m : Bp (n + m) = Bp n * Bp m.
Proof. unfold Bp. rewrite Nat2Z.inj_add, Z.pow_add_r by lia. reflexivity. Qed.

Lemma lval_bound l : Forall word l -> 0 <= lval l < Bp (length l).
Proof.
  induction 1 as [|w l Hw _ IH]; simpl lval; simpl length; [rewrite Bp_0; lia|].
  rewrite Bp_S. unfold word in Hw. pose proof B_pos. nia.
Qed.
Lemma wf_bound n l : wf n l -> 0 <= lval l < Bp n.
Proof. intros [<- H]. apply lval_bound, H. Qed.

Lemma wf4_inv x : wf 4 x -> exists w0 w1 w2 w3,
  x = [w0; w1; w2; w3] /\ word w0 /\ word w1 /\ word w2 /\ word w3.
Proof.
  intros [Hl Hf]. do 5 (destruct x as [|? x]; try discriminate Hl).
  inversion_clear Hf as [|? ? H0 Hf1]. inversion_clear Hf1 as [|? ? H1 Hf2].
  inversion_clear Hf2 as [|? ? H2 Hf3]. inversion_clear Hf3 as [|? ? H3 Hf4].
  do 4 eexists. repeat split; try eassumption; apply H0 || apply H1 || apply H2 || apply H3.
Qed.
Lemma wf4 w0 w1 w2 w3 : word w0 -> word w1 -> word w2 -> word w3 -> wf 4 [w0; w1; w2; w3].
Proof. intros. split; [reflexivity|]. repeat constructor; try apply H; try apply H0; try apply H1; apply H2. Qed.

Lemma lval_app l1 l2 : lval (l1 ++ l2) = lval l1 + Bp (length l1) * lval l2.
Proof.
  induction l1 as [|w l1 IH]; simpl lval; simpl app; simpl length; [rewrite Bp_0; lia|].
  cbn [lval]. rewrite IH, Bp_S. lia.
Qed.

(** Same value and length means same words. *)
Lemma lval_inj l1 l2 : Forall word l1 -> Forall word l2 -> length l1 = length l2 ->
  lval l1 = lval l2 -> l1 = l2.
Proof.
  intros H1. revert l2. induction H1 as [|w l1 Hw _ IH]; intros [|w' l2] H2 Hl E; try discriminate; auto.
  inversion_clear H2 as [|? ? Hw' H2']. cbn [lval] in E. unfold word in *. pose proof B_pos.
  assert (lval l1 = lval l2) as E2 by nia. assert (w = w') by nia.
  subst. f_equal. apply IH; auto.
Qed.

Lemma imax_u64 : imax U64 = B - 1. Proof. reflexivity. Qed.
Lemma imin_u64 : imin U64 = 0. Proof. reflexivity. Qed.
Lemma fits_u64 z : fits U64 z <-> word z.
Proof. unfold fits, word. rewrite imax_u64, imin_u64. lia. Qed.
Lemma fits_u128 z : fits U128 z <-> 0 <= z < B * B.
Proof. unfold fits. change (imin U128) with 0. change (imax U128) with (B * B - 1). lia. Qed.
Lemma wrap_u64 z : wrap U64 z = z mod B.
Proof. reflexivity. Qed.
Lemma fitsb_word z : fitsb U64 z = (0 <=? z) && (z <? B).
Proof. unfold fitsb. rewrite imax_u64, imin_u64. lia. Qed.

Lemma ovadd64_spec x y : word x -> word y ->
  let '(r, o) := ovadd64 x y in word r /\ r + Z.b2z o * B = x + y.
Proof.
  unfold word, ovadd64. intros Hx Hy. rewrite fitsb_word, wrap_u64. pose proof B_pos.
  destruct (Z.ltb_spec (x + y) B).
  - rewrite Z.mod_small by lia. replace (0 <=? x + y) with true by lia. simpl. lia.
  - rewrite andb_false_r. simpl negb. simpl Z.b2z.
    rewrite <- (Z.mod_add (x + y) (-1) B) by lia. rewrite Z.mod_small by lia. lia.
Qed.
Lemma ovsub64_spec x y : word x -> word y ->
  let '(r, o) := ovsub64 x y in word r /\ r - Z.b2z o * B = x - y.
Proof.
  unfold word, ovsub64. intros Hx Hy. rewrite fitsb_word, wrap_u64. pose proof B_pos.
  destruct (Z.leb_spec 0 (x - y)).
  - rewrite Z.mod_small by lia. replace (x - y <? B) with true by lia. simpl. lia.
  - simpl negb. simpl Z.b2z.
    rewrite <- (Z.mod_add (x - y) 1 B) by lia. rewrite Z.mod_small by lia. lia.
Qed.

Lemma ov_add_spec me you carry : Forall word me -> Forall word you ->
  length me = length you -> 0 <= carry <= 1 ->
  let '(l, c) := ov_binop ovadd64 me you carry in
  wf (length me) l /\ 0 <= c <= 1 /\ lval l + c * Bp (length me) = lval me + lval you + carry.
Proof.
  intros H1. revert you carry. induction H1 as [|m me Hm _ IH]; intros [|y you] carry H2 Hl Hc;
    try discriminate; cbn [ov_binop].
  - cbn [length lval]. rewrite Bp_0. split; [split; [reflexivity|constructor]|lia].
  - inversion_clear H2 as [|? ? Hy H2']. injection Hl as Hl.
    pose proof (ovadd64_spec m y Hm Hy) as S1. destruct (ovadd64 m y) as [r1 o1].
    destruct S1 as [W1 E1]. unfold word in *. pose proof B_pos as HB.
    destruct (Z.eqb_spec carry 0) as [->|Hc0].
    + pose proof (IH you (Z.b2z o1) H2' Hl ltac:(destruct o1; simpl; lia)) as I.
      destruct (ov_binop ovadd64 me you (Z.b2z o1)) as [l c]. destruct I as ([L1 L2] & C & E).
      split; [split; [simpl; congruence|constructor; assumption]|]. split; [assumption|].
      cbn [lval length]. rewrite Bp_S. nia.
    + assert (carry = 1) by lia. subst carry.
      pose proof (ovadd64_spec r1 1 W1 ltac:(unfold word; rewrite B_val; lia)) as S2.
      destruct (ovadd64 r1 1) as [r2 o2]. destruct S2 as [W2 E2]. unfold word in W2.
      assert (0 <= Z.b2z o1 + Z.b2z o2 <= 1) as Ho.
      { destruct o1, o2; simpl Z.b2z in *; lia. }
      pose proof (IH you (Z.b2z o1 + Z.b2z o2) H2' Hl Ho) as I.
      destruct (ov_binop ovadd64 me you (Z.b2z o1 + Z.b2z o2)) as [l c].
      destruct I as ([L1 L2] & C & E).
      split; [split; [simpl; congruence|constructor; assumption]|]. split; [assumption|].
      cbn [lval length]. rewrite Bp_S. nia.
Qed.
Lemma ov_sub_spec me you carry : Forall word me -> Forall word you ->
  length me = length you -> 0 <= carry <= 1 ->
  let '(l, c) := ov_binop ovsub64 me you carry in
  wf (length me) l /\ 0 <= c <= 1 /\ lval l - c * Bp (length me) = lval me - lval you - carry.
Proof.
  intros H1. revert you carry. induction H1 as [|m me Hm _ IH]; intros [|y you] carry H2 Hl Hc;
    try discriminate; cbn [ov_binop].
  - cbn [length lval]. rewrite Bp_0. split; [split; [reflexivity|constructor]|lia].
  - inversion_clear H2 as [|? ? Hy H2']. injection Hl as Hl.
    pose proof (ovsub64_spec m y Hm Hy) as S1. destruct (ovsub64 m y) as [r1 o1].
    destruct S1 as [W1 E1]. unfold word in *. pose proof B_pos as HB.
    destruct (Z.eqb_spec carry 0) as [->|Hc0].
    + pose proof (IH you (Z.b2z o1) H2' Hl ltac:(destruct o1; simpl; lia)) as I.
      destruct (ov_binop ovsub64 me you (Z.b2z o1)) as [l c]. destruct I as ([L1 L2] & C & E).
      split; [split; [simpl; congruence|constructor; assumption]|]. split; [assumption|].
      cbn [lval length]. rewrite Bp_S. nia.
    + assert (carry = 1) by lia. subst carry.
      pose proof (ovsub64_spec r1 1 W1 ltac:(unfold word; rewrite B_val; lia)) as S2.
      destruct (ovsub64 r1 1) as [r2 o2]. destruct S2 as [W2 E2]. unfold word in W2.
      assert (0 <= Z.b2z o1 + Z.b2z o2 <= 1) as Ho.
      { destruct o1, o2; simpl Z.b2z in *; lia. }
      pose proof (IH you (Z.b2z o1 + Z.b2z o2) H2' Hl Ho) as I.
      destruct (ov_binop ovsub64 me you (Z.b2z o1 + Z.b2z o2)) as [l c].
      destruct I as ([L1 L2] & C & E).
      split; [split; [simpl; congruence|constructor; assumption]|]. split; [assumption|].
      cbn [lval length]. rewrite Bp_S. nia.
Qed.

(** The sum and difference are taken modulo 2^256. *)
Lemma add_mod x y : wf 4 x -> wf 4 y ->
  wf 4 (fst (overflowing_add x y)) /\ lval (fst (overflowing_add x y)) = (lval x + lval y) mod Bp 4.
Proof.
  intros Hx Hy. pose proof (wf_bound _ _ Hx). pose proof (wf_bound _ _ Hy).
  destruct Hx as [Lx Fx], Hy as [Ly Fy]. unfold overflowing_add.
  pose proof (ov_add_spec x y 0 Fx Fy ltac:(congruence) ltac:(lia)) as S.
  destruct (ov_binop ovadd64 x y 0) as [l c]. rewrite Lx in S. destruct S as (W & C & E).
  cbn [fst]. split; [exact W|]. pose proof (wf_bound _ _ W) as Wb.
  rewrite <- (Z.mod_small (lval l) (Bp 4) Wb).
  replace (lval x + lval y) with (lval l + c * Bp 4) by lia.
  rewrite Z.mod_add by (pose proof (Bp_pos 4); lia). reflexivity.
Qed.
Lemma sub_mod x y : wf 4 x -> wf 4 y ->
  wf 4 (fst (overflowing_sub x y)) /\ lval (fst (overflowing_sub x y)) = (lval x - lval y) mod Bp 4.
Proof.
  intros Hx Hy. pose proof (wf_bound _ _ Hx). pose proof (wf_bound _ _ Hy).
  destruct Hx as [Lx Fx], Hy as [Ly Fy]. unfold overflowing_sub.
  pose proof (ov_sub_spec x y 0 Fx Fy ltac:(congruence) ltac:(lia)) as S.
  destruct (ov_binop ovsub64 x y 0) as [l c]. rewrite Lx in S. destruct S as (W & C & E).
  cbn [fst]. split; [exact W|]. pose proof (wf_bound _ _ W) as Wb.
  rewrite <- (Z.mod_small (lval l) (Bp 4) Wb).
  replace (lval x - lval y) with (lval l + (- c) * Bp 4) by lia.
  rewrite Z.mod_add by (pose proof (Bp_pos 4); lia). reflexivity.
Qed.

(** ** Array accesses *)
Lemma idx_ok {A} (l : list A) (n : nat) (d : A) i : i = Z.of_nat n -> (n < length l)%nat ->
  idx l i = Ret (nth n l d).
Proof.
  intros -> H. unfold idx. replace ((0 <=? Z.of_nat n) && (Z.of_nat n <? Z.of_nat (length l))) with true by lia.
  rewrite Nat2Z.id, (nth_error_nth' l d H). reflexivity.
Qed.
Lemma set_idx_ok {A} (l : list A) (n : nat) (v : A) i : i = Z.of_nat n -> (n < length l)%nat ->
  set_idx l i v = Ret (upd l n v).
Proof.
  intros -> H. unfold set_idx. replace ((0 <=? Z.of_nat n) && (Z.of_nat n <? Z.of_nat (length l))) with true by lia.
  rewrite Nat2Z.id. reflexivity.
Qed.
Lemma upd_length {A} (l : list A) n v : length (upd l n v) = length l.
Proof. revert n. induction l; intros [|n]; simpl; auto. Qed.
Lemma upd_nth {A} (l : list A) n v d k : (n < length l)%nat ->
  nth k (upd l n v) d = if Nat.eqb k n then v else nth k l d.
Proof.
  revert n k. induction l as [|a l IH]; intros [|n] [|k] H; simpl in *; try lia; auto.
  apply IH. lia.
Qed.
Lemma upd_word l n v : Forall word l -> word v -> Forall word (upd l n v).
Proof. intros H Hv. revert n. induction H; intros [|n]; simpl; auto. Qed.
Lemma upd_lval l n v : (n < length l)%nat -> lval (upd l n v) = lval l + (v - nth n l 0) * Bp n.
Proof.
  revert n. induction l as [|a l IH]; intros [|n] H; cbn [length] in H; try lia; cbn [upd lval nth].
  - rewrite Bp_0. lia.
  - rewrite IH, Bp_S by lia. lia.
Qed.
Lemma nth_word l n : Forall word l -> word (nth n l 0).
Proof.
  intros H. destruct (Nat.lt_ge_cases n (length l)) as [Hn|Hn].
  - rewrite Forall_forall in H. apply H, nth_In, Hn.
  - rewrite nth_overflow by assumption. unfold word. pose proof B_pos. lia.
Qed.

(** ** Multiplication *)
Lemma land_mask a : 0 <= a -> Z.land a 18446744073709551615 = a mod B.
Proof.
  intros Ha. change 18446744073709551615 with (Z.ones 64). rewrite Z.land_ones by lia. reflexivity.
Qed.
Lemma split_u128_spec a : 0 <= a < B * B -> split_u128 a = (a / B, a mod B).
Proof.
  intros Ha. unfold split_u128. rewrite land_mask by lia. rewrite !wrap_u64.
  change (2 ^ 64) with B. rewrite Z.mod_mod by (pose proof B_pos; lia).
  rewrite (Z.mod_small (a / B)); [reflexivity|]. split; [apply Z.div_pos|apply Z.div_lt_upper_bound]; pose proof B_pos; lia.
Qed.
Lemma mul_words a c : word a -> word c -> 0 <= a * c <= (B - 1) * (B - 1).
Proof. unfold word. intros. split; [nia|apply Z.mul_le_mono_nonneg; lia]. Qed.

Lemma mul_step_spec b (k : nat) i j a bw ret carry :
  i + j = Z.of_nat k -> (k + 1 < length ret)%nat -> Forall word ret -> word a -> word bw ->
  0 <= carry <= 1 ->
  exists ret' carry', mul_step b i j a bw (ret, carry) = Ret (ret', carry') /\
    length ret' = length ret /\ Forall word ret' /\ 0 <= carry' <= 1 /\
    lval ret' + carry' * Bp (k + 2) = lval ret + a * bw * Bp k + carry * Bp (k + 1).
Proof.
  intros Hk Hl Hf Ha Hb Hc. pose proof B_pos as HB. pose proof B_val as HBv.
  pose proof (mul_words a bw Ha Hb) as Hp.
  unfold mul_step. rewrite mul_ok by (apply fits_u128; nia). cbn [bind].
  rewrite split_u128_spec by nia.
  pose proof (Z.div_mod (a * bw) B ltac:(lia)) as Ediv.
  pose proof (Z.mod_pos_bound (a * bw) B HB) as Bmod.
  assert (0 <= a * bw / B <= B - 2) as Bdiv.
  { split; [apply Z.div_pos; lia|]. apply Z.lt_succ_r.
    apply Z.div_lt_upper_bound; [lia|]. nia. }
  remember (a * bw / B) as h eqn:Eh. remember ((a * bw) mod B) as lw eqn:Elw.
  rewrite (idx_ok ret k 0 (i + j)) by (lia || auto). cbn [bind].
  pose proof (ovadd64_spec lw (nth k ret 0) Bmod (nth_word _ _ Hf)) as S1.
  destruct (ovadd64 lw (nth k ret 0)) as [low o]. destruct S1 as [W1 E1].
  rewrite (set_idx_ok ret k low (i + j)) by (lia || auto). cbn [bind].
  rewrite (idx_ok _ (k + 1) 0 (i + j + 1)) by (rewrite ?upd_length; lia). cbn [bind].
  rewrite upd_nth by lia. replace (Nat.eqb (k + 1) k) with false by lia.
  assert (word (h + Z.b2z o)) as Wh by (unfold word; destruct o; simpl; lia).
  rewrite add_ok by (apply fits_u64; exact Wh). cbn [bind].
  pose proof (ovadd64_spec (h + Z.b2z o) carry Wh ltac:(unfold word; lia)) as S2.
  destruct (ovadd64 (h + Z.b2z o) carry) as [hi0 o0]. destruct S2 as [W2 E2].
  pose proof (ovadd64_spec hi0 (nth (k + 1) ret 0) W2 (nth_word _ _ Hf)) as S3.
  destruct (ovadd64 hi0 (nth (k + 1) ret 0)) as [hi1 o1]. destruct S3 as [W3 E3].
  rewrite (set_idx_ok _ (k + 1) hi1 (i + j + 1)) by (rewrite ?upd_length; lia). cbn [bind].
  do 2 eexists. split; [reflexivity|].
  rewrite !upd_length. split; [reflexivity|].
  split; [apply upd_word; [apply upd_word|]; assumption|].
  split; [destruct (o0 || o1); simpl; lia|].
  rewrite upd_lval by (rewrite upd_length; lia). rewrite upd_lval by lia.
  rewrite upd_nth by lia. replace (Nat.eqb (k + 1) k) with false by lia.
  assert (Z.b2z (o0 || o1) = Z.b2z o0 + Z.b2z o1) as Eo.
  { pose proof (nth_word ret (k + 1) Hf) as Wn. unfold word in *.
    destruct o0, o1; simpl Z.b2z in *; try reflexivity. exfalso. destruct o; simpl Z.b2z in *; lia. }
  rewrite Eo.
  replace (Bp (k + 1)) with (B * Bp k) by (rewrite Nat.add_1_r, Bp_S; reflexivity).
  replace (Bp (k + 2)) with (B * (B * Bp k))
    by (replace (k + 2)%nat with (S (S k)) by lia; rewrite !Bp_S; reflexivity).
  set (p := Bp k). set (e0 := nth k ret 0) in *. set (e1 := nth (k + 1) ret 0) in *.
  assert (low = lw + e0 - Z.b2z o * B) as -> by lia.
  assert (hi1 = h + Z.b2z o + carry + e1 - (Z.b2z o0 + Z.b2z o1) * B) as -> by lia.
  rewrite Ediv. ring.
Qed.

Lemma mul_row_spec b (k : nat) i j bw me ret carry :
  i + j = Z.of_nat k -> (k + length me < length ret)%nat -> Forall word ret -> Forall word me ->
  word bw -> 0 <= carry <= 1 ->
  exists ret' carry', mul_row b i j bw me (ret, carry) = Ret (ret', carry') /\
    length ret' = length ret /\ Forall word ret' /\ 0 <= carry' <= 1 /\
    lval ret' + carry' * Bp (k + length me + 1)
      = lval ret + lval me * bw * Bp k + carry * Bp (k + 1).
Proof.
  revert k j ret carry. induction me as [|a me IH]; intros k j ret carry Hk Hl Hr Hm Hb Hc.
  - cbn [mul_row]. do 2 eexists. split; [reflexivity|]. cbn [length lval].
    rewrite Nat.add_0_r. repeat split; try assumption; lia.
  - cbn [length] in Hl. inversion_clear Hm as [|? ? Ha Hm']. cbn [mul_row].
    destruct (mul_step_spec b k i j a bw ret carry Hk ltac:(lia) Hr Ha Hb Hc)
      as (ret1 & c1 & -> & L1 & W1 & C1 & E1). cbn [bind].
    destruct (IH (S k) (j + 1) ret1 c1 ltac:(lia) ltac:(lia) W1 Hm' Hb C1)
      as (ret2 & c2 & -> & L2 & W2 & C2 & E2).
    do 2 eexists. split; [reflexivity|]. split; [lia|]. split; [assumption|]. split; [assumption|].
    cbn [lval length]. replace (k + S (length me) + 1)%nat with (S k + length me + 1)%nat by lia.
    rewrite E2. replace (S k + 1)%nat with (k + 2)%nat by lia.
    replace (lval ret1) with (lval ret + a * bw * Bp k + carry * Bp (k + 1) - c1 * Bp (k + 2)) by lia.
    rewrite (Bp_S k). ring.
Qed.

Lemma mul_rows_spec b (k : nat) i me you ret pre :
  i = Z.of_nat k -> (k + length you + length me <= length ret)%nat ->
  Forall word ret -> Forall word me -> Forall word you -> 
  0 <= pre < Bp k -> lval ret = lval me * pre ->
  exists ret', mul_rows b i me you ret = Ret ret' /\
    length ret' = length ret /\ Forall word ret' /\ lval ret' = lval me * (pre + lval you * Bp k).
Proof.
  revert k i ret pre. induction you as [|bw you IH]; intros k i ret pre -> Hl Hr Hm Hy Hp E.
  - cbn [mul_rows lval]. eexists. split; [reflexivity|]. split; [reflexivity|]. split; [assumption|].
    rewrite E. f_equal. lia.
  - cbn [length] in Hl. inversion_clear Hy as [|? ? Hb Hy']. cbn [mul_rows].
    destruct (mul_row_spec b k (Z.of_nat k) 0 bw me ret 0 ltac:(lia) ltac:(lia) Hr Hm Hb ltac:(lia))
      as (ret1 & c1 & -> & L1 & W1 & C1 & E1). cbn [bind].
    pose proof (lval_bound me Hm) as Bm. pose proof (lval_bound ret1 W1) as Br.
    pose proof (Bp_pos k) as Pk. pose proof (Bp_pos (length me)) as Pm. pose proof B_pos as HB.
    assert (0 <= pre + bw * Bp k < Bp (S k)) as Hp'.
    { rewrite Bp_S. unfold word in Hb. nia. }
    assert (lval ret1 + c1 * Bp (k + length me + 1) = lval me * (pre + bw * Bp k)) as E1'.
    { rewrite E1, E. ring. }
    assert (c1 = 0) as ->.
    { assert (lval me * (pre + bw * Bp k) < Bp (k + length me + 1)) as Hlt.
      { replace (k + length me + 1)%nat with (length me + S k)%nat by lia. rewrite Bp_add.
        apply Z.mul_lt_mono_nonneg; lia. }
      pose proof (Bp_pos (k + length me + 1)). nia. }
    destruct (IH (S k) (Z.of_nat k + 1) ret1 (pre + bw * Bp k) ltac:(lia) ltac:(lia) W1 Hm Hy' Hp' ltac:(lia))
      as (ret2 & -> & L2 & W2 & E2).
    eexists. split; [reflexivity|]. split; [lia|]. split; [assumption|].
    rewrite E2. cbn [lval]. rewrite Bp_S. ring.
Qed.

Lemma full_mul_spec b x y : wf 4 x -> wf 4 y ->
  exists r, full_mul b x y = Ret r /\ wf 8 r /\ lval r = lval x * lval y.
Proof.
  intros [Lx Fx] [Ly Fy]. unfold full_mul.
  destruct (mul_rows_spec b 0 0 x y (repeat 0 8) 0 eq_refl) as (r & E & Lr & Wr & V); try assumption.
  - rewrite Lx, Ly. simpl. lia.
  - apply Forall_forall. intros w Hw. apply repeat_spec in Hw. subst. unfold word. rewrite B_val. lia.
  - rewrite Bp_0. lia.
  - simpl. lia.
  - exists r. split; [exact E|]. split; [split; assumption|]. rewrite V, Bp_0. ring.
Qed.

Lemma any_nonzero_spec l : Forall word l -> any_nonzero l = negb (lval l =? 0).
Proof.
  unfold any_nonzero. induction 1 as [|w l Hw Hl IH]; [reflexivity|].
  cbn [existsb lval]. rewrite IH. unfold word in Hw. pose proof B_pos. pose proof (lval_bound l Hl).
  destruct (Z.eqb_spec w 0), (Z.eqb_spec (lval l) 0), (Z.eqb_spec (w + B * lval l) 0); simpl; try reflexivity; exfalso; nia.
Qed.

Lemma overflowing_mul_spec b x y : wf 4 x -> wf 4 y ->
  exists r, overflowing_mul b x y = Ret (r, negb (lval x * lval y / Bp 4 =? 0)) /\
    wf 4 r /\ lval r = (lval x * lval y) mod Bp 4.
Proof.
  intros Hx Hy. destruct (full_mul_spec b x y Hx Hy) as (r & E & [Lr Fr] & V).
  unfold overflowing_mul. rewrite E. cbn [bind].
  rewrite <- (firstn_skipn 4 r) in Fr. apply Forall_app in Fr as [F1 F2].
  assert (length (firstn 4 r) = 4%nat) as L1 by (rewrite firstn_length; lia).
  pose proof (lval_bound _ F1) as B1. rewrite L1 in B1.
  assert (lval x * lval y = lval (firstn 4 r) + Bp 4 * lval (skipn 4 r)) as V'.
  { rewrite <- V. rewrite <- (firstn_skipn 4 r) at 1. rewrite lval_app, L1. reflexivity. }
  exists (firstn 4 r). rewrite (any_nonzero_spec _ F2).
  assert (lval x * lval y / Bp 4 = lval (skipn 4 r)) as ->.
  { symmetry. apply (Z.div_unique_pos _ _ _ (lval (firstn 4 r))); lia. }
  split; [reflexivity|]. split; [split; assumption|].
  apply (Z.mod_unique_pos _ _ (lval (skipn 4 r))); lia.
Qed.

Lemma u256_mul_spec b x y : wf 4 x -> wf 4 y -> lval x * lval y < Bp 4 ->
  exists r, u256_mul b x y = Ret r /\ wf 4 r /\ lval r = lval x * lval y.
Proof.
  intros Hx Hy Hlt. destruct (overflowing_mul_spec b x y Hx Hy) as (r & E & W & V).
  pose proof (wf_bound _ _ Hx). pose proof (wf_bound _ _ Hy).
  unfold u256_mul. rewrite E. cbn [bind]. rewrite Z.div_small by nia. simpl negb. cbn iota.
  exists r. split; [reflexivity|]. split; [assumption|]. rewrite V. apply Z.mod_small. nia.
Qed.
