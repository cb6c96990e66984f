(** * ScheduleFacts: instalments add up exactly and are equal but for the last digit. *)
From Coq Require Import Lia.
From Verif Require Import Base Promo Ops Spec BaseFacts RoundFacts ArithProofs SimpleProofs MulDiv OrderFacts DecProofs LawFacts.
From Verif Require Import SpecUndo Undo.
From Verif Require Import AverageFacts Schedule.
From Verif Require Import Fixed.
Open Scope Z_scope.

(** Rounded totals between zero and [x]; two in a row. *)
Lemma total_between m x n i c : 0 < n -> 0 <= i <= n -> zrounds m (x * i) n c -> Z.min 0 x <= c <= Z.max 0 x.
Proof.
  intros Hn Hi H. destruct (Z.le_gt_cases 0 x) as [Hx|Hx].
  - assert (0 <= x * i <= x * n) by nia. generalize dependent (x * i). intros t H Ht. destruct m; cbn [zrounds] in H; nia.
  - assert (x * n <= x * i <= 0) by nia. generalize dependent (x * i). intros t H Ht. destruct m; cbn [zrounds] in H; nia.
Qed.
Lemma share_close m x n t c c' : 0 < n -> (0 <= x -> 0 <= t) -> (x <= 0 -> t <= 0) ->
  zrounds m t n c -> zrounds m (t + x) n c' -> Z.abs (n * (c' - c) - x) < n.
Proof.
  intros Hn H1 H2 A B. destruct m; cbn [zrounds] in A, B; [lia| |lia].
  destruct A as [A A'], B as [B B']. destruct (Z.le_gt_cases 0 x) as [Hx|Hx].
  - specialize (H1 Hx). clear H2.
    assert (0 <= c) by nia. assert (0 <= c') by nia.
    assert (2 * (t - c * n) <> n) by (intros K; specialize (A' ltac:(lia)); nia).
    assert (2 * (t + x - c' * n) <> n) by (intros K; specialize (B' ltac:(lia)); nia). lia.
  - specialize (H2 ltac:(lia)). clear H1.
    assert (c <= 0) by nia. assert (c' <= 0) by nia.
    assert (2 * (c * n - t) <> n) by (intros K; specialize (A' ltac:(lia)); nia).
    assert (2 * (c' * n - (t + x)) <> n) by (intros K; specialize (B' ltac:(lia)); nia). lia.
Qed.

Section schedule.
Context (b : build) (L : layout) (m : mode) (x n : Z).
Context (Rx : in_range L x) (Rn : in_range L n) (Hn : 0 < n) (Hr : roomy m L n) (Rxn : in_range L (x * n)).

Lemma instalments_spec k : forall i prev, 1 <= i -> i + Z.of_nat k = n + 1 -> zrounds m (x * (i - 1)) n prev ->
  exists l, instalments b L m x n k i prev = Ret (Ok l) /\ length l = k /\
    (k = O -> l = []) /\ (exists last, zrounds m (x * n) n last /\ (k <> O -> total l = last - prev) /\ (k = O -> prev = last)) /\
    Forall (fun s => Z.abs (n * s - x) < n) l.
Proof.
  pose proof (hi_pos L) as HH. pose proof (lo_hi L) as LL.
  induction k as [|k IH]; intros i prev Hi Hk Hp; cbn [instalments].
  - exists []. split; [reflexivity|]. split; [reflexivity|]. split; [reflexivity|]. split; [|constructor].
    exists prev. split; [|split; [congruence|reflexivity]]. now replace n with (i - 1) at 1 by lia.
  - assert (1 <= i <= n) as Bi by lia.
    assert (in_range L i) as Ri by (unfold in_range in *; lia).
    assert (in_range L (x * i)) as Rt by (unfold in_range in *; nia).
    set (c := rnd m (x * i) n). pose proof (rnd_zrounds m (x * i) n Hn) as Zc. fold c in Zc.
    pose proof (total_between m x n i c Hn ltac:(lia) Zc) as Bc.
    pose proof (total_between m x n (i - 1) prev Hn ltac:(lia) Hp) as Bp.
    assert (in_range L c) as Rc by (unfold in_range in *; lia).
    assert (in_range L (c - prev)) as Rs.
    { destruct (Z.le_gt_cases 0 x) as [Hx|Hx].
      - pose proof (zrounds_mono m (x * (i - 1)) (x * i) n prev c Hn ltac:(nia) Hp Zc). unfold in_range in *. lia.
      - pose proof (zrounds_mono m (x * i) (x * (i - 1)) n c prev Hn ltac:(nia) Zc Hp). unfold in_range in *. lia. }
    rewrite cmul_eq, chkr_ok by exact Rt. cbn [try_ bind].
    rewrite rdiv_int_is by assumption. fold c. rewrite chkr_ok by exact Rc. cbn [try_ bind].
    rewrite csub_eq, chkr_ok by exact Rs. cbn [try_ bind].
    destruct (IH (i + 1) c) as (l & E & Ll & _ & (la & Zl & Ht & H0) & F); [lia|lia|now replace (i + 1 - 1) with i by ring|].
    exists (c - prev :: l). rewrite E. cbn [try_ bind]. split; [reflexivity|]. split; [cbn; lia|]. split; [discriminate|].
    split.
    + exists la. split; [exact Zl|]. split; [|discriminate]. intros _. cbn [total]. destruct k as [|k].
      * destruct l; [|discriminate Ll]. cbn [total]. rewrite (H0 eq_refl). lia.
      * rewrite Ht by discriminate. lia.
    + constructor; [|exact F]. apply (share_close m x n (x * (i - 1)) prev c Hn); [nia|nia|exact Hp|].
      now replace (x * (i - 1) + x) with (x * i) by ring.
Qed.
Lemma schedule_spec : exists l, schedule b L m x n = Ret (Ok l) /\ Z.of_nat (length l) = n /\ total l = x /\
  Forall (fun s => Z.abs (n * s - x) < n) l.
Proof.
  destruct (instalments_spec (Z.to_nat n) 1 0) as (l & E & Ll & _ & (la & Zl & Ht & _) & F); [lia|lia| |].
  - replace (x * (1 - 1)) with 0 by ring. destruct m; cbn [zrounds]; lia.
  - exists l. split; [exact E|]. split; [lia|]. split; [|exact F]. rewrite Ht by lia.
    assert (la = x); [|lia]. apply (zrounds_unique m (x * n) n _ _ Hn Zl). destruct m; cbn [zrounds]; lia.
Qed.
End schedule.
