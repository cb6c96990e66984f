(** * AdjointFacts: rounded operations that answer each other, and nested directed rounding. *)
From Coq Require Import Lia QArith Lqa.
From Verif Require Import Base Promo Ops Spec BaseFacts RoundFacts ArithProofs PrimPromo SimpleProofs MulDiv Sqrt256 OrderFacts DecProofs LawFacts CallFacts.
From Verif Require Import SpecRound SpecUndo Undo.
From Verif Require Import AverageFacts.
From Verif Require Import Fixed.
Open Scope Z_scope.

Lemma floor_below n d q z : 0 < d -> zrounds Floor n d q -> (z <= q <-> z * d <= n).
Proof. cbn [zrounds]. intros Hd H. split; intros K; nia. Qed.
Lemma ceil_above n d q z : 0 < d -> zrounds Ceil n d q -> (q <= z <-> n <= z * d).
Proof. cbn [zrounds]. intros Hd H. split; intros K; nia. Qed.
(** Directed rounding collapses. *)
Lemma nested_z m n d e q r : m <> Nearest -> 0 < d -> 0 < e -> zrounds m n d q -> zrounds m q e r -> zrounds m n (d * e) r.
Proof. intros Hm Hd He H K. destruct m; cbn [zrounds] in *; [|congruence|]; nia. Qed.

Section adjoint.
Context (b b' : build) (L : layout) (P : Z) (Hv : valid b L P) (Hv' : valid b' L P).

Lemma directed_tame m : m <> Nearest -> tame m L P.
Proof. intros H K. congruence. Qed.
Lemma directed_roomy m y : m <> Nearest -> roomy m L y.
Proof. intros H K. congruence. Qed.
Lemma pow_pos : 0 < 10 ^ P.
Proof using Hv. apply pow10_pos, Hv. Qed.

(** ** Cost and quantity *)
Lemma afford x y z p q : in_range L x -> in_range L y -> in_range L z -> 0 < y ->
  rmul b L P z y Ceil = Ret (Ok p) -> rdiv b' L P x y Floor = Ret (Ok q) -> (p <= x <-> z <= q).
Proof.
  intros Rx Ry Rz Hy E F. pose proof pow_pos as Hc.
  apply rmul_tame in E as [_ E]; try assumption; [|apply directed_tame; discriminate].
  apply rdiv_has in F as (_ & F & _); try assumption; [|lia|apply directed_roomy; discriminate]. specialize (F Hy).
  rewrite (ceil_above _ _ _ x Hc E), (floor_below _ _ _ z Hy F). reflexivity.
Qed.
Lemma cover x y z p q : in_range L x -> in_range L y -> in_range L z -> 0 < y ->
  rmul b L P z y Floor = Ret (Ok p) -> rdiv b' L P x y Ceil = Ret (Ok q) -> (x <= p <-> q <= z).
Proof.
  intros Rx Ry Rz Hy E F. pose proof pow_pos as Hc.
  apply rmul_tame in E as [_ E]; try assumption; [|apply directed_tame; discriminate].
  apply rdiv_has in F as (_ & F & _); try assumption; [|lia|apply directed_roomy; discriminate]. specialize (F Hy).
  rewrite (floor_below _ _ _ x Hc E), (ceil_above _ _ _ z Hy F). reflexivity.
Qed.
Lemma afford_over x y z q : in_range L x -> in_range L y -> in_range L z -> 0 < y -> 0 < z ->
  rmul b L P z y Ceil = Ret (Err Overflow) -> rdiv b' L P x y Floor = Ret (Ok q) -> q < z.
Proof.
  intros Rx Ry Rz Hy Hz E F. pose proof pow_pos as Hc. pose proof (hi_pos L). pose proof (lo_hi L).
  apply rdiv_has in F as (_ & F & _); try assumption; [|lia|apply directed_roomy; discriminate]. specialize (F Hy).
  rewrite rmul_dir_val in E by (assumption || discriminate).
  destruct (in_range_dec L (rnd Ceil (z * y) (10 ^ P))) as [R|R]; [rewrite chkr_ok in E by exact R; discriminate E|].
  pose proof (rnd_zrounds Ceil (z * y) (10 ^ P) Hc) as Z1. set (p := rnd Ceil (z * y) (10 ^ P)) in *. clearbody p.
  apply Z.nle_gt. intros K. apply (floor_below _ _ _ z Hy F) in K. apply (ceil_above _ _ _ x Hc Z1) in K.
  assert (0 <= p) by (cbn [zrounds] in Z1; nia). unfold in_range in *. lia.
Qed.
Lemma afford_any x y z p : in_range L x -> in_range L y -> in_range L z -> 0 < y -> 0 < x ->
  rmul b L P z y Ceil = Ret (Ok p) -> rdiv b' L P x y Floor = Ret (Err Overflow) -> p <= x.
Proof.
  intros Rx Ry Rz Hy Hx E F. pose proof pow_pos as Hc. pose proof (hi_pos L). pose proof (lo_hi L).
  apply rmul_tame in E as [_ E]; try assumption; [|apply directed_tame; discriminate].
  rewrite rdiv_dir_val in F by (assumption || discriminate || lia).
  destruct (in_range_dec L (rnd Floor (x * 10 ^ P) y)) as [R|R]; [rewrite chkr_ok in F by exact R; discriminate F|].
  pose proof (rnd_zrounds Floor (x * 10 ^ P) y Hy) as Z1. set (q := rnd Floor (x * 10 ^ P) y) in *. clearbody q.
  apply (ceil_above _ _ _ x Hc E). apply (floor_below _ _ _ z Hy Z1).
  assert (0 <= q) by (cbn [zrounds] in Z1; nia). unfold in_range in *. lia.
Qed.

(** ** Roots and squares *)
Lemma sqrt_below n s z : zsqrt_rounds Floor n s -> 0 <= z -> (z <= s <-> z * z <= n).
Proof. intros [H0 H] Hz. cbn in H. split; intros K; nia. Qed.
Lemma sqrt_above n s z : zsqrt_rounds Ceil n s -> 0 <= z -> (s <= z <-> n <= z * z).
Proof. intros [H0 [H1 H2]] Hz. split; intros K; [nia|]. destruct (Z.eq_dec s 0); [lia|]. specialize (H2 ltac:(lia)). nia. Qed.
Lemma rsqrt_has x m r : in_range L x -> rsqrt b' L P x m = Ret (Ok r) -> 0 <= x /\ zsqrt_rounds m (x * 10 ^ P) r.
Proof.
  intros Rx E. destruct (Z.lt_ge_cases x 0) as [N|N].
  - apply (proj2 (rsqrt_domain b' L P x m Hv' Rx)) in N. congruence.
  - split; [exact N|]. rewrite rsqrt_val in E by assumption. injection E as <-. apply srt_zrounds. pose proof pow_pos. nia.
Qed.
Lemma root_below x z p r : in_range L x -> in_range L z -> 0 <= z ->
  rmul b L P z z Ceil = Ret (Ok p) -> rsqrt b' L P x Floor = Ret (Ok r) -> (p <= x <-> z <= r).
Proof.
  intros Rx Rz Hz E F. pose proof pow_pos as Hc.
  apply rmul_tame in E as [_ E]; try assumption; [|apply directed_tame; discriminate].
  apply rsqrt_has in F as [H0 F]; try assumption.
  rewrite (ceil_above _ _ _ x Hc E), (sqrt_below _ _ z F Hz). reflexivity.
Qed.
Lemma root_above x z p r : in_range L x -> in_range L z -> 0 <= z ->
  rmul b L P z z Floor = Ret (Ok p) -> rsqrt b' L P x Ceil = Ret (Ok r) -> (x <= p <-> r <= z).
Proof.
  intros Rx Rz Hz E F. pose proof pow_pos as Hc.
  apply rmul_tame in E as [_ E]; try assumption; [|apply directed_tame; discriminate].
  apply rsqrt_has in F as [H0 F]; try assumption.
  rewrite (floor_below _ _ _ x Hc E), (sqrt_above _ _ z F Hz). reflexivity.
Qed.

(** ** Whole numbers *)
Lemma from_int_has n v : try_from_int b L P n = Ret (Ok v) -> v = n * 10 ^ P.
Proof.
  rewrite try_from_int_val by assumption. unfold chk. destruct (fitsb (lty L) (n * 10 ^ P)); cbn; intros E; [congruence|discriminate E].
Qed.
Lemma integral_has x m i : in_range L x -> x <> lo L -> m <> Nearest -> integral b' L P x m = Ret i -> zrounds m x (10 ^ P) i.
Proof.
  intros Rx Hl Hm E. destruct (integral_val b' L P x m Hv' Rx Hl) as [E' _]; [intros K; congruence|].
  rewrite E in E'. injection E' as ->. apply rnd_zrounds, pow_pos.
Qed.
Lemma whole_below x n v i : in_range L x -> x <> lo L -> try_from_int b L P n = Ret (Ok v) -> integral b' L P x Floor = Ret i ->
  (v <= x <-> n <= i).
Proof.
  intros Rx Hl E F. apply from_int_has in E as ->. apply integral_has in F; try assumption; [|discriminate].
  symmetry. apply floor_below; [apply pow_pos|exact F].
Qed.
Lemma whole_above x n v i : in_range L x -> x <> lo L -> try_from_int b L P n = Ret (Ok v) -> integral b' L P x Ceil = Ret i ->
  (x <= v <-> i <= n).
Proof.
  intros Rx Hl E F. apply from_int_has in E as ->. apply integral_has in F; try assumption; [|discriminate].
  symmetry. apply ceil_above; [apply pow_pos|exact F].
Qed.

(** ** Nested directed rounding *)
Lemma nested_div x y n q m : in_range L x -> in_range L y -> in_range L n -> in_range L (y * n) -> 0 < y -> 0 < n -> m <> Nearest ->
  rdiv b L P x y m = Ret (Ok q) -> rdiv_int b' L q n m = rdiv b' L P x (y * n) m.
Proof.
  intros Rx Ry Rn Ryn Hy Hn Hm E. apply rdiv_has in E as (Rq & E & _); try assumption; [|lia|now apply directed_roomy]. specialize (E Hy).
  rewrite rdiv_int_is by (assumption || lia || now apply directed_roomy). rewrite rdiv_dir_val by (assumption || nia).
  do 2 apply f_equal. symmetry. apply rnd_eq; [nia|]. apply (nested_z m _ y n q); try assumption. now apply rnd_zrounds.
Qed.
Lemma nested_int x k n q m : in_range L x -> in_range L k -> in_range L n -> in_range L (k * n) -> 0 < k -> 0 < n -> m <> Nearest ->
  rdiv_int b L x k m = Ret (Ok q) -> rdiv_int b' L q n m = rdiv_int b' L x (k * n) m.
Proof.
  intros Rx Rk Rn Rkn Hk Hn Hm E. rewrite rdiv_int_is in E by (assumption || lia || now apply directed_roomy).
  assert (chkr L (rnd m x k) = Ok q) as K by congruence. apply chkr_inv in K as [-> K].
  rewrite !rdiv_int_is by (assumption || nia || now apply directed_roomy).
  do 2 apply f_equal. symmetry. apply rnd_eq; [nia|]. apply (nested_z m _ k n (rnd m x k)); try assumption; apply rnd_zrounds; assumption.
Qed.
Lemma nested_whole x y q i m : in_range L x -> in_range L y -> 0 < y -> m <> Nearest ->
  rdiv b L P x y m = Ret (Ok q) -> q <> lo L -> integral b' L P q m = Ret i -> rounds m (dec P x / dec P y) i.
Proof.
  intros Rx Ry Hy Hm E Hl F. apply rdiv_has in E as (Rq & E & _); try assumption; [|lia|now apply directed_roomy]. specialize (E Hy).
  apply integral_has in F; try assumption. pose proof pow_pos as Hc. pose proof (nested_z m _ y (10 ^ P) q i Hm Hy Hc E F) as Z1.
  apply (rounds_compat _ (Zq x / Zq y)).
  - rewrite !dec_alt by apply Hv. field. split; apply Zq_nonzero; lia.
  - apply rounds_zrounds; [exact Hy|]. clear - Z1 Hc Hy Hm. destruct m; cbn [zrounds] in *; [|congruence|]; nia.
Qed.
Lemma nested_root x r i : in_range L x -> rsqrt b' L P x Floor = Ret (Ok r) -> integral b' L P r Floor = Ret i ->
  0 <= i /\ (Zq (i * i) <= dec P x)%Q /\ (dec P x < Zq ((i + 1) * (i + 1)))%Q.
Proof.
  intros Rx E F. pose proof pow_pos as Hc. destruct (rsqrt_has x Floor r Rx E) as [H0 Z1].
  assert (in_range L r) as Rr. { destruct (rsqrt_spec b' L P x Floor Hv' Rx H0) as (r' & E' & R & _). congruence. }
  pose proof (hi_pos L). pose proof (lo_hi L). destruct Z1 as [R0 Z1]. cbn in Z1.
  apply integral_has in F; try assumption; [|lia|discriminate]. cbn [zrounds] in F.
  assert (0 <= P) as HP by apply Hv.
  assert (0 <= i) as I0 by nia. split; [exact I0|].
  rewrite (dec_ge P x (i * i) HP), (dec_lt P x ((i + 1) * (i + 1)) HP).
  assert (i * 10 ^ P * (i * 10 ^ P) <= x * 10 ^ P) as A by nia.
  assert (x * 10 ^ P < (i + 1) * 10 ^ P * ((i + 1) * 10 ^ P)) as B.
  { apply (Z.lt_le_trans _ _ _ (proj2 Z1)). apply Z.mul_le_mono_nonneg; lia. }
  split; nia.
Qed.
End adjoint.
