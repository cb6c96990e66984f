(** * CodecFacts: serde and SCALE codecs. *)
From Coq Require Import SpecFloat.
From Verif Require Import Base Promo ConstFn Ops Str Float Codec Spec SpecText BaseFacts SimpleProofs StrFacts ShowFacts.
From Verif Require Import Fixed.
Open Scope Z_scope.

(** ** serde, human readable *)
Lemma ser_trip b b' L P x bw bw' qx : valid b L P -> valid b' L P -> in_range L x -> printable b L P x -> 0 < P ->
  exists s, serialize b L P x true bw = Ret (TStr bw s) /\ canonical s (dec P x) /\
    deserialize b' L P qx true (TStr bw' s) = Ret (Ok x).
Proof.
  intros Hv Hv' Hx Hp HP. destruct (to_string_ok b L P x Hv Hx Hp) as (s & Hs & Hc & _).
  exists s. unfold serialize, str_serialize. unfold to_string in Hs. rewrite Hs. cbn [bind].
  repeat split; auto. cbn [deserialize visit].
  exact (proj2 (canonical_parses b' L P x s Hv' HP Hx Hc)).
Qed.
Lemma ser_refuted : exists x s, valid dev L16 0 /\ in_range L16 x /\ serialize dev L16 0 x true true = Ret (TStr true s) /\
  deserialize dev L16 0 false true (TStr true s) = Ret (Err ConvertError).
Proof. exists 7, [55; 46; 48]. example. Qed.
Lemma de_str b L P qx bw s x : valid b L P ->
  (deserialize b L P qx true (TStr bw s) = Ret (Ok x) <->
   exists neg i f, spells s neg i f /\ (P = 0 -> f = None) /\ in_range L x /\ rounds_to Nearest P (spelled neg i f) x).
Proof. intros Hv. exact (from_str_ok b L P s x Hv). Qed.
Lemma de_int_tok b L P qx t z : valid b L P -> exact_or L P (Zq z) ConvertError (deserialize b L P qx true (TInt t z)).
Proof. intros Hv. exact (try_from_int_spec b L P z Hv). Qed.
(** A single character can only be a digit. *)
Lemma spells_char c neg i f : spells [c] neg i f -> digit c /\ neg = false /\ i = [c] /\ f = None.
Proof.
  intros (pre & sg & post & _ & _ & Hi & Hs & H).
  destruct i as [|d i]; [destruct Hi; congruence|]. destruct Hi as [_ Hi]. inversion Hi; subst.
  assert (Hl : forall (x : Z) (l : list Z) y, [x] = l ++ y -> l = [] /\ y = [x] \/ l = [x] /\ y = []).
  { intros x l y E. destruct l as [|a [|b l]]; cbn in E; [left|right|]; inversion E; auto. }
  destruct f as [f|].
  - destruct H as [Hf H]. exfalso. apply (f_equal (@length Z)) in H. rewrite ?app_length in H. cbn [length] in H.
    rewrite ?app_length in H. cbn [length] in H. destruct Hf as [Hf _]. destruct f; [congruence|cbn [length] in H; lia].
  - apply (f_equal (@length Z)) in H as HL. rewrite ?app_length in HL. cbn [length] in HL.
    destruct pre; [|cbn [length] in HL; lia]. destruct sg; [|cbn [length] in HL; lia].
    destruct i; [|cbn [length] in HL; lia]. destruct post; [|cbn [length] in HL; lia].
    cbn in H. inversion H; subst. destruct neg; [discriminate|]. auto.
Qed.
Lemma digit_spells c : digit c -> spells [c] false [c] None.
Proof.
  intros Hc. exists [], [], []. repeat split; auto; try discriminate.
Qed.
Lemma represents_int L P v x : 0 <= P -> (represents L P (Zq v) x <-> in_range L x /\ x = v * 10 ^ P).
Proof.
  intros HP. unfold represents. rewrite <- (dec_pow10 P v HP). split; intros [Hx E]; split; auto.
  - now apply dec_eq in E.
  - subst x. reflexivity.
Qed.
Lemma de_char b L P qx c x : valid b L P ->
  (deserialize b L P qx true (TChar c) = Ret (Ok x) <-> digit c /\ represents L P (Zq (c - 48)) x).
Proof.
  intros Hv. pose proof (proj1 (proj2 Hv)) as HP. cbn [deserialize visit]. rewrite (represents_int L P (c - 48) x HP).
  assert (Hd : digit c -> from_str b L P [c] = parsed L ((c - 48) * 10 ^ P)).
  { intros Hc. unfold from_str. rewrite (parse_spelled b L P false [c] _ _ _ Hv (digit_spells c Hc)). cbn [sgz numval length].
    change (10 ^ Z.of_nat 0) with 1. now rewrite Z.mul_1_r, Z.add_0_r. }
  split.
  - intros H. destruct (parse_cases b L P false [c] Hv) as [(neg & i & f & Hs)|E].
    + destruct (spells_char c neg i f Hs) as (Hc & _). split; [exact Hc|]. rewrite (Hd Hc) in H.
      apply parsed_ok in H as [Hr <-]. auto.
    + unfold from_str in H. rewrite E in H. discriminate.
  - intros [Hc [Hx ->]]. rewrite (Hd Hc). apply parsed_ok. auto.
Qed.
Lemma str_eqb_eq x y : str_eqb x y = true <-> x = y.
Proof.
  revert y. induction x as [|a x IH]; intros [|c y]; cbn [str_eqb]; split; intros H; try discriminate; auto.
  - apply andb_true_iff in H as [H1 H2]. apply Z.eqb_eq in H1. apply IH in H2. congruence.
  - injection H as -> ->. rewrite Z.eqb_refl. now apply IH.
Qed.
(** "$value". *)
Lemma de_map b L P key v : valid b L P -> forall x,
  (deserialize b L P true true (TMap key v) = Ret (Ok x) <->
   (exists bk, key = Some (TStr bk [36; 118; 97; 108; 117; 101])) /\
   ((exists bv s, v = TStr bv s) \/ (exists c, v = TChar c)) /\
   deserialize b L P true true v = Ret (Ok x)).
Proof.
  intros Hv x. cbn [deserialize]. destruct key as [[bk k| | | | | | |]|];
    try (split; [discriminate|intros [[bk' K] _]; discriminate]).
  destruct v as [bv s| | |c| | | |];
    try (split; [discriminate|intros [_ [[(bv' & s' & K)|(c' & K)] _]]; discriminate]).
  - cbn [visit andb]. destruct (str_eqb k dollar_value) eqn:E.
    + apply str_eqb_eq in E as ->. split; [intros H; eauto 10|intros (_ & _ & H); exact H].
    + split; [discriminate|]. intros [[bk' K] _]. injection K as -> ->. discriminate E.
  - cbn [visit andb]. destruct (str_eqb k dollar_value) eqn:E.
    + apply str_eqb_eq in E as ->. split; [intros H; eauto 10|intros (_ & _ & H); exact H].
    + split; [discriminate|]. intros [[bk' K] _]. injection K as -> ->. discriminate E.
Qed.
Lemma de_other b L P qx tok :
  (forall bw s, tok <> TStr bw s) -> (forall t z, tok <> TInt t z) -> (forall raw, tok <> TF64 raw) ->
  (forall c, tok <> TChar c) -> (qx = false \/ forall k v, tok <> TMap k v) ->
  deserialize b L P qx true tok = Ret (Err ConvertError).
Proof.
  intros Hs Hi Hf Hc Hm. cbn [deserialize]. destruct tok as [bw s|t z|raw|c| |tok|key v|].
  - destruct (Hs bw s eq_refl). - destruct (Hi t z eq_refl). - destruct (Hf raw eq_refl). - destruct (Hc c eq_refl).
  - reflexivity. - reflexivity.
  - destruct Hm as [->|Hm]; [|destruct (Hm key v eq_refl)].
    destruct key as [[bk k| | | | | | |]|]; try reflexivity; destruct v; reflexivity.
  - reflexivity.
Qed.

(** ** serde, binary *)
Lemma repr_trip L x : in_range L x -> repr_deserialize L (repr_serialize L x) = Ok x.
Proof.
  intros Hx. unfold repr_deserialize, repr_serialize, de_int, into_bits. now rewrite (fitsb_true _ _ (proj2 (fits_lty L x) Hx)).
Qed.
Lemma binary_trip b b' L P x bw qx : in_range L x ->
  exists t, fits t x /\ serialize b L P x false bw = Ret (TInt t x) /\
    deserialize b' L P qx false (TInt t x) = Ret (Ok x).
Proof.
  intros Hx. exists (lty L). split; [now apply fits_lty|]. split; [reflexivity|].
  cbn [deserialize]. f_equal. exact (repr_trip L x Hx).
Qed.
(** Any integer call in range is accepted, whatever its type; everything else is rejected. *)
Lemma binary_de b L P qx tok : deserialize b L P qx false tok = Ret (repr_deserialize L tok) /\
  forall x, repr_deserialize L tok = Ok x <-> in_range L x /\ exists t, tok = TInt t x.
Proof.
  split; [reflexivity|]. intros x. unfold repr_deserialize, de_int. destruct tok as [| t z| | | | | |];
    try (split; [discriminate|intros [_ [t' K]]; discriminate]).
  destruct (fits_dec (lty L) z) as [F|F].
  - rewrite (fitsb_true _ _ F). cbn [rmap]. unfold from_bits. split.
    + intros H. injection H as ->. split; [now apply fits_lty|eauto].
    + intros [_ [t' K]]. now injection K as -> ->.
  - rewrite (fitsb_false _ _ F). split; [discriminate|]. intros [Hx [t' K]]. injection K as -> ->. destruct F. now apply fits_lty.
Qed.
Lemma repr_mod_trip L x : in_range L x -> exists t, fits t x /\ repr_serialize L x = TInt t x /\ repr_deserialize L (TInt t x) = Ok x.
Proof. intros Hx. exists (lty L). split; [now apply fits_lty|]. split; [reflexivity|exact (repr_trip L x Hx)]. Qed.

(** ** serde, option, string and float modules *)
Lemma repr_opt L x : (forall r, x = Some r -> in_range L r) ->
  repr_option_serialize L x = match x with None => TNone | Some r => TSome (repr_serialize L r) end /\
  repr_option_deserialize L (repr_option_serialize L x) = Ok x.
Proof.
  intros Hx. destruct x as [x|]; [|auto]. split; [reflexivity|]. specialize (Hx x eq_refl).
  unfold repr_option_deserialize, repr_option_serialize. cbn [option_map de_option].
  unfold de_int, into_bits. rewrite (fitsb_true _ _ (proj2 (fits_lty L x) Hx)). reflexivity.
Qed.
Lemma str_trip b b' L P x bw : valid b L P -> valid b' L P -> in_range L x -> printable b L P x -> 0 < P ->
  exists s, str_serialize b L P x bw = Ret (TStr bw s) /\ canonical s (dec P x) /\
    str_deserialize b' L P (TStr true s) = Ret (Ok x) /\
    str_deserialize b' L P (TStr false s) = Ret (Err ConvertError).
Proof.
  intros Hv Hv' Hx Hp HP. destruct (ser_trip b b' L P x bw true false Hv Hv' Hx Hp HP) as (s & Hs & Hc & Hd).
  exists s. repeat split; auto.
Qed.
Lemma str_opt_trip b b' L P x : valid b L P -> valid b' L P -> (forall r, x = Some r -> in_range L r /\ printable b L P r) -> 0 < P ->
  exists tok, str_option_serialize b L P x true = Ret tok /\
    match x with None => tok = TNone | Some r => exists s, tok = TSome (TStr true s) /\ canonical s (dec P r) end /\
    str_option_deserialize b' L P tok = Ret (Ok x).
Proof.
  intros Hv Hv' Hx HP. destruct x as [x|]; [|exists TNone; auto]. destruct (Hx x eq_refl) as [Hr Hp].
  destruct (to_string_ok b L P x Hv Hr Hp) as (s & Hs & Hc & _). exists (TSome (TStr true s)).
  unfold str_option_serialize, str_option_deserialize. unfold to_string in Hs. rewrite Hs. cbn [bind].
  split; [reflexivity|]. split; [eauto|]. cbn [de_option de_borrowed_str rmap].
  rewrite (proj2 (canonical_parses b' L P x s Hv' HP Hr Hc)). reflexivity.
Qed.
Lemma str_owned : exists x s, valid dev L16 4 /\ in_range L16 x /\ str_serialize dev L16 4 x false = Ret (TStr false s) /\
  str_deserialize dev L16 4 (TStr false s) = Ret (Err ConvertError).
Proof. exists 15000, [49; 46; 53]. example. Qed.
Lemma float_mod b L P x f : to_f64 b L P x = Ret f ->
  float_serialize b L P x = Ret (TF64 (f64_to_bits f)) /\
  float_option_serialize b L P (Some x) = Ret (TSome (TF64 (f64_to_bits f))).
Proof. intros H. unfold float_serialize, float_option_serialize. rewrite H. auto. Qed.
Lemma float_opt_none b L P : float_option_serialize b L P None = Ret TNone /\ float_option_deserialize b L P TNone = Ret (Ok None).
Proof. auto. Qed.
Lemma float_mod_de b L P raw r : try_from_f64 b L P raw = Ret r ->
  float_deserialize b L P (TF64 raw) = Ret r /\
  float_option_deserialize b L P (TSome (TF64 raw)) = Ret (rmap Some r).
Proof. intros H. unfold float_deserialize, float_option_deserialize. cbn [de_f64 de_option rmap]. rewrite H. auto. Qed.

(** ** SCALE *)
Lemma le_value_leval l : le_value l = leval l.
Proof. induction l; cbn [le_value leval]; congruence. Qed.
Lemma le_bytes_spec n : forall v, 0 <= v -> length (le_bytes n v) = n /\ Forall byte (le_bytes n v) /\
  leval (le_bytes n v) = v mod 256 ^ Z.of_nat n.
Proof.
  induction n as [|n IH]; intros v Hv.
  - cbn. rewrite Z.mod_1_r. auto.
  - destruct (IH (v / 256) ltac:(apply Z.div_pos; lia)) as (H1 & H2 & H3). cbn [le_bytes length leval].
    split; [congruence|]. split; [constructor; [apply Z.mod_pos_bound; lia|assumption]|].
    rewrite H3, Nat2Z.inj_succ, Z.pow_succ_r by lia.
    assert (0 < 256 ^ Z.of_nat n) by (apply Z.pow_pos_nonneg; lia).
    rewrite Z.rem_mul_r by lia. lia.
Qed.
Lemma leval_bound l : Forall byte l -> 0 <= leval l < 256 ^ Z.of_nat (length l).
Proof.
  induction 1 as [|c l Hc _ IH]; [cbn; lia|]. cbn [leval length]. rewrite Nat2Z.inj_succ, Z.pow_succ_r by lia. unfold byte in Hc. lia.
Qed.
Lemma leval_inj l : forall l', length l = length l' -> Forall byte l -> Forall byte l' -> leval l = leval l' -> l = l'.
Proof.
  induction l as [|c l IH]; intros [|c' l'] Hn Hl Hl' E; try discriminate; auto.
  inversion Hl; subst. inversion Hl'; subst. cbn [leval] in E. unfold byte in *. injection Hn as Hn.
  assert (c = c') by lia. f_equal; [assumption|]. apply IH; auto. lia.
Qed.
Lemma size_bits L : 8 * Z.of_nat (size_of L) = bits L.
Proof. destruct L; reflexivity. Qed.
Lemma pow_size L n : 8 * Z.of_nat n = bits L -> 256 ^ Z.of_nat n = 2 ^ bits L.
Proof. intros H. change 256 with (2 ^ 8). rewrite <- Z.pow_mul_r by lia. now rewrite H. Qed.
Lemma encode_as_mod L x : encode_as L x = x mod 2 ^ bits L.
Proof. destruct L; reflexivity. Qed.
Lemma mod_range L x : 0 <= x mod 2 ^ bits L < 2 ^ bits L.
Proof. apply Z.mod_pos_bound. destruct L; reflexivity. Qed.
Lemma wrap_of_mod L x v : in_range L x -> v mod 2 ^ bits L = x mod 2 ^ bits L -> wrap (lty L) v = x.
Proof.
  intros Hx E. pose proof (proj2 (fits_lty L x) Hx) as F. rewrite <- (wrap_fits _ _ F). unfold wrap.
  assert (is_signed (lty L) = true) as -> by (destruct L; reflexivity).
  assert (width (lty L) = bits L) as -> by (destruct L; reflexivity).
  rewrite <- (Z.add_mod_idemp_l v), E, Z.add_mod_idemp_l; [reflexivity| |]; destruct L; discriminate.
Qed.
Lemma wrap_mod_same L v : wrap (lty L) v mod 2 ^ bits L = v mod 2 ^ bits L.
Proof.
  destruct (wrap_mod (lty L) v) as [k ->]. assert (width (lty L) = bits L) as -> by (destruct L; reflexivity).
  apply Z.mod_add. destruct L; discriminate.
Qed.
Lemma wrap_range L v : in_range L (wrap (lty L) v).
Proof. apply fits_lty, fits_wrap. Qed.

Theorem encode_twos L x : in_range L x -> twos L (encode L x) x.
Proof.
  intros Hx. unfold encode. rewrite encode_as_mod. destruct (le_bytes_spec (size_of L) (x mod 2 ^ bits L) (proj1 (mod_range L x))) as (H1 & H2 & H3).
  split; [rewrite H1; apply size_bits|]. split; [assumption|]. split; [assumption|].
  rewrite H3, (pow_size L _ (size_bits L)). apply Z.mod_small, mod_range.
Qed.
Theorem twos_unique L l l' x x' : twos L l x -> twos L l' x' -> (l = l' <-> x = x').
Proof.
  intros (A & B & C & D) (A' & B' & C' & D'). split.
  - intros <-. rewrite <- (wrap_of_mod L x x C eq_refl). apply wrap_of_mod; [assumption|congruence].
  - intros <-. apply leval_inj; auto; [apply Nat2Z.inj; lia|congruence].
Qed.
Theorem decode_twos L l rest : 8 * Z.of_nat (length l) = bits L -> Forall byte l ->
  exists x, twos L l x /\ decode L (l ++ rest) = Ok (x, rest).
Proof.
  intros Hn Hl. assert (length l = size_of L) as E by (apply Nat2Z.inj; pose proof (size_bits L); lia).
  exists (wrap (lty L) (leval l)). split.
  - split; [assumption|]. split; [assumption|]. split; [apply wrap_range|]. rewrite wrap_mod_same.
    symmetry. apply Z.mod_small. rewrite <- (pow_size L _ Hn). now apply leval_bound.
  - unfold decode. rewrite app_length, E.
    replace (Nat.ltb _ _) with false by (symmetry; apply Nat.ltb_ge; lia).
    rewrite <- E, firstn_app, Nat.sub_diag, firstn_all, firstn_O, app_nil_r, skipn_app, Nat.sub_diag, skipn_all, skipn_O.
    rewrite le_value_leval. reflexivity.
Qed.
Theorem decode_encode L x rest : in_range L x -> decode L (encode L x ++ rest) = Ok (x, rest).
Proof.
  intros Hx. destruct (encode_twos L x Hx) as (A & B & C & D). destruct (decode_twos L (encode L x) rest A B) as (y & Hy & E).
  rewrite E. do 2 f_equal. symmetry. apply (twos_unique L (encode L x) (encode L x) x y); auto. now apply encode_twos.
Qed.
Theorem decode_short L l : 8 * Z.of_nat (length l) < bits L -> decode L l = Err ConvertError.
Proof.
  intros H. unfold decode. replace (Nat.ltb _ _) with true; [reflexivity|].
  symmetry. apply Nat.ltb_lt. pose proof (size_bits L). lia.
Qed.
Theorem compact_to L x : in_range L x -> 0 <= encode_as L x < 2 ^ bits L /\ encode_as L x mod 2 ^ bits L = x mod 2 ^ bits L /\
  decode_from L (encode_as L x) = x.
Proof.
  intros Hx. rewrite encode_as_mod. split; [apply mod_range|]. rewrite Z.mod_mod by (destruct L; discriminate).
  split; [reflexivity|]. apply wrap_of_mod; [assumption|]. apply Z.mod_mod. destruct L; discriminate.
Qed.
Theorem compact_from L v : 0 <= v < 2 ^ bits L -> in_range L (decode_from L v) /\ encode_as L (decode_from L v) = v.
Proof.
  intros Hv. split; [apply wrap_range|]. rewrite encode_as_mod. unfold decode_from, from_bits. rewrite wrap_mod_same. now apply Z.mod_small.
Qed.
