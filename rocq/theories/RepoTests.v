(** * RepoTests: the crate's own tests, replayed on the model.

    These are tests of the model against the expectations written in /repo/tests and in the
    [#[cfg(test)]] modules of /repo/src, not proofs of properties: every row of every table is
    evaluated by the kernel.  [case_*] are the bodies of the test cases; a row of section [all] must
    pass on both test types ([FixedPoint<i64, U9>] and [FixedPoint<i128, U18>]), a row of section
    [fp64] must pass on the first and fail on the second, a row of [fp128] the other way round
    (tests/it/main.rs:40-100).  The literals [fp!(x)] are [from_str_exact] of the text
    (tests/it/main.rs:22-29).  f64 literals are given by their bit pattern.  Every test is run in the
    dev build only; [ProfileFacts] relates the other builds to it.  Not replayed: the proptest tests,
    [quickxml], the texts of errors, and the raw-JSON and wrapper-type halves of the [serde_with]
    tests (only their round trips are). *)
From Coq Require Import String Ascii SpecFloat.
From Verif Require Import Base PowerTable ConstFn Sqrt U256 I256 Promo Ops Fixed Str Float Codec Macros.
From Verif Require Import Fixed.
Open Scope string_scope.
Open Scope Z_scope.

Definition str_of (s : string) : str :=
  List.map (fun c => Z.of_nat (nat_of_ascii c)) (list_ascii_of_string s).

(** The build the tests are run in: dev profile, std, feature i128. *)
Definition dev : build := {| ovf := true; dbg := true; std := true; f128 := true |}.

Definition obind {A B : Type} (o : option A) (f : A -> option B) : option B :=
  match o with Some a => f a | None => None end.
Definition okr {A E : Type} (r : result A E) : option A := match r with Ok a => Some a | Err _ => None end.
Definition ret {A : Type} (o : outcome A) : option A := match o with Ret a => Some a | _ => None end.
Definition got {A E : Type} (o : outcome (result A E)) : option A := obind (ret o) okr.
Definition ok (o : option bool) : bool := match o with Some b => b | None => false end.
(** [fp!] *)
Definition fp (L : layout) (P : Z) (s : string) : option Z := got (from_str_exact dev L P (str_of s)).
Definition one (L : layout) (P : Z) : option Z := ret (ONE dev L P).

Definition row : Type := layout -> Z -> bool.
Definition both (l : list row) : bool := forallb (fun r : row => r L64 9 && r L128 18) l.
Definition only64 (l : list row) : bool := forallb (fun r : row => r L64 9 && negb (r L128 18)) l.
Definition only128 (l : list row) : bool := forallb (fun r : row => r L128 18 && negb (r L64 9)) l.

Definition eqo (o : option Z) (z : Z) : bool := match o with Some v => v =? z | None => false end.
Definition is_err {E : Type} (o : outcome (result Z E)) : bool :=
  match o with Ret (Err _) => true | _ => false end.
Definition fails_with (o : outcome (result Z aerr)) (e : aerr) : bool :=
  match o with
  | Ret (Err e') =>
      match e, e' with
      | Overflow, Overflow | DivisionByZero, DivisionByZero | DomainViolation, DomainViolation => true
      | _, _ => false
      end
  | _ => false
  end.
(** [x.cneg()?] *)
Definition neg_ (L : layout) (x : Z) (f : Z -> bool) : bool := ok (option_map f (okr (cneg L x))).
Definition eq_neg (L : layout) (o : option Z) (z : Z) : bool := neg_ L z (eqo o).

Definition mulm (L : layout) (P a b : Z) (m : mode) (e : Z) : bool := eqo (got (rmul dev L P a b m)) e.
Definition divm (L : layout) (P a b : Z) (m : mode) (e : Z) : bool := eqo (got (rdiv dev L P a b m)) e.

Definition case_cmul_overflow (L : layout) (P : Z) : bool :=
  fails_with (Ret (cmul L (MAX L) (imax (lty L)))) Overflow &&
  fails_with (Ret (cmul L (MAX L) (imin (lty L)))) Overflow.
Definition case_rmul_exact (L : layout) (P a b e : Z) : bool :=
  forallb (fun m => mulm L P a b m e && mulm L P b a m e) [Floor; Nearest; Ceil].
Definition case_rmul_round (L : layout) (P a b f n c : Z) : bool :=
  mulm L P a b Floor f && mulm L P a b Nearest n && mulm L P a b Ceil c &&
  mulm L P b a Floor f && mulm L P b a Nearest n && mulm L P b a Ceil c &&
  neg_ L a (fun a => neg_ L b (fun b =>
    mulm L P b a Floor f && mulm L P b a Nearest n && mulm L P b a Ceil c)).
Definition case_rmul_overflow (L : layout) (P a b : Z) : bool :=
  fails_with (rmul dev L P a b Ceil) Overflow.
Definition case_rdiv_exact (L : layout) (P a b e : Z) : bool :=
  forallb (fun m => divm L P a b m e) [Floor; Nearest; Ceil].
Definition case_rdiv_by_layout (L : layout) (P a b f n c : Z) : bool :=
  eqo (got (rdiv_int dev L a b Floor)) f && eqo (got (rdiv_int dev L a b Nearest)) n &&
  eqo (got (rdiv_int dev L a b Ceil)) c.
Definition case_rdiv_round (L : layout) (P a b c n f : Z) : bool :=
  divm L P a b Ceil c && divm L P a b Nearest n && divm L P a b Floor f.
Definition case_rdiv_layout (L : layout) (P a b f c : Z) : bool :=
  let d x y m e := eqo (got (int_rdiv dev (lty L) x y m)) e in
  d a b Floor f && d a b Ceil c && d a (- b) Floor (- c) && d (- a) b Floor (- c) &&
  d a (- b) Ceil (- f) && d (- a) b Ceil (- f) && d (- a) (- b) Floor f && d (- a) (- b) Ceil c.
Definition case_rdiv_division_by_zero (L : layout) (P x : Z) : bool :=
  fails_with (rdiv dev L P x ZERO Floor) DivisionByZero &&
  fails_with (rdiv dev L P x ZERO Ceil) DivisionByZero.
Definition case_rdiv_overflow (L : layout) (P d : Z) : bool :=
  fails_with (rdiv dev L P (MAX L) d Ceil) Overflow.
Definition case_float_mul (L : layout) (P a b e : Z) : bool := mulm L P a b Ceil e.
Definition case_float_mul_overflow (L : layout) (P a b : Z) : bool := is_err (rmul dev L P a b Ceil).
Definition hs (L : layout) (a b : Z) (m : mode) (e : Z) : bool := eqo (ret (half_sum dev L a b m)) e.
Definition case_half_sum_exact (L : layout) (P e : Z) : bool := hs L e e Floor e && hs L e e Ceil e.
Definition case_half_sum_exact_2 (L : layout) (P a b e : Z) : bool :=
  hs L a b Floor e && hs L b a Floor e && hs L a b Ceil e && hs L b a Ceil e.
Definition case_half_sum_rounded (L : layout) (P a b f c : Z) : bool :=
  hs L a b Floor f && hs L b a Floor f && hs L a b Ceil c && hs L b a Ceil c.
Definition case_integral (L : layout) (P a f c n : Z) : bool :=
  eqo (ret (integral dev L P a Floor)) f && eqo (ret (integral dev L P a Nearest)) n &&
  eqo (ret (integral dev L P a Ceil)) c.
Definition case_round_towards_zero_by (L : layout) (P x r e : Z) : bool :=
  (round_towards_zero_by L x r =? e) &&
  neg_ L x (fun x => eq_neg L (Some (round_towards_zero_by L x r)) e).
Definition npt (L : layout) (x : Z) : option Z := got (next_power_of_ten dev L x).
Definition case_next_power_of_ten (L : layout) (P x e : Z) : bool :=
  eqo (npt L x) e && neg_ L x (fun x => eq_neg L (npt L x) e).
Definition case_next_power_of_ten_2 (L : layout) (P x e : Z) : bool := eqo (npt L x) e.
Definition case_next_power_of_ten_3 (L : layout) (P x : Z) : bool :=
  fails_with (next_power_of_ten dev L x) Overflow.
Definition case_saturating_add (L : layout) (P a b e : Z) : bool :=
  (fp_saturating_add L a b =? e) && (fp_saturating_add L b a =? e) &&
  neg_ L a (fun a => neg_ L b (fun b => eq_neg L (Some (fp_saturating_add L a b)) e)).
Definition case_saturating_add_2 (L : layout) (P a b e : Z) : bool := fp_saturating_add L a b =? e.
Definition case_saturating_mul (L : layout) (P a b e : Z) : bool :=
  (fp_saturating_mul L a b =? e) && (int_saturating_mul_fp L b a =? e) &&
  neg_ L a (fun na => eq_neg L (Some (fp_saturating_mul L na b)) e &&
                      (fp_saturating_mul L na (- b) =? e)) &&
  eq_neg L (Some (fp_saturating_mul L a (- b))) e.
Definition case_saturating_mul_2 (L : layout) (P a b e : Z) : bool :=
  fp_saturating_mul L a (wrap (lty L) b) =? e.
Definition srm (L : layout) (P a b : Z) (m : mode) : option Z := ret (saturating_rmul dev L P a b m).
Definition case_saturating_rmul (L : layout) (P a b e : Z) : bool :=
  eqo (srm L P a b Floor) e && eqo (srm L P b a Floor) e &&
  neg_ L a (fun na => eq_neg L (srm L P na b Floor) e &&
    neg_ L b (fun nb => eq_neg L (srm L P a nb Floor) e && eqo (srm L P na nb Floor) e)).
Definition case_saturating_rmul_2 (L : layout) (P a b : Z) (m : mode) (e : Z) : bool :=
  eqo (srm L P a b m) e.
Definition case_saturating_sub (L : layout) (P a b e : Z) : bool :=
  (fp_saturating_sub L a b =? e) && eq_neg L (Some (fp_saturating_sub L b a)) e &&
  neg_ L a (fun a => neg_ L b (fun b => eq_neg L (Some (fp_saturating_sub L a b)) e)).
Definition case_saturating_sub_2 (L : layout) (P a b e : Z) : bool := fp_saturating_sub L a b =? e.
Definition sq (L : layout) (P x : Z) (m : mode) : option Z := got (rsqrt dev L P x m).
Definition case_sqrt_exact (L : layout) (P e : Z) : bool :=
  ok (option_map (fun s => mulm L P e e Ceil s &&
        eqo (sq L P s Floor) e && eqo (sq L P s Nearest) e && eqo (sq L P s Ceil) e)
      (got (rmul dev L P e e Floor))).
Definition case_sqrt_approx (L : layout) (P x f n : Z) : bool :=
  eqo (sq L P x Floor) f && eqo (sq L P x Nearest) n &&
  ok (option_map (eqo (sq L P x Ceil)) (okr (cadd L f 1))).
Definition case_sqrt_negative (L : layout) (P x : Z) : bool :=
  forallb (fun m => fails_with (rsqrt dev L P x m) DomainViolation) [Floor; Nearest; Ceil].

(** convert.rs *)
Definition case_from_decimal (L : layout) (P : Z) (i : Z * Z) (e : Z) : bool :=
  eqo (got (from_decimal dev L P (fst i) (snd i))) e &&
  eq_neg L (got (from_decimal dev L P (- fst i) (snd i))) e.
Definition eq_pair (o : option (Z * Z)) (m e : Z) : bool :=
  match o with Some (m', e') => (m' =? m) && (e' =? e) | None => false end.
Definition case_to_decimal (L : layout) (P x me : Z) (e : Z * Z) : bool :=
  (snd e <=? me) && eq_pair (ret (to_decimal dev L P x me)) (fst e) (snd e) &&
  neg_ L x (fun x => eq_pair (ret (to_decimal dev L P x me)) (- fst e) (snd e)).

(** convert_f64.rs; [==] on these f64 values is equality of bit patterns, except that the test
    0 == 0.0 would also accept -0.0. *)
Definition case_to_f64 (L : layout) (P x e : Z) : bool :=
  eqo (option_map f64_to_bits (ret (to_f64 dev L P x))) e.
Definition flip_sign (raw : Z) : Z := Z.lxor raw (2 ^ 63).
Definition case_from_f64 (L : layout) (P e raw : Z) : bool :=
  eqo (got (try_from_f64 dev L P raw)) e &&
  eq_neg L (got (try_from_f64 dev L P (flip_sign raw))) e.
Definition case_from_f64_exact (L : layout) (P raw e : Z) : bool := case_from_f64 L P e raw.
(** The error texts are not part of this model: only the failure is checked. *)
Definition case_from_f64_limits (L : layout) (P raw : Z) (_ : str) : bool :=
  is_err (try_from_f64 dev L P raw).

(** convert_str.rs; the serde_json lines are the human-readable string route. *)
Definition json_str (L : layout) (P : Z) (s : str) : outcome (result Z cerr) :=
  deserialize dev L P false true (TStr false s).
Definition case_from_good_str_exact (L : layout) (P : Z) (s : str) (e : Z) : bool :=
  eqo (got (from_str_exact dev L P s)) e && eqo (got (from_str dev L P s)) e &&
  eqo (got (json_str L P s)) e &&
  ok (option_map (fun t => eqo (got (json_str L P t)) e) (ret (to_string dev L P e))).
Definition check_inexact (L : layout) (P : Z) (s : str) (e : Z) : bool :=
  eqo (got (from_str dev L P s)) e && is_err (from_str_exact dev L P s) &&
  eqo (got (json_str L P s)) e &&
  ok (option_map (fun t => eqo (got (json_str L P t)) e) (ret (to_string dev L P e))).
Definition case_from_good_str_inexact (L : layout) (P : Z) (s : str) (e : Z) : bool :=
  check_inexact L P s e && check_inexact L P (45 :: s) (- e).
Definition case_from_bad_str (L : layout) (P : Z) (s : str) : bool :=
  is_err (from_str_exact dev L P s) && is_err (from_str dev L P s) && is_err (json_str L P s).

(** serde.rs; JSON texts are replaced by the serde calls serde_json makes for them. *)
Definition str_is (o : option str) (s : str) : bool :=
  match o with Some t => str_eqb t s | None => false end.
Definition tok_str (t : token) : option str := match t with TStr _ s => Some s | _ => None end.
Definition case_display_and_serde (L : layout) (P x : Z) (s : str) : bool :=
  str_is (ret (to_string dev L P x)) s &&
  str_is (obind (ret (serialize dev L P x true true)) tok_str) s.
(** serde_json borrows strings without escapes from its input, and hands integers over as i64 or
    u64. *)
Definition case_serde_with (L : layout) (P v : Z) : bool :=
  eqo (okr (repr_deserialize L (repr_serialize L v))) v &&
  ok (option_map (fun t => eqo (got (str_deserialize dev L P t)) v) (ret (str_serialize dev L P v true))) &&
  ok (option_map (fun t => eqo (got (float_deserialize dev L P t)) v) (ret (float_serialize dev L P v))).
Definition eqoo (o : option (option Z)) (z : option Z) : bool :=
  match o, z with Some (Some v), Some z => v =? z | Some None, None => true | _, _ => false end.
Definition case_serde_with_option (L : layout) (P : Z) (v : option Z) : bool :=
  eqoo (okr (repr_option_deserialize L (repr_option_serialize L v))) v &&
  ok (option_map (fun t => eqoo (got (str_option_deserialize dev L P t)) v) (ret (str_option_serialize dev L P v true))) &&
  ok (option_map (fun t => eqoo (got (float_option_deserialize dev L P t)) v) (ret (float_option_serialize dev L P v))).

(** tests/it/ops.rs:11-22, section [all]. *)
Example test_cmul_overflow_all : both
  [ fun L P => ok (Some (case_cmul_overflow L P )) ] = true.
Proof. vm_compute. reflexivity. Qed.

(** tests/it/ops.rs:25-66, section [all]. *)
Example test_rmul_exact_all : both
  [ fun L P => ok (obind (fp L P "525") (fun v0 => obind (fp L P "10") (fun v1 => obind (fp L P "5250") (fun v2 => Some (case_rmul_exact L P v0 v1 v2)))));
    fun L P => ok (obind (fp L P "-525") (fun v0 => obind (fp L P "10") (fun v1 => obind (fp L P "-5250") (fun v2 => Some (case_rmul_exact L P v0 v1 v2)))));
    fun L P => ok (obind (fp L P "-525") (fun v0 => obind (fp L P "-10") (fun v1 => obind (fp L P "5250") (fun v2 => Some (case_rmul_exact L P v0 v1 v2)))));
    fun L P => ok (obind (fp L P "525") (fun v0 => obind (fp L P "-10") (fun v1 => obind (fp L P "-5250") (fun v2 => Some (case_rmul_exact L P v0 v1 v2)))));
    fun L P => ok (obind (fp L P "525") (fun v0 => obind (fp L P "0.0001") (fun v1 => obind (fp L P "0.0525") (fun v2 => Some (case_rmul_exact L P v0 v1 v2)))));
    fun L P => ok (obind (fp L P "-525") (fun v0 => obind (fp L P "0.0001") (fun v1 => obind (fp L P "-0.0525") (fun v2 => Some (case_rmul_exact L P v0 v1 v2)))));
    fun L P => ok (obind (fp L P "-525") (fun v0 => obind (fp L P "-0.0001") (fun v1 => obind (fp L P "0.0525") (fun v2 => Some (case_rmul_exact L P v0 v1 v2)))));
    fun L P => ok (obind (Some (MAX L)) (fun v0 => obind (one L P) (fun v1 => obind (Some (MAX L)) (fun v2 => Some (case_rmul_exact L P v0 v1 v2)))));
    fun L P => ok (obind (Some (MIN L)) (fun v0 => obind (one L P) (fun v1 => obind (Some (MIN L)) (fun v2 => Some (case_rmul_exact L P v0 v1 v2)))));
    fun L P => ok (obind (one L P) (fun v0 => obind (fp L P "0.000000001") (fun v1 => obind (fp L P "0.000000001") (fun v2 => Some (case_rmul_exact L P v0 v1 v2)))));
    fun L P => ok (obind (fp L P "-1") (fun v0 => obind (fp L P "-0.000000001") (fun v1 => obind (fp L P "0.000000001") (fun v2 => Some (case_rmul_exact L P v0 v1 v2)))));
    fun L P => ok (obind (Some (MAX L / 10 * 10)) (fun v0 => obind (fp L P "0.1") (fun v1 => obind (Some (MAX L / 10)) (fun v2 => Some (case_rmul_exact L P v0 v1 v2)))));
    fun L P => ok (obind (Some (Z.quot (MIN L) 10 * 10)) (fun v0 => obind (fp L P "0.1") (fun v1 => obind (Some (Z.quot (MIN L) 10)) (fun v2 => Some (case_rmul_exact L P v0 v1 v2))))) ] = true.
Proof. vm_compute. reflexivity. Qed.

(** tests/it/ops.rs:25-66, section [fp128]. *)
Example test_rmul_exact_fp128 : only128
  [ fun L P => ok (obind (fp L P "13043817825.332782") (fun v0 => obind (fp L P "13043817825.332782") (fun v1 => obind (fp L P "170141183460469226191.989043859524") (fun v2 => Some (case_rmul_exact L P v0 v1 v2))))) ] = true.
Proof. vm_compute. reflexivity. Qed.

(** tests/it/ops.rs:69-119, section [fp64]. *)
Example test_rmul_round_fp64 : only64
  [ fun L P => ok (obind (fp L P "0.1") (fun v0 => obind (fp L P "0.000000001") (fun v1 => obind (fp L P "0") (fun v2 => obind (fp L P "0") (fun v3 => obind (fp L P "0.000000001") (fun v4 => Some (case_rmul_round L P v0 v1 v2 v3 v4)))))));
    fun L P => ok (obind (fp L P "0.5") (fun v0 => obind (fp L P "0.000000001") (fun v1 => obind (fp L P "0") (fun v2 => obind (fp L P "0.000000001") (fun v3 => obind (fp L P "0.000000001") (fun v4 => Some (case_rmul_round L P v0 v1 v2 v3 v4)))))));
    fun L P => ok (obind (fp L P "0.9") (fun v0 => obind (fp L P "0.000000001") (fun v1 => obind (fp L P "0") (fun v2 => obind (fp L P "0.000000001") (fun v3 => obind (fp L P "0.000000001") (fun v4 => Some (case_rmul_round L P v0 v1 v2 v3 v4)))))));
    fun L P => ok (obind (fp L P "-0.1") (fun v0 => obind (fp L P "0.000000001") (fun v1 => obind (fp L P "-0.000000001") (fun v2 => obind (fp L P "0") (fun v3 => obind (fp L P "0") (fun v4 => Some (case_rmul_round L P v0 v1 v2 v3 v4)))))));
    fun L P => ok (obind (fp L P "-0.5") (fun v0 => obind (fp L P "0.000000001") (fun v1 => obind (fp L P "-0.000000001") (fun v2 => obind (fp L P "-0.000000001") (fun v3 => obind (fp L P "0") (fun v4 => Some (case_rmul_round L P v0 v1 v2 v3 v4)))))));
    fun L P => ok (obind (fp L P "-0.9") (fun v0 => obind (fp L P "0.000000001") (fun v1 => obind (fp L P "-0.000000001") (fun v2 => obind (fp L P "-0.000000001") (fun v3 => obind (fp L P "0") (fun v4 => Some (case_rmul_round L P v0 v1 v2 v3 v4)))))));
    fun L P => ok (obind (fp L P "0.000000001") (fun v0 => obind (fp L P "0.000000001") (fun v1 => obind (fp L P "0") (fun v2 => obind (fp L P "0") (fun v3 => obind (fp L P "0.000000001") (fun v4 => Some (case_rmul_round L P v0 v1 v2 v3 v4)))))));
    fun L P => ok (obind (fp L P "0.000000009") (fun v0 => obind (fp L P "0.000000001") (fun v1 => obind (fp L P "0") (fun v2 => obind (fp L P "0") (fun v3 => obind (fp L P "0.000000001") (fun v4 => Some (case_rmul_round L P v0 v1 v2 v3 v4)))))));
    fun L P => ok (obind (fp L P "-0.000000001") (fun v0 => obind (fp L P "0.000000001") (fun v1 => obind (fp L P "-0.000000001") (fun v2 => obind (fp L P "0") (fun v3 => obind (fp L P "0") (fun v4 => Some (case_rmul_round L P v0 v1 v2 v3 v4)))))));
    fun L P => ok (obind (fp L P "-0.000000009") (fun v0 => obind (fp L P "0.000000001") (fun v1 => obind (fp L P "-0.000000001") (fun v2 => obind (fp L P "0") (fun v3 => obind (fp L P "0") (fun v4 => Some (case_rmul_round L P v0 v1 v2 v3 v4))))))) ] = true.
Proof. vm_compute. reflexivity. Qed.

(** tests/it/ops.rs:69-119, section [fp128]. *)
Example test_rmul_round_fp128 : only128
  [ fun L P => ok (obind (fp L P "0.1") (fun v0 => obind (fp L P "0.000000000000000001") (fun v1 => obind (fp L P "0") (fun v2 => obind (fp L P "0") (fun v3 => obind (fp L P "0.000000000000000001") (fun v4 => Some (case_rmul_round L P v0 v1 v2 v3 v4)))))));
    fun L P => ok (obind (fp L P "0.5") (fun v0 => obind (fp L P "0.000000000000000001") (fun v1 => obind (fp L P "0") (fun v2 => obind (fp L P "0.000000000000000001") (fun v3 => obind (fp L P "0.000000000000000001") (fun v4 => Some (case_rmul_round L P v0 v1 v2 v3 v4)))))));
    fun L P => ok (obind (fp L P "0.9") (fun v0 => obind (fp L P "0.000000000000000001") (fun v1 => obind (fp L P "0") (fun v2 => obind (fp L P "0.000000000000000001") (fun v3 => obind (fp L P "0.000000000000000001") (fun v4 => Some (case_rmul_round L P v0 v1 v2 v3 v4)))))));
    fun L P => ok (obind (fp L P "-0.1") (fun v0 => obind (fp L P "0.000000000000000001") (fun v1 => obind (fp L P "-0.000000000000000001") (fun v2 => obind (fp L P "0") (fun v3 => obind (fp L P "0") (fun v4 => Some (case_rmul_round L P v0 v1 v2 v3 v4)))))));
    fun L P => ok (obind (fp L P "-0.5") (fun v0 => obind (fp L P "0.000000000000000001") (fun v1 => obind (fp L P "-0.000000000000000001") (fun v2 => obind (fp L P "-0.000000000000000001") (fun v3 => obind (fp L P "0") (fun v4 => Some (case_rmul_round L P v0 v1 v2 v3 v4)))))));
    fun L P => ok (obind (fp L P "-0.9") (fun v0 => obind (fp L P "0.000000000000000001") (fun v1 => obind (fp L P "-0.000000000000000001") (fun v2 => obind (fp L P "-0.000000000000000001") (fun v3 => obind (fp L P "0") (fun v4 => Some (case_rmul_round L P v0 v1 v2 v3 v4)))))));
    fun L P => ok (obind (fp L P "0.000000000000000001") (fun v0 => obind (fp L P "0.000000000000000001") (fun v1 => obind (fp L P "0") (fun v2 => obind (fp L P "0") (fun v3 => obind (fp L P "0.000000000000000001") (fun v4 => Some (case_rmul_round L P v0 v1 v2 v3 v4)))))));
    fun L P => ok (obind (fp L P "0.000000000000000009") (fun v0 => obind (fp L P "0.000000000000000001") (fun v1 => obind (fp L P "0") (fun v2 => obind (fp L P "0") (fun v3 => obind (fp L P "0.000000000000000001") (fun v4 => Some (case_rmul_round L P v0 v1 v2 v3 v4)))))));
    fun L P => ok (obind (fp L P "-0.000000000000000001") (fun v0 => obind (fp L P "0.000000000000000001") (fun v1 => obind (fp L P "-0.000000000000000001") (fun v2 => obind (fp L P "0") (fun v3 => obind (fp L P "0") (fun v4 => Some (case_rmul_round L P v0 v1 v2 v3 v4)))))));
    fun L P => ok (obind (fp L P "-0.000000000000000009") (fun v0 => obind (fp L P "0.000000000000000001") (fun v1 => obind (fp L P "-0.000000000000000001") (fun v2 => obind (fp L P "0") (fun v3 => obind (fp L P "0") (fun v4 => Some (case_rmul_round L P v0 v1 v2 v3 v4))))))) ] = true.
Proof. vm_compute. reflexivity. Qed.

(** tests/it/ops.rs:122-141, section [all]. *)
Example test_rmul_overflow_all : both
  [ fun L P => ok (obind (Some (MAX L)) (fun v0 => obind (fp L P "1.000000001") (fun v1 => Some (case_rmul_overflow L P v0 v1)))) ] = true.
Proof. vm_compute. reflexivity. Qed.

(** tests/it/ops.rs:122-141, section [fp64]. *)
Example test_rmul_overflow_fp64 : only64
  [ fun L P => ok (obind (fp L P "96038.388349945") (fun v0 => obind (fp L P "96038.388349945") (fun v1 => Some (case_rmul_overflow L P v0 v1))));
    fun L P => ok (obind (fp L P "-97000") (fun v0 => obind (fp L P "96100") (fun v1 => Some (case_rmul_overflow L P v0 v1)))) ] = true.
Proof. vm_compute. reflexivity. Qed.

(** tests/it/ops.rs:122-141, section [fp128]. *)
Example test_rmul_overflow_fp128 : only128
  [ fun L P => ok (obind (Some (MAX L)) (fun v0 => obind (fp L P "1.000000000000000001") (fun v1 => Some (case_rmul_overflow L P v0 v1))));
    fun L P => ok (obind (fp L P "13043817825.332783") (fun v0 => obind (fp L P "13043817825.332783") (fun v1 => Some (case_rmul_overflow L P v0 v1))));
    fun L P => ok (obind (fp L P "-13043817826") (fun v0 => obind (fp L P "13043817826") (fun v1 => Some (case_rmul_overflow L P v0 v1)))) ] = true.
Proof. vm_compute. reflexivity. Qed.

(** tests/it/ops.rs:144-167, section [all]. *)
Example test_rdiv_exact_all : both
  [ fun L P => ok (obind (Some (MAX L)) (fun v0 => obind (Some (MAX L)) (fun v1 => obind (one L P) (fun v2 => Some (case_rdiv_exact L P v0 v1 v2)))));
    fun L P => ok (obind (fp L P "5") (fun v0 => obind (fp L P "2") (fun v1 => obind (fp L P "2.5") (fun v2 => Some (case_rdiv_exact L P v0 v1 v2)))));
    fun L P => ok (obind (fp L P "-5") (fun v0 => obind (fp L P "2") (fun v1 => obind (fp L P "-2.5") (fun v2 => Some (case_rdiv_exact L P v0 v1 v2)))));
    fun L P => ok (obind (fp L P "5") (fun v0 => obind (fp L P "-2") (fun v1 => obind (fp L P "-2.5") (fun v2 => Some (case_rdiv_exact L P v0 v1 v2)))));
    fun L P => ok (obind (fp L P "-5") (fun v0 => obind (fp L P "-2") (fun v1 => obind (fp L P "2.5") (fun v2 => Some (case_rdiv_exact L P v0 v1 v2)))));
    fun L P => ok (obind (fp L P "5") (fun v0 => obind (fp L P "0.2") (fun v1 => obind (fp L P "25") (fun v2 => Some (case_rdiv_exact L P v0 v1 v2)))));
    fun L P => ok (obind (fp L P "0.00000001") (fun v0 => obind (fp L P "10") (fun v1 => obind (fp L P "0.000000001") (fun v2 => Some (case_rdiv_exact L P v0 v1 v2)))));
    fun L P => ok (obind (fp L P "0.000000001") (fun v0 => obind (fp L P "0.1") (fun v1 => obind (fp L P "0.00000001") (fun v2 => Some (case_rdiv_exact L P v0 v1 v2))))) ] = true.
Proof. vm_compute. reflexivity. Qed.

(** tests/it/ops.rs:144-167, section [fp128]. *)
Example test_rdiv_exact_fp128 : only128
  [ fun L P => ok (obind (fp L P "0.00000000000000001") (fun v0 => obind (fp L P "10") (fun v1 => obind (fp L P "0.000000000000000001") (fun v2 => Some (case_rdiv_exact L P v0 v1 v2)))));
    fun L P => ok (obind (fp L P "0.000000000000000001") (fun v0 => obind (fp L P "0.1") (fun v1 => obind (fp L P "0.00000000000000001") (fun v2 => Some (case_rdiv_exact L P v0 v1 v2))))) ] = true.
Proof. vm_compute. reflexivity. Qed.

(** tests/it/ops.rs:170-225, section [all]. *)
Example test_rdiv_by_layout_all : both
  [ fun L P => ok (obind (fp L P "2.4") (fun v0 => obind (Some (wrap (lty L) 2)) (fun v1 => obind (fp L P "1.2") (fun v2 => obind (fp L P "1.2") (fun v3 => obind (fp L P "1.2") (fun v4 => Some (case_rdiv_by_layout L P v0 v1 v2 v3 v4)))))));
    fun L P => ok (obind (fp L P "0") (fun v0 => obind (Some (wrap (lty L) 5)) (fun v1 => obind (fp L P "0") (fun v2 => obind (fp L P "0") (fun v3 => obind (fp L P "0") (fun v4 => Some (case_rdiv_by_layout L P v0 v1 v2 v3 v4))))))) ] = true.
Proof. vm_compute. reflexivity. Qed.

(** tests/it/ops.rs:170-225, section [fp64]. *)
Example test_rdiv_by_layout_fp64 : only64
  [ fun L P => ok (obind (fp L P "7") (fun v0 => obind (Some (wrap (lty L) 3)) (fun v1 => obind (fp L P "2.333333333") (fun v2 => obind (fp L P "2.333333333") (fun v3 => obind (fp L P "2.333333334") (fun v4 => Some (case_rdiv_by_layout L P v0 v1 v2 v3 v4)))))));
    fun L P => ok (obind (fp L P "-7") (fun v0 => obind (Some (wrap (lty L) 3)) (fun v1 => obind (fp L P "-2.333333334") (fun v2 => obind (fp L P "-2.333333333") (fun v3 => obind (fp L P "-2.333333333") (fun v4 => Some (case_rdiv_by_layout L P v0 v1 v2 v3 v4)))))));
    fun L P => ok (obind (fp L P "-7") (fun v0 => obind (Some (wrap (lty L) (-3))) (fun v1 => obind (fp L P "2.333333333") (fun v2 => obind (fp L P "2.333333333") (fun v3 => obind (fp L P "2.333333334") (fun v4 => Some (case_rdiv_by_layout L P v0 v1 v2 v3 v4)))))));
    fun L P => ok (obind (fp L P "7") (fun v0 => obind (Some (wrap (lty L) (-3))) (fun v1 => obind (fp L P "-2.333333334") (fun v2 => obind (fp L P "-2.333333333") (fun v3 => obind (fp L P "-2.333333333") (fun v4 => Some (case_rdiv_by_layout L P v0 v1 v2 v3 v4)))))));
    fun L P => ok (obind (fp L P "0.000000003") (fun v0 => obind (Some (wrap (lty L) 7)) (fun v1 => obind (fp L P "0") (fun v2 => obind (fp L P "0") (fun v3 => obind (fp L P "0.000000001") (fun v4 => Some (case_rdiv_by_layout L P v0 v1 v2 v3 v4)))))));
    fun L P => ok (obind (fp L P "0.000000001") (fun v0 => obind (Some (wrap (lty L) 7)) (fun v1 => obind (fp L P "0") (fun v2 => obind (fp L P "0") (fun v3 => obind (fp L P "0.000000001") (fun v4 => Some (case_rdiv_by_layout L P v0 v1 v2 v3 v4)))))));
    fun L P => ok (obind (fp L P "14") (fun v0 => obind (Some (wrap (lty L) 3)) (fun v1 => obind (fp L P "4.666666666") (fun v2 => obind (fp L P "4.666666667") (fun v3 => obind (fp L P "4.666666667") (fun v4 => Some (case_rdiv_by_layout L P v0 v1 v2 v3 v4)))))));
    fun L P => ok (obind (fp L P "-14") (fun v0 => obind (Some (wrap (lty L) 3)) (fun v1 => obind (fp L P "-4.666666667") (fun v2 => obind (fp L P "-4.666666667") (fun v3 => obind (fp L P "-4.666666666") (fun v4 => Some (case_rdiv_by_layout L P v0 v1 v2 v3 v4)))))));
    fun L P => ok (obind (fp L P "-14") (fun v0 => obind (Some (wrap (lty L) (-3))) (fun v1 => obind (fp L P "4.666666666") (fun v2 => obind (fp L P "4.666666667") (fun v3 => obind (fp L P "4.666666667") (fun v4 => Some (case_rdiv_by_layout L P v0 v1 v2 v3 v4)))))));
    fun L P => ok (obind (fp L P "14") (fun v0 => obind (Some (wrap (lty L) (-3))) (fun v1 => obind (fp L P "-4.666666667") (fun v2 => obind (fp L P "-4.666666667") (fun v3 => obind (fp L P "-4.666666666") (fun v4 => Some (case_rdiv_by_layout L P v0 v1 v2 v3 v4)))))));
    fun L P => ok (obind (fp L P "0.000000003") (fun v0 => obind (Some (wrap (lty L) 2)) (fun v1 => obind (fp L P "0.000000001") (fun v2 => obind (fp L P "0.000000002") (fun v3 => obind (fp L P "0.000000002") (fun v4 => Some (case_rdiv_by_layout L P v0 v1 v2 v3 v4)))))));
    fun L P => ok (obind (fp L P "-0.000000003") (fun v0 => obind (Some (wrap (lty L) (-2))) (fun v1 => obind (fp L P "0.000000001") (fun v2 => obind (fp L P "0.000000002") (fun v3 => obind (fp L P "0.000000002") (fun v4 => Some (case_rdiv_by_layout L P v0 v1 v2 v3 v4)))))));
    fun L P => ok (obind (fp L P "-0.000000003") (fun v0 => obind (Some (wrap (lty L) 2)) (fun v1 => obind (fp L P "-0.000000002") (fun v2 => obind (fp L P "-0.000000002") (fun v3 => obind (fp L P "-0.000000001") (fun v4 => Some (case_rdiv_by_layout L P v0 v1 v2 v3 v4)))))));
    fun L P => ok (obind (fp L P "0.000000003") (fun v0 => obind (Some (wrap (lty L) (-2))) (fun v1 => obind (fp L P "-0.000000002") (fun v2 => obind (fp L P "-0.000000002") (fun v3 => obind (fp L P "-0.000000001") (fun v4 => Some (case_rdiv_by_layout L P v0 v1 v2 v3 v4))))))) ] = true.
Proof. vm_compute. reflexivity. Qed.

(** tests/it/ops.rs:170-225, section [fp128]. *)
Example test_rdiv_by_layout_fp128 : only128
  [ fun L P => ok (obind (fp L P "7") (fun v0 => obind (Some (wrap (lty L) 3)) (fun v1 => obind (fp L P "2.333333333333333333") (fun v2 => obind (fp L P "2.333333333333333333") (fun v3 => obind (fp L P "2.333333333333333334") (fun v4 => Some (case_rdiv_by_layout L P v0 v1 v2 v3 v4)))))));
    fun L P => ok (obind (fp L P "-7") (fun v0 => obind (Some (wrap (lty L) 3)) (fun v1 => obind (fp L P "-2.333333333333333334") (fun v2 => obind (fp L P "-2.333333333333333333") (fun v3 => obind (fp L P "-2.333333333333333333") (fun v4 => Some (case_rdiv_by_layout L P v0 v1 v2 v3 v4)))))));
    fun L P => ok (obind (fp L P "-7") (fun v0 => obind (Some (wrap (lty L) (-3))) (fun v1 => obind (fp L P "2.333333333333333333") (fun v2 => obind (fp L P "2.333333333333333333") (fun v3 => obind (fp L P "2.333333333333333334") (fun v4 => Some (case_rdiv_by_layout L P v0 v1 v2 v3 v4)))))));
    fun L P => ok (obind (fp L P "7") (fun v0 => obind (Some (wrap (lty L) (-3))) (fun v1 => obind (fp L P "-2.333333333333333334") (fun v2 => obind (fp L P "-2.333333333333333333") (fun v3 => obind (fp L P "-2.333333333333333333") (fun v4 => Some (case_rdiv_by_layout L P v0 v1 v2 v3 v4)))))));
    fun L P => ok (obind (fp L P "0.000000000000000003") (fun v0 => obind (Some (wrap (lty L) 7)) (fun v1 => obind (fp L P "0") (fun v2 => obind (fp L P "0") (fun v3 => obind (fp L P "0.000000000000000001") (fun v4 => Some (case_rdiv_by_layout L P v0 v1 v2 v3 v4)))))));
    fun L P => ok (obind (fp L P "0.000000000000000001") (fun v0 => obind (Some (wrap (lty L) 7)) (fun v1 => obind (fp L P "0") (fun v2 => obind (fp L P "0") (fun v3 => obind (fp L P "0.000000000000000001") (fun v4 => Some (case_rdiv_by_layout L P v0 v1 v2 v3 v4)))))));
    fun L P => ok (obind (fp L P "14") (fun v0 => obind (Some (wrap (lty L) 3)) (fun v1 => obind (fp L P "4.666666666666666666") (fun v2 => obind (fp L P "4.666666666666666667") (fun v3 => obind (fp L P "4.666666666666666667") (fun v4 => Some (case_rdiv_by_layout L P v0 v1 v2 v3 v4)))))));
    fun L P => ok (obind (fp L P "-14") (fun v0 => obind (Some (wrap (lty L) 3)) (fun v1 => obind (fp L P "-4.666666666666666667") (fun v2 => obind (fp L P "-4.666666666666666667") (fun v3 => obind (fp L P "-4.666666666666666666") (fun v4 => Some (case_rdiv_by_layout L P v0 v1 v2 v3 v4)))))));
    fun L P => ok (obind (fp L P "-14") (fun v0 => obind (Some (wrap (lty L) (-3))) (fun v1 => obind (fp L P "4.666666666666666666") (fun v2 => obind (fp L P "4.666666666666666667") (fun v3 => obind (fp L P "4.666666666666666667") (fun v4 => Some (case_rdiv_by_layout L P v0 v1 v2 v3 v4)))))));
    fun L P => ok (obind (fp L P "14") (fun v0 => obind (Some (wrap (lty L) (-3))) (fun v1 => obind (fp L P "-4.666666666666666667") (fun v2 => obind (fp L P "-4.666666666666666667") (fun v3 => obind (fp L P "-4.666666666666666666") (fun v4 => Some (case_rdiv_by_layout L P v0 v1 v2 v3 v4)))))));
    fun L P => ok (obind (fp L P "0.000000000000000003") (fun v0 => obind (Some (wrap (lty L) 2)) (fun v1 => obind (fp L P "0.000000000000000001") (fun v2 => obind (fp L P "0.000000000000000002") (fun v3 => obind (fp L P "0.000000000000000002") (fun v4 => Some (case_rdiv_by_layout L P v0 v1 v2 v3 v4)))))));
    fun L P => ok (obind (fp L P "-0.000000000000000003") (fun v0 => obind (Some (wrap (lty L) (-2))) (fun v1 => obind (fp L P "0.000000000000000001") (fun v2 => obind (fp L P "0.000000000000000002") (fun v3 => obind (fp L P "0.000000000000000002") (fun v4 => Some (case_rdiv_by_layout L P v0 v1 v2 v3 v4)))))));
    fun L P => ok (obind (fp L P "-0.000000000000000003") (fun v0 => obind (Some (wrap (lty L) 2)) (fun v1 => obind (fp L P "-0.000000000000000002") (fun v2 => obind (fp L P "-0.000000000000000002") (fun v3 => obind (fp L P "-0.000000000000000001") (fun v4 => Some (case_rdiv_by_layout L P v0 v1 v2 v3 v4)))))));
    fun L P => ok (obind (fp L P "0.000000000000000003") (fun v0 => obind (Some (wrap (lty L) (-2))) (fun v1 => obind (fp L P "-0.000000000000000002") (fun v2 => obind (fp L P "-0.000000000000000002") (fun v3 => obind (fp L P "-0.000000000000000001") (fun v4 => Some (case_rdiv_by_layout L P v0 v1 v2 v3 v4))))))) ] = true.
Proof. vm_compute. reflexivity. Qed.

(** tests/it/ops.rs:228-278, section [all]. *)
Example test_rdiv_round_all : both
  [ fun L P => ok (obind (fp L P "0") (fun v0 => obind (fp L P "42") (fun v1 => obind (fp L P "0") (fun v2 => obind (fp L P "0") (fun v3 => obind (fp L P "0") (fun v4 => Some (case_rdiv_round L P v0 v1 v2 v3 v4))))))) ] = true.
Proof. vm_compute. reflexivity. Qed.

(** tests/it/ops.rs:228-278, section [fp64]. *)
Example test_rdiv_round_fp64 : only64
  [ fun L P => ok (obind (fp L P "100") (fun v0 => obind (fp L P "3") (fun v1 => obind (fp L P "33.333333334") (fun v2 => obind (fp L P "33.333333333") (fun v3 => obind (fp L P "33.333333333") (fun v4 => Some (case_rdiv_round L P v0 v1 v2 v3 v4)))))));
    fun L P => ok (obind (fp L P "-100") (fun v0 => obind (fp L P "-3") (fun v1 => obind (fp L P "33.333333334") (fun v2 => obind (fp L P "33.333333333") (fun v3 => obind (fp L P "33.333333333") (fun v4 => Some (case_rdiv_round L P v0 v1 v2 v3 v4)))))));
    fun L P => ok (obind (fp L P "-100") (fun v0 => obind (fp L P "3") (fun v1 => obind (fp L P "-33.333333333") (fun v2 => obind (fp L P "-33.333333333") (fun v3 => obind (fp L P "-33.333333334") (fun v4 => Some (case_rdiv_round L P v0 v1 v2 v3 v4)))))));
    fun L P => ok (obind (fp L P "100") (fun v0 => obind (fp L P "-3") (fun v1 => obind (fp L P "-33.333333333") (fun v2 => obind (fp L P "-33.333333333") (fun v3 => obind (fp L P "-33.333333334") (fun v4 => Some (case_rdiv_round L P v0 v1 v2 v3 v4)))))));
    fun L P => ok (obind (fp L P "200") (fun v0 => obind (fp L P "3") (fun v1 => obind (fp L P "66.666666667") (fun v2 => obind (fp L P "66.666666667") (fun v3 => obind (fp L P "66.666666666") (fun v4 => Some (case_rdiv_round L P v0 v1 v2 v3 v4)))))));
    fun L P => ok (obind (fp L P "-200") (fun v0 => obind (fp L P "-3") (fun v1 => obind (fp L P "66.666666667") (fun v2 => obind (fp L P "66.666666667") (fun v3 => obind (fp L P "66.666666666") (fun v4 => Some (case_rdiv_round L P v0 v1 v2 v3 v4)))))));
    fun L P => ok (obind (fp L P "-200") (fun v0 => obind (fp L P "3") (fun v1 => obind (fp L P "-66.666666666") (fun v2 => obind (fp L P "-66.666666667") (fun v3 => obind (fp L P "-66.666666667") (fun v4 => Some (case_rdiv_round L P v0 v1 v2 v3 v4)))))));
    fun L P => ok (obind (fp L P "200") (fun v0 => obind (fp L P "-3") (fun v1 => obind (fp L P "-66.666666666") (fun v2 => obind (fp L P "-66.666666667") (fun v3 => obind (fp L P "-66.666666667") (fun v4 => Some (case_rdiv_round L P v0 v1 v2 v3 v4)))))));
    fun L P => ok (obind (fp L P "0.000000003") (fun v0 => obind (fp L P "2") (fun v1 => obind (fp L P "0.000000002") (fun v2 => obind (fp L P "0.000000002") (fun v3 => obind (fp L P "0.000000001") (fun v4 => Some (case_rdiv_round L P v0 v1 v2 v3 v4)))))));
    fun L P => ok (obind (fp L P "-0.000000003") (fun v0 => obind (fp L P "-2") (fun v1 => obind (fp L P "0.000000002") (fun v2 => obind (fp L P "0.000000002") (fun v3 => obind (fp L P "0.000000001") (fun v4 => Some (case_rdiv_round L P v0 v1 v2 v3 v4)))))));
    fun L P => ok (obind (fp L P "-0.000000003") (fun v0 => obind (fp L P "2") (fun v1 => obind (fp L P "-0.000000001") (fun v2 => obind (fp L P "-0.000000002") (fun v3 => obind (fp L P "-0.000000002") (fun v4 => Some (case_rdiv_round L P v0 v1 v2 v3 v4)))))));
    fun L P => ok (obind (fp L P "0.000000003") (fun v0 => obind (fp L P "-2") (fun v1 => obind (fp L P "-0.000000001") (fun v2 => obind (fp L P "-0.000000002") (fun v3 => obind (fp L P "-0.000000002") (fun v4 => Some (case_rdiv_round L P v0 v1 v2 v3 v4))))))) ] = true.
Proof. vm_compute. reflexivity. Qed.

(** tests/it/ops.rs:228-278, section [fp128]. *)
Example test_rdiv_round_fp128 : only128
  [ fun L P => ok (obind (fp L P "100") (fun v0 => obind (fp L P "3") (fun v1 => obind (fp L P "33.333333333333333334") (fun v2 => obind (fp L P "33.333333333333333333") (fun v3 => obind (fp L P "33.333333333333333333") (fun v4 => Some (case_rdiv_round L P v0 v1 v2 v3 v4)))))));
    fun L P => ok (obind (fp L P "-100") (fun v0 => obind (fp L P "-3") (fun v1 => obind (fp L P "33.333333333333333334") (fun v2 => obind (fp L P "33.333333333333333333") (fun v3 => obind (fp L P "33.333333333333333333") (fun v4 => Some (case_rdiv_round L P v0 v1 v2 v3 v4)))))));
    fun L P => ok (obind (fp L P "-100") (fun v0 => obind (fp L P "3") (fun v1 => obind (fp L P "-33.333333333333333333") (fun v2 => obind (fp L P "-33.333333333333333333") (fun v3 => obind (fp L P "-33.333333333333333334") (fun v4 => Some (case_rdiv_round L P v0 v1 v2 v3 v4)))))));
    fun L P => ok (obind (fp L P "100") (fun v0 => obind (fp L P "-3") (fun v1 => obind (fp L P "-33.333333333333333333") (fun v2 => obind (fp L P "-33.333333333333333333") (fun v3 => obind (fp L P "-33.333333333333333334") (fun v4 => Some (case_rdiv_round L P v0 v1 v2 v3 v4)))))));
    fun L P => ok (obind (fp L P "200") (fun v0 => obind (fp L P "3") (fun v1 => obind (fp L P "66.666666666666666667") (fun v2 => obind (fp L P "66.666666666666666667") (fun v3 => obind (fp L P "66.666666666666666666") (fun v4 => Some (case_rdiv_round L P v0 v1 v2 v3 v4)))))));
    fun L P => ok (obind (fp L P "-200") (fun v0 => obind (fp L P "-3") (fun v1 => obind (fp L P "66.666666666666666667") (fun v2 => obind (fp L P "66.666666666666666667") (fun v3 => obind (fp L P "66.666666666666666666") (fun v4 => Some (case_rdiv_round L P v0 v1 v2 v3 v4)))))));
    fun L P => ok (obind (fp L P "-200") (fun v0 => obind (fp L P "3") (fun v1 => obind (fp L P "-66.666666666666666666") (fun v2 => obind (fp L P "-66.666666666666666667") (fun v3 => obind (fp L P "-66.666666666666666667") (fun v4 => Some (case_rdiv_round L P v0 v1 v2 v3 v4)))))));
    fun L P => ok (obind (fp L P "200") (fun v0 => obind (fp L P "-3") (fun v1 => obind (fp L P "-66.666666666666666666") (fun v2 => obind (fp L P "-66.666666666666666667") (fun v3 => obind (fp L P "-66.666666666666666667") (fun v4 => Some (case_rdiv_round L P v0 v1 v2 v3 v4)))))));
    fun L P => ok (obind (fp L P "0.000000000000000003") (fun v0 => obind (fp L P "2") (fun v1 => obind (fp L P "0.000000000000000002") (fun v2 => obind (fp L P "0.000000000000000002") (fun v3 => obind (fp L P "0.000000000000000001") (fun v4 => Some (case_rdiv_round L P v0 v1 v2 v3 v4)))))));
    fun L P => ok (obind (fp L P "-0.000000000000000003") (fun v0 => obind (fp L P "-2") (fun v1 => obind (fp L P "0.000000000000000002") (fun v2 => obind (fp L P "0.000000000000000002") (fun v3 => obind (fp L P "0.000000000000000001") (fun v4 => Some (case_rdiv_round L P v0 v1 v2 v3 v4)))))));
    fun L P => ok (obind (fp L P "-0.000000000000000003") (fun v0 => obind (fp L P "2") (fun v1 => obind (fp L P "-0.000000000000000001") (fun v2 => obind (fp L P "-0.000000000000000002") (fun v3 => obind (fp L P "-0.000000000000000002") (fun v4 => Some (case_rdiv_round L P v0 v1 v2 v3 v4)))))));
    fun L P => ok (obind (fp L P "0.000000000000000003") (fun v0 => obind (fp L P "-2") (fun v1 => obind (fp L P "-0.000000000000000001") (fun v2 => obind (fp L P "-0.000000000000000002") (fun v3 => obind (fp L P "-0.000000000000000002") (fun v4 => Some (case_rdiv_round L P v0 v1 v2 v3 v4))))))) ] = true.
Proof. vm_compute. reflexivity. Qed.

(** tests/it/ops.rs:281-304, section [all]. *)
Example test_rdiv_layout_all : both
  [ fun L P => ok (obind (Some (wrap (lty L) 5)) (fun v0 => obind (Some (wrap (lty L) 2)) (fun v1 => obind (Some (wrap (lty L) 2)) (fun v2 => obind (Some (wrap (lty L) 3)) (fun v3 => Some (case_rdiv_layout L P v0 v1 v2 v3))))));
    fun L P => ok (obind (Some (wrap (lty L) 0)) (fun v0 => obind (Some (wrap (lty L) 5)) (fun v1 => obind (Some (wrap (lty L) 0)) (fun v2 => obind (Some (wrap (lty L) 0)) (fun v3 => Some (case_rdiv_layout L P v0 v1 v2 v3)))))) ] = true.
Proof. vm_compute. reflexivity. Qed.

(** tests/it/ops.rs:307-323, section [all]. *)
Example test_rdiv_division_by_zero_all : both
  [ fun L P => ok (obind (fp L P "0") (fun v0 => Some (case_rdiv_division_by_zero L P v0)));
    fun L P => ok (obind (fp L P "1") (fun v0 => Some (case_rdiv_division_by_zero L P v0)));
    fun L P => ok (obind (fp L P "-1") (fun v0 => Some (case_rdiv_division_by_zero L P v0)));
    fun L P => ok (obind (Some (MAX L)) (fun v0 => Some (case_rdiv_division_by_zero L P v0)));
    fun L P => ok (obind (Some (MIN L)) (fun v0 => Some (case_rdiv_division_by_zero L P v0))) ] = true.
Proof. vm_compute. reflexivity. Qed.

(** tests/it/ops.rs:326-342, section [all]. *)
Example test_rdiv_overflow_all : both
  [ fun L P => ok (obind (fp L P "0.999999999") (fun v0 => Some (case_rdiv_overflow L P v0))) ] = true.
Proof. vm_compute. reflexivity. Qed.

(** tests/it/ops.rs:326-342, section [fp128]. *)
Example test_rdiv_overflow_fp128 : only128
  [ fun L P => ok (obind (fp L P "0.999999999999999999") (fun v0 => Some (case_rdiv_overflow L P v0))) ] = true.
Proof. vm_compute. reflexivity. Qed.

(** tests/it/ops.rs:345-362, section [all]. *)
Example test_float_mul_all : both
  [ fun L P => ok (obind (fp L P "525") (fun v0 => obind (fp L P "10") (fun v1 => obind (fp L P "5250") (fun v2 => Some (case_float_mul L P v0 v1 v2)))));
    fun L P => ok (obind (fp L P "525") (fun v0 => obind (fp L P "0.0001") (fun v1 => obind (fp L P "0.0525") (fun v2 => Some (case_float_mul L P v0 v1 v2)))));
    fun L P => ok (obind (Some (MAX L)) (fun v0 => obind (one L P) (fun v1 => obind (Some (MAX L)) (fun v2 => Some (case_float_mul L P v0 v1 v2)))));
    fun L P => ok (obind (Some (MAX L / 10 * 10)) (fun v0 => obind (fp L P "0.1") (fun v1 => obind (Some (MAX L / 10)) (fun v2 => Some (case_float_mul L P v0 v1 v2))))) ] = true.
Proof. vm_compute. reflexivity. Qed.

(** tests/it/ops.rs:365-380, section [fp64]. *)
Example test_float_mul_overflow_fp64 : only64
  [ fun L P => ok (obind (fp L P "140000") (fun v0 => obind (fp L P "140000") (fun v1 => Some (case_float_mul_overflow L P v0 v1))));
    fun L P => ok (obind (fp L P "-140000") (fun v0 => obind (fp L P "140000") (fun v1 => Some (case_float_mul_overflow L P v0 v1)))) ] = true.
Proof. vm_compute. reflexivity. Qed.

(** tests/it/ops.rs:365-380, section [fp128]. *)
Example test_float_mul_overflow_fp128 : only128
  [ fun L P => ok (obind (fp L P "13043817826") (fun v0 => obind (fp L P "13043817825") (fun v1 => Some (case_float_mul_overflow L P v0 v1))));
    fun L P => ok (obind (fp L P "-13043817826") (fun v0 => obind (fp L P "13043817825") (fun v1 => Some (case_float_mul_overflow L P v0 v1)))) ] = true.
Proof. vm_compute. reflexivity. Qed.

(** tests/it/ops.rs:383-423, section [all]. *)
Example test_half_sum_exact_all : both
  [ fun L P => ok (obind (fp L P "0") (fun v0 => Some (case_half_sum_exact L P v0)));
    fun L P => ok (obind (fp L P "1") (fun v0 => Some (case_half_sum_exact L P v0)));
    fun L P => ok (obind (fp L P "-1") (fun v0 => Some (case_half_sum_exact L P v0)));
    fun L P => ok (obind (Some (MAX L)) (fun v0 => Some (case_half_sum_exact L P v0)));
    fun L P => ok (obind (Some (MIN L)) (fun v0 => Some (case_half_sum_exact L P v0))) ] = true.
Proof. vm_compute. reflexivity. Qed.

(** tests/it/ops.rs:383-423, section [all]. *)
Example test_half_sum_exact_2_all : both
  [ fun L P => ok (obind (fp L P "1") (fun v0 => obind (fp L P "3") (fun v1 => obind (fp L P "2") (fun v2 => Some (case_half_sum_exact_2 L P v0 v1 v2)))));
    fun L P => ok (obind (fp L P "1") (fun v0 => obind (fp L P "2") (fun v1 => obind (fp L P "1.5") (fun v2 => Some (case_half_sum_exact_2 L P v0 v1 v2)))));
    fun L P => ok (obind (fp L P "7.123456789") (fun v0 => obind (fp L P "7.123456783") (fun v1 => obind (fp L P "7.123456786") (fun v2 => Some (case_half_sum_exact_2 L P v0 v1 v2)))));
    fun L P => ok (obind (fp L P "9000") (fun v0 => obind (fp L P "9050") (fun v1 => obind (fp L P "9025") (fun v2 => Some (case_half_sum_exact_2 L P v0 v1 v2)))));
    fun L P => ok (obind (fp L P "9000") (fun v0 => obind (fp L P "-9000") (fun v1 => obind (fp L P "0") (fun v2 => Some (case_half_sum_exact_2 L P v0 v1 v2)))));
    fun L P => ok (obind (fp L P "9000000000") (fun v0 => obind (fp L P "9000000002") (fun v1 => obind (fp L P "9000000001") (fun v2 => Some (case_half_sum_exact_2 L P v0 v1 v2)))));
    fun L P => ok (obind (fp L P "9000000000.000000001") (fun v0 => obind (fp L P "-9000000000.000000005") (fun v1 => obind (fp L P "-0.000000002") (fun v2 => Some (case_half_sum_exact_2 L P v0 v1 v2)))));
    fun L P => ok (obind (Some (MAX L)) (fun v0 => obind (okr (cadd L (MIN L) EPSILON)) (fun v1 => obind (fp L P "0") (fun v2 => Some (case_half_sum_exact_2 L P v0 v1 v2))))) ] = true.
Proof. vm_compute. reflexivity. Qed.

(** tests/it/ops.rs:383-423, section [fp128]. *)
Example test_half_sum_exact_2_fp128 : only128
  [ fun L P => ok (obind (fp L P "7.123456789123456789") (fun v0 => obind (fp L P "7.123456789123456783") (fun v1 => obind (fp L P "7.123456789123456786") (fun v2 => Some (case_half_sum_exact_2 L P v0 v1 v2))))) ] = true.
Proof. vm_compute. reflexivity. Qed.

(** tests/it/ops.rs:426-452, section [all]. *)
Example test_half_sum_rounded_all : both
  [ fun L P => ok (obind (Some (MIN L)) (fun v0 => obind (Some (MAX L)) (fun v1 => obind (okr (cneg L EPSILON)) (fun v2 => obind (fp L P "0") (fun v3 => Some (case_half_sum_rounded L P v0 v1 v2 v3)))))) ] = true.
Proof. vm_compute. reflexivity. Qed.

(** tests/it/ops.rs:426-452, section [fp64]. *)
Example test_half_sum_rounded_fp64 : only64
  [ fun L P => ok (obind (fp L P "9000000000.000000394") (fun v0 => obind (fp L P "9000000001.000000397") (fun v1 => obind (fp L P "9000000000.500000395") (fun v2 => obind (fp L P "9000000000.500000396") (fun v3 => Some (case_half_sum_rounded L P v0 v1 v2 v3))))));
    fun L P => ok (obind (fp L P "9000000000.000000001") (fun v0 => obind (fp L P "-9000000000.000000006") (fun v1 => obind (fp L P "-0.000000003") (fun v2 => obind (fp L P "-0.000000002") (fun v3 => Some (case_half_sum_rounded L P v0 v1 v2 v3))))));
    fun L P => ok (obind (fp L P "7.123456789") (fun v0 => obind (fp L P "7.123456788") (fun v1 => obind (fp L P "7.123456788") (fun v2 => obind (fp L P "7.123456789") (fun v3 => Some (case_half_sum_rounded L P v0 v1 v2 v3)))))) ] = true.
Proof. vm_compute. reflexivity. Qed.

(** tests/it/ops.rs:426-452, section [fp128]. *)
Example test_half_sum_rounded_fp128 : only128
  [ fun L P => ok (obind (fp L P "7.123456789123456789") (fun v0 => obind (fp L P "7.123456789123456788") (fun v1 => obind (fp L P "7.123456789123456788") (fun v2 => obind (fp L P "7.123456789123456789") (fun v3 => Some (case_half_sum_rounded L P v0 v1 v2 v3)))))) ] = true.
Proof. vm_compute. reflexivity. Qed.

(** tests/it/ops.rs:455-479, section [all]. *)
Example test_integral_all : both
  [ fun L P => ok (obind (fp L P "0") (fun v0 => obind (Some (wrap (lty L) 0)) (fun v1 => obind (Some (wrap (lty L) 0)) (fun v2 => obind (Some (wrap (lty L) 0)) (fun v3 => Some (case_integral L P v0 v1 v2 v3))))));
    fun L P => ok (obind (fp L P "0.0001") (fun v0 => obind (Some (wrap (lty L) 0)) (fun v1 => obind (Some (wrap (lty L) 1)) (fun v2 => obind (Some (wrap (lty L) 0)) (fun v3 => Some (case_integral L P v0 v1 v2 v3))))));
    fun L P => ok (obind (fp L P "0.5") (fun v0 => obind (Some (wrap (lty L) 0)) (fun v1 => obind (Some (wrap (lty L) 1)) (fun v2 => obind (Some (wrap (lty L) 1)) (fun v3 => Some (case_integral L P v0 v1 v2 v3))))));
    fun L P => ok (obind (fp L P "0.9") (fun v0 => obind (Some (wrap (lty L) 0)) (fun v1 => obind (Some (wrap (lty L) 1)) (fun v2 => obind (Some (wrap (lty L) 1)) (fun v3 => Some (case_integral L P v0 v1 v2 v3))))));
    fun L P => ok (obind (fp L P "-0.0001") (fun v0 => obind (Some (wrap (lty L) (-1))) (fun v1 => obind (Some (wrap (lty L) 0)) (fun v2 => obind (Some (wrap (lty L) 0)) (fun v3 => Some (case_integral L P v0 v1 v2 v3))))));
    fun L P => ok (obind (fp L P "-0.5") (fun v0 => obind (Some (wrap (lty L) (-1))) (fun v1 => obind (Some (wrap (lty L) 0)) (fun v2 => obind (Some (wrap (lty L) (-1))) (fun v3 => Some (case_integral L P v0 v1 v2 v3))))));
    fun L P => ok (obind (fp L P "-0.9") (fun v0 => obind (Some (wrap (lty L) (-1))) (fun v1 => obind (Some (wrap (lty L) 0)) (fun v2 => obind (Some (wrap (lty L) (-1))) (fun v3 => Some (case_integral L P v0 v1 v2 v3))))));
    fun L P => ok (obind (fp L P "2.0001") (fun v0 => obind (Some (wrap (lty L) 2)) (fun v1 => obind (Some (wrap (lty L) 3)) (fun v2 => obind (Some (wrap (lty L) 2)) (fun v3 => Some (case_integral L P v0 v1 v2 v3))))));
    fun L P => ok (obind (fp L P "2.5") (fun v0 => obind (Some (wrap (lty L) 2)) (fun v1 => obind (Some (wrap (lty L) 3)) (fun v2 => obind (Some (wrap (lty L) 3)) (fun v3 => Some (case_integral L P v0 v1 v2 v3))))));
    fun L P => ok (obind (fp L P "2.9") (fun v0 => obind (Some (wrap (lty L) 2)) (fun v1 => obind (Some (wrap (lty L) 3)) (fun v2 => obind (Some (wrap (lty L) 3)) (fun v3 => Some (case_integral L P v0 v1 v2 v3))))));
    fun L P => ok (obind (fp L P "-2.0001") (fun v0 => obind (Some (wrap (lty L) (-3))) (fun v1 => obind (Some (wrap (lty L) (-2))) (fun v2 => obind (Some (wrap (lty L) (-2))) (fun v3 => Some (case_integral L P v0 v1 v2 v3))))));
    fun L P => ok (obind (fp L P "-2.5") (fun v0 => obind (Some (wrap (lty L) (-3))) (fun v1 => obind (Some (wrap (lty L) (-2))) (fun v2 => obind (Some (wrap (lty L) (-3))) (fun v3 => Some (case_integral L P v0 v1 v2 v3))))));
    fun L P => ok (obind (fp L P "-2.9") (fun v0 => obind (Some (wrap (lty L) (-3))) (fun v1 => obind (Some (wrap (lty L) (-2))) (fun v2 => obind (Some (wrap (lty L) (-3))) (fun v3 => Some (case_integral L P v0 v1 v2 v3)))))) ] = true.
Proof. vm_compute. reflexivity. Qed.

(** tests/it/ops.rs:482-504, section [all]. *)
Example test_round_towards_zero_by_all : both
  [ fun L P => ok (obind (fp L P "1234.56789") (fun v0 => obind (fp L P "100") (fun v1 => obind (fp L P "1200") (fun v2 => Some (case_round_towards_zero_by L P v0 v1 v2)))));
    fun L P => ok (obind (fp L P "1234.56789") (fun v0 => obind (fp L P "10") (fun v1 => obind (fp L P "1230") (fun v2 => Some (case_round_towards_zero_by L P v0 v1 v2)))));
    fun L P => ok (obind (fp L P "1234.56789") (fun v0 => obind (fp L P "1") (fun v1 => obind (fp L P "1234") (fun v2 => Some (case_round_towards_zero_by L P v0 v1 v2)))));
    fun L P => ok (obind (fp L P "1234.56789") (fun v0 => obind (fp L P "0.1") (fun v1 => obind (fp L P "1234.5") (fun v2 => Some (case_round_towards_zero_by L P v0 v1 v2)))));
    fun L P => ok (obind (fp L P "1234.56789") (fun v0 => obind (fp L P "0.01") (fun v1 => obind (fp L P "1234.56") (fun v2 => Some (case_round_towards_zero_by L P v0 v1 v2)))));
    fun L P => ok (obind (fp L P "1234.56789") (fun v0 => obind (fp L P "0.001") (fun v1 => obind (fp L P "1234.567") (fun v2 => Some (case_round_towards_zero_by L P v0 v1 v2)))));
    fun L P => ok (obind (fp L P "1234.56789") (fun v0 => obind (fp L P "0.0001") (fun v1 => obind (fp L P "1234.5678") (fun v2 => Some (case_round_towards_zero_by L P v0 v1 v2)))));
    fun L P => ok (obind (fp L P "1234.56789") (fun v0 => obind (fp L P "0.00001") (fun v1 => obind (fp L P "1234.56789") (fun v2 => Some (case_round_towards_zero_by L P v0 v1 v2))))) ] = true.
Proof. vm_compute. reflexivity. Qed.

(** tests/it/ops.rs:482-504, section [fp128]. *)
Example test_round_towards_zero_by_fp128 : only128
  [ fun L P => ok (obind (fp L P "1234.56789123456789") (fun v0 => obind (fp L P "0.0000000000001") (fun v1 => obind (fp L P "1234.5678912345678") (fun v2 => Some (case_round_towards_zero_by L P v0 v1 v2)))));
    fun L P => ok (obind (fp L P "1234.56789123456789") (fun v0 => obind (fp L P "0.00000000000001") (fun v1 => obind (fp L P "1234.56789123456789") (fun v2 => Some (case_round_towards_zero_by L P v0 v1 v2))))) ] = true.
Proof. vm_compute. reflexivity. Qed.

(** tests/it/ops.rs:507-580, section [all]. *)
Example test_next_power_of_ten_all : both
  [ fun L P => ok (obind (fp L P "0.000000001") (fun v0 => obind (fp L P "0.000000001") (fun v1 => Some (case_next_power_of_ten L P v0 v1))));
    fun L P => ok (obind (fp L P "0.000000002") (fun v0 => obind (fp L P "0.00000001") (fun v1 => Some (case_next_power_of_ten L P v0 v1))));
    fun L P => ok (obind (fp L P "0.000000009") (fun v0 => obind (fp L P "0.00000001") (fun v1 => Some (case_next_power_of_ten L P v0 v1))));
    fun L P => ok (obind (fp L P "0.0000001") (fun v0 => obind (fp L P "0.0000001") (fun v1 => Some (case_next_power_of_ten L P v0 v1))));
    fun L P => ok (obind (fp L P "0.0000002") (fun v0 => obind (fp L P "0.000001") (fun v1 => Some (case_next_power_of_ten L P v0 v1))));
    fun L P => ok (obind (fp L P "0.1") (fun v0 => obind (fp L P "0.1") (fun v1 => Some (case_next_power_of_ten L P v0 v1))));
    fun L P => ok (obind (fp L P "0.100000001") (fun v0 => obind (fp L P "1") (fun v1 => Some (case_next_power_of_ten L P v0 v1))));
    fun L P => ok (obind (fp L P "1") (fun v0 => obind (fp L P "1") (fun v1 => Some (case_next_power_of_ten L P v0 v1))));
    fun L P => ok (obind (fp L P "2") (fun v0 => obind (fp L P "10") (fun v1 => Some (case_next_power_of_ten L P v0 v1))));
    fun L P => ok (obind (fp L P "1234567") (fun v0 => obind (fp L P "10000000") (fun v1 => Some (case_next_power_of_ten L P v0 v1))));
    fun L P => ok (obind (fp L P "923372036.654775807") (fun v0 => obind (fp L P "1000000000") (fun v1 => Some (case_next_power_of_ten L P v0 v1))));
    fun L P => ok (obind (fp L P "-0.000000001") (fun v0 => obind (fp L P "-0.000000001") (fun v1 => Some (case_next_power_of_ten L P v0 v1))));
    fun L P => ok (obind (fp L P "-0.000000002") (fun v0 => obind (fp L P "-0.00000001") (fun v1 => Some (case_next_power_of_ten L P v0 v1))));
    fun L P => ok (obind (fp L P "-0.000000009") (fun v0 => obind (fp L P "-0.00000001") (fun v1 => Some (case_next_power_of_ten L P v0 v1))));
    fun L P => ok (obind (fp L P "-0.00000001") (fun v0 => obind (fp L P "-0.00000001") (fun v1 => Some (case_next_power_of_ten L P v0 v1))));
    fun L P => ok (obind (fp L P "-0.00000002") (fun v0 => obind (fp L P "-0.0000001") (fun v1 => Some (case_next_power_of_ten L P v0 v1))));
    fun L P => ok (obind (fp L P "-0.100000001") (fun v0 => obind (fp L P "-1") (fun v1 => Some (case_next_power_of_ten L P v0 v1))));
    fun L P => ok (obind (fp L P "-923372021.854775808") (fun v0 => obind (fp L P "-1000000000") (fun v1 => Some (case_next_power_of_ten L P v0 v1)))) ] = true.
Proof. vm_compute. reflexivity. Qed.

(** tests/it/ops.rs:507-580, section [fp128]. *)
Example test_next_power_of_ten_fp128 : only128
  [ fun L P => ok (obind (fp L P "0.000000000000000001") (fun v0 => obind (fp L P "0.000000000000000001") (fun v1 => Some (case_next_power_of_ten L P v0 v1))));
    fun L P => ok (obind (fp L P "0.000000000000000002") (fun v0 => obind (fp L P "0.00000000000000001") (fun v1 => Some (case_next_power_of_ten L P v0 v1))));
    fun L P => ok (obind (fp L P "0.000000000000000009") (fun v0 => obind (fp L P "0.00000000000000001") (fun v1 => Some (case_next_power_of_ten L P v0 v1))));
    fun L P => ok (obind (fp L P "0.00000000000000001") (fun v0 => obind (fp L P "0.00000000000000001") (fun v1 => Some (case_next_power_of_ten L P v0 v1))));
    fun L P => ok (obind (fp L P "0.00000000000000002") (fun v0 => obind (fp L P "0.0000000000000001") (fun v1 => Some (case_next_power_of_ten L P v0 v1))));
    fun L P => ok (obind (fp L P "0.100000000000000001") (fun v0 => obind (fp L P "1") (fun v1 => Some (case_next_power_of_ten L P v0 v1))));
    fun L P => ok (obind (fp L P "1234567891234567") (fun v0 => obind (fp L P "10000000000000000") (fun v1 => Some (case_next_power_of_ten L P v0 v1))));
    fun L P => ok (obind (fp L P "923372036987654321.854775807") (fun v0 => obind (fp L P "1000000000000000000") (fun v1 => Some (case_next_power_of_ten L P v0 v1))));
    fun L P => ok (obind (fp L P "-0.000000000000000001") (fun v0 => obind (fp L P "-0.000000000000000001") (fun v1 => Some (case_next_power_of_ten L P v0 v1))));
    fun L P => ok (obind (fp L P "-0.000000000000000002") (fun v0 => obind (fp L P "-0.00000000000000001") (fun v1 => Some (case_next_power_of_ten L P v0 v1))));
    fun L P => ok (obind (fp L P "-0.000000000000000009") (fun v0 => obind (fp L P "-0.00000000000000001") (fun v1 => Some (case_next_power_of_ten L P v0 v1))));
    fun L P => ok (obind (fp L P "-0.00000000000000001") (fun v0 => obind (fp L P "-0.00000000000000001") (fun v1 => Some (case_next_power_of_ten L P v0 v1))));
    fun L P => ok (obind (fp L P "-0.00000000000000002") (fun v0 => obind (fp L P "-0.0000000000000001") (fun v1 => Some (case_next_power_of_ten L P v0 v1))));
    fun L P => ok (obind (fp L P "-0.100000000000000001") (fun v0 => obind (fp L P "-1") (fun v1 => Some (case_next_power_of_ten L P v0 v1))));
    fun L P => ok (obind (fp L P "-923372036987654321.854775808") (fun v0 => obind (fp L P "-1000000000000000000") (fun v1 => Some (case_next_power_of_ten L P v0 v1)))) ] = true.
Proof. vm_compute. reflexivity. Qed.

(** tests/it/ops.rs:507-580, section [fp64]. *)
Example test_next_power_of_ten_2_fp64 : only64
  [ fun L P => ok (obind (fp L P "0") (fun v0 => obind (fp L P "0.000000001") (fun v1 => Some (case_next_power_of_ten_2 L P v0 v1)))) ] = true.
Proof. vm_compute. reflexivity. Qed.

(** tests/it/ops.rs:507-580, section [fp128]. *)
Example test_next_power_of_ten_2_fp128 : only128
  [ fun L P => ok (obind (fp L P "0") (fun v0 => obind (fp L P "0.000000000000000001") (fun v1 => Some (case_next_power_of_ten_2 L P v0 v1)))) ] = true.
Proof. vm_compute. reflexivity. Qed.

(** tests/it/ops.rs:507-580, section [all]. *)
Example test_next_power_of_ten_3_all : both
  [ fun L P => ok (obind (Some (MAX L)) (fun v0 => Some (case_next_power_of_ten_3 L P v0)));
    fun L P => ok (obind (Some (MIN L)) (fun v0 => Some (case_next_power_of_ten_3 L P v0))) ] = true.
Proof. vm_compute. reflexivity. Qed.

(** tests/it/ops.rs:507-580, section [fp64]. *)
Example test_next_power_of_ten_3_fp64 : only64
  [ fun L P => ok (obind (fp L P "9223372036.654775807") (fun v0 => Some (case_next_power_of_ten_3 L P v0)));
    fun L P => ok (obind (fp L P "-9223372036.654775807") (fun v0 => Some (case_next_power_of_ten_3 L P v0))) ] = true.
Proof. vm_compute. reflexivity. Qed.

(** tests/it/ops.rs:507-580, section [fp128]. *)
Example test_next_power_of_ten_3_fp128 : only128
  [ fun L P => ok (obind (fp L P "150000000000000000000.0") (fun v0 => Some (case_next_power_of_ten_3 L P v0)));
    fun L P => ok (obind (fp L P "-150000000000000000000.854775807") (fun v0 => Some (case_next_power_of_ten_3 L P v0))) ] = true.
Proof. vm_compute. reflexivity. Qed.

(** tests/it/ops.rs:583-624, section [all]. *)
Example test_saturating_add_all : both
  [ fun L P => ok (obind (fp L P "0") (fun v0 => obind (fp L P "0") (fun v1 => obind (fp L P "0") (fun v2 => Some (case_saturating_add L P v0 v1 v2)))));
    fun L P => ok (obind (fp L P "0") (fun v0 => obind (fp L P "3000.0000006") (fun v1 => obind (fp L P "3000.0000006") (fun v2 => Some (case_saturating_add L P v0 v1 v2)))));
    fun L P => ok (obind (fp L P "-1000.0000002") (fun v0 => obind (fp L P "0") (fun v1 => obind (fp L P "-1000.0000002") (fun v2 => Some (case_saturating_add L P v0 v1 v2)))));
    fun L P => ok (obind (fp L P "-1000.0000002") (fun v0 => obind (fp L P "3000.0000006") (fun v1 => obind (fp L P "2000.0000004") (fun v2 => Some (case_saturating_add L P v0 v1 v2)))));
    fun L P => ok (obind (fp L P "-1000.0000002") (fun v0 => obind (fp L P "-3000.0000006") (fun v1 => obind (fp L P "-4000.0000008") (fun v2 => Some (case_saturating_add L P v0 v1 v2)))));
    fun L P => ok (obind (fp L P "4611686018.427387903") (fun v0 => obind (fp L P "4611686018.427387903") (fun v1 => obind (fp L P "9223372036.854775806") (fun v2 => Some (case_saturating_add L P v0 v1 v2))))) ] = true.
Proof. vm_compute. reflexivity. Qed.

(** tests/it/ops.rs:583-624, section [fp128]. *)
Example test_saturating_add_fp128 : only128
  [ fun L P => ok (obind (fp L P "0") (fun v0 => obind (fp L P "3000000000000.0000000000000006") (fun v1 => obind (fp L P "3000000000000.0000000000000006") (fun v2 => Some (case_saturating_add L P v0 v1 v2)))));
    fun L P => ok (obind (fp L P "-1000000000000.0000000000000002") (fun v0 => obind (fp L P "0") (fun v1 => obind (fp L P "-1000000000000.0000000000000002") (fun v2 => Some (case_saturating_add L P v0 v1 v2)))));
    fun L P => ok (obind (fp L P "-1000000000000.0000000000000002") (fun v0 => obind (fp L P "3000000000000.0000000000000006") (fun v1 => obind (fp L P "2000000000000.0000000000000004") (fun v2 => Some (case_saturating_add L P v0 v1 v2)))));
    fun L P => ok (obind (fp L P "-1000000000000.0000000000000002") (fun v0 => obind (fp L P "-3000000000000.0000000000000006") (fun v1 => obind (fp L P "-4000000000000.0000000000000008") (fun v2 => Some (case_saturating_add L P v0 v1 v2)))));
    fun L P => ok (obind (fp L P "4611686018000000000.000000000427387903") (fun v0 => obind (fp L P "4611686018000000000.000000000427387903") (fun v1 => obind (fp L P "9223372036000000000.000000000854775806") (fun v2 => Some (case_saturating_add L P v0 v1 v2))))) ] = true.
Proof. vm_compute. reflexivity. Qed.

(** tests/it/ops.rs:583-624, section [fp64]. *)
Example test_saturating_add_2_fp64 : only64
  [ fun L P => ok (obind (fp L P "9222222222") (fun v0 => obind (fp L P "9222222222") (fun v1 => obind (Some (MAX L)) (fun v2 => Some (case_saturating_add_2 L P v0 v1 v2)))));
    fun L P => ok (obind (fp L P "4611686019") (fun v0 => obind (fp L P "4611686018.427387903") (fun v1 => obind (Some (MAX L)) (fun v2 => Some (case_saturating_add_2 L P v0 v1 v2)))));
    fun L P => ok (obind (fp L P "-9222222222") (fun v0 => obind (fp L P "-9222222222") (fun v1 => obind (Some (MIN L)) (fun v2 => Some (case_saturating_add_2 L P v0 v1 v2)))));
    fun L P => ok (obind (fp L P "-4611686019") (fun v0 => obind (fp L P "-4611686018.427387903") (fun v1 => obind (Some (MIN L)) (fun v2 => Some (case_saturating_add_2 L P v0 v1 v2))))) ] = true.
Proof. vm_compute. reflexivity. Qed.

(** tests/it/ops.rs:583-624, section [fp128]. *)
Example test_saturating_add_2_fp128 : only128
  [ fun L P => ok (obind (fp L P "85550005550005550005") (fun v0 => obind (fp L P "85550005550005550005") (fun v1 => obind (Some (MAX L)) (fun v2 => Some (case_saturating_add_2 L P v0 v1 v2)))));
    fun L P => ok (obind (fp L P "85550005550005550005") (fun v0 => obind (fp L P "85550005550005550005.000000000427387") (fun v1 => obind (Some (MAX L)) (fun v2 => Some (case_saturating_add_2 L P v0 v1 v2)))));
    fun L P => ok (obind (fp L P "-85550005550005550005") (fun v0 => obind (fp L P "-85550005550005550005") (fun v1 => obind (Some (MIN L)) (fun v2 => Some (case_saturating_add_2 L P v0 v1 v2)))));
    fun L P => ok (obind (fp L P "-85550005550005550005") (fun v0 => obind (fp L P "-85550005550005550005.000000000427387") (fun v1 => obind (Some (MIN L)) (fun v2 => Some (case_saturating_add_2 L P v0 v1 v2))))) ] = true.
Proof. vm_compute. reflexivity. Qed.

(** tests/it/ops.rs:627-673, section [all]. *)
Example test_saturating_mul_all : both
  [ fun L P => ok (obind (fp L P "0") (fun v0 => obind (Some (wrap (lty L) 0)) (fun v1 => obind (fp L P "0") (fun v2 => Some (case_saturating_mul L P v0 v1 v2)))));
    fun L P => ok (obind (fp L P "3000.0000006") (fun v0 => obind (Some (wrap (lty L) 0)) (fun v1 => obind (fp L P "0") (fun v2 => Some (case_saturating_mul L P v0 v1 v2)))));
    fun L P => ok (obind (fp L P "3000.0000006") (fun v0 => obind (Some (wrap (lty L) 1)) (fun v1 => obind (fp L P "3000.0000006") (fun v2 => Some (case_saturating_mul L P v0 v1 v2)))));
    fun L P => ok (obind (fp L P "-1000.0000002") (fun v0 => obind (Some (wrap (lty L) 0)) (fun v1 => obind (fp L P "0") (fun v2 => Some (case_saturating_mul L P v0 v1 v2)))));
    fun L P => ok (obind (fp L P "-1000.0000002") (fun v0 => obind (Some (wrap (lty L) 3)) (fun v1 => obind (fp L P "-3000.0000006") (fun v2 => Some (case_saturating_mul L P v0 v1 v2)))));
    fun L P => ok (obind (fp L P "-1000.0000002") (fun v0 => obind (Some (wrap (lty L) (-4))) (fun v1 => obind (fp L P "4000.0000008") (fun v2 => Some (case_saturating_mul L P v0 v1 v2)))));
    fun L P => ok (obind (fp L P "68601.48179") (fun v0 => obind (Some (wrap (lty L) (-468))) (fun v1 => obind (fp L P "-32105493.47772") (fun v2 => Some (case_saturating_mul L P v0 v1 v2))))) ] = true.
Proof. vm_compute. reflexivity. Qed.

(** tests/it/ops.rs:627-673, section [fp128]. *)
Example test_saturating_mul_fp128 : only128
  [ fun L P => ok (obind (fp L P "3000000000000.0000000000000006") (fun v0 => obind (Some (wrap (lty L) 0)) (fun v1 => obind (Some ZERO) (fun v2 => Some (case_saturating_mul L P v0 v1 v2)))));
    fun L P => ok (obind (fp L P "3000000000000.0000000000000006") (fun v0 => obind (Some (wrap (lty L) 1)) (fun v1 => obind (fp L P "3000000000000.0000000000000006") (fun v2 => Some (case_saturating_mul L P v0 v1 v2)))));
    fun L P => ok (obind (fp L P "-1000000000000.0000000000000002") (fun v0 => obind (Some (wrap (lty L) 0)) (fun v1 => obind (Some ZERO) (fun v2 => Some (case_saturating_mul L P v0 v1 v2)))));
    fun L P => ok (obind (fp L P "-1000000000000.0000000000000002") (fun v0 => obind (Some (wrap (lty L) 3)) (fun v1 => obind (fp L P "-3000000000000.0000000000000006") (fun v2 => Some (case_saturating_mul L P v0 v1 v2)))));
    fun L P => ok (obind (fp L P "-1000000000000.0000000000000002") (fun v0 => obind (Some (wrap (lty L) (-4))) (fun v1 => obind (fp L P "4000000000000.0000000000000008") (fun v2 => Some (case_saturating_mul L P v0 v1 v2)))));
    fun L P => ok (obind (fp L P "68603957391461.48475635294179") (fun v0 => obind (Some (wrap (lty L) (-85204))) (fun v1 => obind (fp L P "-5845331585582084347.18029605227516") (fun v2 => Some (case_saturating_mul L P v0 v1 v2))))) ] = true.
Proof. vm_compute. reflexivity. Qed.

(** tests/it/ops.rs:627-673, section [fp64]. *)
Example test_saturating_mul_2_fp64 : only64
  [ fun L P => ok (obind (fp L P "9222222222") (fun v0 => obind (Some 9222222222) (fun v1 => obind (Some (MAX L)) (fun v2 => Some (case_saturating_mul_2 L P v0 v1 v2)))));
    fun L P => ok (obind (fp L P "4611686019.427387903") (fun v0 => obind (Some 4611686019) (fun v1 => obind (Some (MAX L)) (fun v2 => Some (case_saturating_mul_2 L P v0 v1 v2)))));
    fun L P => ok (obind (fp L P "-9222222222") (fun v0 => obind (Some 9222222222) (fun v1 => obind (Some (MIN L)) (fun v2 => Some (case_saturating_mul_2 L P v0 v1 v2)))));
    fun L P => ok (obind (fp L P "4611686019.427387903") (fun v0 => obind (Some (-4611686019)) (fun v1 => obind (Some (MIN L)) (fun v2 => Some (case_saturating_mul_2 L P v0 v1 v2))))) ] = true.
Proof. vm_compute. reflexivity. Qed.

(** tests/it/ops.rs:627-673, section [fp128]. *)
Example test_saturating_mul_2_fp128 : only128
  [ fun L P => ok (obind (fp L P "85550005550005550005") (fun v0 => obind (Some 85550005550005550005) (fun v1 => obind (Some (MAX L)) (fun v2 => Some (case_saturating_mul_2 L P v0 v1 v2)))));
    fun L P => ok (obind (fp L P "14000444000.427387") (fun v0 => obind (Some 14000444000) (fun v1 => obind (Some (MAX L)) (fun v2 => Some (case_saturating_mul_2 L P v0 v1 v2)))));
    fun L P => ok (obind (fp L P "-85550005550005550005") (fun v0 => obind (Some 85550005550005550005) (fun v1 => obind (Some (MIN L)) (fun v2 => Some (case_saturating_mul_2 L P v0 v1 v2)))));
    fun L P => ok (obind (fp L P "14000444000.427387") (fun v0 => obind (Some (-14000444000)) (fun v1 => obind (Some (MIN L)) (fun v2 => Some (case_saturating_mul_2 L P v0 v1 v2))))) ] = true.
Proof. vm_compute. reflexivity. Qed.

(** tests/it/ops.rs:676-728, section [all]. *)
Example test_saturating_rmul_all : both
  [ fun L P => ok (obind (fp L P "0") (fun v0 => obind (fp L P "0") (fun v1 => obind (fp L P "0") (fun v2 => Some (case_saturating_rmul L P v0 v1 v2)))));
    fun L P => ok (obind (fp L P "0") (fun v0 => obind (fp L P "3000.0000006") (fun v1 => obind (fp L P "0") (fun v2 => Some (case_saturating_rmul L P v0 v1 v2)))));
    fun L P => ok (obind (fp L P "1") (fun v0 => obind (fp L P "3000.0000006") (fun v1 => obind (fp L P "3000.0000006") (fun v2 => Some (case_saturating_rmul L P v0 v1 v2)))));
    fun L P => ok (obind (fp L P "-1000.0000002") (fun v0 => obind (fp L P "0") (fun v1 => obind (fp L P "0") (fun v2 => Some (case_saturating_rmul L P v0 v1 v2)))));
    fun L P => ok (obind (fp L P "-1000.0000002") (fun v0 => obind (fp L P "3") (fun v1 => obind (fp L P "-3000.0000006") (fun v2 => Some (case_saturating_rmul L P v0 v1 v2)))));
    fun L P => ok (obind (fp L P "-1000.0000002") (fun v0 => obind (fp L P "-4") (fun v1 => obind (fp L P "4000.0000008") (fun v2 => Some (case_saturating_rmul L P v0 v1 v2)))));
    fun L P => ok (obind (fp L P "68601.48179") (fun v0 => obind (fp L P "-468.28") (fun v1 => obind (fp L P "-32124701.8926212") (fun v2 => Some (case_saturating_rmul L P v0 v1 v2))))) ] = true.
Proof. vm_compute. reflexivity. Qed.

(** tests/it/ops.rs:676-728, section [fp128]. *)
Example test_saturating_rmul_fp128 : only128
  [ fun L P => ok (obind (fp L P "0") (fun v0 => obind (fp L P "3000000000000.0000000000000006") (fun v1 => obind (fp L P "0") (fun v2 => Some (case_saturating_rmul L P v0 v1 v2)))));
    fun L P => ok (obind (fp L P "1") (fun v0 => obind (fp L P "3000000000000.0000000000000006") (fun v1 => obind (fp L P "3000000000000.0000000000000006") (fun v2 => Some (case_saturating_rmul L P v0 v1 v2)))));
    fun L P => ok (obind (fp L P "-1000000000000.0000000000000002") (fun v0 => obind (fp L P "0") (fun v1 => obind (fp L P "0") (fun v2 => Some (case_saturating_rmul L P v0 v1 v2)))));
    fun L P => ok (obind (fp L P "-1000000000000.0000000000000002") (fun v0 => obind (fp L P "3") (fun v1 => obind (fp L P "-3000000000000.0000000000000006") (fun v2 => Some (case_saturating_rmul L P v0 v1 v2)))));
    fun L P => ok (obind (fp L P "-1000000000000.0000000000000002") (fun v0 => obind (fp L P "-4") (fun v1 => obind (fp L P "4000000000000.0000000000000008") (fun v2 => Some (case_saturating_rmul L P v0 v1 v2))))) ] = true.
Proof. vm_compute. reflexivity. Qed.

(** tests/it/ops.rs:676-728, section [fp64]. *)
Example test_saturating_rmul_2_fp64 : only64
  [ fun L P => ok (obind (fp L P "0.000000001") (fun v0 => obind (fp L P "-0.1") (fun v1 => obind (Some Floor) (fun v2 => obind (fp L P "-0.000000001") (fun v3 => Some (case_saturating_rmul_2 L P v0 v1 v2 v3))))));
    fun L P => ok (obind (fp L P "0.000000001") (fun v0 => obind (fp L P "0.1") (fun v1 => obind (Some Ceil) (fun v2 => obind (fp L P "0.000000001") (fun v3 => Some (case_saturating_rmul_2 L P v0 v1 v2 v3))))));
    fun L P => ok (obind (fp L P "0.000000001") (fun v0 => obind (fp L P "0.1") (fun v1 => obind (Some Floor) (fun v2 => obind (fp L P "0") (fun v3 => Some (case_saturating_rmul_2 L P v0 v1 v2 v3))))));
    fun L P => ok (obind (fp L P "-0.000000001") (fun v0 => obind (fp L P "0.1") (fun v1 => obind (Some Ceil) (fun v2 => obind (fp L P "0") (fun v3 => Some (case_saturating_rmul_2 L P v0 v1 v2 v3))))));
    fun L P => ok (obind (fp L P "9222222222") (fun v0 => obind (fp L P "9222222222") (fun v1 => obind (Some Floor) (fun v2 => obind (Some (MAX L)) (fun v3 => Some (case_saturating_rmul_2 L P v0 v1 v2 v3))))));
    fun L P => ok (obind (fp L P "4611686019") (fun v0 => obind (fp L P "4611686018.427387903") (fun v1 => obind (Some Floor) (fun v2 => obind (Some (MAX L)) (fun v3 => Some (case_saturating_rmul_2 L P v0 v1 v2 v3))))));
    fun L P => ok (obind (fp L P "-9222222222") (fun v0 => obind (fp L P "9222222222") (fun v1 => obind (Some Floor) (fun v2 => obind (Some (MIN L)) (fun v3 => Some (case_saturating_rmul_2 L P v0 v1 v2 v3))))));
    fun L P => ok (obind (fp L P "4611686019") (fun v0 => obind (fp L P "-4611686018.427387903") (fun v1 => obind (Some Floor) (fun v2 => obind (Some (MIN L)) (fun v3 => Some (case_saturating_rmul_2 L P v0 v1 v2 v3)))))) ] = true.
Proof. vm_compute. reflexivity. Qed.

(** tests/it/ops.rs:676-728, section [fp128]. *)
Example test_saturating_rmul_2_fp128 : only128
  [ fun L P => ok (obind (fp L P "0.000000000000000001") (fun v0 => obind (fp L P "0.1") (fun v1 => obind (Some Floor) (fun v2 => obind (fp L P "0") (fun v3 => Some (case_saturating_rmul_2 L P v0 v1 v2 v3))))));
    fun L P => ok (obind (fp L P "0.000000000000000001") (fun v0 => obind (fp L P "-0.1") (fun v1 => obind (Some Floor) (fun v2 => obind (fp L P "-0.000000000000000001") (fun v3 => Some (case_saturating_rmul_2 L P v0 v1 v2 v3))))));
    fun L P => ok (obind (fp L P "0.000000000000000001") (fun v0 => obind (fp L P "0.1") (fun v1 => obind (Some Ceil) (fun v2 => obind (fp L P "0.000000000000000001") (fun v3 => Some (case_saturating_rmul_2 L P v0 v1 v2 v3))))));
    fun L P => ok (obind (fp L P "-0.000000000000000001") (fun v0 => obind (fp L P "0.1") (fun v1 => obind (Some Ceil) (fun v2 => obind (fp L P "0") (fun v3 => Some (case_saturating_rmul_2 L P v0 v1 v2 v3))))));
    fun L P => ok (obind (fp L P "85550005550005550005") (fun v0 => obind (fp L P "85550005550005550005") (fun v1 => obind (Some Floor) (fun v2 => obind (Some (MAX L)) (fun v3 => Some (case_saturating_rmul_2 L P v0 v1 v2 v3))))));
    fun L P => ok (obind (fp L P "4611686019") (fun v0 => obind (fp L P "4611686018000000000.000000000427387903") (fun v1 => obind (Some Floor) (fun v2 => obind (Some (MAX L)) (fun v3 => Some (case_saturating_rmul_2 L P v0 v1 v2 v3))))));
    fun L P => ok (obind (fp L P "-85550005550005550005") (fun v0 => obind (fp L P "85550005550005550005") (fun v1 => obind (Some Floor) (fun v2 => obind (Some (MIN L)) (fun v3 => Some (case_saturating_rmul_2 L P v0 v1 v2 v3))))));
    fun L P => ok (obind (fp L P "4611686019") (fun v0 => obind (fp L P "-4611686018000000000.000000000427387903") (fun v1 => obind (Some Floor) (fun v2 => obind (Some (MIN L)) (fun v3 => Some (case_saturating_rmul_2 L P v0 v1 v2 v3)))))) ] = true.
Proof. vm_compute. reflexivity. Qed.

(** tests/it/ops.rs:731-772, section [all]. *)
Example test_saturating_sub_all : both
  [ fun L P => ok (obind (fp L P "0") (fun v0 => obind (fp L P "0") (fun v1 => obind (fp L P "0") (fun v2 => Some (case_saturating_sub L P v0 v1 v2)))));
    fun L P => ok (obind (fp L P "0") (fun v0 => obind (fp L P "3000.0000006") (fun v1 => obind (fp L P "-3000.0000006") (fun v2 => Some (case_saturating_sub L P v0 v1 v2)))));
    fun L P => ok (obind (fp L P "-1000.0000002") (fun v0 => obind (fp L P "0") (fun v1 => obind (fp L P "-1000.0000002") (fun v2 => Some (case_saturating_sub L P v0 v1 v2)))));
    fun L P => ok (obind (fp L P "-1000.0000002") (fun v0 => obind (fp L P "3000.0000006") (fun v1 => obind (fp L P "-4000.0000008") (fun v2 => Some (case_saturating_sub L P v0 v1 v2)))));
    fun L P => ok (obind (fp L P "-1000.0000002") (fun v0 => obind (fp L P "-3000.0000006") (fun v1 => obind (fp L P "2000.0000004") (fun v2 => Some (case_saturating_sub L P v0 v1 v2)))));
    fun L P => ok (obind (fp L P "4611686018.427387903") (fun v0 => obind (fp L P "-4611686018.427387903") (fun v1 => obind (fp L P "9223372036.854775806") (fun v2 => Some (case_saturating_sub L P v0 v1 v2))))) ] = true.
Proof. vm_compute. reflexivity. Qed.

(** tests/it/ops.rs:731-772, section [fp128]. *)
Example test_saturating_sub_fp128 : only128
  [ fun L P => ok (obind (fp L P "0") (fun v0 => obind (fp L P "3000000000000.0000000000000006") (fun v1 => obind (fp L P "-3000000000000.0000000000000006") (fun v2 => Some (case_saturating_sub L P v0 v1 v2)))));
    fun L P => ok (obind (fp L P "-1000000000000.0000000000000002") (fun v0 => obind (fp L P "0") (fun v1 => obind (fp L P "-1000000000000.0000000000000002") (fun v2 => Some (case_saturating_sub L P v0 v1 v2)))));
    fun L P => ok (obind (fp L P "-1000000000000.0000000000000002") (fun v0 => obind (fp L P "3000000000000.0000000000000006") (fun v1 => obind (fp L P "-4000000000000.0000000000000008") (fun v2 => Some (case_saturating_sub L P v0 v1 v2)))));
    fun L P => ok (obind (fp L P "-1000000000000.0000000000000002") (fun v0 => obind (fp L P "-3000000000000.0000000000000006") (fun v1 => obind (fp L P "2000000000000.0000000000000004") (fun v2 => Some (case_saturating_sub L P v0 v1 v2)))));
    fun L P => ok (obind (fp L P "4611686018000000000.000000000427387903") (fun v0 => obind (fp L P "-4611686018000000000.000000000427387903") (fun v1 => obind (fp L P "9223372036000000000.000000000854775806") (fun v2 => Some (case_saturating_sub L P v0 v1 v2))))) ] = true.
Proof. vm_compute. reflexivity. Qed.

(** tests/it/ops.rs:731-772, section [fp64]. *)
Example test_saturating_sub_2_fp64 : only64
  [ fun L P => ok (obind (fp L P "9222222222") (fun v0 => obind (fp L P "-9222222222") (fun v1 => obind (Some (MAX L)) (fun v2 => Some (case_saturating_sub_2 L P v0 v1 v2)))));
    fun L P => ok (obind (fp L P "4611686019") (fun v0 => obind (fp L P "-4611686018.27387903") (fun v1 => obind (Some (MAX L)) (fun v2 => Some (case_saturating_sub_2 L P v0 v1 v2)))));
    fun L P => ok (obind (fp L P "-9222222222") (fun v0 => obind (fp L P "9222222222") (fun v1 => obind (Some (MIN L)) (fun v2 => Some (case_saturating_sub_2 L P v0 v1 v2)))));
    fun L P => ok (obind (fp L P "-4611686019") (fun v0 => obind (fp L P "4611686018.47387903") (fun v1 => obind (Some (MIN L)) (fun v2 => Some (case_saturating_sub_2 L P v0 v1 v2))))) ] = true.
Proof. vm_compute. reflexivity. Qed.

(** tests/it/ops.rs:731-772, section [fp128]. *)
Example test_saturating_sub_2_fp128 : only128
  [ fun L P => ok (obind (fp L P "85550005550005550005") (fun v0 => obind (fp L P "-85550005550005550005") (fun v1 => obind (Some (MAX L)) (fun v2 => Some (case_saturating_sub_2 L P v0 v1 v2)))));
    fun L P => ok (obind (fp L P "85550005550005550005") (fun v0 => obind (fp L P "-85550005550005550005.000000000427387903") (fun v1 => obind (Some (MAX L)) (fun v2 => Some (case_saturating_sub_2 L P v0 v1 v2)))));
    fun L P => ok (obind (fp L P "-85550005550005550005") (fun v0 => obind (fp L P "85550005550005550005") (fun v1 => obind (Some (MIN L)) (fun v2 => Some (case_saturating_sub_2 L P v0 v1 v2)))));
    fun L P => ok (obind (fp L P "-85550005550005550005") (fun v0 => obind (fp L P "85550005550005550005.000000000427387903") (fun v1 => obind (Some (MIN L)) (fun v2 => Some (case_saturating_sub_2 L P v0 v1 v2))))) ] = true.
Proof. vm_compute. reflexivity. Qed.

(** tests/it/ops.rs:775-799, section [all]. *)
Example test_sqrt_exact_all : both
  [ fun L P => ok (obind (fp L P "0") (fun v0 => Some (case_sqrt_exact L P v0)));
    fun L P => ok (obind (fp L P "1") (fun v0 => Some (case_sqrt_exact L P v0)));
    fun L P => ok (obind (fp L P "2") (fun v0 => Some (case_sqrt_exact L P v0)));
    fun L P => ok (obind (fp L P "3") (fun v0 => Some (case_sqrt_exact L P v0)));
    fun L P => ok (obind (fp L P "1000") (fun v0 => Some (case_sqrt_exact L P v0)));
    fun L P => ok (obind (fp L P "96038") (fun v0 => Some (case_sqrt_exact L P v0)));
    fun L P => ok (obind (obind (got (rsqrt dev L P (MAX L) Floor)) (fun r => obind (ret (integral dev L P r Floor)) (fun i => got (try_from_int dev L P i)))) (fun v0 => Some (case_sqrt_exact L P v0))) ] = true.
Proof. vm_compute. reflexivity. Qed.

(** tests/it/ops.rs:775-799, section [fp128]. *)
Example test_sqrt_exact_fp128 : only128
  [ fun L P => ok (obind (fp L P "10431725") (fun v0 => Some (case_sqrt_exact L P v0)));
    fun L P => ok (obind (fp L P "13043817825") (fun v0 => Some (case_sqrt_exact L P v0))) ] = true.
Proof. vm_compute. reflexivity. Qed.

(** tests/it/ops.rs:802-823, section [fp64]. *)
Example test_sqrt_approx_fp64 : only64
  [ fun L P => ok (obind (fp L P "2") (fun v0 => obind (fp L P "1.414213562") (fun v1 => obind (fp L P "1.414213562") (fun v2 => Some (case_sqrt_approx L P v0 v1 v2)))));
    fun L P => ok (obind (fp L P "22347") (fun v0 => obind (fp L P "149.489130039") (fun v1 => obind (fp L P "149.48913004") (fun v2 => Some (case_sqrt_approx L P v0 v1 v2)))));
    fun L P => ok (obind (Some (MAX L)) (fun v0 => obind (fp L P "96038.388349944") (fun v1 => obind (fp L P "96038.388349945") (fun v2 => Some (case_sqrt_approx L P v0 v1 v2))))) ] = true.
Proof. vm_compute. reflexivity. Qed.

(** tests/it/ops.rs:802-823, section [fp128]. *)
Example test_sqrt_approx_fp128 : only128
  [ fun L P => ok (obind (fp L P "2") (fun v0 => obind (fp L P "1.414213562373095048") (fun v1 => obind (fp L P "1.414213562373095049") (fun v2 => Some (case_sqrt_approx L P v0 v1 v2)))));
    fun L P => ok (obind (fp L P "3.14159265358979323") (fun v0 => obind (fp L P "1.772453850905516024") (fun v1 => obind (fp L P "1.772453850905516025") (fun v2 => Some (case_sqrt_approx L P v0 v1 v2)))));
    fun L P => ok (obind (fp L P "5") (fun v0 => obind (fp L P "2.236067977499789696") (fun v1 => obind (fp L P "2.236067977499789696") (fun v2 => Some (case_sqrt_approx L P v0 v1 v2)))));
    fun L P => ok (obind (fp L P "22347") (fun v0 => obind (fp L P "149.489130039611910238") (fun v1 => obind (fp L P "149.489130039611910239") (fun v2 => Some (case_sqrt_approx L P v0 v1 v2)))));
    fun L P => ok (obind (Some (MAX L)) (fun v0 => obind (fp L P "13043817825.332782212349571806") (fun v1 => obind (fp L P "13043817825.332782212349571806") (fun v2 => Some (case_sqrt_approx L P v0 v1 v2))))) ] = true.
Proof. vm_compute. reflexivity. Qed.

(** tests/it/ops.rs:826-841, section [all]. *)
Example test_sqrt_negative_all : both
  [ fun L P => ok (obind (fp L P "-1") (fun v0 => Some (case_sqrt_negative L P v0)));
    fun L P => ok (obind (okr (cneg L EPSILON)) (fun v0 => Some (case_sqrt_negative L P v0)));
    fun L P => ok (obind (Some (MIN L)) (fun v0 => Some (case_sqrt_negative L P v0))) ] = true.
Proof. vm_compute. reflexivity. Qed.

(** tests/it/convert.rs:8-24, section [all]. *)
Example test_from_decimal_all : both
  [ fun L P => ok (obind (Some (wrap (lty L) 5000000000, (-9))) (fun v0 => obind (fp L P "5") (fun v1 => Some (case_from_decimal L P v0 v1))));
    fun L P => ok (obind (Some (wrap (lty L) 1, 0)) (fun v0 => obind (fp L P "1") (fun v1 => Some (case_from_decimal L P v0 v1))));
    fun L P => ok (obind (Some (wrap (lty L) 1, 1)) (fun v0 => obind (fp L P "10") (fun v1 => Some (case_from_decimal L P v0 v1)))) ] = true.
Proof. vm_compute. reflexivity. Qed.

(** tests/it/convert.rs:8-24, section [fp128]. *)
Example test_from_decimal_fp128 : only128
  [ fun L P => ok (obind (Some (wrap (lty L) 5000000000000000000, (-18))) (fun v0 => obind (fp L P "5") (fun v1 => Some (case_from_decimal L P v0 v1)))) ] = true.
Proof. vm_compute. reflexivity. Qed.

(** tests/it/convert.rs:27-56, section [all]. *)
Example test_to_decimal_all : both
  [ fun L P => ok (obind (fp L P "0") (fun v0 => obind (Some 0) (fun v1 => obind (Some (wrap (lty L) 0, 0)) (fun v2 => Some (case_to_decimal L P v0 v1 v2)))));
    fun L P => ok (obind (fp L P "0") (fun v0 => obind (Some (-5)) (fun v1 => obind (Some (wrap (lty L) 0, (-5))) (fun v2 => Some (case_to_decimal L P v0 v1 v2)))));
    fun L P => ok (obind (fp L P "0") (fun v0 => obind (Some 5) (fun v1 => obind (Some (wrap (lty L) 0, 0)) (fun v2 => Some (case_to_decimal L P v0 v1 v2)))));
    fun L P => ok (obind (fp L P "50") (fun v0 => obind (Some 0) (fun v1 => obind (Some (wrap (lty L) 50, 0)) (fun v2 => Some (case_to_decimal L P v0 v1 v2)))));
    fun L P => ok (obind (fp L P "50") (fun v0 => obind (Some 1) (fun v1 => obind (Some (wrap (lty L) 5, 1)) (fun v2 => Some (case_to_decimal L P v0 v1 v2)))));
    fun L P => ok (obind (fp L P "50") (fun v0 => obind (Some 5) (fun v1 => obind (Some (wrap (lty L) 5, 1)) (fun v2 => Some (case_to_decimal L P v0 v1 v2)))));
    fun L P => ok (obind (fp L P "50") (fun v0 => obind (Some (imax I32)) (fun v1 => obind (Some (wrap (lty L) 5, 1)) (fun v2 => Some (case_to_decimal L P v0 v1 v2)))));
    fun L P => ok (obind (fp L P "50") (fun v0 => obind (Some (-2)) (fun v1 => obind (Some (wrap (lty L) 5000, (-2))) (fun v2 => Some (case_to_decimal L P v0 v1 v2)))));
    fun L P => ok (obind (fp L P "5.5") (fun v0 => obind (Some 0) (fun v1 => obind (Some (wrap (lty L) 55, (-1))) (fun v2 => Some (case_to_decimal L P v0 v1 v2)))));
    fun L P => ok (obind (fp L P "5.5") (fun v0 => obind (Some 1) (fun v1 => obind (Some (wrap (lty L) 55, (-1))) (fun v2 => Some (case_to_decimal L P v0 v1 v2)))));
    fun L P => ok (obind (fp L P "5.5") (fun v0 => obind (Some 5) (fun v1 => obind (Some (wrap (lty L) 55, (-1))) (fun v2 => Some (case_to_decimal L P v0 v1 v2)))));
    fun L P => ok (obind (fp L P "5.5") (fun v0 => obind (Some (-1)) (fun v1 => obind (Some (wrap (lty L) 55, (-1))) (fun v2 => Some (case_to_decimal L P v0 v1 v2)))));
    fun L P => ok (obind (fp L P "5.5") (fun v0 => obind (Some (-2)) (fun v1 => obind (Some (wrap (lty L) 550, (-2))) (fun v2 => Some (case_to_decimal L P v0 v1 v2)))));
    fun L P => ok (obind (Some (MAX L)) (fun v0 => obind (Some 0) (fun v1 => obind (Some (MAX L, - P)) (fun v2 => Some (case_to_decimal L P v0 v1 v2))))) ] = true.
Proof. vm_compute. reflexivity. Qed.

(** tests/it/convert_f64.rs:9-43, section [all]. *)
Example test_to_f64_all : both
  [ fun L P => ok (obind (fp L P "0") (fun v0 => obind (Some 0) (fun v1 => Some (case_to_f64 L P v0 v1))));
    fun L P => ok (obind (fp L P "0.1") (fun v0 => obind (Some 4591870180066957722) (fun v1 => Some (case_to_f64 L P v0 v1))));
    fun L P => ok (obind (fp L P "1") (fun v0 => obind (Some 4607182418800017408) (fun v1 => Some (case_to_f64 L P v0 v1))));
    fun L P => ok (obind (fp L P "1.5") (fun v0 => obind (Some 4609434218613702656) (fun v1 => Some (case_to_f64 L P v0 v1))));
    fun L P => ok (obind (fp L P "-5") (fun v0 => obind (Some 13840687554816376832) (fun v1 => Some (case_to_f64 L P v0 v1))));
    fun L P => ok (obind (fp L P "-14.14") (fun v0 => obind (Some 13847521767250911560) (fun v1 => Some (case_to_f64 L P v0 v1))));
    fun L P => ok (obind (fp L P "42.123456789") (fun v0 => obind (Some 4631125166818827442) (fun v1 => Some (case_to_f64 L P v0 v1))));
    fun L P => ok (obind (fp L P "-42.123456789") (fun v0 => obind (Some 13854497203673603250) (fun v1 => Some (case_to_f64 L P v0 v1))));
    fun L P => ok (obind (fp L P "8003332421.536753168") (fun v0 => obind (Some 4755186109545748106) (fun v1 => Some (case_to_f64 L P v0 v1))));
    fun L P => ok (obind (fp L P "-8003332421.536753168") (fun v0 => obind (Some 13978558146400523914) (fun v1 => Some (case_to_f64 L P v0 v1))));
    fun L P => ok (obind (fp L P "9223372036.854775807") (fun v0 => obind (Some 4756133310154331797) (fun v1 => Some (case_to_f64 L P v0 v1))));
    fun L P => ok (obind (fp L P "-9223372036.854775807") (fun v0 => obind (Some 13979505347009107605) (fun v1 => Some (case_to_f64 L P v0 v1))));
    fun L P => ok (obind (fp L P "922337203.685477581") (fun v0 => obind (Some 4741020333611924923) (fun v1 => Some (case_to_f64 L P v0 v1))));
    fun L P => ok (obind (fp L P "-922337203.685477581") (fun v0 => obind (Some 13964392370466700731) (fun v1 => Some (case_to_f64 L P v0 v1))));
    fun L P => ok (obind (fp L P "92233720.36854775") (fun v0 => obind (Some 4725962109680706709) (fun v1 => Some (case_to_f64 L P v0 v1))));
    fun L P => ok (obind (fp L P "-92233720.36854775") (fun v0 => obind (Some 13949334146535482517) (fun v1 => Some (case_to_f64 L P v0 v1)))) ] = true.
Proof. vm_compute. reflexivity. Qed.

(** tests/it/convert_f64.rs:9-43, section [fp128]. *)
Example test_to_f64_fp128 : only128
  [ fun L P => ok (obind (fp L P "0.0000000000025") (fun v0 => obind (Some 4433228133901624469) (fun v1 => Some (case_to_f64 L P v0 v1))));
    fun L P => ok (obind (fp L P "1000000.0000000000025") (fun v0 => obind (Some 4696837146684686336) (fun v1 => Some (case_to_f64 L P v0 v1))));
    fun L P => ok (obind (fp L P "-1000000.0000000000025") (fun v0 => obind (Some 13920209183539462144) (fun v1 => Some (case_to_f64 L P v0 v1))));
    fun L P => ok (obind (fp L P "0.000000000000000025") (fun v0 => obind (Some 4358590203881359804) (fun v1 => Some (case_to_f64 L P v0 v1))));
    fun L P => ok (obind (fp L P "-0.000000000000000025") (fun v0 => obind (Some 13581962240736135612) (fun v1 => Some (case_to_f64 L P v0 v1))));
    fun L P => ok (obind (fp L P "2.1234567890123457") (fun v0 => obind (Some 4611964018401884083) (fun v1 => Some (case_to_f64 L P v0 v1))));
    fun L P => ok (obind (fp L P "-2.1234567890123457") (fun v0 => obind (Some 13835336055256659891) (fun v1 => Some (case_to_f64 L P v0 v1)))) ] = true.
Proof. vm_compute. reflexivity. Qed.

(** tests/it/convert_f64.rs:46-88, section [all]. *)
Example test_from_f64_all : both
  [ fun L P => ok (obind (fp L P "0") (fun v0 => obind (Some 0) (fun v1 => Some (case_from_f64 L P v0 v1))));
    fun L P => ok (obind (fp L P "0.5") (fun v0 => obind (Some 4602678819172646912) (fun v1 => Some (case_from_f64 L P v0 v1))));
    fun L P => ok (obind (fp L P "1") (fun v0 => obind (Some 4607182418800017408) (fun v1 => Some (case_from_f64 L P v0 v1))));
    fun L P => ok (obind (fp L P "1.5") (fun v0 => obind (Some 4609434218613702656) (fun v1 => Some (case_from_f64 L P v0 v1))));
    fun L P => ok (obind (fp L P "42.123456789") (fun v0 => obind (Some 4631125166818827442) (fun v1 => Some (case_from_f64 L P v0 v1))));
    fun L P => ok (obind (fp L P "803332.421536753") (fun v0 => obind (Some 4695147785049320016) (fun v1 => Some (case_from_f64 L P v0 v1))));
    fun L P => ok (obind (fp L P "8033324.21536753") (fun v0 => obind (Some 4710383727170589924) (fun v1 => Some (case_from_f64 L P v0 v1))));
    fun L P => ok (obind (fp L P "80333242.1536753") (fun v0 => obind (Some 4725163482106649871) (fun v1 => Some (case_from_f64 L P v0 v1))));
    fun L P => ok (obind (fp L P "803332421.536753") (fun v0 => obind (Some 4740022049144353875) (fun v1 => Some (case_from_f64 L P v0 v1))));
    fun L P => ok (obind (fp L P "8033324215.36753") (fun v0 => obind (Some 4755217558220956007) (fun v1 => Some (case_from_f64 L P v0 v1))));
    fun L P => ok (obind (fp L P "9223372036.85477") (fun v0 => obind (Some 4756133310154331794) (fun v1 => Some (case_from_f64 L P v0 v1)))) ] = true.
Proof. vm_compute. reflexivity. Qed.

(** tests/it/convert_f64.rs:46-88, section [fp128]. *)
Example test_from_f64_fp128 : only128
  [ fun L P => ok (obind (fp L P "0.803332421536753") (fun v0 => obind (Some 4605410994733851534) (fun v1 => Some (case_from_f64 L P v0 v1))));
    fun L P => ok (obind (fp L P "8.03332421536753") (fun v0 => obind (Some 4620711977547617849) (fun v1 => Some (case_from_f64 L P v0 v1))));
    fun L P => ok (obind (fp L P "8.03332421536753") (fun v0 => obind (Some 4620711977547617849) (fun v1 => Some (case_from_f64 L P v0 v1))));
    fun L P => ok (obind (fp L P "80.3332421536753") (fun v0 => obind (Some 4635353366302944199) (fun v1 => Some (case_from_f64 L P v0 v1))));
    fun L P => ok (obind (fp L P "803.332421536753") (fun v0 => obind (Some 4650277402526574265) (fun v1 => Some (case_from_f64 L P v0 v1))));
    fun L P => ok (obind (fp L P "8033.32421536753") (fun v0 => obind (Some 4665554748085583975) (fun v1 => Some (case_from_f64 L P v0 v1))));
    fun L P => ok (obind (fp L P "80333.2421536753") (fun v0 => obind (Some 4680256871575881792) (fun v1 => Some (case_from_f64 L P v0 v1))));
    fun L P => ok (obind (fp L P "80333242153.6753") (fun v0 => obind (Some 4770073125115768032) (fun v1 => Some (case_from_f64 L P v0 v1))));
    fun L P => ok (obind (fp L P "803332421536.753") (fun v0 => obind (Some 4784900103837325337) (fun v1 => Some (case_from_f64 L P v0 v1))));
    fun L P => ok (obind (fp L P "8033324215367.53") (fun v0 => obind (Some 4800056127518744095) (fun v1 => Some (case_from_f64 L P v0 v1))));
    fun L P => ok (obind (fp L P "80333242153675.3") (fun v0 => obind (Some 4814985729529524947) (fun v1 => Some (case_from_f64 L P v0 v1))));
    fun L P => ok (obind (fp L P "803332421536753") (fun v0 => obind (Some 4829781860286095240) (fun v1 => Some (case_from_f64 L P v0 v1))));
    fun L P => ok (obind (fp L P "8033324215367530") (fun v0 => obind (Some 4844899324011280234) (fun v1 => Some (case_from_f64 L P v0 v1))));
    fun L P => ok (obind (fp L P "8033324215367533") (fun v0 => obind (Some 4844899324011280237) (fun v1 => Some (case_from_f64 L P v0 v1))));
    fun L P => ok (obind (fp L P "170141183460469211136") (fun v0 => obind (Some 4909612291065004971) (fun v1 => Some (case_from_f64 L P v0 v1)))) ] = true.
Proof. vm_compute. reflexivity. Qed.

(** tests/it/convert_f64.rs:91-120, section [all]. *)
Example test_from_f64_exact_all : both
  [ fun L P => ok (obind (Some 4503599627370496) (fun v0 => obind (fp L P "0") (fun v1 => Some (case_from_f64_exact L P v0 v1))));
    fun L P => ok (obind (Some 4322756117994590892) (fun v0 => obind (fp L P "0") (fun v1 => Some (case_from_f64_exact L P v0 v1))));
    fun L P => ok (obind (Some 4529791984036687492) (fun v0 => obind (fp L P "0.000006927") (fun v1 => Some (case_from_f64_exact L P v0 v1))));
    fun L P => ok (obind (Some 4544739648237403411) (fun v0 => obind (fp L P "0.00006927") (fun v1 => Some (case_from_f64_exact L P v0 v1))));
    fun L P => ok (obind (Some 4591870180066957722) (fun v0 => obind (fp L P "0.1") (fun v1 => Some (case_from_f64_exact L P v0 v1))));
    fun L P => ok (obind (Some 4593559930647147132) (fun v0 => obind (fp L P "0.12345") (fun v1 => Some (case_from_f64_exact L P v0 v1))));
    fun L P => ok (obind (Some 4604414506469035501) (fun v0 => obind (fp L P "0.6927") (fun v1 => Some (case_from_f64_exact L P v0 v1))));
    fun L P => ok (obind (Some 4617428107952285286) (fun v0 => obind (fp L P "5.1") (fun v1 => Some (case_from_f64_exact L P v0 v1))));
    fun L P => ok (obind (Some 4744681424479839945) (fun v0 => obind (fp L P "1643804666.060961") (fun v1 => Some (case_from_f64_exact L P v0 v1)))) ] = true.
Proof. vm_compute. reflexivity. Qed.

(** tests/it/convert_f64.rs:91-120, section [fp64]. *)
Example test_from_f64_exact_fp64 : only64
  [ fun L P => ok (obind (Some 4372995238176751616) (fun v0 => obind (fp L P "0") (fun v1 => Some (case_from_f64_exact L P v0 v1))));
    fun L P => ok (obind (Some 4593560419875865688) (fun v0 => obind (fp L P "0.123456789") (fun v1 => Some (case_from_f64_exact L P v0 v1))));
    fun L P => ok (obind (Some 4593560419883071447) (fun v0 => obind (fp L P "0.12345679") (fun v1 => Some (case_from_f64_exact L P v0 v1)))) ] = true.
Proof. vm_compute. reflexivity. Qed.

(** tests/it/convert_f64.rs:91-120, section [fp128]. *)
Example test_from_f64_exact_fp128 : only128
  [ fun L P => ok (obind (Some 4372995238176751616) (fun v0 => obind (fp L P "0.000000000000000222") (fun v1 => Some (case_from_f64_exact L P v0 v1))));
    fun L P => ok (obind (Some 4593560419847042650) (fun v0 => obind (fp L P "0.1234567890123456") (fun v1 => Some (case_from_f64_exact L P v0 v1))));
    fun L P => ok (obind (Some 4593560419847042655) (fun v0 => obind (fp L P "0.1234567890123457") (fun v1 => Some (case_from_f64_exact L P v0 v1)))) ] = true.
Proof. vm_compute. reflexivity. Qed.

(** tests/it/convert_f64.rs:123-138, section [all]. *)
Example test_from_f64_limits_all : both
  [ fun L P => ok (obind (Some 9221120237041090560) (fun v0 => obind (Some (str_of "not finite")) (fun v1 => Some (case_from_f64_limits L P v0 v1))));
    fun L P => ok (obind (Some 9218868437227405312) (fun v0 => obind (Some (str_of "not finite")) (fun v1 => Some (case_from_f64_limits L P v0 v1))));
    fun L P => ok (obind (Some 18442240474082181120) (fun v0 => obind (Some (str_of "not finite")) (fun v1 => Some (case_from_f64_limits L P v0 v1))));
    fun L P => ok (obind (Some 9218868437227405311) (fun v0 => obind (Some (str_of "too big number")) (fun v1 => Some (case_from_f64_limits L P v0 v1))));
    fun L P => ok (obind (Some 18442240474082181119) (fun v0 => obind (Some (str_of "too big number")) (fun v1 => Some (case_from_f64_limits L P v0 v1)))) ] = true.
Proof. vm_compute. reflexivity. Qed.

(** tests/it/convert_str.rs:14-60, section [fp64]. *)
Example test_from_good_str_exact_fp64 : only64
  [ fun L P => ok (obind (Some (str_of "1")) (fun v0 => obind (Some (wrap (lty L) 1000000000)) (fun v1 => Some (case_from_good_str_exact L P v0 v1))));
    fun L P => ok (obind (Some (str_of "1.1")) (fun v0 => obind (Some (wrap (lty L) 1100000000)) (fun v1 => Some (case_from_good_str_exact L P v0 v1))));
    fun L P => ok (obind (Some (str_of "1.02")) (fun v0 => obind (Some (wrap (lty L) 1020000000)) (fun v1 => Some (case_from_good_str_exact L P v0 v1))));
    fun L P => ok (obind (Some (str_of "-1.02")) (fun v0 => obind (Some (wrap (lty L) (-1020000000))) (fun v1 => Some (case_from_good_str_exact L P v0 v1))));
    fun L P => ok (obind (Some (str_of "+1.02")) (fun v0 => obind (Some (wrap (lty L) 1020000000)) (fun v1 => Some (case_from_good_str_exact L P v0 v1))));
    fun L P => ok (obind (Some (str_of "0.1234")) (fun v0 => obind (Some (wrap (lty L) 123400000)) (fun v1 => Some (case_from_good_str_exact L P v0 v1))));
    fun L P => ok (obind (Some (str_of "-0.1234")) (fun v0 => obind (Some (wrap (lty L) (-123400000))) (fun v1 => Some (case_from_good_str_exact L P v0 v1))));
    fun L P => ok (obind (Some (str_of "123456789.123456789")) (fun v0 => obind (Some (wrap (lty L) 123456789123456789)) (fun v1 => Some (case_from_good_str_exact L P v0 v1))));
    fun L P => ok (obind (Some (str_of "9223372036.854775807")) (fun v0 => obind (Some (wrap (lty L) 9223372036854775807)) (fun v1 => Some (case_from_good_str_exact L P v0 v1))));
    fun L P => ok (obind (Some (str_of "-9223372036.854775808")) (fun v0 => obind (Some (wrap (lty L) (-9223372036854775808))) (fun v1 => Some (case_from_good_str_exact L P v0 v1)))) ] = true.
Proof. vm_compute. reflexivity. Qed.

(** tests/it/convert_str.rs:14-60, section [fp128]. *)
Example test_from_good_str_exact_fp128 : only128
  [ fun L P => ok (obind (Some (str_of "1")) (fun v0 => obind (Some (wrap (lty L) 1000000000000000000)) (fun v1 => Some (case_from_good_str_exact L P v0 v1))));
    fun L P => ok (obind (Some (str_of "1.1")) (fun v0 => obind (Some (wrap (lty L) 1100000000000000000)) (fun v1 => Some (case_from_good_str_exact L P v0 v1))));
    fun L P => ok (obind (Some (str_of "1.02")) (fun v0 => obind (Some (wrap (lty L) 1020000000000000000)) (fun v1 => Some (case_from_good_str_exact L P v0 v1))));
    fun L P => ok (obind (Some (str_of "-1.02")) (fun v0 => obind (Some (wrap (lty L) (-1020000000000000000))) (fun v1 => Some (case_from_good_str_exact L P v0 v1))));
    fun L P => ok (obind (Some (str_of "+1.02")) (fun v0 => obind (Some (wrap (lty L) 1020000000000000000)) (fun v1 => Some (case_from_good_str_exact L P v0 v1))));
    fun L P => ok (obind (Some (str_of "0.1234")) (fun v0 => obind (Some (wrap (lty L) 123400000000000000)) (fun v1 => Some (case_from_good_str_exact L P v0 v1))));
    fun L P => ok (obind (Some (str_of "-0.1234")) (fun v0 => obind (Some (wrap (lty L) (-123400000000000000))) (fun v1 => Some (case_from_good_str_exact L P v0 v1))));
    fun L P => ok (obind (Some (str_of "123456789.123456789")) (fun v0 => obind (Some (wrap (lty L) 123456789123456789000000000)) (fun v1 => Some (case_from_good_str_exact L P v0 v1))));
    fun L P => ok (obind (Some (str_of "9223372036.854775807")) (fun v0 => obind (Some (wrap (lty L) 9223372036854775807000000000)) (fun v1 => Some (case_from_good_str_exact L P v0 v1))));
    fun L P => ok (obind (Some (str_of "-9223372036.854775808")) (fun v0 => obind (Some (wrap (lty L) (-9223372036854775808000000000))) (fun v1 => Some (case_from_good_str_exact L P v0 v1))));
    fun L P => ok (obind (Some (str_of "170141183460469231731.687303715884105727")) (fun v0 => obind (Some (wrap (lty L) 170141183460469231731687303715884105727)) (fun v1 => Some (case_from_good_str_exact L P v0 v1))));
    fun L P => ok (obind (Some (str_of "-170141183460469231731.687303715884105728")) (fun v0 => obind (Some (wrap (lty L) (-170141183460469231731687303715884105728))) (fun v1 => Some (case_from_good_str_exact L P v0 v1)))) ] = true.
Proof. vm_compute. reflexivity. Qed.

(** tests/it/convert_str.rs:64-111, section [fp64]. *)
Example test_from_good_str_inexact_fp64 : only64
  [ fun L P => ok (obind (Some (str_of "13.0000000000000000001")) (fun v0 => obind (Some (wrap (lty L) 13000000000)) (fun v1 => Some (case_from_good_str_inexact L P v0 v1))));
    fun L P => ok (obind (Some (str_of "13.0000000000000000005")) (fun v0 => obind (Some (wrap (lty L) 13000000000)) (fun v1 => Some (case_from_good_str_inexact L P v0 v1))));
    fun L P => ok (obind (Some (str_of "13.0000000001")) (fun v0 => obind (Some (wrap (lty L) 13000000000)) (fun v1 => Some (case_from_good_str_inexact L P v0 v1))));
    fun L P => ok (obind (Some (str_of "13.0000000005")) (fun v0 => obind (Some (wrap (lty L) 13000000001)) (fun v1 => Some (case_from_good_str_inexact L P v0 v1))));
    fun L P => ok (obind (Some (str_of "13.0000000009")) (fun v0 => obind (Some (wrap (lty L) 13000000001)) (fun v1 => Some (case_from_good_str_inexact L P v0 v1))));
    fun L P => ok (obind (Some (str_of "13.1000000001")) (fun v0 => obind (Some (wrap (lty L) 13100000000)) (fun v1 => Some (case_from_good_str_inexact L P v0 v1))));
    fun L P => ok (obind (Some (str_of "13.1000000005")) (fun v0 => obind (Some (wrap (lty L) 13100000001)) (fun v1 => Some (case_from_good_str_inexact L P v0 v1))));
    fun L P => ok (obind (Some (str_of "13.1000000009")) (fun v0 => obind (Some (wrap (lty L) 13100000001)) (fun v1 => Some (case_from_good_str_inexact L P v0 v1))));
    fun L P => ok (obind (Some (str_of "13.9999999999999999999999999999999999999999999999999999999999999")) (fun v0 => obind (Some (wrap (lty L) 14000000000)) (fun v1 => Some (case_from_good_str_inexact L P v0 v1))));
    fun L P => ok (obind (Some (str_of "9223372036.8547758071")) (fun v0 => obind (Some (wrap (lty L) 9223372036854775807)) (fun v1 => Some (case_from_good_str_inexact L P v0 v1)))) ] = true.
Proof. vm_compute. reflexivity. Qed.

(** tests/it/convert_str.rs:64-111, section [fp128]. *)
Example test_from_good_str_inexact_fp128 : only128
  [ fun L P => ok (obind (Some (str_of "13.0000000000000000001")) (fun v0 => obind (Some (wrap (lty L) 13000000000000000000)) (fun v1 => Some (case_from_good_str_inexact L P v0 v1))));
    fun L P => ok (obind (Some (str_of "13.0000000000000000005")) (fun v0 => obind (Some (wrap (lty L) 13000000000000000001)) (fun v1 => Some (case_from_good_str_inexact L P v0 v1))));
    fun L P => ok (obind (Some (str_of "13.0000000000000000009")) (fun v0 => obind (Some (wrap (lty L) 13000000000000000001)) (fun v1 => Some (case_from_good_str_inexact L P v0 v1))));
    fun L P => ok (obind (Some (str_of "13.9999999999999999999999999999999999999999999999999999999999999")) (fun v0 => obind (Some (wrap (lty L) 14000000000000000000)) (fun v1 => Some (case_from_good_str_inexact L P v0 v1))));
    fun L P => ok (obind (Some (str_of "170141183460469231731.6873037158841057271")) (fun v0 => obind (Some (wrap (lty L) 170141183460469231731687303715884105727)) (fun v1 => Some (case_from_good_str_inexact L P v0 v1)))) ] = true.
Proof. vm_compute. reflexivity. Qed.

(** tests/it/convert_str.rs:114-145, section [all]. *)
Example test_from_bad_str_all : both
  [ fun L P => ok (obind (Some (str_of "")) (fun v0 => Some (case_from_bad_str L P v0)));
    fun L P => ok (obind (Some (str_of "7.02e5")) (fun v0 => Some (case_from_bad_str L P v0)));
    fun L P => ok (obind (Some (str_of "a.12")) (fun v0 => Some (case_from_bad_str L P v0)));
    fun L P => ok (obind (Some (str_of "12.a")) (fun v0 => Some (case_from_bad_str L P v0)));
    fun L P => ok (obind (Some (str_of "100000000000000000000000")) (fun v0 => Some (case_from_bad_str L P v0)));
    fun L P => ok (obind (Some (str_of "170141183460469231731687303715.884105728")) (fun v0 => Some (case_from_bad_str L P v0)));
    fun L P => ok (obind (Some (str_of "170141183460469231731.687303715884105728")) (fun v0 => Some (case_from_bad_str L P v0)));
    fun L P => ok (obind (Some (str_of "170141183460469231731.6873037158841057275")) (fun v0 => Some (case_from_bad_str L P v0)));
    fun L P => ok (obind (Some (str_of "-170141183460469231731.687303715884105729")) (fun v0 => Some (case_from_bad_str L P v0)));
    fun L P => ok (obind (Some (str_of "-170141183460469231731.6873037158841057285")) (fun v0 => Some (case_from_bad_str L P v0))) ] = true.
Proof. vm_compute. reflexivity. Qed.

(** tests/it/convert_str.rs:114-145, section [fp64]. *)
Example test_from_bad_str_fp64 : only64
  [ fun L P => ok (obind (Some (str_of "9223372036.854775808")) (fun v0 => Some (case_from_bad_str L P v0)));
    fun L P => ok (obind (Some (str_of "9223372036.8547758075")) (fun v0 => Some (case_from_bad_str L P v0)));
    fun L P => ok (obind (Some (str_of "-9223372036.854775809")) (fun v0 => Some (case_from_bad_str L P v0)));
    fun L P => ok (obind (Some (str_of "-9223372036.8547758085")) (fun v0 => Some (case_from_bad_str L P v0))) ] = true.
Proof. vm_compute. reflexivity. Qed.

(** tests/it/serde.rs:8-32, section [all]. *)
Example test_display_and_serde_all : both
  [ fun L P => ok (obind (fp L P "0") (fun v0 => obind (Some (str_of "0.0")) (fun v1 => Some (case_display_and_serde L P v0 v1))));
    fun L P => ok (obind (fp L P "42") (fun v0 => obind (Some (str_of "42.0")) (fun v1 => Some (case_display_and_serde L P v0 v1))));
    fun L P => ok (obind (fp L P "10.042") (fun v0 => obind (Some (str_of "10.042")) (fun v1 => Some (case_display_and_serde L P v0 v1))));
    fun L P => ok (obind (fp L P "-10.042") (fun v0 => obind (Some (str_of "-10.042")) (fun v1 => Some (case_display_and_serde L P v0 v1))));
    fun L P => ok (obind (fp L P "0.000000001") (fun v0 => obind (Some (str_of "0.000000001")) (fun v1 => Some (case_display_and_serde L P v0 v1))));
    fun L P => ok (obind (fp L P "-0.000000001") (fun v0 => obind (Some (str_of "-0.000000001")) (fun v1 => Some (case_display_and_serde L P v0 v1))));
    fun L P => ok (obind (fp L P "9223372036.854775807") (fun v0 => obind (Some (str_of "9223372036.854775807")) (fun v1 => Some (case_display_and_serde L P v0 v1))));
    fun L P => ok (obind (fp L P "-9223372036.854775808") (fun v0 => obind (Some (str_of "-9223372036.854775808")) (fun v1 => Some (case_display_and_serde L P v0 v1)))) ] = true.
Proof. vm_compute. reflexivity. Qed.

(** tests/it/serde.rs:8-32, section [fp128]. *)
Example test_display_and_serde_fp128 : only128
  [ fun L P => ok (obind (fp L P "0.000000000000000001") (fun v0 => obind (Some (str_of "0.000000000000000001")) (fun v1 => Some (case_display_and_serde L P v0 v1))));
    fun L P => ok (obind (fp L P "-0.000000000000000001") (fun v0 => obind (Some (str_of "-0.000000000000000001")) (fun v1 => Some (case_display_and_serde L P v0 v1))));
    fun L P => ok (obind (fp L P "170141183460469231731.687303715884105727") (fun v0 => obind (Some (str_of "170141183460469231731.687303715884105727")) (fun v1 => Some (case_display_and_serde L P v0 v1))));
    fun L P => ok (obind (fp L P "-170141183460469231731.687303715884105728") (fun v0 => obind (Some (str_of "-170141183460469231731.687303715884105728")) (fun v1 => Some (case_display_and_serde L P v0 v1)))) ] = true.
Proof. vm_compute. reflexivity. Qed.

(** tests/it/serde.rs:58-130, section [all]. *)
Example test_serde_with_all : both
  [ fun L P => ok (obind (fp L P "0") (fun v0 => Some (case_serde_with L P v0)));
    fun L P => ok (obind (fp L P "1") (fun v0 => Some (case_serde_with L P v0)));
    fun L P => ok (obind (fp L P "1.1") (fun v0 => Some (case_serde_with L P v0)));
    fun L P => ok (obind (fp L P "1.02") (fun v0 => Some (case_serde_with L P v0)));
    fun L P => ok (obind (fp L P "-1.02") (fun v0 => Some (case_serde_with L P v0)));
    fun L P => ok (obind (fp L P "0.1234") (fun v0 => Some (case_serde_with L P v0)));
    fun L P => ok (obind (fp L P "-0.1234") (fun v0 => Some (case_serde_with L P v0))) ] = true.
Proof. vm_compute. reflexivity. Qed.

(** tests/it/serde.rs:133-206, section [all]. *)
Example test_serde_with_option_all : both
  [ fun L P => ok (obind (Some None) (fun v0 => Some (case_serde_with_option L P v0)));
    fun L P => ok (obind (option_map Some (fp L P "0")) (fun v0 => Some (case_serde_with_option L P v0)));
    fun L P => ok (obind (option_map Some (fp L P "1")) (fun v0 => Some (case_serde_with_option L P v0)));
    fun L P => ok (obind (option_map Some (fp L P "1.1")) (fun v0 => Some (case_serde_with_option L P v0)));
    fun L P => ok (obind (option_map Some (fp L P "1.02")) (fun v0 => Some (case_serde_with_option L P v0)));
    fun L P => ok (obind (option_map Some (fp L P "-1.02")) (fun v0 => Some (case_serde_with_option L P v0)));
    fun L P => ok (obind (option_map Some (fp L P "0.1234")) (fun v0 => Some (case_serde_with_option L P v0)));
    fun L P => ok (obind (option_map Some (fp L P "-0.1234")) (fun v0 => Some (case_serde_with_option L P v0))) ] = true.
Proof. vm_compute. reflexivity. Qed.

(** tests/it/serde.rs:35-55, [deserialize]: the numbers and the strings. *)
Definition de_case (tok : token) (s e : string) : row := fun L P =>
  ok (option_map (fun e => eqo (got (deserialize dev L P false true tok)) e &&
                           eqo (got (json_str L P (str_of s))) e) (fp L P e)).
Example test_deserialize_all : both
  [ de_case (TInt U64 42) "42" "42"; de_case (TInt I64 (-42)) "-42" "-42";
    de_case (TF64 4631107791820423168) "42.0" "42"; de_case (TF64 13854479828675198976) "-42.0" "-42";
    de_case (TF64 4631121865569258701) "42.1" "42.1"; de_case (TF64 13854493902424034509) "-42.1" "-42.1" ] = true.
Proof. vm_compute. reflexivity. Qed.

(** tests/it/const_ctor/mod.rs:1-15 and too_long_fractional.rs (does not compile). *)
Example test_const_ctor :
  fixnum_const dev L64 9 (str_of "42.42") = Ret 42420000000 /\
  from_decimal dev L64 9 4242 (-2) = Ret (Ok 42420000000) /\
  fixnum_const dev L64 9 (str_of "42") = Ret 42000000000 /\
  fixnum_const dev L64 9 (str_of "42.") = Ret 42000000000 /\
  from_decimal dev L64 9 42 0 = Ret (Ok 42000000000) /\
  fixnum_const dev L64 9 (str_of "0.1234567891") = Panic.
Proof. vm_compute. repeat split. Qed.

(** src/const_fn.rs:116-128. *)
Example test_parse_fixed : forallb
  (fun p => eqo (ret (parse_fixed dev (str_of (fst p)) 1000000000)) (snd p))
  [ ("1", 1000000000); ("1.1", 1100000000); ("1.02", 1020000000); ("-1.02", -1020000000);
    ("+1.02", 1020000000); ("123456789.123456789", 123456789123456789);
    ("9223372036.854775807", 9223372036854775807); ("0.1234", 123400000); ("-0.1234", -123400000) ]
  = true.
Proof. vm_compute. reflexivity. Qed.

(** src/power_table.rs:753-783. *)
Example test_power_table :
  power_of_10 0 = Some 1 /\ power_of_10 1 = Some 10 /\ power_of_10 2 = Some 100 /\
  power_of_10 20 = Some 100000000000000000000 /\ power_of_10 39 = None /\
  rdiv_by_exponent_10 dev 987659 0 = Ret 987659 /\
  rdiv_by_exponent_10 dev 123444444 6 = Ret 123 /\
  rdiv_by_exponent_10 dev 123444445 6 = Ret 124 /\
  rdiv_by_exponent_10 dev 123444445 39 = Ret 0 /\
  rdiv_by_exponent_10 dev (imax U128) 40 = Ret 0.
Proof. vm_compute. repeat split. Qed.

(** src/i256/u256.rs:851-869. *)
Example test_u256_leading_zeros :
  map (fun x => option_map u256_lz (ret (u256_of_u128 dev x)))
    [ 0; 1; 2; 2 ^ 127; imax U128; 2 ^ 117; imax U128 / 2 ^ 10 ]
  = map Some [ 256; 255; 254; 128; 128; 138; 138 ].
Proof. vm_compute. reflexivity. Qed.

(** src/i256/mod.rs:193-336. *)
Definition i128_is (o : outcome i256) (z : Z) : bool :=
  match o with
  | Ret x => match i128_of_i256 dev x with Ret (Some v) => v =? z | _ => false end
  | _ => false
  end.
Definition ineg (x : i256) (f : i256 -> bool) : bool :=
  match i256_neg dev x with Ret x => f x | _ => false end.
Definition cmp_is (o : outcome comparison) (c : comparison) : bool :=
  match o, c with Ret Lt, Lt | Ret Eq, Eq | Ret Gt, Gt => true | _, _ => false end.
Example test_i256 :
  i128_is (Ret I256_I128_MIN) (imin I128) = true /\ i128_is (Ret I256_I128_MAX) (imax I128) = true /\
  forallb (fun '(a, b, c) => cmp_is (i256_cmp (from_i128 a) (from_i128 b)) c &&
                             cmp_is (i256_cmp (from_i128 b) (from_i128 a)) (CompOpp c))
    [ (5, 3, Gt); (-5, -5, Eq); (0, -5, Gt) ] = true /\
  forallb (fun x => i128_is (Ret (from_i128 x)) x)
    [ 0; 1; -1; imax I128; imax I128 - 1; imin I128; imin I128 + 1 ] = true /\
  forallb (fun x => i128_is (i256_neg dev (from_i128 x)) (- x) && i128_is (i256_neg dev (from_i128 (- x))) x)
    [ 0; 1; 1234; 123456789987 ] = true /\
  i256_neg dev [imax U64; imax U64; imax U64; imax I64] = Ret [1; 0; 0; SIGN_MASK] /\
  i256_neg dev [1; 0; 0; SIGN_MASK] = Ret [imax U64; imax U64; imax U64; imax I64] /\
  i256_neg dev [12135437391674098742; 6842010065196193486; 3934495365917939035; 9991792806819277056]
    = Ret [6311306682035452874; 11604734008513358129; 14512248707791612580; 8454951266890274559] /\
  i256_neg dev [6311306682035452874; 11604734008513358129; 14512248707791612580; 8454951266890274559]
    = Ret [12135437391674098742; 6842010065196193486; 3934495365917939035; 9991792806819277056] /\
  i256_neg dev I256_MIN = Panic.
Proof. vm_compute. repeat split. Qed.
Definition t4 (f : i256 -> i256 -> outcome i256) (sym : bool) (sab sba s3 s4 : Z) (a b e : Z) : bool :=
  let a := from_i128 a in let b := from_i128 b in
  i128_is (f a b) (sab * e) && (negb sym || i128_is (f b a) (sba * e)) &&
  ineg a (fun a => ineg b (fun b => i128_is (f a b) (s3 * e) && (negb sym || i128_is (f b a) (s4 * e)))).
Example test_i256_arith :
  forallb (fun '(a, b, e) => t4 (fun x y => Ret (i256_add x y)) true 1 1 (-1) (-1) a b e)
    [ (0, 0, 0); (1111, 3210, 4321); (-1111, 5432, 4321); (-4321, 5432, 1111) ] = true /\
  forallb (fun '(a, b, e) => t4 (fun x y => Ret (i256_sub x y)) true 1 (-1) (-1) 1 a b e)
    [ (0, 0, 0); (4321, 1111, 3210); (4321, -1111, 5432); (1111, -4321, 5432) ] = true /\
  forallb (fun '(a, b, e) => t4 (i256_mul dev) true 1 1 1 1 a b e)
    [ (0, 0, 0); (7, 5, 35); (-7, 5, -35) ] = true /\
  forallb (fun '(a, b, e) => t4 (i256_div dev) false 1 1 1 1 a b e)
    [ (0, 1, 0); (35, 5, 7); (-35, 5, -7) ] = true.
Proof. vm_compute. repeat split. Qed.
