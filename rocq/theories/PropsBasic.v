(** * PropsBasic: C01-C04, C15, C19, C25, C45, C46. *)
From Coq Require Import Permutation.
From Verif Require Import Base Promo Ops Fixed Client Spec SimpleProofs.
From Verif Require Import Meets.
Open Scope Z_scope.

(** ** C01 *)
Theorem C01_order : forall P x y,
  (fp_cmp x y = Lt <-> (dec P x < dec P y)%Q) /\
  (fp_cmp x y = Eq <-> (dec P x == dec P y)%Q) /\
  (fp_cmp x y = Gt <-> (dec P y < dec P x)%Q) /\
  (fp_eq x y = true <-> (dec P x == dec P y)%Q) /\
  (fp_lt x y = true <-> (dec P x < dec P y)%Q) /\
  (fp_le x y = true <-> (dec P x <= dec P y)%Q).
Proof. exact order_spec. Qed.
Print Assumptions C01_order.
Example C01_order_example : fp_cmp (-15) 27 = Lt /\ (dec 1 (-15) == -3 # 2)%Q /\ (dec 1 27 == 27 # 10)%Q.
Proof. example. Qed.

Theorem C01_min_max : forall P x y,
  (fp_min x y = x \/ fp_min x y = y) /\ (fp_max x y = x \/ fp_max x y = y) /\
  (dec P (fp_min x y) <= dec P x)%Q /\ (dec P (fp_min x y) <= dec P y)%Q /\
  (dec P x <= dec P (fp_max x y))%Q /\ (dec P y <= dec P (fp_max x y))%Q.
Proof. exact min_max_spec. Qed.
Print Assumptions C01_min_max.
Example C01_min_max_example : fp_min (-15) 27 = -15 /\ fp_max (-15) 27 = 27.
Proof. example. Qed.

Theorem C01_constants : forall b L P, valid b L P ->
  (dec P ZERO == 0)%Q /\ (dec P fp_default == 0)%Q /\
  (exists o, ONE b L P = Ret o /\ in_range L o /\ (dec P o == 1)%Q) /\
  (dec P EPSILON == q10 (- P))%Q /\
  in_range L (MIN L) /\ in_range L (MAX L) /\
  (forall r, in_range L r -> (dec P (MIN L) <= dec P r <= dec P (MAX L))%Q).
Proof. exact constants_spec. Qed.
Print Assumptions C01_constants.
Example C01_constants_case : valid dev L64 9.
Proof. meets. Qed.
Example C01_constants_example : valid dev L128 38 /\ valid no_std L64 18 /\ valid release L16 0.
Proof. example. Qed.

(** ** C02 *)
Theorem C02_cadd : forall L P x y, exact_or L P (dec P x + dec P y) Overflow (Ret (cadd L x y)).
Proof. exact cadd_spec. Qed.
Print Assumptions C02_cadd.
Theorem C02_csub : forall L P x y, exact_or L P (dec P x - dec P y) Overflow (Ret (csub L x y)).
Proof. exact csub_spec. Qed.
Print Assumptions C02_csub.
Example C02_example : cadd L16 32000 767 = Ok 32767 /\ cadd L16 32000 768 = Err Overflow /\
  csub L16 (-32000) 768 = Ok (-32768) /\ csub L16 (-32000) 769 = Err Overflow.
Proof. example. Qed.

(** ** C03 *)
Theorem C03_cmul : forall L P x n, exact_or L P (dec P x * Zq n) Overflow (Ret (cmul L x n)).
Proof. exact cmul_spec. Qed.
Print Assumptions C03_cmul.
Theorem C03_cmul_comm : forall L n x, int_cmul_fp L n x = cmul L x n.
Proof. exact cmul_comm. Qed.
Print Assumptions C03_cmul_comm.
Example C03_example : cmul L16 (-16384) 2 = Ok (-32768) /\ cmul L16 16384 2 = Err Overflow.
Proof. example. Qed.

(** ** C04 *)
Theorem C04_saturating_add : forall L P x y,
  clamps L P (dec P x + dec P y) (fp_saturating_add L x y).
Proof. exact sat_add_spec. Qed.
Print Assumptions C04_saturating_add.
Theorem C04_saturating_sub : forall L P x y,
  clamps L P (dec P x - dec P y) (fp_saturating_sub L x y).
Proof. exact sat_sub_spec. Qed.
Print Assumptions C04_saturating_sub.
Theorem C04_saturating_mul : forall L P x n,
  clamps L P (dec P x * Zq n) (fp_saturating_mul L x n).
Proof. exact sat_mul_spec. Qed.
Print Assumptions C04_saturating_mul.
Theorem C04_saturating_mul_comm : forall L n x, int_saturating_mul_fp L n x = fp_saturating_mul L x n.
Proof. exact sat_mul_comm. Qed.
Print Assumptions C04_saturating_mul_comm.
Example C04_example : fp_saturating_add L16 32000 768 = 32767 /\ fp_saturating_sub L16 (-32000) 800 = -32768
  /\ fp_saturating_mul L16 (-300) 300 = -32768 /\ fp_saturating_mul L16 (-100) 300 = -30000.
Proof. example. Qed.

(** ** C15 *)
Theorem C15_cneg : forall L P x, exact_or L P (- dec P x) Overflow (Ret (cneg L x)).
Proof. exact cneg_spec. Qed.
Print Assumptions C15_cneg.
Theorem C15_cneg_error : forall L x, in_range L x -> (cneg L x = Err Overflow <-> x = lo L).
Proof. exact cneg_err. Qed.
Print Assumptions C15_cneg_error.
Example C15_cneg_error_case : in_range L64 1500000000.
Proof. meets. Qed.
Theorem C15_cneg_involutive : forall L x y, in_range L x -> cneg L x = Ok y ->
  in_range L y /\ cneg L y = Ok x.
Proof. exact cneg_involutive. Qed.
Print Assumptions C15_cneg_involutive.
Example C15_cneg_involutive_case : in_range L64 1500000000 /\ cneg L64 1500000000 = Ok (-1500000000).
Proof. meets. Qed.
Theorem C15_abs : forall L P x, in_range L x ->
  exact_or L P (Qabs (dec P x)) Overflow (Ret (abs L x)).
Proof. exact abs_spec. Qed.
Print Assumptions C15_abs.
Example C15_abs_case : in_range L64 1500000000.
Proof. meets. Qed.
Theorem C15_abs_error : forall L x, in_range L x -> (abs L x = Err Overflow <-> x = lo L).
Proof. exact abs_err. Qed.
Print Assumptions C15_abs_error.
Example C15_abs_error_case : in_range L64 1500000000.
Proof. meets. Qed.
Theorem C15_signum : forall P x,
  (signum x = 1 <-> (0 < dec P x)%Q) /\ (signum x = 0 <-> (dec P x == 0)%Q) /\
  (signum x = -1 <-> (dec P x < 0)%Q).
Proof. exact signum_spec. Qed.
Print Assumptions C15_signum.
Example C15_example : in_range L32 (-2147483647) /\ cneg L32 (-2147483647) = Ok 2147483647 /\
  in_range L32 (-2147483648) /\ cneg L32 (-2147483648) = Err Overflow /\ abs L32 (-7) = Ok 7 /\
  abs L32 (-2147483648) = Err Overflow /\ signum (-7) = -1.
Proof. example. Qed.

(** ** C19 *)
Theorem C19_round_towards_zero_by : forall L P x p, in_range L x -> in_range L p -> p <> 0 ->
  let r := round_towards_zero_by L x p in
  in_range L r /\ (exists k, (dec P r == Zq k * dec P p)%Q) /\
  (Qabs (dec P r) <= Qabs (dec P x))%Q /\ (Qabs (dec P x - dec P r) < Qabs (dec P p))%Q /\
  (0 <= dec P x -> 0 <= dec P r)%Q /\ (dec P x <= 0 -> dec P r <= 0)%Q.
Proof. exact rtz_spec. Qed.
Print Assumptions C19_round_towards_zero_by.
Example C19_round_towards_zero_by_case : in_range L64 1500000000 /\ in_range L64 (-4000) /\ (-4000) <> 0.
Proof. meets. Qed.
Theorem C19_round_by_zero : forall L x, round_towards_zero_by L x 0 = x.
Proof. exact rtz_zero. Qed.
Print Assumptions C19_round_by_zero.
Example C19_example : in_range L16 (-32768) /\ in_range L16 (-1) /\ -1 <> 0 /\
  round_towards_zero_by L16 (-32768) (-1) = -32768 /\ round_towards_zero_by L16 (-157) 10 = -150.
Proof. example. Qed.

(** ** C25.  [v] is a value of any of the twelve integer types [t]. *)
Theorem C25_try_from_int : forall b L P (t : ity) v, valid b L P -> fits t v ->
  exact_or L P (Zq v) ConvertError (try_from_int b L P v).
Proof. exact (fun b L P t v Hv _ => try_from_int_spec b L P v Hv). Qed.
Print Assumptions C25_try_from_int.
Example C25_try_from_int_case : valid dev L64 9 /\ fits I32 (-7).
Proof. meets. Qed.
Example C25_example : valid dev L64 9 /\ try_from_int dev L64 9 (-5) = Ret (Ok (-5000000000)) /\
  try_from_int dev L64 9 9223372037 = Ret (Err ConvertError) /\
  try_from_int dev L64 9 (2 ^ 128 - 1) = Ret (Err ConvertError).
Proof. example. Qed.

(** ** C45 *)
Theorem C45_sum_ok : forall L P l a, in_range L a ->
  (forall pre post, l = pre ++ post -> exists r, represents L P (dec P a + qtotal P pre) r) ->
  exists r, run_steps L a l = Ok r /\ represents L P (dec P a + qtotal P l) r.
Proof. exact run_ok. Qed.
Print Assumptions C45_sum_ok.
Example C45_sum_ok_case : in_range L16 30000 /\ (forall pre post, [SSub 1000; SAdd 3000] = pre ++ post -> exists r, represents L16
  2 (dec 2 30000 + qtotal 2 pre) r).
Proof. split; [meets|]; intros [|? [|? [|? ?]]] post e; [exists 30000|injection e as <- _; exists 29000|injection e as <- <- _;
  exists 32000|discriminate e]; meets. Qed.
Theorem C45_sum_err : forall L P l a e, in_range L a -> run_steps L a l = Err e ->
  e = Overflow /\ exists pre post, l = pre ++ post /\
    (forall r, ~ represents L P (dec P a + qtotal P pre) r) /\
    (forall p1 p2, pre = p1 ++ p2 -> p2 <> [] -> exists r, represents L P (dec P a + qtotal P p1) r).
Proof. exact run_err. Qed.
Print Assumptions C45_sum_err.
Example C45_sum_err_case : in_range L16 30000 /\ run_steps L16 30000 [SSub 1000; SAdd 3000; SAdd 3000] = Err Overflow.
Proof. meets. Qed.
Theorem C45_order_irrelevant : forall L a l l' r r', Permutation l l' ->
  run_steps L a l = Ok r -> run_steps L a l' = Ok r' -> r = r'.
Proof. exact run_perm. Qed.
Print Assumptions C45_order_irrelevant.
Example C45_order_irrelevant_case : Permutation [SSub 1000; SAdd 2000] [SAdd 2000; SSub 1000] /\ run_steps L16 30000 [SSub 1000;
  SAdd 2000] = Ok 31000 /\ run_steps L16 30000 [SAdd 2000; SSub 1000] = Ok 31000.
Proof. split; [apply perm_swap|meets]. Qed.
Example C45_example : in_range L16 30000 /\
  run_steps L16 30000 [SSub 1000; SAdd 3000; SAdd 700] = Ok 32700 /\
  run_steps L16 30000 [SAdd 700; SSub 1000; SAdd 3000] = Ok 32700 /\
  run_steps L16 30000 [SAdd 3000; SSub 1000; SAdd 700] = Err Overflow.
Proof. example. Qed.

(** ** C46.  The checked method is any function with the contract of C02/C03. *)
Theorem C46_default_saturating_add : forall (E : Type) L P (cadd : Z -> Z -> outcome (result Z E)) e x y,
  in_range L x -> in_range L y -> exact_or L P (dec P x + dec P y) e (cadd x y) ->
  exists r, default_saturating_add cadd (fun y => y <? 0) (lo L) (hi L) x y = Ret r /\
    clamps L P (dec P x + dec P y) r.
Proof. exact (@dsat_add). Qed.
Print Assumptions C46_default_saturating_add.
Example C46_default_saturating_add_case : in_range L16 (-300) /\ in_range L16 (-32760) /\ exact_or L16 2 (dec 2 (-300) + dec 2
  (-32760)) Overflow ((fun x y => Ret (cadd L16 x y)) (-300) (-32760)).
Proof. split; [meets|]; split; [meets|]; apply cadd_spec. Qed.
Theorem C46_default_saturating_sub : forall (E : Type) L P (csub : Z -> Z -> outcome (result Z E)) e x y,
  in_range L x -> in_range L y -> exact_or L P (dec P x - dec P y) e (csub x y) ->
  exists r, default_saturating_sub csub (fun y => y <? 0) (lo L) (hi L) x y = Ret r /\
    clamps L P (dec P x - dec P y) r.
Proof. exact (@dsat_sub). Qed.
Print Assumptions C46_default_saturating_sub.
Example C46_default_saturating_sub_case : in_range L16 (-300) /\ in_range L16 32767 /\ exact_or L16 2 (dec 2 (-300) - dec 2 32767)
  Overflow ((fun x y => Ret (csub L16 x y)) (-300) 32767).
Proof. split; [meets|]; split; [meets|]; apply csub_spec. Qed.
Theorem C46_default_saturating_mul : forall (E : Type) L P (cmul : Z -> Z -> outcome (result Z E)) e x n,
  in_range L x -> in_range L n -> exact_or L P (dec P x * Zq n) e (cmul x n) ->
  exists r, default_saturating_mul cmul (fun x => x <? 0) (fun y => y <? 0) (lo L) (hi L) x n = Ret r /\
    clamps L P (dec P x * Zq n) r.
Proof. exact (@dsat_mul). Qed.
Print Assumptions C46_default_saturating_mul.
Example C46_default_saturating_mul_case : in_range L16 (-300) /\ in_range L16 300 /\ exact_or L16 2 (dec 2 (-300) * Zq 300)
  Overflow ((fun x y => Ret (cmul L16 x y)) (-300) 300).
Proof. split; [meets|]; split; [meets|]; apply cmul_spec. Qed.
Example C46_example : in_range L16 (-300) /\ in_range L16 300 /\
  default_saturating_mul (fun x n => Ret (cmul L16 x n)) (fun x => x <? 0) (fun y => y <? 0) (lo L16) (hi L16)
    (-300) 300 = Ret (-32768).
Proof. example. Qed.
