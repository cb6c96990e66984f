(** * PropsFail: further theorems for C38, C45, C62, C82, C97, C98, C102, C114, C116, C123 and C124: programs fail only
    at a step that must fail.

    Further theorems for client programs: what each step does, and that an error always points to
    a step whose exact rounded result does not fit. For C102, what a client sees of a
    call, for C38 the width of the integer written, for C45 what an answer implies, and
    for C62 how a literal fails. *)
From Coq Require Import QArith.
From Verif Require Import Base Promo Ops Spec SpecRound SpecUndo.
From Verif Require Import Str Float Codec SpecCalls Calls Client Clients Programs Series Account Pool Interval ConstFn Macros.
From Verif Require Import SeriesFacts.
From Verif Require Import Fixed.
From Verif Require Import Meets.
From Verif Require Import FailFacts.
Open Scope Z_scope.

(** ** C82: the bounds are the best ones *)
(** The bounds of a product are roundings of products of bounds, down and up; the evaluation fails
    only if such a rounding does not fit. *)
Theorem C82_product : forall b L P, valid b L P -> forall e e' l h l' h', leaves L e -> leaves L e' ->
  enclose b L P e = Ret (Ok (l, h)) -> enclose b L P e' = Ret (Ok (l', h')) ->
  let at_corner m r := exists x y, (x = l \/ x = h) /\ (y = l' \/ y = h') /\ rounds_to m P (dec P x * dec P y) r in
  (exists l1 h1, enclose b L P (Mul e e') = Ret (Ok (l1, h1)) /\ at_corner Floor l1 /\ at_corner Ceil h1) \/
  (enclose b L P (Mul e e') = Ret (Err Overflow) /\ exists m r, m <> Nearest /\ at_corner m r /\ ~ in_range L r).
Proof. exact enclose_mul. Qed.
Print Assumptions C82_product.
Example C82_product_case : valid dev L64 9 /\ leaves L64 (Leaf (-1500000000) 7) /\ leaves L64 (Neg (Leaf 3 5)) /\
  enclose dev L64 9 (Leaf (-1500000000) 7) = Ret (Ok (-1500000000, 7)) /\ enclose dev L64 9 (Neg (Leaf 3 5)) = Ret (Ok (-5, -3)) /\
  enclose dev L64 9 (Mul (Leaf (-1500000000) 7) (Neg (Leaf 3 5))) = Ret (Ok (-1, 8)).
Proof. cbn [leaves]. meets. Qed.
(** For a quotient: a divisor that may be zero is reported as such; otherwise as for a product. *)
Theorem C82_quotient : forall b L P, valid b L P -> forall e e' l h l' h', leaves L e -> leaves L e' ->
  enclose b L P e = Ret (Ok (l, h)) -> enclose b L P e' = Ret (Ok (l', h')) ->
  let at_corner m r := exists x y, (x = l \/ x = h) /\ (y = l' \/ y = h') /\ rounds_to m P (dec P x / dec P y) r in
  (l' <= 0 <= h' -> enclose b L P (Div e e') = Ret (Err DivisionByZero)) /\
  (~ (l' <= 0 <= h') ->
    (exists l1 h1, enclose b L P (Div e e') = Ret (Ok (l1, h1)) /\ at_corner Floor l1 /\ at_corner Ceil h1) \/
    (enclose b L P (Div e e') = Ret (Err Overflow) /\ exists m r, m <> Nearest /\ at_corner m r /\ ~ in_range L r)).
Proof. exact enclose_div. Qed.
Print Assumptions C82_quotient.
Example C82_quotient_case : valid dev L64 9 /\ leaves L64 (Leaf (-1500000000) 7) /\ leaves L64 (Neg (Leaf 3000000000 7000000000)) /\
  enclose dev L64 9 (Leaf (-1500000000) 7) = Ret (Ok (-1500000000, 7)) /\
  enclose dev L64 9 (Neg (Leaf 3000000000 7000000000)) = Ret (Ok (-7000000000, -3000000000)) /\
  enclose dev L64 9 (Div (Leaf (-1500000000) 7) (Neg (Leaf 3000000000 7000000000))) = Ret (Ok (-3, 500000000)).
Proof. cbn [leaves]. meets. Qed.
(** Negation, sum and difference have exact bounds, or one of them does not fit. *)
Theorem C82_linear : forall b L P e e' l h l' h', enclose b L P e = Ret (Ok (l, h)) -> enclose b L P e' = Ret (Ok (l', h')) ->
  let both o x y := (in_range L x /\ in_range L y /\ o = Ret (Ok (x, y))) \/ (~ (in_range L x /\ in_range L y) /\ o = Ret (Err Overflow)) in
  both (enclose b L P (Neg e)) (- h) (- l) /\ both (enclose b L P (Add e e')) (l + l') (h + h') /\
  both (enclose b L P (Sub e e')) (l - h') (h - l').
Proof. exact enclose_linear. Qed.
Print Assumptions C82_linear.
Example C82_linear_case : enclose dev L64 9 (Mul (Leaf 2 5) (Leaf 7 500000000)) = Ret (Ok (0, 3)) /\ enclose dev L64 9 (Leaf 7 9) = Ret (Ok (7, 9)).
Proof. meets. Qed.
(** The error of the first operand that has one is passed on. *)
Theorem C82_inner : forall b L P e e' k,
  (enclose b L P e = Ret (Err k) \/ ((exists l h, enclose b L P e = Ret (Ok (l, h))) /\ enclose b L P e' = Ret (Err k))) ->
  enclose b L P (Add e e') = Ret (Err k) /\ enclose b L P (Sub e e') = Ret (Err k) /\
  enclose b L P (Mul e e') = Ret (Err k) /\ enclose b L P (Div e e') = Ret (Err k).
Proof. exact enclose_inner. Qed.
Print Assumptions C82_inner.
Example C82_inner_case : (exists l h, enclose dev L64 9 (Leaf 7 9) = Ret (Ok (l, h))) /\
  enclose dev L64 9 (Div (Leaf 1 2) (Leaf (-3) 4)) = Ret (Err DivisionByZero).
Proof. split; [exists 7, 9; reflexivity|vm_compute; reflexivity]. Qed.

(** ** C97: a sum of products fails only at a product or a sum that does not fit *)
Theorem C97_fails : forall b L P m l e, valid b L P -> tame m L P -> Forall (pair_in L) l -> forall acc, in_range L acc ->
  dot b L P m acc l = Ret (Err e) ->
  e = Overflow /\ exists pre x y post s p, l = pre ++ (x, y) :: post /\ dot b L P m acc pre = Ret (Ok s) /\
    rounds_to m P (dec P x * dec P y) p /\ ~ (in_range L p /\ in_range L (s + p)).
Proof. exact dot_fails. Qed.
Print Assumptions C97_fails.
Example C97_fails_case : valid dev L16 1 /\ tame Nearest L16 1 /\ Forall (pair_in L16) [(5, 3); (1000, 999); (7, 7)] /\ in_range L16 0 /\
  dot dev L16 1 Nearest 0 [(5, 3); (1000, 999); (7, 7)] = Ret (Err Overflow).
Proof. do 2 (split; [meets|]); split; [repeat constructor; cbn; meets|meets]. Qed.

(** ** C98: so does Horner's scheme *)
Theorem C98_fails : forall b L P m x l e, valid b L P -> tame m L P -> in_range L x -> Forall (in_range L) l ->
  forall a, in_range L a -> horner b L P m x a l = Ret (Err e) ->
  e = Overflow /\ exists pre c post s p, l = pre ++ c :: post /\ horner b L P m x a pre = Ret (Ok s) /\
    rounds_to m P (dec P s * dec P x) p /\ ~ (in_range L p /\ in_range L (p + c)).
Proof. exact horner_fails. Qed.
Print Assumptions C98_fails.
Example C98_fails_case : valid dev L16 1 /\ tame Nearest L16 1 /\ in_range L16 1000 /\ Forall (in_range L16) [3; 5] /\ in_range L16 20 /\
  horner dev L16 1 Nearest 1000 20 [3; 5] = Ret (Err Overflow).
Proof. do 3 (split; [meets|]); split; [repeat constructor; meets|meets]. Qed.

(** ** C114: every trade of a sequence pays what is due *)
(** After any sequence of trades one more trade either way adds the payment to one reserve and takes
    from the other what it should but for the rounding; it fails only if the reserve does not fit. *)
Theorem C114_step : forall b L P l x y x1 y1 d, valid b L P -> Forall (fun t => 0 <= snd t) l ->
  in_range L x -> in_range L y -> 0 < x -> 0 < y -> 0 <= d -> trade b L P (x, y) l = Ret (Ok (x1, y1)) ->
  ((in_range L (x1 + d) -> exists o, trade b L P (x, y) (l ++ [(false, d)]) = Ret (Ok (x1 + d, y1 - o)) /\ 0 <= o < y1 /\
      (0 <= dec P y1 * dec P d / dec P (x1 + d) - dec P o < (dec P y1 + 1) * q10 (- P))%Q) /\
   (~ in_range L (x1 + d) -> trade b L P (x, y) (l ++ [(false, d)]) = Ret (Err Overflow))) /\
  ((in_range L (y1 + d) -> exists o, trade b L P (x, y) (l ++ [(true, d)]) = Ret (Ok (x1 - o, y1 + d)) /\ 0 <= o < x1 /\
      (0 <= dec P x1 * dec P d / dec P (y1 + d) - dec P o < (dec P x1 + 1) * q10 (- P))%Q) /\
   (~ in_range L (y1 + d) -> trade b L P (x, y) (l ++ [(true, d)]) = Ret (Err Overflow))).
Proof. exact trade_step. Qed.
Print Assumptions C114_step.
Example C114_step_case : valid release L64 2 /\ Forall (fun t => 0 <= snd t) [(false, 501); (true, 166)] /\
  in_range L64 1000 /\ in_range L64 500 /\ 0 < 1000 /\ 0 < 500 /\ 0 <= 77 /\
  trade release L64 2 (1000, 500) [(false, 501); (true, 166)] = Ret (Ok (1006, 501)) /\ in_range L64 (1006 + 77) /\ in_range L64 (501 + 77).
Proof. split; [meets|]. split; [repeat constructor; cbn; discriminate|]. meets. Qed.

(** ** C116: the length is computed whenever the sum of squares, two units larger, fits *)
Theorem C116_fits : forall b L P m x y, valid b L P -> in_range L x -> in_range L y -> m <> Nearest ->
  (dec P x * dec P x + dec P y * dec P y + 2 * q10 (- P) <= dec P (hi L))%Q -> exists r, norm b L P m x y = Ret (Ok r).
Proof. exact norm_fits. Qed.
Print Assumptions C116_fits.
Example C116_fits_case : valid dev L64 9 /\ in_range L64 3000000001 /\ in_range L64 (-4000000000) /\ Floor <> Nearest /\
  (dec 9 3000000001 * dec 9 3000000001 + dec 9 (-4000000000) * dec 9 (-4000000000) + 2 * q10 (- 9) <= dec 9 (hi L64))%Q /\
  norm dev L64 9 Floor 3000000001 (-4000000000) = Ret (Ok 5000000000).
Proof. meets. Qed.

(** ** C123: a chain of exchanges fails only at an amount that does not fit *)
Theorem C123_fails : forall b L P l e, valid b L P -> Forall (fun f => in_range L (fst f) /\ tame (snd f) L P) l ->
  forall x, in_range L x -> run_mul b L P x l = Ret (Err e) ->
  e = Overflow /\ exists pre y m post z p, l = pre ++ (y, m) :: post /\ run_mul b L P x pre = Ret (Ok z) /\
    rounds_to m P (dec P z * dec P y) p /\ ~ in_range L p.
Proof. exact run_mul_fails. Qed.
Print Assumptions C123_fails.
Example C123_fails_case : valid dev L16 2 /\ Forall (fun f => in_range L16 (fst f) /\ tame (snd f) L16 2) [(150, Floor); (9999, Ceil); (50, Nearest)] /\
  in_range L16 10000 /\ run_mul dev L16 2 10000 [(150, Floor); (9999, Ceil); (50, Nearest)] = Ret (Err Overflow).
Proof. split; [meets|]. split; [repeat constructor; cbn; meets|meets]. Qed.

(** ** C124: an account fails only in a period whose interest or balance does not fit *)
Theorem C124_fails : forall b L P m r l e, valid b L P -> tame m L P -> in_range L r -> Forall (in_range L) l ->
  forall x, in_range L x -> account b L P m r x l = Ret (Err e) ->
  e = Overflow /\ exists pre f post z i, l = pre ++ f :: post /\ account b L P m r x pre = Ret (Ok z) /\
    rounds_to m P (dec P z * dec P r) i /\ ~ (in_range L i /\ in_range L (z + i) /\ in_range L (z + i + f)).
Proof. exact account_fails. Qed.
Print Assumptions C124_fails.
Example C124_fails_case : valid dev L16 2 /\ tame Nearest L16 2 /\ in_range L16 105 /\ Forall (in_range L16) [100; -50; 20000] /\
  in_range L16 10000 /\ account dev L16 2 Nearest 105 10000 [100; -50; 20000] = Ret (Err Overflow).
Proof. do 3 (split; [meets|]); split; [repeat constructor; meets|meets]. Qed.

(** ** C102: a client sees the results of the functions it calls *)
Theorem C102_answers : forall (A : Type) b L P (k : answer -> prog A),
  (forall v : A, exec b (Done v) = Ret v) /\
  (forall x y m, exec b (Ask L P (Rmul x y m) k) = bind (rmul b L P x y m) (fun r => exec b (k (Arith r)))) /\
  (forall x y m, exec b (Ask L P (SaturatingRmul x y m) k) = bind (saturating_rmul b L P x y m) (fun r => exec b (k (Plain r)))) /\
  (forall x y m, exec b (Ask L P (Rdiv x y m) k) = bind (rdiv b L P x y m) (fun r => exec b (k (Arith r)))) /\
  (forall x n m, exec b (Ask L P (RdivInt x n m) k) = bind (rdiv_int b L x n m) (fun r => exec b (k (Arith r)))) /\
  (forall t n d m, exec b (Ask L P (IntRdiv t n d m) k) = bind (int_rdiv b t n d m) (fun r => exec b (k (Arith r)))) /\
  (forall n x m, exec b (Ask L P (IntRdivFp n x m) k) = bind (int_rdiv_fp b L P n x m) (fun r => exec b (k (Arith r)))) /\
  (forall x m, exec b (Ask L P (Recip x m) k) = bind (recip b L P x m) (fun r => exec b (k (Arith r)))) /\
  (forall x y m, exec b (Ask L P (HalfSum x y m) k) = bind (half_sum b L x y m) (fun r => exec b (k (Plain r)))) /\
  (forall x m, exec b (Ask L P (Rsqrt x m) k) = bind (rsqrt b L P x m) (fun r => exec b (k (Arith r)))) /\
  (forall x, exec b (Ask L P (NextPowerOfTen x) k) = bind (next_power_of_ten b L x) (fun r => exec b (k (Arith r)))) /\
  (forall x m, exec b (Ask L P (Integral x m) k) = bind (integral b L P x m) (fun r => exec b (k (Plain r)))) /\
  (forall x, exec b (Ask L P (IntPart x Floor) k) = bind (floor b L P x) (fun r => exec b (k (Plain r)))) /\
  (forall x, exec b (Ask L P (IntPart x Nearest) k) = bind (round b L P x) (fun r => exec b (k (Plain r)))) /\
  (forall x, exec b (Ask L P (IntPart x Ceil) k) = bind (ceil b L P x) (fun r => exec b (k (Plain r)))) /\
  (forall n e, exec b (Ask L P (FromDecimal n e) k) = bind (from_decimal b L P n e) (fun r => exec b (k (Conv r)))) /\
  (forall x e, exec b (Ask L P (ToDecimal x e) k) = bind (to_decimal b L P x e) (fun r => exec b (k (Decimal r)))) /\
  (forall n, exec b (Ask L P (TryFromInt n) k) = bind (try_from_int b L P n) (fun r => exec b (k (Conv r)))) /\
  (forall s, exec b (Ask L P (FromStr s) k) = bind (from_str b L P s) (fun r => exec b (k (Conv r)))) /\
  (forall s, exec b (Ask L P (FromStrExact s) k) = bind (from_str_exact b L P s) (fun r => exec b (k (Conv r)))) /\
  (forall x, exec b (Ask L P (ToString x) k) = bind (to_string b L P x) (fun r => exec b (k (Text r)))) /\
  (forall x, exec b (Ask L P (Serialize x) k) = bind (serialize b L P x true false) (fun r => exec b (k (Token r)))) /\
  (forall raw, exec b (Ask L P (TryFromF64 raw) k) = bind (try_from_f64 b L P raw) (fun r => exec b (k (Conv r)))) /\
  (forall x, exec b (Ask L P (ToF64 x) k) = bind (to_f64 b L P x) (fun r => exec b (k (Float r)))).
Proof. exact exec_answers. Qed.
Print Assumptions C102_answers.
Example C102_answers_case : exec dev (Ask L64 9 (HalfSum 5 8 Ceil) (fun a => Ask L64 9 (Rmul 1500000000 (match a with Plain z => z | _ => 0 end) Floor) Done)) =
  Ret (Arith (Ok 10)).
Proof. vm_compute. reflexivity. Qed.

(** ** C38: the integer is written with the width of the layout *)
Theorem C38_width : forall b L P x bw, let t := match L with L16 => I16 | L32 => I32 | L64 => I64 | L128 => I128 end in
  repr_serialize L x = TInt t x /\ serialize b L P x false bw = Ret (TInt t x) /\
  repr_option_serialize L (Some x) = TSome (TInt t x) /\ repr_option_serialize L None = TNone.
Proof. exact binary_width. Qed.
Print Assumptions C38_width.
Example C38_width_case : serialize dev L32 4 (-15000) false true = Ret (TInt I32 (-15000)).
Proof. vm_compute. reflexivity. Qed.

(** ** C45: an answer says that every intermediate balance fits *)
Theorem C45_sum_exact : forall L P l a r, in_range L a -> run_steps L a l = Ok r ->
  represents L P (dec P a + qtotal P l) r /\
  forall pre post, l = pre ++ post -> exists s, run_steps L a pre = Ok s /\ represents L P (dec P a + qtotal P pre) s.
Proof. exact run_exact. Qed.
Print Assumptions C45_sum_exact.
Example C45_sum_exact_case : in_range L64 7 /\ run_steps L64 7 [SAdd 1500000000; SSub 12] = Ok 1499999995.
Proof. meets. Qed.

(** ** C62: a literal is a number of the layout or does not compile, whatever the text *)
Theorem C62_total : forall b L P s,
  (exists r, fixnum_const b L P s = Ret r /\ in_range L r) \/ fixnum_const b L P s = Panic.
Proof. exact literal_stops. Qed.
Print Assumptions C62_total.
(** "1.5" and "1.x". *)
Example C62_total_case : fixnum_const dev L64 9 [49; 46; 53] = Ret 1500000000 /\ fixnum_const dev L64 9 [49; 46; 120] = Panic.
Proof. meets. Qed.
