(** * U256: src/i256/u256.rs, unsigned 256-bit integers as four little-endian u64 words.

    Only what is reachable from [I256] is modelled here, the other operators in [U256Ops].  The macro is instantiated once, with
    [$n_words = 4] ([uint! { struct U256(4) }], src/i256/u256.rs:846-848). *)
From Verif Require Import Base Sqrt.

(** [struct U256([u64; 4])], src/i256/u256.rs:846-848. *)
Definition u256 : Type := list Z.

(** Radix of a word (model helper). *)
Definition B : Z := 2 ^ 64.

(** [split_u128], src/i256/u256.rs:595-598. *)
Definition split_u128 (a : Z) : Z * Z :=
  (wrap U64 (a / 2 ^ 64), wrap U64 (Z.land a 18446744073709551615)).
(** [split], src/i256/u256.rs:590-593. *)
Definition split (a : Z) : Z * Z := (a / 2 ^ 32, Z.land a 4294967295).

(** [uint_overflowing_binop!], src/i256/u256.rs:21-58, unrolled loop over the words. *)
Fixpoint ov_binop (fn : Z -> Z -> Z * bool) (me you : list Z) (carry : Z) : list Z * Z :=
  match me, you with
  | m :: me, y :: you =>
      if carry =? 0 then
        let '(res, o) := fn m y in
        let '(l, c) := ov_binop fn me you (Z.b2z o) in (res :: l, c)
      else
        let '(res1, o1) := fn m y in
        let '(res2, o2) := fn res1 carry in
        let '(l, c) := ov_binop fn me you (Z.b2z o1 + Z.b2z o2) in (res2 :: l, c)
  | _, _ => ([], carry)
  end.
(** [overflowing_add], src/i256/u256.rs:484-494; [overflowing_sub], 496-506. *)
Definition overflowing_add (x y : u256) : u256 * bool :=
  let '(l, c) := ov_binop ovadd64 x y 0 in (l, 0 <? c).
Definition overflowing_sub (x y : u256) : u256 * bool :=
  let '(l, c) := ov_binop ovsub64 x y 0 in (l, 0 <? c).

(** Body of the inner loop of [uint_full_mul_reg!], src/i256/u256.rs:81-104 (the [$check] of the
    four-word instance is constantly true, line 65). *)
Definition mul_step (b : build) (i j a bw : Z) (st : list Z * Z) : outcome (list Z * Z) :=
  let '(ret, carry) := st in
  p <- mul b U128 a bw ;;
  let '(hi, low) := split_u128 p in
  el <- idx ret (i + j) ;;
  let '(low, o) := ovadd64 low el in
  ret <- set_idx ret (i + j) low ;;
  eh <- idx ret (i + j + 1) ;;
  hi <- add b U64 hi (Z.b2z o) ;;
  let '(hi, o0) := ovadd64 hi carry in
  let '(hi, o1) := ovadd64 hi eh in
  ret <- set_idx ret (i + j + 1) hi ;;
  Ret (ret, Z.b2z (o0 || o1)).

(** Inner loop over [j] (the words [me] from index [j] on). *)
Fixpoint mul_row (b : build) (i j bw : Z) (me : list Z) (st : list Z * Z) : outcome (list Z * Z) :=
  match me with
  | [] => Ret st
  | a :: me => st <- mul_step b i j a bw st ;; mul_row b i (j + 1) bw me st
  end.
(** Outer loop over [i] (the words [you] from index [i] on). *)
Fixpoint mul_rows (b : build) (i : Z) (me you ret : list Z) : outcome (list Z) :=
  match you with
  | [] => Ret ret
  | bw :: you =>
      '(ret, _) <- mul_row b i 0 bw me (ret, 0) ;;
      mul_rows b (i + 1) me you ret
  end.
(** [uint_full_mul_reg!], src/i256/u256.rs:60-112. *)
Definition full_mul (b : build) (me you : u256) : outcome (list Z) :=
  mul_rows b 0 me you (repeat 0 8).
(** [any_nonzero], src/i256/u256.rs:122-134. *)
Definition any_nonzero (l : list Z) : bool := existsb (fun w => negb (w =? 0)) l.
(** [overflowing_mul] via [uint_overflowing_mul!], src/i256/u256.rs:115-138, 508-512.  The
    [transmute] of [[u64; 8]] to [[[u64; 4]; 2]] splits the array in two halves. *)
Definition overflowing_mul (b : build) (x y : u256) : outcome (u256 * bool) :=
  ret <- full_mul b x y ;;
  Ret (firstn 4 ret, any_nonzero (skipn 4 ret)).
(** [Mul for U256], src/i256/u256.rs:140-157. *)
Definition u256_mul (b : build) (x y : u256) : outcome u256 :=
  '(r, o) <- overflowing_mul b x y ;;
  if (o : bool) then Panic else Ret r.

(** [fits_word], src/i256/u256.rs:299-305. *)
Definition fits_word (x : u256) : bool := forallb (fun w => w =? 0) (tl x).

(** [bits], src/i256/u256.rs:307-315: scan from the most significant word; [n] is the number of
    words still to look at. *)
Fixpoint bits_from (x : u256) (n : nat) : outcome Z :=
  match n with
  | O => w <- idx x 0 ;; Ret (64 - leading_zeros U64 w)
  | S k =>
      w <- idx x (Z.of_nat n) ;;
      if 0 <? w then Ret (64 * (Z.of_nat n + 1) - leading_zeros U64 w) else bits_from x k
  end.
Definition bits (x : u256) : outcome Z := bits_from x 3.

(** [zero], src/i256/u256.rs:318-321. *)
Definition zero : u256 := [0; 0; 0; 0].

(** [for i in i0..i0+n { body }] with a fallible body (model helper). *)
Fixpoint for_ {S : Type} (n : nat) (i : Z) (f : Z -> S -> outcome S) (s : S) : outcome S :=
  match n with
  | O => Ret s
  | Datatypes.S n => s <- f i s ;; for_ n (i + 1) f s
  end.

(** [Shl], src/i256/u256.rs:707-729.  [shift] is the [u32] operand: [shift.into().as_usize()]
    converts it to a U256 and back to the same number. *)
Definition u256_shl (b : build) (original : u256) (shift : Z) : outcome u256 :=
  let word_shift := shift / 64 in
  let bit_shift := shift mod 64 in
  ret <- for_ (Z.to_nat (4 - word_shift)) word_shift
           (fun i ret =>
              w <- idx original (i - word_shift) ;;
              w <- shl b U64 w bit_shift ;;
              set_idx ret i w) zero ;;
  if 0 <? bit_shift then
    for_ (Z.to_nat (4 - (word_shift + 1))) (word_shift + 1)
      (fun i ret =>
         w <- idx original (i - 1 - word_shift) ;;
         s <- sub b USize 64 bit_shift ;;
         w <- shr b U64 w s ;;
         r <- idx ret i ;;
         r <- add b U64 r w ;;
         set_idx ret i r) ret
  else Ret ret.

(** [Shr], src/i256/u256.rs:744-768. *)
Definition u256_shr (b : build) (original : u256) (shift : Z) : outcome u256 :=
  let word_shift := shift / 64 in
  let bit_shift := shift mod 64 in
  ret <- for_ (Z.to_nat (4 - word_shift)) word_shift
           (fun i ret =>
              w <- idx original i ;;
              w <- shr b U64 w bit_shift ;;
              set_idx ret (i - word_shift) w) zero ;;
  if 0 <? bit_shift then
    for_ (Z.to_nat (4 - (word_shift + 1))) (word_shift + 1)
      (fun i ret =>
         w <- idx original i ;;
         s <- sub b USize 64 bit_shift ;;
         w <- shl b U64 w s ;;
         r <- idx ret (i - word_shift - 1) ;;
         r <- add b U64 r w ;;
         set_idx ret (i - word_shift - 1) r) ret
  else Ret ret.

(** [full_shl], src/i256/u256.rs:323-331. *)
Definition full_shl (b : build) (self : u256) (shift : Z) : outcome (list Z) :=
  _ <- dassert b (shift <? 64) ;;
  w0 <- idx self 0 ;;
  u_lo <- shl b U64 w0 shift ;;
  s <- sub b U32 64 shift ;;
  u_hi <- u256_shr b self s ;;
  Ret (u_lo :: u_hi).

(** [mul_u64], src/i256/u256.rs:584-588: returns (low, high). *)
Definition mul_u64 (b : build) (a c carry : Z) : outcome (Z * Z) :=
  p <- mul b U128 a c ;;
  s <- add b U128 p carry ;;
  let '(hi, lo) := split_u128 s in Ret (lo, hi).

(** [overflowing_mul_u64], src/i256/u256.rs:602-612. *)
Fixpoint ov_mul_u64 (b : build) (l : list Z) (other carry : Z) : outcome (list Z * Z) :=
  match l with
  | [] => Ret ([], carry)
  | d :: l =>
      '(res, c) <- mul_u64 b d other carry ;;
      '(l, c) <- ov_mul_u64 b l other c ;;
      Ret (res :: l, c)
  end.
(** [full_mul_u64], src/i256/u256.rs:348-354. *)
Definition full_mul_u64 (b : build) (self : u256) (by_ : Z) : outcome (list Z) :=
  '(prod, carry) <- ov_mul_u64 b self by_ 0 ;;
  Ret (prod ++ [carry]).

(** [while q >= TWO32 || q * yn0 > TWO32 * rhat + un { q -= 1; rhat += yn1;
    if rhat >= TWO32 { break } }], src/i256/u256.rs:532-538 and 544-550. *)
Fixpoint dmw_loop (b : build) (fuel : nat) (yn1 yn0 un q rhat : Z) : outcome (Z * Z) :=
  match fuel with
  | O => NoFuel
  | S fuel =>
      c <- (if 2 ^ 32 <=? q then Ret true
            else
              l <- mul b U64 q yn0 ;;
              r <- mul b U64 (2 ^ 32) rhat ;;
              r <- add b U64 r un ;;
              Ret (r <? l)) ;;
      if (c : bool) then
        q <- sub b U64 q 1 ;;
        rhat <- add b U64 rhat yn1 ;;
        if 2 ^ 32 <=? rhat then Ret (q, rhat)
        else dmw_loop b fuel yn1 yn0 un q rhat
      else Ret (q, rhat)
  end.

(** [div_mod_word], src/i256/u256.rs:514-554. *)
Definition div_mod_word (b : build) (hi lo y : Z) : outcome (Z * Z) :=
  _ <- dassert b (hi <? y) ;;
  let s := leading_zeros U64 y in
  y <- shl b U64 y s ;;
  let '(yn1, yn0) := split y in
  his <- shl b U64 hi s ;;
  ms <- sub b U32 64 s ;;
  let los := if ms <? 64 then lo / 2 ^ ms else 0 in
  let un32 := Z.lor his los in
  un10 <- shl b U64 lo s ;;
  let '(un1, un0) := split un10 in
  q1 <- div U64 un32 yn1 ;;
  q1y <- mul b U64 q1 yn1 ;;
  rhat <- sub b U64 un32 q1y ;;
  '(q1, _) <- dmw_loop b 4 yn1 yn0 un1 q1 rhat ;;
  let un21 := wrap U64 (wrap U64 (wrap U64 (un32 * 2 ^ 32) + un1) - wrap U64 (q1 * y)) in
  q0 <- div U64 un21 yn1 ;;
  let rhat := wrap U64 (un21 - wrap U64 (q0 * yn1)) in
  '(q0, _) <- dmw_loop b 4 yn1 yn0 un0 q0 rhat ;;
  let rem := wrap U64 (wrap U64 (wrap U64 (un21 * 2 ^ 32) + un0) - wrap U64 (y * q0)) in
  q <- mul b U64 q1 (2 ^ 32) ;;
  q <- add b U64 q q0 ;;
  r <- shr b U64 rem s ;;
  Ret (q, r).

(** [div_mod_small], src/i256/u256.rs:356-364: from the most significant word down; returns the
    quotient words and the remainder word. *)
Fixpoint dms (b : build) (l : list Z) (other : Z) : outcome (list Z * Z) :=
  match l with
  | [] => Ret ([], 0)
  | d :: l =>
      '(ql, rem) <- dms b l other ;;
      '(q, r) <- div_mod_word b rem d other ;;
      Ret (q :: ql, r)
  end.
Definition div_mod_small (b : build) (self : u256) (other : Z) : outcome (u256 * u256) :=
  '(q, r) <- dms b self other ;;
  Ret (q, [r; 0; 0; 0]).

(** [binop_carry], src/i256/u256.rs:577-582. *)
Definition binop_carry (a c : Z) (carry : bool) (binop : Z -> Z -> Z * bool) : Z * bool :=
  let '(res1, o1) := ovadd64 c (Z.b2z carry) in
  let '(res2, o2) := binop a res1 in
  (res2, o1 || o2).
(** [binop_slice], src/i256/u256.rs:566-575: zips, i.e. stops at the shorter slice. *)
Fixpoint binop_slice (a c : list Z) (binop : Z -> Z -> Z * bool) (carry : bool) : list Z * bool :=
  match a, c with
  | x :: a, y :: c =>
      let '(res, carry) := binop_carry x y carry binop in
      let '(l, carry) := binop_slice a c binop carry in
      (res :: l, carry)
  | _, _ => (a, carry)
  end.

(** [&x[..n]] and [&x[n..]] with their bounds checks. *)
Definition slice_to (l : list Z) (n : Z) : outcome (list Z) :=
  if (0 <=? n) && (n <=? Z.of_nat (length l)) then Ret (firstn (Z.to_nat n) l) else Panic.
Definition slice_from (l : list Z) (n : Z) : outcome (list Z) :=
  if (0 <=? n) && (n <=? Z.of_nat (length l)) then Ret (skipn (Z.to_nat n) l) else Panic.

(** [binop_slice(&mut u[j..], c, op)]: returns the updated [u]. *)
Definition slice_op (u : list Z) (j : Z) (c : list Z) (binop : Z -> Z -> Z * bool)
  : outcome (list Z * bool) :=
  lo <- slice_to u j ;;
  hi <- slice_from u j ;;
  let '(hi, carry) := binop_slice hi c binop false in
  Ret (lo ++ hi, carry).

(** The [loop] correcting [q_hat], src/i256/u256.rs:397-411.  The tuple comparison
    [(hi, lo) <= (r_hat, u_k)] is lexicographic. *)
Fixpoint qhat_loop (b : build) (fuel : nat) (v1 v2 uk q_hat r_hat : Z) : outcome Z :=
  match fuel with
  | O => NoFuel
  | S fuel =>
      p <- mul b U128 q_hat v2 ;;
      let '(hi, lo) := split_u128 p in
      if (hi <? r_hat) || ((hi =? r_hat) && (lo <=? uk)) then Ret q_hat
      else
        q_hat <- sub b U64 q_hat 1 ;;
        let '(r_hat, o) := ovadd64 r_hat v1 in
        if (o : bool) then Ret q_hat else qhat_loop b fuel v1 v2 uk q_hat r_hat
  end.

(** Body of the main loop of [div_mod_knuth] at index [j], src/i256/u256.rs:386-440. *)
Definition knuth_step (b : build) (v : u256) (n v1 v2 j : Z) (u q : list Z)
  : outcome (list Z * list Z) :=
  u_jn <- idx u (j + n) ;;
  q_hat <-
    (if u_jn <? v1 then
       u1 <- idx u (j + n - 1) ;;
       '(q_hat, r_hat) <- div_mod_word b u_jn u1 v1 ;;
       u2 <- idx u (j + n - 2) ;;
       qhat_loop b 4 v1 v2 u2 q_hat r_hat
     else Ret 18446744073709551615) ;;
  q_hat_v <- full_mul_u64 b v q_hat ;;
  qv <- slice_to q_hat_v (n + 1) ;;
  '(u, c) <- slice_op u j qv ovsub64 ;;
  '(u, q_hat) <-
    (if (c : bool) then
       q_hat <- sub b U64 q_hat 1 ;;
       vn <- slice_to v n ;;
       '(u, c) <- slice_op u j vn ovadd64 ;;
       w <- idx u (j + n) ;;
       u <- set_idx u (j + n) (wrap U64 (w + Z.b2z c)) ;;
       Ret (u, q_hat)
     else Ret (u, q_hat)) ;;
  q <- set_idx q j q_hat ;;
  Ret (u, q).

(** [for j in (0..=m).rev()], src/i256/u256.rs:386; [k] is [j + 1]. *)
Fixpoint knuth_loop (b : build) (v : u256) (n v1 v2 : Z) (k : nat) (u q : list Z)
  : outcome (list Z * list Z) :=
  match k with
  | O => Ret (u, q)
  | S k =>
      '(u, q) <- knuth_step b v n v1 v2 (Z.of_nat k) u q ;;
      knuth_loop b v n v1 v2 k u q
  end.

(** [full_shr], src/i256/u256.rs:333-346. *)
Definition full_shr (b : build) (u : list Z) (shift : Z) : outcome u256 :=
  _ <- dassert b (shift <? 64) ;;
  res <- for_ 4 0 (fun i res => w <- idx u i ;; w <- shr b U64 w shift ;; set_idx res i w) zero ;;
  if 0 <? shift then
    for_ 4 1 (fun i res =>
                w <- idx u i ;;
                s <- sub b U32 64 shift ;;
                w <- shl b U64 w s ;;
                r <- idx res (i - 1) ;;
                set_idx res (i - 1) (Z.lor r w)) res
  else Ret res.

(** [div_mod_knuth], src/i256/u256.rs:366-447. *)
Definition div_mod_knuth (b : build) (self v : u256) (n m : Z) : outcome (u256 * u256) :=
  sb <- bits self ;;
  vb <- bits v ;;
  _ <- dassert b ((vb <=? sb) && negb (fits_word v)) ;;
  nm <- add b USize n m ;;
  _ <- dassert b (nm <=? 4) ;;
  vtop <- idx v (n - 1) ;;
  let shift := leading_zeros U64 vtop in
  v <- u256_shl b v shift ;;
  u <- full_shl b self shift ;;
  v1 <- idx v (n - 1) ;;
  v2 <- idx v (n - 2) ;;
  '(u, q) <- knuth_loop b v n v1 v2 (Z.to_nat (m + 1)) u zero ;;
  r <- full_shr b u shift ;;
  Ret (q, r).

(** [words], src/i256/u256.rs:450-453. *)
Definition words (b : build) (bits : Z) : outcome Z :=
  _ <- dassert b (0 <? bits) ;;
  b1 <- sub b USize bits 1 ;;
  q <- div USize b1 64 ;;
  add b USize 1 q.

(** [div_mod], src/i256/u256.rs:460-481. *)
Definition div_mod (b : build) (self other : u256) : outcome (u256 * u256) :=
  my_bits <- bits self ;;
  your_bits <- bits other ;;
  _ <- assert_ (negb (your_bits =? 0)) ;;
  if my_bits <? your_bits then Ret (zero, self)
  else if your_bits <=? 64 then
    w <- idx other 0 ;;
    div_mod_small b self w
  else
    my_words <- words b my_bits ;;
    your_words <- words b your_bits ;;
    m <- sub b USize my_words your_words ;;
    div_mod_knuth b self other your_words m.
(** [Div for U256], src/i256/u256.rs:670-677. *)
Definition u256_div (b : build) (x y : u256) : outcome u256 :=
  '(q, _) <- div_mod b x y ;; Ret q.

(** [Not], src/i256/u256.rs:693-705. *)
Definition u256_not (x : u256) : u256 := map (fun w => wrap U64 (Z.lnot w)) x.

(** [Ord::cmp], src/i256/u256.rs:783-787: lexicographic from the most significant word. *)
Fixpoint lex_cmp (x y : list Z) : comparison :=
  match x, y with
  | [], [] => Eq
  | [], _ :: _ => Lt
  | _ :: _, [] => Gt
  | a :: x, c :: y => match a ?= c with Eq => lex_cmp x y | r => r end
  end.
Definition u256_cmp (x y : u256) : comparison := lex_cmp (rev x) (rev y).

(** [leading_zeros], src/i256/u256.rs:614-622: fold from the most significant word. *)
Definition u256_lz (x : u256) : Z :=
  fst (fold_left
         (fun st chunk => let '(acc, met) := (st : Z * bool) in
            if met then (acc, true)
            else (acc + leading_zeros U64 chunk, negb (chunk =? 0)))
         (rev x) (0, false)).

(** [u128::try_from(U256)], src/i256/u256.rs:633-643. *)
Definition u128_of_u256 (b : build) (x : u256) : outcome (option Z) :=
  d <- sub b U32 256 (u256_lz x) ;;
  if 128 <? d then Ret None
  else
    w0 <- idx x 0 ;;
    w1 <- idx x 1 ;;
    h <- shl b U128 w1 64 ;;
    Ret (Some (Z.lor w0 h)).
(** [From<u128> for U256], src/i256/u256.rs:645-652. *)
Definition u256_of_u128 (b : build) (x : Z) : outcome u256 :=
  h <- shr b U128 x 64 ;;
  Ret [wrap U64 x; wrap U64 h; 0; 0].

(** [Sqrt for U256], src/i256/u256.rs:799-825; recursion depth bounded by [fuel]. *)
Fixpoint u256_sqrt (b : build) (fuel : nat) (self : u256) : outcome u256 :=
  match fuel with
  | O => NoFuel
  | S fuel =>
      o <- u128_of_u256 b self ;;
      match o with
      | Some x => r <- sqrt_prim b U128 x ;; u256_of_u128 b r
      | None =>
          s2 <- u256_shr b self 2 ;;
          r <- u256_sqrt b fuel s2 ;;
          lo <- u256_shl b r 1 ;;
          w0 <- idx lo 0 ;;
          hi <- set_idx lo 0 (Z.lor w0 1) ;;
          '(hi_square, _) <- overflowing_mul b hi hi ;;
          match u256_cmp hi_square self with
          | Gt => Ret lo
          | _ => Ret hi
          end
      end
  end.
