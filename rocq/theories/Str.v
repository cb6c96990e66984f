(** * Str: src/string.rs, parsing and formatting.

    A [&str] is the list of its Unicode scalar values; a formatted string is the list of its
    (ASCII) bytes, which are the same numbers.  ASCII: '+' 43, '-' 45, '.' 46, '0' 48, '5' 53,
    '9' 57. *)
From Verif Require Import Base Promo ConstFn Ops Fixed.

(** [&str], and the contents of [StrBuf], src/string.rs:137-178. *)
Definition str : Type := list Z.

(** [char::is_whitespace]: the Unicode White_Space property (core library). *)
Definition is_ws (c : Z) : bool :=
  ((9 <=? c) && (c <=? 13)) || (c =? 32) || (c =? 133) || (c =? 160) || (c =? 5760)
  || ((8192 <=? c) && (c <=? 8202)) || (c =? 8232) || (c =? 8233) || (c =? 8239)
  || (c =? 8287) || (c =? 12288).

(** [str::trim_start], [str::trim] (core library). *)
Fixpoint trim_start (s : str) : str :=
  match s with
  | [] => []
  | c :: t => if is_ws c then trim_start t else s
  end.
Definition trim (s : str) : str := rev (trim_start (rev (trim_start s))).

(** [str::split_once] on a character (core library): split at its first occurrence. *)
Fixpoint split_once (s : str) (pat : Z) : option (str * str) :=
  match s with
  | [] => None
  | c :: t =>
      if c =? pat then Some ([], t)
      else match split_once t pat with
           | Some (l, r) => Some (c :: l, r)
           | None => None
           end
  end.

(** [char::is_digit(10)] (core library): ASCII digits only. *)
Definition is_digit (c : Z) : bool := (48 <=? c) && (c <=? 57).

(** Value of a list of ASCII digits, most significant first (helper of the integer parser). *)
Definition digits_value (s : str) : Z := fold_left (fun a c => 10 * a + (c - 48)) s 0.

(** [<$layout as FromStr>::from_str] (core library): optional sign, at least one digit, ASCII
    digits only, value in range.  core accumulates with checked operations in the direction of
    the sign, so it fails exactly when the final value is out of range. *)
Definition parse_uint (s : str) : option Z :=
  match s with
  | [] => None
  | _ => if forallb is_digit s then Some (digits_value s) else None
  end.
Definition parse_int_str (t : ity) (s : str) : option Z :=
  match s with
  | [] => None
  | c :: r =>
      let v :=
        if c =? 43 then parse_uint r
        else if c =? 45 then match parse_uint r with Some v => Some (- v) | None => None end
        else parse_uint s in
      match v with
      | Some v => if fitsb t v then Some v else None
      | None => None
      end
  end.

(** [parse_str], src/string.rs:33-99.  [exact] is the const parameter [EXACT]. *)
Definition parse_str (b : build) (L : layout) (P : Z) (exact : bool) (s : str)
  : outcome (result Z cerr) :=
  let t := lty L in
  let s := trim s in
  match split_once s 46 with
  | None =>
      match parse_int_str t s with
      | None => Ret (Err ConvertError)
      | Some v => try_from_int b L P v
      end
  | Some (integral_str, fractional_str) =>
      match parse_int_str t integral_str with
      | None => Ret (Err ConvertError)
      | Some integral =>
          if negb (forallb is_digit fractional_str) then Ret (Err ConvertError)
          else
            c0 <- idx s 0 ;;
            let signum := if c0 =? 45 then -1 else 1 in
            let prec := wrap USize P in
            let flen := Z.of_nat (length fractional_str) in
            ap <- iabs b I32 P ;;
            if exact && (wrap USize ap <? flen) then Ret (Err ConvertError)
            else
              '(fractional_str, round) <-
                (if negb exact && (prec <? flen) then
                   extra <- idx fractional_str prec ;;
                   Ret (firstn (Z.to_nat prec) fractional_str,
                        if 53 <=? extra then Some signum else None)
                 else Ret (fractional_str, None)) ;;
              exp <- ipow b t 10 (wrap U32 (Z.of_nat (length fractional_str))) ;;
              coef <- COEF b L P ;;
              if exact && (coef <? exp) then Ret (Err ConvertError)
              else
                _ <- dassert b (exp <=? coef) ;;
                match parse_int_str t fractional_str with
                | None => Ret (Err ConvertError)
                | Some fractional =>
                    match checked_mul t integral coef with
                    | None => Ret (Err ConvertError)
                    | Some final_integral =>
                        sc <- mul b t signum coef ;;
                        q <- div t sc exp ;;
                        final_fractional <- mul b t q fractional ;;
                        final_fractional <-
                          match (round : option Z) with
                          | Some r => _ <- dassert b (negb exact) ;; add b t final_fractional r
                          | None => Ret final_fractional
                          end ;;
                        Ret (ok_or (checked_add t final_integral final_fractional) ConvertError)
                    end
                end
      end
  end.

(** [FromStr::from_str], src/string.rs:19-21; [from_str_exact], 29-31. *)
Definition from_str (b : build) (L : layout) (P : Z) (s : str) := parse_str b L P false s.
Definition from_str_exact (b : build) (L : layout) (P : Z) (s : str) := parse_str b L P true s.

(** [itoa::Buffer::format] (crate itoa): canonical decimal digits, '-' first if negative.
    [log2 z + 1] divisions by ten always suffice. *)
Fixpoint dec_digits (fuel : nat) (z : Z) (acc : str) : str :=
  match fuel with
  | O => acc
  | S fuel =>
      let acc := (48 + z mod 10) :: acc in
      if z / 10 =? 0 then acc else dec_digits fuel (z / 10) acc
  end.
Definition itoa_nonneg (z : Z) : str := dec_digits (S (Z.to_nat (Z.log2 z))) z [].
Definition itoa (z : Z) : str := if z <? 0 then 45 :: itoa_nonneg (- z) else itoa_nonneg z.

(** [str::trim_end_matches('0')] (core library). *)
Fixpoint drop_zeros (s : str) : str :=
  match s with
  | [] => []
  | c :: t => if c =? 48 then drop_zeros t else s
  end.
Definition trim_end_zeros (s : str) : str := rev (drop_zeros (rev s)).

(** [MAX_LEN], src/string.rs:132. *)
Definition MAX_LEN (b : build) : Z := if f128 b then 41 else 21.

(** [StrBuf], src/string.rs:137-149: the bytes written so far ([len] is their number). *)
Definition strbuf : Type := list Z.

(** [StrBuf::push], src/string.rs:152-159.  Writing at an index outside the array through
    [get_unchecked_mut] is undefined behaviour. *)
Definition push (b : build) (buf : strbuf) (c : Z) : outcome strbuf :=
  let len := Z.of_nat (length buf) in
  _ <- dassert b (len <? MAX_LEN b) ;;
  _ <- dassert b (c <? 128) ;;
  if len <? MAX_LEN b then Ret (buf ++ [c]) else Undef.

(** [StrBuf::push_str], src/string.rs:161-169. *)
Definition push_str (b : build) (buf : strbuf) (s : str) : outcome strbuf :=
  let len := Z.of_nat (length buf) in
  let e := len + Z.of_nat (length s) in
  _ <- dassert b (e <=? MAX_LEN b) ;;
  if e <=? MAX_LEN b then Ret (buf ++ s) else Undef.

(** [&s[1..]] on an ASCII string. *)
Definition str_from1 (s : str) : outcome str :=
  match s with [] => Panic | _ :: t => Ret t end.

(** [stringify], src/string.rs:102-125, on an empty buffer; [Display] and [Debug]
    (src/lib.rs:647-663) write [buf.as_str()] (src/string.rs:171-177), the bytes written. *)
Definition stringify (b : build) (L : layout) (P : Z) (self : Z) : outcome str :=
  let t := lty L in
  let buf := [] in
  let sign := Z.sgn self in
  buf <- (if sign <? 0 then push b buf 45 else Ret buf) ;;
  coef <- COEF b L P ;;
  q <- div t self coef ;;
  integral <- iabs b t q ;;
  r <- rem t self coef ;;
  fractional <- iabs b t r ;;
  buf <- push_str b buf (itoa integral) ;;
  buf <- push b buf 46 ;;
  if 0 <? fractional then
    fl <- add b t fractional coef ;;
    s <- str_from1 (itoa fl) ;;
    push_str b buf (trim_end_zeros s)
  else push b buf 48.

(** [to_string()] through [Display]. *)
Definition to_string (b : build) (L : layout) (P self : Z) : outcome str := stringify b L P self.
