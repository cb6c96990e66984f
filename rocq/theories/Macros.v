(** * Macros: src/macros.rs. *)
From Verif Require Import Base Promo ConstFn Ops Fixed.

(** [fixnum_const!($value, $precision)], src/macros.rs:179-186, used at layout [L].
    [bytes] is [stringify!($value)].  [VALUE_INNER] has type [Int]; [VALUE_INNER as _] truncates
    to the layout.  [Panic] means that the constant does not evaluate (compile error). *)
Definition fixnum_const (b : build) (L : layout) (precision : Z) (bytes : list Z) : outcome Z :=
  coef <- pow10 b precision ;;
  v <- parse_fixed b bytes coef ;;
  Ret (wrap (lty L) v).

(** [fixnum!], src/macros.rs:226-231: the same followed by [.into()], the identity at
    [FixedPoint]. *)
Definition fixnum (b : build) (L : layout) (precision : Z) (bytes : list Z) : outcome Z :=
  fixnum_const b L precision bytes.

(** Contents of a wrapper type used with [impl_op!]: a fixed-point number of layout [L] and
    precision [P], or a signed primitive integer. *)
Inductive kind : Type := KFp (L : layout) (P : Z) | KInt (t : ity).

(** The inner value of a wrapper, tagged with its type. *)
Record operand : Type := { okind : kind; oval : Z }.

(** Whether two layouts are the same type, as the impl of [Operand] for [FixedPoint] demands,
    src/macros.rs:11-17. *)
Definition layout_eqb (a b : layout) : bool :=
  match a, b with L16, L16 | L32, L32 | L64, L64 | L128, L128 => true | _, _ => false end.

(** The impls of [impl_int_operand!], src/macros.rs:45-49: integer [from] promotes to [to]. *)
Definition int_operand (from to : ity) : bool :=
  match from, to with
  | I8, (I8 | I16 | I32 | I64 | I128) => true
  | I16, (I16 | I32 | I64 | I128) => true
  | I32, (I32 | I64 | I128) => true
  | I64, (I64 | I128) => true
  | I128, I128 => true
  | _, _ => false
  end.

(** [Operand::promote] towards the inner type [r] of the result, src/macros.rs:5-41; [None] is a
    type error.  [self.into()] between signed integers is the value itself. *)
Definition promote (r : kind) (o : operand) : option operand :=
  match r, okind o with
  | KFp L P, KFp L' P' => if layout_eqb L L' && (P =? P') then Some o else None
  | KFp L P, KInt t =>
      if int_operand t (lty L) then Some {| okind := KInt (lty L); oval := oval o |} else None
  | KInt t', KInt t =>
      if int_operand t t' then Some {| okind := KInt t'; oval := oval o |} else None
  | KInt _, KFp _ _ => None
  end.

(** The five operations, resolved on the promoted operands and producing [r];
    src/macros.rs:52-131 and 141-149 ([@checked_method]).  [None] is a type error. *)
Definition op_cadd (r : kind) (x y : operand) : option (outcome (result Z aerr)) :=
  match promote r x, promote r y with
  | Some x, Some y =>
      match r, okind x, okind y with
      | KFp L _, KFp _ _, KFp _ _ => Some (Ret (cadd L (oval x) (oval y)))
      | KInt t, KInt _, KInt _ => Some (Ret (int_cadd t (oval x) (oval y)))
      | _, _, _ => None
      end
  | _, _ => None
  end.
Definition op_csub (r : kind) (x y : operand) : option (outcome (result Z aerr)) :=
  match promote r x, promote r y with
  | Some x, Some y =>
      match r, okind x, okind y with
      | KFp L _, KFp _ _, KFp _ _ => Some (Ret (csub L (oval x) (oval y)))
      | KInt t, KInt _, KInt _ => Some (Ret (int_csub t (oval x) (oval y)))
      | _, _, _ => None
      end
  | _, _ => None
  end.
Definition op_cmul (r : kind) (x y : operand) : option (outcome (result Z aerr)) :=
  match promote r x, promote r y with
  | Some x, Some y =>
      match r, okind x, okind y with
      | KFp L _, KFp _ _, KInt _ => Some (Ret (cmul L (oval x) (oval y)))
      | KFp L _, KInt _, KFp _ _ => Some (Ret (int_cmul_fp L (oval x) (oval y)))
      | KInt t, KInt _, KInt _ => Some (Ret (int_cmul t (oval x) (oval y)))
      | _, _, _ => None
      end
  | _, _ => None
  end.
Definition op_rmul (b : build) (r : kind) (x y : operand) (m : mode)
  : option (outcome (result Z aerr)) :=
  match promote r x, promote r y with
  | Some x, Some y =>
      match r, okind x, okind y with
      | KFp L P, KFp _ _, KFp _ _ => Some (rmul b L P (oval x) (oval y) m)
      | _, _, _ => None
      end
  | _, _ => None
  end.
(** [rdiv]: the promoted left operand goes through [l.try_into()] to the inner type of the
    result (identity, or [TryFrom<integer>]), src/macros.rs:112-131. *)
Definition op_rdiv (b : build) (r : kind) (x y : operand) (m : mode)
  : option (outcome (result Z aerr)) :=
  match promote r x, promote r y with
  | Some x, Some y =>
      match r, okind x, okind y with
      | KFp L P, KFp _ _, KFp _ _ => Some (rdiv b L P (oval x) (oval y) m)
      | KFp L P, KFp _ _, KInt _ => Some (rdiv_int b L (oval x) (oval y) m)
      | KFp L P, KInt _, KFp _ _ =>
          Some (l <- try_from_int b L P (oval x) ;;
                match l with Err _ => Ret (Err Overflow) | Ok l => rdiv b L P l (oval y) m end)
      | KFp L P, KInt _, KInt _ =>
          Some (l <- try_from_int b L P (oval x) ;;
                match l with Err _ => Ret (Err Overflow) | Ok l => rdiv_int b L l (oval y) m end)
      | KInt t, KInt _, KInt _ => Some (int_rdiv b t (oval x) (oval y) m)
      | _, _, _ => None
      end
  | _, _ => None
  end.
(** The saturating methods generated for [cadd] and [csub], src/macros.rs:64-67, 80-83, 132-140
    ([@method]). *)
Definition op_saturating_add (r : kind) (x y : operand) : option Z :=
  match promote r x, promote r y with
  | Some x, Some y =>
      match r, okind x, okind y with
      | KFp L _, KFp _ _, KFp _ _ => Some (fp_saturating_add L (oval x) (oval y))
      | KInt t, KInt _, KInt _ => Some (saturating_add t (oval x) (oval y))
      | _, _, _ => None
      end
  | _, _ => None
  end.
Definition op_saturating_sub (r : kind) (x y : operand) : option Z :=
  match promote r x, promote r y with
  | Some x, Some y =>
      match r, okind x, okind y with
      | KFp L _, KFp _ _, KFp _ _ => Some (fp_saturating_sub L (oval x) (oval y))
      | KInt t, KInt _, KInt _ => Some (saturating_sub t (oval x) (oval y))
      | _, _, _ => None
      end
  | _, _ => None
  end.
(** [Bounded::MIN]/[MAX] of a wrapper over kind [r], as its author has to define them: those of
    the wrapped type (src/lib.rs:237-243, src/ops/mod.rs:395-398). *)
Definition kind_min (r : kind) : Z := match r with KFp L _ => MIN L | KInt t => imin t end.
Definition kind_max (r : kind) : Z := match r with KFp L _ => MAX L | KInt t => imax t end.
(** [impl_op!] for [cmul] and [rmul] leaves [saturating_mul] and [saturating_rmul] to the default
    methods, src/macros.rs:87-111, src/ops/mod.rs:229-244, 328-343. *)
Definition op_saturating_mul (r : kind) (x y : operand) : option (outcome Z) :=
  match op_cmul r x y with
  | Some o =>
      Some (default_saturating_mul (fun _ _ => o) (fun x => oval x <? 0) (fun y => oval y <? 0)
              (kind_min r) (kind_max r) x y)
  | None => None
  end.
Definition op_saturating_rmul (b : build) (r : kind) (x y : operand) (m : mode) : option (outcome Z) :=
  match op_rmul b r x y m with
  | Some o =>
      Some (default_saturating_mul (fun _ _ => o) (fun x => oval x <? 0) (fun y => oval y <? 0)
              (kind_min r) (kind_max r) x y)
  | None => None
  end.
