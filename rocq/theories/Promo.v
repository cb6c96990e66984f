(** * Promo: layouts and the promoted type each layout computes in.

    [impl_fixed_point!] is instantiated four times (src/lib.rs:740-776): i16 over i32, i32 over
    i64, i64 over i128 and i128 over I256.  The operations the macro applies to [$promotion]
    values are gathered in a plain record. *)
From Verif Require Import Base Sqrt U256 I256.

(** The four layouts, src/lib.rs:745-776. *)
Inductive layout : Type := L16 | L32 | L64 | L128.

(** [$layout], src/lib.rs:745-776. *)
Definition lty (L : layout) : ity :=
  match L with L16 => I16 | L32 => I32 | L64 => I64 | L128 => I128 end.

(** The operations of [$promotion], src/lib.rs:233-738. *)
Record promo : Type := {
  pt : Type;                              (* [$promotion] *)
  p_from : Z -> pt;                       (* [$promotion::from] on a [$layout] value *)
  p_mul : pt -> pt -> outcome pt;         (* [*] *)
  p_div : pt -> pt -> outcome pt;         (* [/] *)
  p_add : pt -> pt -> outcome pt;         (* [+] *)
  p_sub : pt -> pt -> outcome pt;         (* [-] *)
  p_try : pt -> outcome (option Z);       (* [$layout::try_from] *)
  p_sqrt : pt -> outcome pt;              (* [.sqrt()], never [Err] *)
  p_ge : pt -> pt -> outcome bool;        (* [>=] *)
  p_eq : pt -> pt -> bool;                (* [==] *)
  p_one : pt                              (* [$promotion::ONE] *)
}.

(** A primitive promotion [t] for the layout type [l]. *)
Definition prim_promo (b : build) (l t : ity) : promo := {|
  pt := Z;
  p_from := fun x => x;
  p_mul := mul b t;
  p_div := div t;
  p_add := add b t;
  p_sub := sub b t;
  p_try := fun x => Ret (try_from l x);
  p_sqrt := sqrt_prim b t;
  p_ge := fun x y => Ret (y <=? x);
  p_eq := Z.eqb;
  p_one := 1
|}.

(** The 256-bit promotion of i128. *)
Definition i256_promo (b : build) : promo := {|
  pt := i256;
  p_from := from_i128;
  p_mul := i256_mul b;
  p_div := i256_div b;
  p_add := fun x y => Ret (i256_add x y);
  p_sub := fun x y => Ret (i256_sub x y);
  p_try := i128_of_i256 b;
  p_sqrt := i256_sqrt b;
  p_ge := fun x y => c <- i256_cmp x y ;; Ret (match c with Lt => false | _ => true end);
  p_eq := words_eqb;
  p_one := I256_ONE
|}.

(** [$promotion] per layout, src/lib.rs:745-776. *)
Definition promo_of (b : build) (L : layout) : promo :=
  match L with
  | L16 => prim_promo b I16 I32
  | L32 => prim_promo b I32 I64
  | L64 => prim_promo b I64 I128
  | L128 => i256_promo b
  end.
