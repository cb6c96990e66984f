(** * Spec: the vocabulary the property statements are written in.

    Nothing here is taken from the model except its plain data types (outcomes, results, rounding
    modes, layouts).  Decimals are rationals; roundings are relations on rationals. *)
From Coq Require Export QArith Qabs.
From Verif Require Import Base Promo.
Open Scope Z_scope.

(** ** Layouts *)

(** Number of bits of a layout, largest and smallest raw value. *)
Definition bits (L : layout) : Z :=
  match L with L16 => 16 | L32 => 32 | L64 => 64 | L128 => 128 end.
Definition hi (L : layout) : Z := 2 ^ (bits L - 1) - 1.
Definition lo (L : layout) : Z := - 2 ^ (bits L - 1).
Definition in_range (L : layout) (r : Z) : Prop := lo L <= r <= hi L.

(** The layout is available in the build: [i128] is behind a feature. *)
Definition supported (b : build) (L : layout) : Prop := L = L128 -> f128 b = true.
(** A precision is valid for a layout when one is representable. *)
Definition valid_prec (L : layout) (P : Z) : Prop := 0 <= P /\ 10 ^ P <= hi L.
Definition valid (b : build) (L : layout) (P : Z) : Prop := supported b L /\ valid_prec L P.

(** ** Decimals and rounding *)

Definition Zq (z : Z) : Q := inject_Z z.
Arguments Zq z%Z.
(** Ten to a possibly negative power. *)
Definition q10 (e : Z) : Q := Qpower (10 # 1) e.
(** The decimal that raw value [r] stands for at precision [P]. *)
Definition dec (P r : Z) : Q := (Zq r * q10 (- P))%Q.

(** Integer [z] is the rational [q] rounded in mode [m]; ties of [Nearest] go away from zero. *)
Definition rounds (m : mode) (q : Q) (z : Z) : Prop :=
  match m with
  | Floor => (Zq z <= q /\ q < Zq (z + 1))%Q
  | Ceil => (Zq (z - 1) < q /\ q <= Zq z)%Q
  | Nearest =>
      (Qabs (q - Zq z) <= 1 # 2 /\ (Qabs (q - Zq z) == 1 # 2 -> Qabs q <= Qabs (Zq z)))%Q
  end.
(** [r] is the raw value of the decimal [d] rounded at precision [P]. *)
Definition rounds_to (m : mode) (P : Z) (d : Q) (r : Z) : Prop := rounds m (d * q10 P)%Q r.

(** [s] is the raw value, at precision [P], of the square root of [v] rounded by [m]: the largest
    with [s^2 <= v], the least with [s^2 >= v], the one within half a unit of the root (which is
    never exactly half-way between two decimals of precision [P] when [v] is one). *)
Definition sqrt_rounds (m : mode) (P : Z) (v : Q) (s : Z) : Prop :=
  0 <= s /\
  match m with
  | Floor => (dec P s * dec P s <= v /\ v < dec P (s + 1) * dec P (s + 1))%Q
  | Ceil => (v <= dec P s * dec P s)%Q /\ (0 < s -> (dec P (s - 1) * dec P (s - 1) < v)%Q)
  | Nearest =>
      let h := ((1 # 2) * dec P 1)%Q in
      (v < (dec P s + h) * (dec P s + h))%Q /\ (0 < s -> ((dec P s - h) * (dec P s - h) < v)%Q)
  end.

(** ** Shapes of results *)

(** The operation returns [r] if representable and [Err Overflow] if not; never panics. *)
Definition exact_or_overflow (L : layout) (r : Z) (o : outcome (result Z aerr)) : Prop :=
  (in_range L r /\ o = Ret (Ok r)) \/ (~ in_range L r /\ o = Ret (Err Overflow)).
(** The operation returns the decimal [d] rounded by [m] if representable, else [Overflow]. *)
Definition rounded_or_overflow (L : layout) (P : Z) (m : mode) (d : Q)
    (o : outcome (result Z aerr)) : Prop :=
  exists r, rounds_to m P d r /\ exact_or_overflow L r o.
(** [r] is [x] clamped into the range of the layout. *)
Definition clamped (L : layout) (x r : Z) : Prop :=
  (in_range L x -> r = x) /\ (x < lo L -> r = lo L) /\ (hi L < x -> r = hi L).

(** [r] is the raw value standing for the decimal [d]. *)
Definition represents (L : layout) (P : Z) (d : Q) (r : Z) : Prop :=
  in_range L r /\ (dec P r == d)%Q.
(** The operation returns the number equal to [d] if there is one, else the error [e]; it never
    panics. *)
Definition exact_or {E : Type} (L : layout) (P : Z) (d : Q) (e : E) (o : outcome (result Z E))
  : Prop :=
  (exists r, represents L P d r /\ o = Ret (Ok r)) \/
  ((forall r, ~ represents L P d r) /\ o = Ret (Err e)).
(** [r] is the decimal [d], a multiple of 10^-P, clamped into the range of the layout. *)
Definition clamps (L : layout) (P : Z) (d : Q) (r : Z) : Prop :=
  in_range L r /\
  ((dec P (lo L) <= d <= dec P (hi L))%Q -> (dec P r == d)%Q) /\
  ((d < dec P (lo L))%Q -> r = lo L) /\ ((dec P (hi L) < d)%Q -> r = hi L).

(** The three roundings of the decimal [d] to a multiple of 10^-P: down, nearest, up. *)
Definition brackets (P : Z) (d : Q) (f n c : Z) : Prop :=
  f <= n <= c /\ (c = f \/ c = f + 1) /\ (f = c <-> exists r, (dec P r == d)%Q) /\
  (n = f \/ n = c).
(** The other directed mode. *)
Definition flip (m : mode) : mode :=
  match m with Floor => Ceil | Ceil => Floor | Nearest => Nearest end.
(** Layout [L'] has at least as many bits as [L]. *)
Definition wider (L L' : layout) : Prop := bits L <= bits L'.

(** ** Integers held in four 64-bit words, least significant first *)
Definition unsigned4 (ws : list Z) (v : Z) : Prop :=
  exists w0 w1 w2 w3, ws = [w0; w1; w2; w3] /\
    0 <= w0 < 2 ^ 64 /\ 0 <= w1 < 2 ^ 64 /\ 0 <= w2 < 2 ^ 64 /\ 0 <= w3 < 2 ^ 64 /\
    v = w0 + 2 ^ 64 * w1 + 2 ^ 128 * w2 + 2 ^ 192 * w3.
(** Two's complement. *)
Definition signed4 (ws : list Z) (v : Z) : Prop :=
  exists u, unsigned4 ws u /\ v = if u <? 2 ^ 255 then u else u - 2 ^ 256.

(** ** Concrete builds, used by the examples beside the theorems *)
Definition dev : build := {| ovf := true; dbg := true; std := true; f128 := true |}.
Definition release : build := {| ovf := false; dbg := false; std := true; f128 := true |}.
Definition no_std : build := {| ovf := true; dbg := true; std := false; f128 := false |}.
(** Closes the concrete side conditions of the examples by computation. *)
Ltac example :=
  repeat match goal with
    | |- _ /\ _ => split
    | |- valid _ _ _ => split; [intros ?; (reflexivity || discriminate)|]
    | |- valid_prec _ _ => split
    | |- in_range _ _ => split
    | |- represents _ _ _ _ => split
    | |- fits _ _ => split
    | |- rounds_to _ _ _ _ => unfold rounds_to, rounds; split
    | |- rounds _ _ _ => unfold rounds; split
    | |- sqrt_rounds _ _ _ _ => unfold sqrt_rounds; split
    end;
  try match goal with
    | |- ~ in_range _ _ =>
        let H1 := fresh in let H2 := fresh in
        intros [H1 H2]; first [apply H1; reflexivity | apply H2; reflexivity]
    end;
  vm_compute; first [reflexivity | discriminate | congruence | (intros; discriminate)].
