(** * Calc: a calculator for decimal texts, written against the API.

    A client program, not code of the crate; it calls [from_str_exact] (src/string.rs:29-31), [cadd],
    [csub], [rmul] and [rdiv] (src/lib.rs:275-403) and [to_string]
    ([Display], src/string.rs:102-125). *)
From Verif Require Import Base Promo Ops Str Spec SpecText.
From Verif Require Import Fixed.
Open Scope Z_scope.

Inductive operator : Type := Plus | Minus | Times | Over.
(** An error of reading or of computing. *)
Inductive failure : Type := Unread (e : cerr) | Failed (e : aerr).

Definition compute (b : build) (L : layout) (P : Z) (m : mode) (o : operator) (x y : Z) : outcome (result Z aerr) :=
  match o with
  | Plus => Ret (cadd L x y)
  | Minus => Ret (csub L x y)
  | Times => rmul b L P x y m
  | Over => rdiv b L P x y m
  end.
(** Texts in, text out. *)
Definition calc (b : build) (L : layout) (P : Z) (m : mode) (o : operator) (s t : str) : outcome (result str failure) :=
  x <- from_str_exact b L P s ;;
  match x with
  | Err e => Ret (Err (Unread e))
  | Ok x =>
      y <- from_str_exact b L P t ;;
      match y with
      | Err e => Ret (Err (Unread e))
      | Ok y =>
          r <- compute b L P m o x y ;;
          match r with
          | Err e => Ret (Err (Failed e))
          | Ok r => w <- to_string b L P r ;; Ret (Ok w)
          end
      end
  end.

(** Specification side. *)
(** The text spells [d], with at most [P] places and within the range of the layout. *)
Definition reads (L : layout) (P : Z) (s : list Z) (d : Q) : Prop :=
  exists neg i f x, spells s neg i f /\ places f <= P /\ represents L P (spelled neg i f) x /\ (spelled neg i f == d)%Q.
Definition exactly (o : operator) (u v : Q) : Q :=
  match o with Plus => (u + v)%Q | Minus => (u - v)%Q | Times => (u * v)%Q | Over => (u / v)%Q end.
(** The text of the result of an operation rounded by [m]. *)
Definition answer (L : layout) (P : Z) (m : mode) (o : operator) (u v : Q) (w : list Z) : Prop :=
  (o = Over -> ~ (v == 0)%Q) /\ exists r, rounds_to m P (exactly o u v) r /\ in_range L r /\ canonical w (dec P r).
