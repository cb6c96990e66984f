(** * Programs: more programs written against the API, used to state properties of histories.

    Client programs, not code of the crate; they call [rmul], [rdiv], [cmul], [cadd], [csub]
    (src/lib.rs:275-431), [to_decimal], [from_decimal], [from_str] and [Display], and stop at the
    first error. *)
From Coq Require Import QArith Qabs.
From Verif Require Import Base Promo ConstFn Ops Str Spec.
From Verif Require Import Fixed.
Open Scope Z_scope.

(** [x] times each factor in turn, rounding each time. *)
Fixpoint run_mul (b : build) (L : layout) (P x : Z) (l : list (Z * mode)) : outcome (result Z aerr) :=
  match l with
  | [] => Ret (Ok x)
  | (y, m) :: l => try_ (rmul b L P x y m) (fun x => run_mul b L P x l)
  end.
(** [n] equal shares of [x], and what is left over. *)
Definition split (b : build) (L : layout) (x n : Z) : outcome (result (Z * Z) aerr) :=
  try_ (rdiv_int b L x n Floor) (fun q =>
  try_ (Ret (cmul L q n)) (fun p =>
  try_ (Ret (csub L x p)) (fun r => Ret (Ok (q, r))))).
(** The sum of the shares of [x] given by the weights [ws], each rounded by [m]. *)
Fixpoint distribute (b : build) (L : layout) (P : Z) (m : mode) (x acc : Z) (ws : list Z) : outcome (result Z aerr) :=
  match ws with
  | [] => Ret (Ok acc)
  | w :: ws => try_ (rmul b L P x w m) (fun s => try_ (Ret (cadd L acc s)) (fun acc => distribute b L P m x acc ws))
  end.
(** A number of one type as a number of another: [to_decimal(k)], conversion of the mantissa,
    [from_decimal]; and through text. *)
Definition convert (b b' : build) (L : layout) (P : Z) (L' : layout) (P' x k : Z) : outcome (result Z cerr) :=
  '(m, e) <- to_decimal b L P x k ;;
  match try_from (lty L') m with
  | None => Ret (Err ConvertError)
  | Some m => from_decimal b' L' P' m e
  end.
Definition convert_text (b b' : build) (L : layout) (P : Z) (L' : layout) (P' x : Z) : outcome (result Z cerr) :=
  s <- to_string b L P x ;; from_str b' L' P' s.

(** Specification side. *)
Fixpoint qproduct (P : Z) (l : list (Z * mode)) : Q :=
  match l with [] => 1%Q | (y, _) :: l => (dec P y * qproduct P l)%Q end.
(** Units in the last place that one rounding can cost, and that a sequence can. *)
Definition slack (m : mode) : Q := match m with Nearest => 1 # 2 | _ => 1 end.
Fixpoint slacks (l : list (Z * mode)) : Q :=
  match l with [] => 0%Q | (_, m) :: l => (slack m + slacks l)%Q end.
Fixpoint total (ws : list Z) : Z := match ws with [] => 0 | w :: ws => w + total ws end.
(** A factor of at most one in absolute value, with a mode the multiplication supports. *)
Definition factor (L : layout) (P : Z) (f : Z * mode) : Prop :=
  in_range L (fst f) /\ Z.abs (fst f) <= 10 ^ P /\ (snd f = Nearest -> ~ (L = L128 /\ P = 38)).
(** Where the sum of [n] shares rounded by [m] lies: [e] is its distance from the exact sum, [u]
    the unit in the last place. *)
Definition off_q (m : mode) (n : Z) (e u : Q) : Prop :=
  match m with Ceil => (0 <= e <= Zq n * u)%Q | Nearest => (Qabs e <= Zq n * (1 # 2) * u)%Q | Floor => (- (Zq n * u) <= e <= 0)%Q end.
(** Units of headroom that [n] shares need. *)
Definition room (m : mode) (n : Z) : Z := match m with Floor => 0 | _ => n end.
