(** * PropsSat: C110 to C112, documented errors, saturating balances, hashing. *)
From Coq Require Import QArith Qabs Permutation.
From Verif Require Import Base Promo Ops Fixed Spec Client.
From Verif Require Import SpecDoc DocFacts SatRun SatFacts.
From Verif Require Import Fixed.
From Verif Require Import Meets.
Open Scope Z_scope.

(** ** C110: the documented errors of rounded results *)
Theorem C110_rmul : forall b L P x y m r, valid b L P -> in_range L x -> in_range L y -> sound_for b m ->
  rmul b L P x y m = Ret (Ok r) -> documented m P (dec P x * dec P y) r.
Proof. exact rmul_documented. Qed.
Print Assumptions C110_rmul.
Example C110_rmul_case : valid dev L64 9 /\ in_range L64 1500000001 /\ in_range L64 (-700000001) /\ sound_for dev Nearest /\
  rmul dev L64 9 1500000001 (-700000001) Nearest = Ret (Ok (-1050000002)).
Proof. do 3 (split; [meets|]). split; [now left|meets]. Qed.
Theorem C110_rdiv : forall b L P x y m r, valid b L P -> in_range L x -> in_range L y -> y <> 0 -> sound_for b m ->
  rdiv b L P x y m = Ret (Ok r) -> documented m P (dec P x / dec P y) r.
Proof. exact rdiv_documented. Qed.
Print Assumptions C110_rdiv.
Example C110_rdiv_case : valid release L64 9 /\ in_range L64 1500000001 /\ in_range L64 (-300000001) /\ -300000001 <> 0 /\
  sound_for release Floor /\ rdiv release L64 9 1500000001 (-300000001) Floor = Ret (Ok (-4999999987)).
Proof. do 4 (split; [meets|]). split; [now right|meets]. Qed.
Theorem C110_recip : forall b L P x m r, valid b L P -> in_range L x -> x <> 0 -> sound_for b m ->
  recip b L P x m = Ret (Ok r) -> documented m P (1 / dec P x) r.
Proof. exact recip_documented. Qed.
Print Assumptions C110_recip.
Example C110_recip_case : valid dev L64 9 /\ in_range L64 (-300000001) /\ -300000001 <> 0 /\ sound_for dev Nearest /\
  recip dev L64 9 (-300000001) Nearest = Ret (Ok (-3333333322)).
Proof. do 3 (split; [meets|]). split; [now left|meets]. Qed.
Theorem C110_rdiv_int : forall b L P x n m r, 0 <= P -> in_range L x -> in_range L n -> n <> 0 -> sound_for b m ->
  rdiv_int b L x n m = Ret (Ok r) -> documented m P (dec P x / Zq n) r.
Proof. exact rdiv_int_documented. Qed.
Print Assumptions C110_rdiv_int.
Example C110_rdiv_int_case : 0 <= 9 /\ in_range L64 1500000001 /\ in_range L64 (-7) /\ -7 <> 0 /\ sound_for release Ceil /\
  rdiv_int release L64 1500000001 (-7) Ceil = Ret (Ok (-214285714)).
Proof. do 4 (split; [meets|]). split; [now right|meets]. Qed.
(** Half a unit is attained; without overflow checks it is exceeded. *)
Theorem C110_tight : exists x y r, valid dev L64 9 /\ in_range L64 x /\ in_range L64 y /\ rmul dev L64 9 x y Nearest = Ret (Ok r) /\
  (Qabs (dec 9 r - dec 9 x * dec 9 y) == (1 # 2) * q10 (-9))%Q.
Proof. exact documented_tight. Qed.
Print Assumptions C110_tight.
Theorem C110_unchecked : exists x y r, valid release L16 4 /\ in_range L16 x /\ in_range L16 y /\ y <> 0 /\
  rdiv release L16 4 x y Nearest = Ret (Ok r) /\ ~ documented Nearest 4 (dec 4 x / dec 4 y) r.
Proof. exact documented_unchecked. Qed.
Print Assumptions C110_unchecked.

(** ** C111: a balance kept with saturating operations *)
(** Whatever the steps, the result is the exact one cut off at two bounds that depend on the steps only. *)
Theorem C111_form : forall L l, exists a c, lo L <= a /\ a <= c /\ c <= hi L /\
  forall acc, in_range L acc -> sat_run L acc l = Z.max a (Z.min c (acc + change l)).
Proof. exact sat_form. Qed.
Print Assumptions C111_form.
Example C111_form_case : in_range L16 30000 /\ sat_run L16 30000 [SAdd 5000; SSub 10000] = 22767 /\
  sat_run L16 (-32768) [SAdd 5000; SSub 10000] = -32768 /\ change [SAdd 5000; SSub 10000] = -5000.
Proof. split; [meets|]. repeat split; vm_compute; reflexivity. Qed.
(** Two balances never drift apart. *)
Theorem C111_apart : forall L l acc acc', in_range L acc -> in_range L acc' -> acc <= acc' ->
  sat_run L acc l <= sat_run L acc' l /\ sat_run L acc' l - sat_run L acc l <= acc' - acc.
Proof. exact sat_apart. Qed.
Print Assumptions C111_apart.
Example C111_apart_case : in_range L16 (-700) /\ in_range L16 30000 /\ -700 <= 30000.
Proof. meets. Qed.
Theorem C111_monotone : forall L l l' acc acc', in_range L acc -> in_range L acc' -> acc <= acc' ->
  Forall2 (fun s s' => delta s <= delta s') l l' -> sat_run L acc l <= sat_run L acc' l'.
Proof. exact sat_monotone. Qed.
Print Assumptions C111_monotone.
Example C111_monotone_case : in_range L16 (-700) /\ in_range L16 30000 /\ -700 <= 30000 /\
  Forall2 (fun s s' => delta s <= delta s') [SAdd 5000; SSub 10000] [SSub (-5001); SAdd 7].
Proof. do 3 (split; [meets|]). repeat (constructor; [vm_compute; discriminate|]). constructor. Qed.
(** It is the exact balance if the checked one exists. *)
Theorem C111_exact : forall L l acc r, in_range L acc -> run_steps L acc l = Ok r -> sat_run L acc l = r.
Proof. exact sat_exact. Qed.
Print Assumptions C111_exact.
Example C111_exact_case : in_range L16 (-700) /\ run_steps L16 (-700) [SAdd 5000; SSub 10000] = Ok (-5700).
Proof. meets. Qed.
(** With deposits only, or withdrawals only, it is the exact balance clamped, in any order. *)
Theorem C111_one_way : forall L P l acc, in_range L acc -> Forall (fun s => 0 <= delta s) l \/ Forall (fun s => delta s <= 0) l ->
  clamps L P (dec P acc + qtotal P l) (sat_run L acc l).
Proof. exact sat_one_way. Qed.
Print Assumptions C111_one_way.
Example C111_one_way_case : in_range L16 30000 /\
  (Forall (fun s => 0 <= delta s) [SAdd 5000; SSub (-7)] \/ Forall (fun s => delta s <= 0) [SAdd 5000; SSub (-7)]).
Proof. split; [meets|]. left. repeat (constructor; [vm_compute; discriminate|]). constructor. Qed.
Theorem C111_order : forall L l l' acc, in_range L acc -> Forall (fun s => 0 <= delta s) l \/ Forall (fun s => delta s <= 0) l ->
  Permutation l l' -> sat_run L acc l = sat_run L acc l'.
Proof. exact sat_order. Qed.
Print Assumptions C111_order.
Example C111_order_case : in_range L16 30000 /\
  (Forall (fun s => 0 <= delta s) [SAdd 5000; SSub (-7)] \/ Forall (fun s => delta s <= 0) [SAdd 5000; SSub (-7)]) /\
  Permutation [SAdd 5000; SSub (-7)] [SSub (-7); SAdd 5000].
Proof. split; [meets|]. split; [|constructor]. left. repeat (constructor; [vm_compute; discriminate|]). constructor. Qed.
(** Otherwise the order matters. *)
Example C111_example : sat_run L16 30000 [SAdd 5000; SSub 10000] = 22767 /\ sat_run L16 30000 [SSub 10000; SAdd 5000] = 25000 /\
  run_steps L16 30000 [SAdd 5000; SSub 10000] = Err Overflow.
Proof. repeat split; vm_compute; reflexivity. Qed.

(** ** C112: hashing *)
(** Equal numbers, and only these, leave every hasher in the same state; likewise lists of numbers. *)
Theorem C112_hash : forall L x y, fp_eq x y = true <->
  forall (H : Type) (write : H -> ity -> Z -> H) h, hash_into write L h x = hash_into write L h y.
Proof. exact hash_eq. Qed.
Print Assumptions C112_hash.
(** One integer of the layout's type is written, nothing else. *)
Theorem C112_writes : forall L x, hash_into (fun h t z => h ++ [(t, z)]) L [] x = [(lty L, x)].
Proof. exact hash_writes. Qed.
Print Assumptions C112_writes.
Theorem C112_slice : forall L l l', l = l' <->
  forall (H : Type) (write : H -> ity -> Z -> H) h, hash_slice write L h l = hash_slice write L h l'.
Proof. exact hash_slice_eq. Qed.
Print Assumptions C112_slice.
Example C112_example : hash_into (fun h (t : ity) z => 31 * h + z) L64 7 1500000001 = 1500000218 /\
  hash_slice (fun h (t : ity) z => 31 * h + z) L64 7 [1; -2] = 6756.
Proof. split; vm_compute; reflexivity. Qed.
