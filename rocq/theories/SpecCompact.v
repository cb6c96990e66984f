(** * SpecCompact: SCALE's compact form of a natural number.

    The two low bits of the first byte are the mode: one, two or four bytes holding the number
    above the mode, or a byte count above four followed by that many bytes.  Always the shortest. *)
From Coq Require Import ZArith List.
From Verif Require Import Base Promo Spec SpecText.
Import ListNotations.
Open Scope Z_scope.

Definition compact (n : Z) (l : list Z) : Prop :=
  Forall byte l /\
  ((0 <= n < 2 ^ 6 /\ length l = 1%nat /\ leval l = n * 4) \/
   (2 ^ 6 <= n < 2 ^ 14 /\ length l = 2%nat /\ leval l = n * 4 + 1) \/
   (2 ^ 14 <= n < 2 ^ 30 /\ length l = 4%nat /\ leval l = n * 4 + 2) \/
   (2 ^ 30 <= n /\ exists k, (4 <= k)%nat /\ 256 ^ (Z.of_nat k - 1) <= n < 256 ^ Z.of_nat k /\
      length l = S k /\ leval l = (Z.of_nat k - 4) * 4 + 3 + 256 * n)).
