(** * PropsShort: C113, printed texts are as short as texts can be. *)
From Verif Require Import Base Promo Fixed Str Spec SpecText.
From Verif Require Import ShortFacts.
From Verif Require Import Fixed.
From Verif Require Import Meets.
Open Scope Z_scope.

(** ** C113 *)
(** No text with a point (46) that is read as the number is shorter than the printed text, however
    the reading rounds; one without a point saves at most the ".0". *)
Theorem C113_shortest : forall b b' L P s x t, valid b L P -> valid b' L P -> in_range L x -> printable b L P x ->
  to_string b L P x = Ret t -> from_str b' L P s = Ret (Ok x) ->
  Z.of_nat (length t) <= Z.of_nat (length s) + 2 /\ (In 46 s -> Z.of_nat (length t) <= Z.of_nat (length s)).
Proof. exact shortest. Qed.
Print Assumptions C113_shortest.
(** 9.96 is read as 10.0 at precision 1. *)
Example C113_shortest_case : valid dev L64 1 /\ valid release L64 1 /\ in_range L64 100 /\ printable dev L64 1 100 /\
  to_string dev L64 1 100 = Ret [49; 48; 46; 48] /\ from_str release L64 1 [57; 46; 57; 54] = Ret (Ok 100) /\
  In 46 [57; 46; 57; 54].
Proof. do 6 (split; [meets|]). right. now left. Qed.
Theorem C113_shortest_exact : forall b b' L P s x t, valid b L P -> valid b' L P -> in_range L x -> printable b L P x ->
  to_string b L P x = Ret t -> from_str_exact b' L P s = Ret (Ok x) ->
  Z.of_nat (length t) <= Z.of_nat (length s) + 2 /\ (In 46 s -> Z.of_nat (length t) <= Z.of_nat (length s)).
Proof. exact shortest_exact. Qed.
Print Assumptions C113_shortest_exact.
Example C113_shortest_exact_case : valid dev L64 9 /\ valid release L64 9 /\ in_range L64 (-1500000000) /\
  printable dev L64 9 (-1500000000) /\ to_string dev L64 9 (-1500000000) = Ret [45; 49; 46; 53] /\
  from_str_exact release L64 9 [45; 48; 49; 46; 53; 48] = Ret (Ok (-1500000000)).
Proof. do 5 (split; [meets|]). meets. Qed.
(** The two characters saved by leaving out the ".0" are attained. *)
Example C113_example : valid dev L64 9 /\ from_str dev L64 9 [55] = Ret (Ok 7000000000) /\
  to_string dev L64 9 7000000000 = Ret [55; 46; 48].
Proof. do 2 (split; [meets|]). meets. Qed.
