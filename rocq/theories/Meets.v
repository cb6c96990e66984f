(** * Meets: a tactic for the examples beside the theorems.

    Like [example] of [Spec], for the conditions of [SpecText], [SpecF64], [SpecMacro] and
    [SpecBuild] too. *)
From Coq Require Import QArith Qabs Permutation.
From Verif Require Import Base Promo Macros Spec SpecText SpecF64 SpecMacro SpecBuild SpecRound.
Open Scope Z_scope.

(** Opens one condition. *)
Ltac opens :=
  match goal with
  | |- _ /\ _ => split
  | |- valid _ _ _ => unfold valid
  | |- supported _ _ => unfold supported
  | |- valid_prec _ _ => unfold valid_prec
  | |- in_range _ _ => unfold in_range
  | |- represents _ _ _ _ => unfold represents
  | |- fits _ _ => unfold fits
  | |- rounds_to _ _ _ _ => unfold rounds_to
  | |- rounds _ _ _ => unfold rounds; split
  | |- sqrt_rounds _ _ _ _ => unfold sqrt_rounds; split
  | |- wider _ _ => unfold wider
  | |- strict _ => split
  | |- same_profile _ _ => split
  | |- printable _ _ _ _ => unfold printable
  | |- f64_finite _ => unfold f64_finite
  | |- is_f64 _ => unfold is_f64
  | |- tame _ _ _ => unfold tame
  | |- typed _ => unfold typed; cbn [okind oval]
  | |- unsigned4 [?a; ?b; ?c; ?d] _ => exists a, b, c, d
  | |- signed4 [?a; ?b; ?c; ?d] _ => eexists; split; [exists a, b, c, d; repeat split; try (vm_compute; (reflexivity || discriminate))|]
  | |- Forall _ nil => constructor
  | |- Forall _ (_ :: _) => constructor
  | |- Forall _ (fraction _) => cbn [fraction]
  | |- byte _ => unfold byte
  | |- digit _ => unfold digit
  | |- digits _ => unfold digits
  | |- literal (45 :: _) true _ _ => unfold literal; split; [|split; [|split; [|exists [45]%Z]]]
  | |- literal _ false _ _ => unfold literal; split; [|split; [|split; [|exists []%Z; split; [left; reflexivity|]]]]
  | |- spells (45 :: _) true _ _ => exists []%Z, [45]%Z, []%Z
  | |- spells _ false _ _ => exists []%Z, []%Z, []%Z
  | |- @eq (list Z) [] [] \/ _ => left
  | |- twos _ _ _ => unfold twos
  | |- (exists r, represents ?L ?P (Zq ?n) r) => exists (n * 10 ^ P)
  | |- _ <> _ => intros ?
  | |- ~ _ => intros ?
  | |- _ -> _ => intros ?
  | H : _ /\ _ |- _ => destruct H
  | H : in_range _ _ |- _ => destruct H
  | H : valid_prec _ _ |- _ => destruct H
  end.
Ltac absurd1 :=
  match goal with
  | H : ?a <> ?a |- _ => elim H; reflexivity
  | H : @eq Z _ _ |- _ => vm_compute in H; discriminate H
  | H : _ = _ |- _ => discriminate H
  | H : Z.le _ _ |- _ => apply H; vm_compute; reflexivity
  | H : Z.lt _ _ |- _ => vm_compute in H; discriminate H
  end.
Ltac closes :=
  first [ solve [absurd1]
        | vm_compute; first [reflexivity | discriminate | congruence]
        | left; vm_compute; (reflexivity || discriminate)
        | right; vm_compute; (reflexivity || discriminate) ].
Ltac meets := repeat opens; closes.

Lemma f64_nearest_eq q q' raw : (q == q')%Q -> f64_nearest q raw -> f64_nearest q' raw.
Proof. intros e [f n]. split; [exact f|]. intros r hr. rewrite <- e. exact (n r hr). Qed.
