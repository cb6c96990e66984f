(** * PropsClient: C102, whole clients of the interface in different builds. *)
From Verif Require Import Base Promo Ops Fixed Str Float Codec Spec SpecText SpecBuild SpecCalls Calls.
From Verif Require Import Clients ClientFacts.
From Verif Require Import Fixed.
From Verif Require Import Meets.
Open Scope Z_scope.

(** ** C102 *)
(** What a client computes with all checks on, it computes in every build. *)
Theorem C102_checked : forall (A : Type) b b' (p : prog A), strict b ->
  (forall L P c, reaches b p L P c -> valid b L P /\ valid b' L P /\ proper L c /\ (formats c -> f128 b = f128 b')) ->
  unless_panic (exec b p) (exec b' p).
Proof. exact (fun A => @exec_strict A). Qed.
Print Assumptions C102_checked.
Example C102_checked_case : strict dev /\
  (forall L P c, reaches dev sample16 L P c -> valid dev L P /\ valid release L P /\ proper L c /\ (formats c -> f128 dev = f128 release)).
Proof.
  split; [meets|]. intros L P c [(<- & <- & <-)|(a & E & H)]; [|vm_compute in E; discriminate E].
  split; [meets|]. split; [meets|]. split; [cbn [proper]; meets|]. intros [].
Qed.
(** The features that are not formatting's never matter. *)
Theorem C102_features : forall (A : Type) b b' (p : prog A), same_profile b b' ->
  (forall L P c, reaches b p L P c -> valid b L P /\ valid b' L P /\ proper L c /\ (formats c -> f128 b = f128 b')) ->
  exec b p = exec b' p.
Proof. exact (fun A => @exec_same A). Qed.
Print Assumptions C102_features.
Example C102_features_case : same_profile dev dev64 /\
  (forall L P c, reaches dev sample16 L P c -> valid dev L P /\ valid dev64 L P /\ proper L c /\ (formats c -> f128 dev = f128 dev64)).
Proof.
  split; [now vm_compute|]. intros L P c [(<- & <- & <-)|(a & E & H)]; [|vm_compute in E; discriminate E].
  split; [meets|]. split; [meets|]. split; [cbn [proper]; meets|]. intros [].
Qed.
(** A client panics if and only if it makes one of the calls listed in [panics]. *)
Theorem C102_panics : forall (A : Type) b (p : prog A), (forall L P c, reaches b p L P c -> valid b L P /\ proper L c) ->
  (exec b p = Panic <-> exists L P c, reaches b p L P c /\ panics b L P c) /\
  (exec b p = Undef <-> exists L P c, reaches b p L P c /\ undefined b L P c) /\ exec b p <> NoFuel.
Proof. exact (fun A => @exec_map A). Qed.
Print Assumptions C102_panics.
Example C102_panics_case : forall L P c, reaches release sample16 L P c -> valid release L P /\ proper L c.
Proof.
  intros L P c [(<- & <- & <-)|(a & E & H)].
  - split; [meets|]. cbn [proper]; meets.
  - vm_compute in E. injection E as <-. elim H.
Qed.
(** A client that makes none of them with all checks on returns the same in every build. *)
Theorem C102_everywhere : forall (A : Type) b b' (p : prog A), strict b ->
  (forall L P c, reaches b p L P c -> valid b L P /\ valid b' L P /\ proper L c /\ (formats c -> f128 b = f128 b') /\ ~ panics b L P c) ->
  exists v, exec b p = Ret v /\ exec b' p = Ret v.
Proof. exact (fun A => @exec_everywhere A). Qed.
Print Assumptions C102_everywhere.
Example C102_everywhere_case : strict dev /\
  (forall L P c, reaches dev sample L P c ->
     valid dev L P /\ valid release L P /\ proper L c /\ (formats c -> f128 dev = f128 release) /\ ~ panics dev L P c).
Proof.
  split; [meets|]. intros L P c H. unfold sample in H.
  repeat (cbn [reaches] in H; destruct H as [(<- & <- & <-)|(a & E & H)];
    [|vm_compute in E; injection E as <-; cbn [reaches] in H]); try contradiction H;
  (split; [meets|]; split; [meets|]; split; [cbn [proper]; meets|]; split; [reflexivity|]); cbn [panics]; try tauto.
  - intros (_ & _ & E & _). discriminate E.
  - intros (_ & _ & _ & _ & _ & [E|E]); vm_compute in E; discriminate E.
  - intros [(_ & [(E & _)|(E & _)])|(_ & [(E & _)|[(E & _)|((E & _) & _)]])]; discriminate E.
Qed.
Example C102_example :
  exec dev sample = Ret (Some [49; 46; 48; 48; 48; 48; 48; 48; 48; 48; 49]) /\
  exec no_std sample = exec dev sample /\
  exec dev sample16 = Panic /\ exec release sample16 = Ret 3051 /\ unless_panic (exec dev sample16) (exec release sample16).
Proof. vm_compute. intuition congruence. Qed.
