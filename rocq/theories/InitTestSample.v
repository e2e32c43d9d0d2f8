(** Machines to run the tests on. *)
From Verif Require Import Base Text TopologySpec LinuxTextModel X86LinuxModel X86LinuxSpec X86Sample InitTestModel InitTestSpec.
From Verif Require ArmLinuxModel ArmLinuxSpec ArmLinuxSample.
From Coq Require Import String List. Import ListNotations.
Open Scope nat_scope.

(** An x86 processor with two cores of two threads. *)
Definition level_of (size ways sets bits : N) : xcache := XCache (Geometry size ways sets 1 64 0) bits.
Definition plain_info : xinfo :=
  XInfo 1 2 3 0 1 1 2 (level_of 32768 8 64 1) (level_of 32768 8 64 1) (level_of 262144 4 1024 1) (level_of 8388608 16 8192 3) (level_of 0 0 0 0).
Lemma plain_ordinary : ordinary plain_info.
Proof.
  split.
  - intros c H Z. cbn [In] in H. destruct H as [<-|[<-|[<-|[<-|[<-|[]]]]]]; try (exfalso; apply Z; reflexivity);
      (split; [split; reflexivity|reflexivity|exists 6%N; split; [reflexivity|split; discriminate]|intros b B; discriminate B]).
  - intros c H. cbn [In] in H. destruct H as [<-|[<-|[<-|[]]]]; discriminate.
  - intros H. exfalso. apply H. reflexivity.
  - split; discriminate.
  - split; discriminate.
Qed.
Lemma plain_widening : widening plain_info.
Proof.
  intros a b H Z. cbn [In] in H. destruct H as [H|[H|[H|[H|[]]]]]; injection H as <- <-; try (exfalso; apply Z; reflexivity); discriminate.
Qed.
(** An older one: there is no cache of the third level, and the threads of a core do not share the last level according to CPUID. *)
Definition older_info : xinfo :=
  XInfo 1 2 3 0 1 1 0 (level_of 16384 4 64 0) (level_of 16384 4 64 0) (level_of 262144 4 1024 0) (level_of 0 0 0 0) (level_of 0 0 0 0).
Lemma older_ordinary : ordinary older_info.
Proof.
  split.
  - intros c H Z. cbn [In] in H. destruct H as [<-|[<-|[<-|[<-|[<-|[]]]]]]; try (exfalso; apply Z; reflexivity);
      (split; [split; reflexivity|reflexivity|exists 6%N; split; [reflexivity|split; discriminate]|intros b B; discriminate B]).
  - intros c H. cbn [In] in H. destruct H as [<-|[<-|[<-|[]]]]; discriminate.
  - intros H. exfalso. apply H. reflexivity.
  - split; discriminate.
  - split; discriminate.
Qed.
Lemma older_widening : widening older_info.
Proof.
  intros a b H Z. cbn [In] in H. destruct H as [H|[H|[H|[H|[]]]]]; injection H as <- <-; try (exfalso; apply Z; reflexivity); discriminate.
Qed.

Lemma unknown_chip_only ms n chip : ArmLinuxSpec.chipset_from (ArmLinuxSample.library64 ArmLinuxSample.unknown_chip) ms n chip -> chip = ArmLinuxSample.unknown_chip.
Proof. intros (h & r & _ & E). now injection E as <-. Qed.
