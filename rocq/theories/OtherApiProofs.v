(** What getters answer on the other systems, in every interleaving with initialisation. *)
From Verif Require Import Base TopologySpec ApiModel OnceModel ApiProofs X86ApiProofs.
From Verif Require X86CountsModel X86WindowsModel ArmMachModel ArmWindowsModel EmscriptenModel.
Open Scope nat_scope.

Lemma answers_published {T} (c : config) (published : option T) (routine : list gstore) :
  flag_last routine -> (publishes routine <-> published <> None) -> forall l1 i g a l2 s,
  run c routine system0 (l1 ++ Getter_ends i g a :: l2) s ->
  a = Fatal \/ exists t cpu, published = Some t /\ a = ask c (final routine) cpu g.
Proof.
  intros F P l1 i g a l2 s H. apply getter_answers in H; [|exact F]. destruct H as [->|(H & _ & cpu & ->)]; [now left|right].
  apply P in H. destruct published as [t|]; [|congruence]. now exists t, cpu.
Qed.

Ltac last_of l := apply (app_cons_last (removelast l)); cbn; intuition discriminate.

Lemma counts_flag o : flag_last (X86CountsModel.x86_counts_routine o) /\ (publishes (X86CountsModel.x86_counts_routine o) <-> X86CountsModel.o_published o <> None).
Proof.
  unfold X86CountsModel.x86_counts_routine, flag_last, publishes. destruct (X86CountsModel.o_published o) as [t|].
  - split; [last_of (X86CountsModel.x86_counts_commit t)|]. split; [discriminate|]. intros _. unfold X86CountsModel.x86_counts_commit. cbn [In]. tauto.
  - split; [intros [|] l2 H; discriminate|]. cbn. intuition congruence.
Qed.
Lemma windows_flag o : flag_last (X86WindowsModel.x86_windows_routine o) /\ (publishes (X86WindowsModel.x86_windows_routine o) <-> X86WindowsModel.o_published o <> None).
Proof.
  unfold X86WindowsModel.x86_windows_routine, flag_last, publishes. destruct (X86WindowsModel.o_published o) as [t|].
  - split; [last_of (X86CountsModel.x86_counts_commit (X86WindowsModel.wt_tables t))|]. split; [discriminate|]. intros _. unfold X86CountsModel.x86_counts_commit. cbn [In]. tauto.
  - split; [intros [|] l2 H; discriminate|]. cbn. intuition congruence.
Qed.
Lemma apple_flag o : flag_last (ArmMachModel.arm_mach_routine o) /\ (publishes (ArmMachModel.arm_mach_routine o) <-> ArmMachModel.mo_published o <> None).
Proof.
  unfold ArmMachModel.arm_mach_routine, flag_last, publishes. destruct (ArmMachModel.mo_published o) as [t|], (ArmMachModel.mo_isa o).
  - split; [last_of (St_other :: ArmMachModel.arm_mach_commit t)|]. split; [discriminate|]. intros _. unfold ArmMachModel.arm_mach_commit. cbn [In app]. tauto.
  - split; [last_of (ArmMachModel.arm_mach_commit t)|]. split; [discriminate|]. intros _. unfold ArmMachModel.arm_mach_commit. cbn [In app]. tauto.
  - split; [intros [|x [|]] l2 H; discriminate|]. cbn. intuition congruence.
  - split; [intros [|] l2 H; discriminate|]. cbn. intuition congruence.
Qed.
Lemma arm_windows_flag o : flag_last (ArmWindowsModel.arm_windows_routine o) /\ (publishes (ArmWindowsModel.arm_windows_routine o) <-> ArmWindowsModel.wo_published o <> None).
Proof.
  unfold ArmWindowsModel.arm_windows_routine, flag_last, publishes. destruct (ArmWindowsModel.wo_published o) as [t|].
  - split; [last_of (St_other :: ArmWindowsModel.arm_windows_commit t)|]. split; [discriminate|]. intros _. unfold ArmWindowsModel.arm_windows_commit. cbn [In]. tauto.
  - split; [intros [|x [|]] l2 H; discriminate|]. cbn. intuition congruence.
Qed.
Lemma emscripten_flag is_x86 o : flag_last (EmscriptenModel.emscripten_routine is_x86 o) /\
  (publishes (EmscriptenModel.emscripten_routine is_x86 o) <-> EmscriptenModel.o_published o <> None).
Proof.
  unfold EmscriptenModel.emscripten_routine, flag_last, publishes. destruct (EmscriptenModel.o_published o) as [t|].
  - split; [destruct is_x86; [last_of (EmscriptenModel.emscripten_commit true t)|last_of (EmscriptenModel.emscripten_commit false t)]|].
    split; [discriminate|]. intros _. unfold EmscriptenModel.emscripten_commit. destruct is_x86; cbn [In app]; tauto.
  - split; [intros [|] l2 H; discriminate|]. cbn. intuition congruence.
Qed.
