(** Property theorems about publication on the systems other than Linux: C05.  An answer is one from the complete tables, and exists only if
    detection succeeded; the flag is raised last, and only then. *)
From Verif Require Import Base TopologySpec ApiModel OnceModel ApiProofs OtherApiProofs.
From Verif Require X86CountsModel X86WindowsModel ArmMachModel ArmWindowsModel EmscriptenModel.

(** x86 macOS and FreeBSD. *)
Theorem x86_counts_all_or_nothing : forall o events1 i getter a events2 s,
  run X86CountsModel.x86_counts (X86CountsModel.x86_counts_routine o) system0 (events1 ++ Getter_ends i getter a :: events2) s ->
  a = Fatal \/ exists t cpu, X86CountsModel.o_published o = Some t /\
    a = ask X86CountsModel.x86_counts (final (X86CountsModel.x86_counts_routine o)) cpu getter.
Proof. exact (fun o => answers_published _ _ _ (proj1 (counts_flag o)) (proj2 (counts_flag o))). Qed.
Print Assumptions x86_counts_all_or_nothing.
Theorem x86_counts_flag_raised_last : forall o,
  flag_last (X86CountsModel.x86_counts_routine o) /\ (publishes (X86CountsModel.x86_counts_routine o) <-> X86CountsModel.o_published o <> None).
Proof. exact counts_flag. Qed.
Print Assumptions x86_counts_flag_raised_last.

(** x86 Windows. *)
Theorem x86_windows_all_or_nothing : forall o events1 i getter a events2 s,
  run X86CountsModel.x86_counts (X86WindowsModel.x86_windows_routine o) system0 (events1 ++ Getter_ends i getter a :: events2) s ->
  a = Fatal \/ exists t cpu, X86WindowsModel.o_published o = Some t /\
    a = ask X86CountsModel.x86_counts (final (X86WindowsModel.x86_windows_routine o)) cpu getter.
Proof. exact (fun o => answers_published _ _ _ (proj1 (windows_flag o)) (proj2 (windows_flag o))). Qed.
Print Assumptions x86_windows_all_or_nothing.
Theorem x86_windows_flag_raised_last : forall o,
  flag_last (X86WindowsModel.x86_windows_routine o) /\ (publishes (X86WindowsModel.x86_windows_routine o) <-> X86WindowsModel.o_published o <> None).
Proof. exact windows_flag. Qed.
Print Assumptions x86_windows_flag_raised_last.

(** Apple's ARM systems. *)
Theorem apple_all_or_nothing : forall o events1 i getter a events2 s,
  run ArmMachModel.arm_mach (ArmMachModel.arm_mach_routine o) system0 (events1 ++ Getter_ends i getter a :: events2) s ->
  a = Fatal \/ exists t cpu, ArmMachModel.mo_published o = Some t /\
    a = ask ArmMachModel.arm_mach (final (ArmMachModel.arm_mach_routine o)) cpu getter.
Proof. exact (fun o => answers_published _ _ _ (proj1 (apple_flag o)) (proj2 (apple_flag o))). Qed.
Print Assumptions apple_all_or_nothing.
Theorem apple_flag_raised_last : forall o,
  flag_last (ArmMachModel.arm_mach_routine o) /\ (publishes (ArmMachModel.arm_mach_routine o) <-> ArmMachModel.mo_published o <> None).
Proof. exact apple_flag. Qed.
Print Assumptions apple_flag_raised_last.

(** ARM Windows. *)
Theorem arm_windows_all_or_nothing : forall o events1 i getter a events2 s,
  run ArmWindowsModel.arm_windows (ArmWindowsModel.arm_windows_routine o) system0 (events1 ++ Getter_ends i getter a :: events2) s ->
  a = Fatal \/ exists t cpu, ArmWindowsModel.wo_published o = Some t /\
    a = ask ArmWindowsModel.arm_windows (final (ArmWindowsModel.arm_windows_routine o)) cpu getter.
Proof. exact (fun o => answers_published _ _ _ (proj1 (arm_windows_flag o)) (proj2 (arm_windows_flag o))). Qed.
Print Assumptions arm_windows_all_or_nothing.
Theorem arm_windows_flag_raised_last : forall o,
  flag_last (ArmWindowsModel.arm_windows_routine o) /\ (publishes (ArmWindowsModel.arm_windows_routine o) <-> ArmWindowsModel.wo_published o <> None).
Proof. exact arm_windows_flag. Qed.
Print Assumptions arm_windows_flag_raised_last.

(** Emscripten. *)
Theorem emscripten_all_or_nothing : forall is_x86 o events1 i getter a events2 s,
  run EmscriptenModel.emscripten (EmscriptenModel.emscripten_routine is_x86 o) system0 (events1 ++ Getter_ends i getter a :: events2) s ->
  a = Fatal \/ exists t cpu, EmscriptenModel.o_published o = Some t /\
    a = ask EmscriptenModel.emscripten (final (EmscriptenModel.emscripten_routine is_x86 o)) cpu getter.
Proof. exact (fun is_x86 o => answers_published _ _ _ (proj1 (emscripten_flag is_x86 o)) (proj2 (emscripten_flag is_x86 o))). Qed.
Print Assumptions emscripten_all_or_nothing.
Theorem emscripten_flag_raised_last : forall is_x86 o,
  flag_last (EmscriptenModel.emscripten_routine is_x86 o) /\
  (publishes (EmscriptenModel.emscripten_routine is_x86 o) <-> EmscriptenModel.o_published o <> None).
Proof. exact emscripten_flag. Qed.
Print Assumptions emscripten_flag_raised_last.

(** Four processors on Emscripten: published, and counted by a getter; nothing without memory. *)
Example emscripten_all_or_nothing_case :
  (exists o, EmscriptenModel.emscripten_init false 4 (fun _ => true) = Ok o /\ publishes (EmscriptenModel.emscripten_routine false o) /\
     ask EmscriptenModel.emscripten (final (EmscriptenModel.emscripten_routine false o)) None (Get_count Processors) = Number 4) /\
  exists o, EmscriptenModel.emscripten_init false 4 (fun _ => false) = Ok o /\ EmscriptenModel.emscripten_routine false o = [] /\
    ask EmscriptenModel.emscripten (final (EmscriptenModel.emscripten_routine false o)) None (Get_count Processors) = Fatal.
Proof. split; eexists; (split; [vm_compute; reflexivity|]); vm_compute; tauto. Qed.
