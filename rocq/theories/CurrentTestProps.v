(** Property theorems about the project's own tests of the lookups of the current processor: C100. *)
From Verif Require Import Base Sorting Text TopologySpec LinuxTextModel ApiModel OnceModel ApiProofs CurrentTestModel CurrentTestProofs.
From Verif Require X86LinuxModel X86LinuxSpec X86LinuxProps X86ApiProofs X86Sample ArmLinuxModel ArmLinuxSpec ArmLinuxSample ArmApiModel ArmApiProofs
  RiscvLinuxModel RiscvLinuxSpec RiscvApiModel RiscvApiProofs RiscvSample RiscvLinuxProps ApiProps.
From Coq Require Import List. Import ListNotations.
Open Scope nat_scope.

(** On x86 Linux no test fails, whatever the files say and however the thread moves between the CPUs. *)
Theorem x86_linux_current_tests : forall char_signed default sorter calloc_ok x files o t moves,
  X86LinuxModel.qsort_contract sorter -> X86LinuxSpec.threads_share_last_level x ->
  X86LinuxModel.x86_linux_init char_signed default sorter calloc_ok x files = Ok o -> X86LinuxModel.o_published o = Some t ->
  ~ In Failed (verdicts (ask X86ApiProofs.x86_linux (X86ApiProofs.published_globals t)) moves).
Proof. exact x86_tests. Qed.
Print Assumptions x86_linux_current_tests.

Example x86_linux_current_tests_case : exists o t,
  X86LinuxModel.x86_linux_init true 32 X86Sample.sample_sort (fun _ => true) X86Sample.sample_info X86Sample.sample_files = Ok o /\
  X86LinuxModel.o_published o = Some t /\ X86LinuxSpec.threads_share_last_level X86Sample.sample_info /\
  verdicts (ask X86ApiProofs.x86_linux (X86ApiProofs.published_globals t)) (fun k => Some (N.of_nat k)) = [Passed; Passed; Passed; Passed] /\
  verdicts (ask X86ApiProofs.x86_linux (X86ApiProofs.published_globals t)) (fun k => Some 1000%N) = [Skipped; Skipped; Passed; Passed].
Proof. do 2 eexists. split; [vm_compute; reflexivity|]. split; [reflexivity|]. split; [cbv; discriminate|]. split; vm_compute; reflexivity. Qed.

(** On ARM Linux no test fails if the tables describe the machine. *)
Theorem arm_linux_current_tests : forall arm32 d usable ms version t moves, ArmLinuxSpec.arm_reports arm32 d usable ms version t ->
  ~ In Failed (verdicts (ask ArmApiModel.arm_linux (ArmApiProofs.arm_globals t)) moves).
Proof. exact arm_tests. Qed.
Print Assumptions arm_linux_current_tests.

(** CPUs 0 to 5, of which number 4 is the first to be listed; CPU 6 is not one of them. *)
Example arm_linux_current_tests_case : exists o t,
  ArmLinuxSample.detect ArmLinuxSample.big_little ArmLinuxSample.unknown_chip = Ok o /\ ArmLinuxModel.ao_published o = Some t /\
  verdicts (ask ArmApiModel.arm_linux (ArmApiProofs.arm_globals t)) (fun k => Some (N.of_nat (4 - k))) = [Passed; Passed; Passed; Passed] /\
  verdicts (ask ArmApiModel.arm_linux (ArmApiProofs.arm_globals t)) (fun k => Some 6%N) = [Skipped; Skipped; Passed; Passed].
Proof. do 2 eexists. split; [vm_compute; reflexivity|]. split; [reflexivity|]. split; vm_compute; reflexivity. Qed.

(** On RISC-V Linux no test fails if the kernel's lists describe a machine whose groups are nested and have
    consecutive CPU numbers. *)
Theorem riscv_linux_current_tests : forall char_signed default sorter fs cpus group,
  RiscvLinuxSpec.riscv_files_say default fs cpus group -> RiscvLinuxSpec.nested cpus group -> RiscvLinuxSpec.contiguous cpus group ->
  RiscvLinuxSpec.order_keeping sorter -> cpus <> [] ->
  exists t o, RiscvLinuxModel.riscv_linux_init char_signed default sorter (fun _ => true) fs = Ok o /\ RiscvLinuxModel.ro_published o = Some t /\
    forall moves, ~ In Failed (verdicts (ask RiscvApiModel.riscv_linux (RiscvApiProofs.riscv_globals t)) moves).
Proof. exact riscv_machine_tests. Qed.
Print Assumptions riscv_linux_current_tests.

(** The machine of [riscv_linux_machine_case]. *)
Example riscv_linux_current_tests_case : exists o t,
  RiscvLinuxModel.riscv_linux_init true 64 RiscvSample.stable_sort (fun _ => true)
    (RiscvSample.machine_files RiscvSample.smt_cpus RiscvSample.smt_group 0) = Ok o /\ RiscvLinuxModel.ro_published o = Some t /\
  verdicts (ask RiscvApiModel.riscv_linux (RiscvApiProofs.riscv_globals t)) (fun k => Some (N.of_nat (8 - k))) = [Passed; Passed; Passed; Passed] /\
  verdicts (ask RiscvApiModel.riscv_linux (RiscvApiProofs.riscv_globals t)) (fun k => Some 4%N) = [Skipped; Skipped; Passed; Passed].
Proof. do 2 eexists. split; [vm_compute; reflexivity|]. split; [reflexivity|]. split; vm_compute; reflexivity. Qed.

(** On other systems the tests of the processor and core are skipped and the others pass, if at least one
    microarchitecture is published. *)
Theorem other_systems_current_tests : forall c g moves, gl_initialized g = true -> cf_linux c = false ->
  (cf_multi_uarch c = true -> 0 < gl_count g Uarchs)%N -> verdicts (ask c g) moves = [Skipped; Skipped; Passed; Passed].
Proof. exact other_tests. Qed.
Print Assumptions other_systems_current_tests.

Example other_systems_current_tests_case :
  let g := apply_stores globals0 [St_count Uarchs 2; St_initialized] in
  gl_initialized g = true /\ (0 < gl_count g Uarchs)%N /\
  verdicts (ask (Config false true) g) (fun k => Some (N.of_nat k)) = [Skipped; Skipped; Passed; Passed] /\
  verdicts (ask (Config false true) (apply_stores globals0 [St_initialized])) (fun k => None) = [Skipped; Skipped; Failed; Passed].
Proof. repeat split. Qed.
