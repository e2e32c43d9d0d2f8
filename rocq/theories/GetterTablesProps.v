(** C95: the getters tell of the published tables, on every system. *)
From Verif Require Import Base Text TopologySpec ApiModel OnceModel ApiProofs GetterTablesSpec GetterTablesProofs.
From Verif Require X86LinuxModel X86ApiProofs RiscvLinuxModel RiscvApiModel RiscvApiProofs ArmLinuxModel ArmApiModel ArmApiProofs
  X86CountsModel X86CountsSpec X86WindowsModel X86WindowsSpec ArmMachModel ArmMachSpec ArmWindowsModel EmscriptenModel EmscriptenSpec.
From Verif Require X86Sample RiscvSample ArmLinuxSample X86CountsProps X86WindowsProps ArmMachProps ArmWindowsSample.
Open Scope nat_scope.

(** In every interleaving with initialisation, a table that is shown in the end is never shown
    otherwise: a count getter answers the number of its elements or aborts. *)
Theorem counts_in_any_schedule : forall c routine tb n, flag_last routine -> table_shown c (final routine) tb n ->
  forall events1 thread a events2 s,
  run c routine system0 (events1 ++ Getter_ends thread (Get_count tb) a :: events2) s -> a = Fatal \/ a = Number (N.of_nat n).
Proof. exact shown_any_schedule. Qed.
Print Assumptions counts_in_any_schedule.

(** ** Linux *)

Theorem x86_linux_tables_shown : forall char_signed default sorter calloc_ok x files o t, X86LinuxModel.qsort_contract sorter ->
  X86LinuxModel.x86_linux_init char_signed default sorter calloc_ok x files = Ok o -> X86LinuxModel.o_published o = Some t ->
  (forall tb, table_shown X86ApiProofs.x86_linux (X86ApiProofs.published_globals t) tb (rows t 1 tb)) /\
  largest_shown X86ApiProofs.x86_linux (X86ApiProofs.published_globals t) (t_max_cache_size t).
Proof. exact x86_linux_shown. Qed.
Print Assumptions x86_linux_tables_shown.

Example x86_linux_tables_case : exists o t,
  X86LinuxModel.x86_linux_init true 32 X86Sample.sample_sort (fun _ => true) X86Sample.sample_info X86Sample.sample_files = Ok o /\
  X86LinuxModel.o_published o = Some t /\
  map (rows t 1) [Processors; Cores; Clusters; Packages; Uarchs; Caches L1i; Caches L1d; Caches L2; Caches L3; Caches L4]
  = [4; 2; 1; 1; 1; 2; 2; 2; 1; 0].
Proof. do 2 eexists. split; [vm_compute; reflexivity|]. split; [reflexivity|]. vm_compute. reflexivity. Qed.

(** RISC-V: there are no tables of caches. *)
Theorem riscv_linux_tables_shown : forall t,
  (forall tb, table_shown RiscvApiModel.riscv_linux (RiscvApiProofs.riscv_globals t) tb (riscv_rows t tb)) /\
  largest_shown RiscvApiModel.riscv_linux (RiscvApiProofs.riscv_globals t) 0.
Proof. exact riscv_shown. Qed.
Print Assumptions riscv_linux_tables_shown.

Theorem arm_linux_tables_shown : forall char_signed arm32 android garbage default sorter calloc_ok d fs o t,
  ArmLinuxModel.arm_linux_init char_signed arm32 android garbage default sorter calloc_ok d fs = Ok o -> ArmLinuxModel.ao_published o = Some t ->
  (forall tb, table_shown ArmApiModel.arm_linux (ArmApiProofs.arm_globals t) tb (arm_rows t tb)) /\
  largest_shown ArmApiModel.arm_linux (ArmApiProofs.arm_globals t) (ArmLinuxModel.at_max_cache_size t).
Proof. exact arm_linux_shown. Qed.
Print Assumptions arm_linux_tables_shown.

Example linux_tables_case :
  (exists o t, RiscvLinuxModel.riscv_linux_init true 64 RiscvSample.stable_sort (fun _ => true)
     (RiscvSample.machine_files RiscvSample.smt_cpus RiscvSample.smt_group 0) = Ok o /\ RiscvLinuxModel.ro_published o = Some t /\
     0 < riscv_rows t Cores < riscv_rows t Processors) /\
  exists o t, ArmLinuxSample.detect ArmLinuxSample.big_little ArmLinuxSample.unknown_chip = Ok o /\ ArmLinuxModel.ao_published o = Some t /\
     map (arm_rows t) [Processors; Clusters; Uarchs; Caches L1d; Caches L2; Caches L3] = [6; 2; 2; 6; 6; 1].
Proof.
  split.
  - do 2 eexists. split; [vm_compute; reflexivity|]. split; [reflexivity|]. split; apply Nat.ltb_lt; vm_compute; reflexivity.
  - do 2 eexists. split; [vm_compute; reflexivity|]. split; [reflexivity|]. vm_compute. reflexivity.
Qed.

(** ** x86 macOS, FreeBSD and Windows *)

Theorem x86_mach_tables_shown : forall calloc_ok x a o t,
  X86CountsModel.x86_mach_init calloc_ok x a = Ok o -> X86CountsModel.o_published o = Some t ->
  (forall tb, X86CountsSpec.both_or_neither x \/ ~ In tb [Caches L1i; Caches L1d] ->
     table_shown X86CountsModel.x86_counts (final (X86CountsModel.x86_counts_routine o)) tb (rows t 1 tb)) /\
  largest_shown X86CountsModel.x86_counts (final (X86CountsModel.x86_counts_routine o)) (t_max_cache_size t).
Proof. exact x86_mach_shown. Qed.
Print Assumptions x86_mach_tables_shown.

Theorem x86_freebsd_tables_shown : forall calloc_ok x a o t,
  X86CountsModel.x86_freebsd_init calloc_ok x a = Ok o -> X86CountsModel.o_published o = Some t ->
  (forall tb, X86CountsSpec.both_or_neither x \/ ~ In tb [Caches L1i; Caches L1d] ->
     table_shown X86CountsModel.x86_counts (final (X86CountsModel.x86_counts_routine o)) tb (rows t 1 tb)) /\
  largest_shown X86CountsModel.x86_counts (final (X86CountsModel.x86_counts_routine o)) (t_max_cache_size t).
Proof. exact x86_freebsd_shown. Qed.
Print Assumptions x86_freebsd_tables_shown.

Theorem x86_windows_tables_shown : forall heap_ok x a o t sizes m,
  X86WindowsSpec.windows_says a sizes m -> X86CountsSpec.fields_defined x -> X86WindowsSpec.caches_defined x ->
  X86WindowsModel.x86_windows_init heap_ok x a = Ok o -> X86WindowsModel.o_published o = Some t ->
  (forall tb, table_shown X86CountsModel.x86_counts (final (X86WindowsModel.x86_windows_routine o)) tb (rows (X86WindowsModel.wt_tables t) 1 tb)) /\
  largest_shown X86CountsModel.x86_counts (final (X86WindowsModel.x86_windows_routine o)) (t_max_cache_size (X86WindowsModel.wt_tables t)).
Proof. exact x86_windows_shown. Qed.
Print Assumptions x86_windows_tables_shown.

Example x86_tables_case :
  (exists o t, X86CountsModel.x86_mach_init (fun _ => true) X86Sample.sample_info X86CountsProps.mach_sample = Ok o /\
     X86CountsModel.o_published o = Some t /\ map (rows t 1) [Processors; Cores; Packages; Caches L2; Caches L3] = [16; 8; 2; 8; 2]) /\
  exists o t, X86WindowsModel.x86_windows_init (fun _ => true) X86Sample.sample_info X86WindowsProps.windows_sample = Ok o /\
     X86WindowsModel.o_published o = Some t /\ map (rows (X86WindowsModel.wt_tables t) 1) [Packages; Caches L3] = [2; 2].
Proof. split; do 2 eexists; (split; [vm_compute; reflexivity|]); (split; [reflexivity|]); vm_compute; reflexivity. Qed.

(** ** Other systems *)

(** Apple's ARM systems tell of no fourth-level caches. *)
Theorem apple_tables_shown : forall calloc_ok a o p l1i l1d,
  ArmMachModel.arm_mach_init calloc_ok a = Ok o -> ArmMachModel.mo_published o = Some p ->
  ArmMachSpec.tells (ArmMachModel.aa_l1i a) l1i -> ArmMachSpec.tells (ArmMachModel.aa_l1d a) l1d ->
  (forall tb, (l1i = 0%N <-> l1d = 0%N) \/ ~ In tb [Caches L1i; Caches L1d] -> tb <> Caches L4 ->
     table_shown ArmMachModel.arm_mach (final (ArmMachModel.arm_mach_routine o)) tb
       (rows (ArmMachModel.at_tables p) (length (ArmMachModel.at_uarchs p)) tb)) /\
  table_shown ArmMachModel.arm_mach (final (ArmMachModel.arm_mach_routine o)) (Caches L4) 0 /\
  largest_shown ArmMachModel.arm_mach (final (ArmMachModel.arm_mach_routine o)) (t_max_cache_size (ArmMachModel.at_tables p)).
Proof. exact apple_shown. Qed.
Print Assumptions apple_tables_shown.

Theorem arm_windows_tables_shown : forall o t, ArmWindowsModel.wo_published o = Some t ->
  (forall tb, table_shown ArmWindowsModel.arm_windows (final (ArmWindowsModel.arm_windows_routine o)) tb (arm_windows_rows t tb)) /\
  largest_shown ArmWindowsModel.arm_windows (final (ArmWindowsModel.arm_windows_routine o)) (ArmWindowsModel.awt_max_cache_size t).
Proof. exact arm_windows_shown. Qed.
Print Assumptions arm_windows_tables_shown.

Theorem emscripten_tables_shown : forall is_x86 logical calloc_ok o t,
  EmscriptenModel.emscripten_init is_x86 logical calloc_ok = Ok o -> EmscriptenModel.o_published o = Some t ->
  (forall tb, is_x86 = false \/ Nat.Odd (EmscriptenSpec.processors_of logical) \/ ~ In tb [Caches L1i; Caches L1d] ->
     table_shown EmscriptenModel.emscripten (final (EmscriptenModel.emscripten_routine is_x86 o)) tb (rows t 1 tb)) /\
  largest_shown EmscriptenModel.emscripten (final (EmscriptenModel.emscripten_routine is_x86 o)) (t_max_cache_size t).
Proof. exact emscripten_shown. Qed.
Print Assumptions emscripten_tables_shown.

Example other_tables_case :
  (exists o p, ArmMachModel.arm_mach_init (fun _ => true) (ArmMachProps.m1_like 8 8 1 (ArmMachProps.known 128)) = Ok o /\
     ArmMachModel.mo_published o = Some p /\
     map (rows (ArmMachModel.at_tables p) (length (ArmMachModel.at_uarchs p))) [Processors; Clusters; Uarchs; Caches L1i] = [8; 2; 2; 8]) /\
  (exists o t, ArmWindowsSample.run (text "Kryo") ArmWindowsSample.cortex_a76 ArmWindowsSample.four_answers = Ok o /\
     ArmWindowsModel.wo_published o = Some t /\ map (arm_windows_rows t) [Processors; Caches L2] = [4; 2]) /\
  exists o t, EmscriptenModel.emscripten_init false 6 (fun _ => true) = Ok o /\ EmscriptenModel.o_published o = Some t /\
     map (rows t 1) [Processors; Clusters; Caches L1d; Caches L2; Caches L3] = [6; 2; 6; 2; 0].
Proof. split; [|split]; do 2 eexists; (split; [vm_compute; reflexivity|]); (split; [reflexivity|]); vm_compute; reflexivity. Qed.

(** On WebAssembly the largest cache size is that of no published cache (C27). *)
Theorem emscripten_largest_refuted : forall is_x86, exists o t,
  EmscriptenModel.emscripten_init is_x86 5 (fun _ => true) = Ok o /\ EmscriptenModel.o_published o = Some t /\
  forall c, In c (t_l1i t ++ t_l1d t ++ t_l2 t ++ t_l3 t ++ t_l4 t) -> (g_size (ca_geometry c) < t_max_cache_size t)%N.
Proof. exact emscripten_largest. Qed.
Print Assumptions emscripten_largest_refuted.
