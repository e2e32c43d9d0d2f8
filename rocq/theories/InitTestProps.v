(** Property theorems about the project's own tests of what initialisation reports: C88. *)
From Verif Require Import Base Sorting Text TopologySpec LinuxTextModel X86LinuxModel X86LinuxSpec X86LinuxProps X86Sample.
From Verif Require ArmLinuxModel ArmLinuxSpec ArmDecodersModel ArmLibraryProofs ArmLinuxSample.
From Verif Require X86CountsModel X86CountsSpec X86CountsProps X86WindowsModel X86WindowsProps EmscriptenModel RiscvLinuxModel RiscvSample ArmMachModel ArmMachSpec ArmMachProps.
From Verif Require Import InitTestModel InitTestSpec InitTestProofs InitTestX86Proofs InitTestFinalProofs InitTestSample.
From Coq Require Import String List. Import ListNotations.
Import ArmLinuxModel(arm_linux_init, ao_published, at_processors, at_cores, at_l2, at_l3).
Import ArmLinuxSpec(arm_files_say, all_online, arm_usable, chipset_from, l3_sizes).
Import ArmLinuxSample(big_little, unknown_chip, detect).
Open Scope nat_scope.

(** Consistent tables pass the tests of processors, cores, clusters and packages. *)
Theorem consistent_tables_pass : forall v,
  consistent (v_processors v) (v_cores v) (v_clusters v) (v_packages v) ->
  ids_are_offsets (v_processors v) (v_cores v) (v_clusters v) (v_packages v) -> v_processors v <> [] ->
  forall test, In test topology_tests -> passes v test.
Proof. exact topology_pass. Qed.
Print Assumptions consistent_tables_pass.

(** On x86 Linux all the tests pass, whatever the files say, if CPUID describes an ordinary machine. *)
Theorem x86_linux_passes_tests : forall char_signed default sorter calloc_ok x files o t test,
  qsort_contract sorter -> threads_share_last_level x -> ordinary x -> widening x ->
  x86_linux_init char_signed default sorter calloc_ok x files = Ok o -> o_published o = Some t ->
  In test init_tests -> passes (view_of t) test.
Proof. exact x86_linux_passes. Qed.
Print Assumptions x86_linux_passes_tests.

Example x86_linux_passes_case : qsort_contract sample_sort /\ threads_share_last_level plain_info /\ ordinary plain_info /\ widening plain_info /\
  exists o t, x86_linux_init true 32 sample_sort (fun _ => true) plain_info sample_files = Ok o /\ o_published o = Some t /\
    length (t_processors t) = 4 /\ length (t_l3 t) = 1 /\ failing (view_of t) = [] /\ length init_tests = 121.
Proof.
  split; [apply x86_linux_comparator_case|]. split; [cbv; discriminate|]. split; [exact plain_ordinary|]. split; [exact plain_widening|].
  do 2 eexists. split; [vm_compute; reflexivity|]. split; [reflexivity|]. vm_compute. repeat split.
Qed.

(** If CPUID does not say that the threads of a core share the last-level cache, some tests fail. *)
Theorem x86_linux_tests_refuted : ordinary older_info /\ widening older_info /\
  exists o t, x86_linux_init true 32 sample_sort (fun _ => true) older_info sample_files = Ok o /\ o_published o = Some t /\
    failing (view_of t) = [("CLUSTERS_COUNT", "within_bounds"); ("CLUSTER", "non_zero_cores")]%string.
Proof.
  split; [exact older_ordinary|]. split; [exact older_widening|]. do 2 eexists. split; [vm_compute; reflexivity|]. split; [reflexivity|]. vm_compute. reflexivity.
Qed.
Print Assumptions x86_linux_tests_refuted.

(** On 64-bit ARM Linux all the tests pass if all CPUs are online, of designs that the library knows, and with a
    second-level cache; and if the third-level caches are as the library assumes ([l3_sizes]). *)
Theorem arm_linux_passes_tests : forall char_signed android garbage default sorter calloc_ok b chipset_of fs max possible present ms version o t test,
  arm_files_say false default fs max possible present ms -> all_online (arm_usable max possible present) ms version ->
  ArmLibraryProofs.chipset_answers chipset_of ms -> sorts (ArmLinuxModel.cmp_arm_linux_processor false) sorter ->
  arm_linux_init char_signed false android garbage default sorter calloc_ok (ArmDecodersModel.library_decoders b chipset_of) fs = Ok o ->
  ao_published o = Some t ->
  (forall chip, chipset_from (ArmDecodersModel.library_decoders b chipset_of) ms (length (at_processors t)) chip ->
     exists case, l3_sizes (ArmDecodersModel.library_decoders b chipset_of) chip version t case) ->
  at_l2 t <> [] -> Forall (fun c => c_vendor c <> 0%N /\ c_uarch c <> 0%N) (at_cores t) ->
  In test init_tests -> passes (arm_view t) test.
Proof. exact arm_linux_init_tests. Qed.
Print Assumptions arm_linux_passes_tests.

Example arm_linux_passes_case : exists o t, detect big_little unknown_chip = Ok o /\ ao_published o = Some t /\
  all_online (ArmLinuxSample.machine_usable big_little) (ArmLinuxSample.meanings big_little) 8 /\
  (forall chip, chipset_from (ArmLinuxSample.library64 unknown_chip) (ArmLinuxSample.meanings big_little) (length (at_processors t)) chip ->
     l3_sizes (ArmLinuxSample.library64 unknown_chip) chip 8 t ArmLinuxSpec.Shared) /\
  length (at_l2 t) = 6 /\ length (at_l3 t) = 1 /\ forallb (fun c => negb (c_vendor c =? 0)%N && negb (c_uarch c =? 0)%N) (at_cores t) = true /\
  failing (arm_view t) = [].
Proof.
  do 2 eexists. split; [vm_compute; reflexivity|]. split; [reflexivity|].
  split; [apply ArmLinuxSample.machine_all_online; [apply ArmLinuxSample.big_little_ok|vm_compute; reflexivity]|]. split; [|vm_compute; repeat split].
  intros chip H. apply unknown_chip_only in H. subst chip. intros i g1i g1d g2 g3 (c & l & k & C & K & L & E) h1i h1d h2 h3 (c' & l' & k' & C' & K' & L' & E'). cbn in C'. injection C' as <-. injection K' as <-.
  cbn in L'. injection L' as <-. vm_compute in E'. injection E' as <- <- <- <-.
  do 6 (destruct i as [|i]; [cbn in C; injection C as <-; injection K as <-; cbn in L; injection L as <-; vm_compute in E; injection E as <- <- <- <-; split; [discriminate|reflexivity]|]).
  now destruct i.
Qed.

(** With an offline CPU some tests fail. *)
Theorem arm_linux_tests_refuted : exists o t, detect ArmLinuxSample.one_offline unknown_chip = Ok o /\ ao_published o = Some t /\
  In ("CLUSTER", "consistent_processors")%string (failing (arm_view t)) /\ In ("L2_CACHE", "consistent_processors")%string (failing (arm_view t)).
Proof. do 2 eexists. split; [vm_compute; reflexivity|]. split; [reflexivity|]. split; vm_compute; tauto. Qed.
Print Assumptions arm_linux_tests_refuted.

(** On Mach and FreeBSD all the tests pass if the counts divide each other. *)
Theorem x86_mach_passes_tests : forall calloc_ok x a packages cpp tpc test, 0 < packages -> 0 < cpp -> 0 < tpc ->
  X86CountsSpec.mach_says (X86CountsModel.ma_physicalcpu_max a) (X86CountsModel.ma_logicalcpu_max a) (X86CountsModel.ma_packages a)
    packages (packages * cpp) (packages * cpp * tpc) ->
  X86CountsSpec.widths_divide packages cpp tpc (X86CountsSpec.config_says (X86CountsModel.ma_cacheconfig a)) ->
  (N.of_nat (packages * cpp * tpc) < two32)%N -> X86CountsSpec.fields_defined x -> (forall b, calloc_ok b = true) ->
  ordinary x -> widening_counts packages cpp tpc (X86CountsSpec.config_says (X86CountsModel.ma_cacheconfig a)) x -> In test init_tests ->
  exists o t, X86CountsModel.x86_mach_init calloc_ok x a = Ok o /\ X86CountsModel.o_published o = Some t /\ passes (view_of t) test.
Proof. exact mach_init_tests. Qed.
Print Assumptions x86_mach_passes_tests.

Theorem x86_freebsd_passes_tests : forall calloc_ok x a packages cpp tpc spec test, 0 < packages -> 0 < cpp -> 0 < tpc ->
  X86CountsModel.fa_spec a = Some spec -> X86CountsSpec.package_groups spec packages ->
  X86CountsModel.fa_cores a = Some (Z.of_nat (packages * cpp)) -> X86CountsModel.fa_threads_per_core a = Some (Z.of_nat tpc) ->
  (N.of_nat (packages * cpp * tpc) < two32)%N -> X86CountsSpec.fields_defined x -> (forall b, calloc_ok b = true) ->
  ordinary x -> In test init_tests ->
  exists o t, X86CountsModel.x86_freebsd_init calloc_ok x a = Ok o /\ X86CountsModel.o_published o = Some t /\ passes (view_of t) test.
Proof. exact freebsd_init_tests. Qed.
Print Assumptions x86_freebsd_passes_tests.

Example x86_counts_pass_case :
  widening_counts 2 4 2 (X86CountsSpec.config_says (X86CountsModel.ma_cacheconfig X86CountsProps.mach_sample)) plain_info /\
  (exists o t, X86CountsModel.x86_mach_init (fun _ => true) plain_info X86CountsProps.mach_sample = Ok o /\ X86CountsModel.o_published o = Some t /\
     length (t_l3 t) = 2 /\ failing (view_of t) = []) /\
  exists o t, X86CountsModel.x86_freebsd_init (fun _ => true) plain_info (X86CountsProps.freebsd_sample 8) = Ok o /\ X86CountsModel.o_published o = Some t /\
     length (t_packages t) = 2 /\ failing (view_of t) = [].
Proof.
  split; [|split].
  - split; [exists 1; reflexivity|]. split; [exists 4; reflexivity|]. intros H. exfalso. apply H. reflexivity.
  - do 2 eexists. split; [vm_compute; reflexivity|]. split; [reflexivity|]. split; vm_compute; reflexivity.
  - do 2 eexists. split; [vm_compute; reflexivity|]. split; [reflexivity|]. split; vm_compute; reflexivity.
Qed.

(** On Apple's ARM systems the tests of processors, cores, clusters and packages pass. *)
Theorem apple_passes_tests : forall family n p test, 0 < n -> ArmMachSpec.apple_described family n p -> In test topology_tests ->
  passes (view_of (ArmMachModel.at_tables p)) test.
Proof. exact apple_topology_tests. Qed.
Print Assumptions apple_passes_tests.

Example apple_passes_case : exists o p, ArmMachModel.arm_mach_init (fun _ => true) (ArmMachProps.m1_like 8 8 1 (ArmMachProps.known 128)) = Ok o /\
  ArmMachModel.mo_published o = Some p /\ map cl_core_count (t_clusters (ArmMachModel.at_tables p)) = [4; 4] /\
  forallb (fun test => snd test (view_of (ArmMachModel.at_tables p))) topology_tests = true.
Proof. do 2 eexists. split; [vm_compute; reflexivity|]. split; [reflexivity|]. split; vm_compute; reflexivity. Qed.

(** On Windows with x86, in Emscripten, and on RISC-V Linux some tests fail. *)
Theorem other_systems_tests_refuted :
  (exists o t, X86WindowsModel.x86_windows_init (fun _ => true) plain_info X86WindowsProps.windows_sample = Ok o /\
     X86WindowsModel.o_published o = Some t /\ In ("CLUSTER", "non_zero_cores")%string (failing (view_of (X86WindowsModel.wt_tables t)))) /\
  (exists o t, EmscriptenModel.emscripten_init true 6 (fun _ => true) = Ok o /\ EmscriptenModel.o_published o = Some t /\
     In ("CORE", "non_zero_processors")%string (failing (view_of t))) /\
  exists o t, RiscvLinuxModel.riscv_linux_init true 64 RiscvSample.stable_sort (fun _ => true) (RiscvSample.machine_files RiscvSample.smt_cpus RiscvSample.smt_group 0) = Ok o /\
     RiscvLinuxModel.ro_published o = Some t /\ In ("PROCESSOR", "consistent_core")%string (failing (riscv_view t)).
Proof.
  split; [|split]; do 2 eexists; (split; [vm_compute; reflexivity|]); (split; [reflexivity|]); vm_compute; tauto.
Qed.
Print Assumptions other_systems_tests_refuted.
