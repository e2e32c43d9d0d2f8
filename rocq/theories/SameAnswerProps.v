(** Property theorems: C92. *)
From Coq Require Import NArith List.
From Verif Require Import Base Text LinuxTextModel LinuxTextSpec TopologySpec X86LinuxModel X86Sample RiscvLinuxModel RiscvSample
  ArmClustersModel ArmClustersSample ArmLinuxModel ArmLinuxSample ArmOfflineSample ArmChipsetModel ArmPackageModel ArmPackageSample
  X86LinuxSpec X86LinuxProps X86OfflineSpec X86OfflineSample SameAnswerSpec SameAnswerTextProofs SameAnswerProofs SameSortProofs SameAnswerSample.
Import ListNotations.
Open Scope nat_scope.

(** ** C92 *)

(** x86 Linux: signed or unsigned char, and any sizes of the reads; the same outcome, whatever
    the files hold. *)
Theorem x86_linux_same_answer : forall char_signed char_signed' default sorter calloc_ok x fs fs', same_linux_files fs fs' ->
  x86_linux_init char_signed default sorter calloc_ok x fs = x86_linux_init char_signed' default sorter calloc_ok x fs'.
Proof. exact x86_same_answer. Qed.
Print Assumptions x86_linux_same_answer.

(** Lines with bytes above 127, which are negative if char is signed. *)
Example x86_linux_same_answer_case :
  same_linux_files accented_files (slow_linux accented_files) /\ f_reads (lf_cpuinfo (slow_linux accented_files)) <> f_reads (lf_cpuinfo accented_files) /\
  exists o t, x86_linux_init true 64 sample_sort (fun _ => true) sample_info (slow_linux accented_files) = Ok o /\ o_published o = Some t /\
    map p_linux_id (t_processors t) = [2; 0; 1; 3]%N.
Proof. split; [exact accented_same|]. split; [discriminate|]. do 2 eexists. split; [vm_compute; reflexivity|]. split; reflexivity. Qed.

(** And whatever the C library's qsort does, if the usable CPUs have different APIC ids. *)
Theorem x86_linux_any_sort : forall char_signed default sorter sorter' calloc_ok x fs max possible present meanings,
  files_say default fs max possible present meanings ->
  distinct_apic_ids (X86LinuxSpec.usable max possible present meanings) meanings -> qsort_contract sorter -> qsort_contract sorter' ->
  x86_linux_init char_signed default sorter calloc_ok x fs = x86_linux_init char_signed default sorter' calloc_ok x fs.
Proof. exact x86_any_sort. Qed.
Print Assumptions x86_linux_any_sort.

Example x86_linux_any_sort_case :
  files_say 32 (four_cpus threads_on_lines) 64 (Some [(0, 3)]%N) (Some [(0, 3)]%N) threads_on_meanings /\
  distinct_apic_ids (X86LinuxSpec.usable 64 (Some [(0, 3)]%N) (Some [(0, 3)]%N) threads_on_meanings) threads_on_meanings /\
  qsort_contract sample_sort /\ qsort_contract other_sort /\
  exists o t, x86_linux_init true 32 other_sort (fun _ => true) sample_info (four_cpus threads_on_lines) = Ok o /\ o_published o = Some t /\
    map p_linux_id (t_processors t) = [0; 2; 1; 3]%N.
Proof.
  split; [exact threads_on_say|]. split; [exact threads_on_distinct|]. split; [apply x86_linux_comparator_case|]. split; [exact other_sort_sorts|].
  do 2 eexists. split; [vm_compute; reflexivity|]. split; reflexivity.
Qed.

(** With CPUs switched off, which all count as APIC id 0, the order of the processors is qsort's choice. *)
Theorem x86_linux_tied_sort_refuted : exists fs max possible present meanings sorter sorter' o o' t t',
  files_say 32 fs max possible present meanings /\ qsort_contract sorter /\ qsort_contract sorter' /\
  x86_linux_init true 32 sorter (fun _ => true) sample_info fs = Ok o /\ o_published o = Some t /\
  x86_linux_init true 32 sorter' (fun _ => true) sample_info fs = Ok o' /\ o_published o' = Some t' /\
  map p_linux_id (t_processors t) = [0; 2; 3; 1]%N /\ map p_linux_id (t_processors t') = [3; 2; 0; 1]%N.
Proof.
  exists (four_cpus threads_off_lines), 64%N, (Some [(0, 3)]%N), (Some [(0, 3)]%N), threads_off_meanings, sample_sort, other_sort. do 4 eexists.
  split; [exact threads_off_say|]. split; [apply x86_linux_comparator_case|]. split; [exact other_sort_sorts|].
  split; [vm_compute; reflexivity|]. split; [reflexivity|]. split; [vm_compute; reflexivity|]. split; [reflexivity|]. split; reflexivity.
Qed.
Print Assumptions x86_linux_tied_sort_refuted.

(** ARM Linux and Android: besides, whatever the uninitialised variables hold. *)
Theorem arm_linux_same_answer : forall char_signed char_signed' arm32 android garbage garbage' default sorter calloc_ok d fs fs', same_arm_files fs fs' ->
  arm_linux_init char_signed arm32 android garbage default sorter calloc_ok d fs =
  arm_linux_init char_signed' arm32 android garbage' default sorter calloc_ok d fs'.
Proof. exact arm_same_answer. Qed.
Print Assumptions arm_linux_same_answer.

(** Four and two cores, of which the kernel does not tell the groups: the layout is guessed, and
    checked by means of variables that start uninitialised. *)
Example arm_linux_same_answer_case :
  same_arm_files (no_groups (arm_machine_files big_little)) (slow_arm (no_groups (arm_machine_files big_little))) /\
  exists o t, arm_linux_init false false false (Known 0xFFFFFFFF 0x410FD030 1 2) 64 (arm_sort false) (fun _ => true) (library64 ArmLinuxSample.unknown_chip)
      (slow_arm (no_groups (arm_machine_files big_little))) = Ok o /\ ao_published o = Some t /\
    map cl_processor_count (at_clusters t) = [2; 4] /\ map p_linux_id (at_processors t) = [4; 5; 0; 1; 2; 3]%N.
Proof. split; [apply arm_alone_reads; repeat constructor|]. do 2 eexists. split; [vm_compute; reflexivity|]. split; [reflexivity|]. split; reflexivity. Qed.

(** The name of the package. *)
Theorem arm_package_same_answer : forall char_signed char_signed' arm32 default calloc_ok decode fs fs', same_arm_files fs fs' ->
  arm_package_name char_signed arm32 default calloc_ok decode fs = arm_package_name char_signed' arm32 default calloc_ok decode fs'.
Proof. exact arm_same_name. Qed.
Print Assumptions arm_package_same_answer.

Example arm_package_same_answer_case :
  same_arm_files (with_lines pi3 pi3_lines) (slow_arm (with_lines pi3 pi3_lines)) /\
  arm_package_name false false 64 (fun _ => true) (linux_decoder false) (slow_arm (with_lines pi3 pi3_lines)) = Ok (Some (text "Broadcom BCM2837")).
Proof. split; [apply arm_same_reads; [repeat constructor|repeat (constructor; [apply field_bytes|]); constructor]|]. vm_compute. reflexivity. Qed.

(** RISC-V Linux. *)
Theorem riscv_linux_same_answer : forall char_signed char_signed' default sorter calloc_ok fs fs', same_riscv_files fs fs' ->
  riscv_linux_init char_signed default sorter calloc_ok fs = riscv_linux_init char_signed' default sorter calloc_ok fs'.
Proof. exact riscv_same_answer. Qed.
Print Assumptions riscv_linux_same_answer.

Example riscv_linux_same_answer_case :
  let fs := only_first 10 (machine_files smt_cpus smt_group 0) in
  same_riscv_files fs (slow_riscv fs) /\
  exists o t, riscv_linux_init false 64 stable_sort (fun _ => true) (slow_riscv fs) = Ok o /\ ro_published o = Some t /\
    map p_core (rt_processors t) = map (fun c => Some c) [0; 0; 1; 1; 2; 2; 3; 3].
Proof. split; [apply riscv_same_reads; repeat constructor|]. do 2 eexists. split; [vm_compute; reflexivity|]. split; reflexivity. Qed.

(** The files that hold one number, which the above takes to be read with unsigned char. *)
Theorem small_files_same_answer : forall char_signed char_signed' f f', same_file f f' ->
  parse_small_file (uint32_parser char_signed) small_filesize (f_contents f) (f_reads f) 0%N =
  parse_small_file (uint32_parser char_signed') small_filesize (f_contents f') (f_reads f') 0%N.
Proof. exact small_agree. Qed.
Print Assumptions small_files_same_answer.

Example small_files_same_answer_case :
  let f := File (Some (text "180" ++ [0xFF; 10]%N)) [] in
  same_file f (slow f) /\ parse_small_file (uint32_parser true) small_filesize (f_contents (slow f)) (f_reads (slow f)) 0%N = Ok (true, 180%N).
Proof. split; [|reflexivity]. apply slow_same. split; [intros c E; injection E as <-; repeat constructor|constructor]. Qed.
