(** Property theorems about sharing and offline CPUs on x86 Linux: C86. *)
From Verif Require Import Base Sorting Text LinuxTextModel TopologySpec X86CpuinfoModel X86CpuinfoSpec X86LinuxModel X86LinuxSpec X86LinuxProps X86Sample
  X86OfflineSpec X86OfflineProofs X86OfflineSample.
Open Scope N_scope.

(** If the usable CPUs have different APIC ids, no core, cluster or package has more processors than the fields of the
    APIC id can number... *)
Theorem x86_linux_hardware_allows : forall char_signed default sorter calloc_ok x files max possible present meanings o t,
  qsort_contract sorter -> files_say default files max possible present meanings ->
  x86_linux_init char_signed default sorter calloc_ok x files = Ok o -> o_published o = Some t ->
  distinct_apic_ids (usable max possible present meanings) meanings -> adjacent_fields x -> threads_share_last_level x ->
  hardware_allows x t.
Proof. exact hardware_bound. Qed.
Print Assumptions x86_linux_hardware_allows.

(** ...and no cache is shared by more than CPUID says. *)
Theorem x86_linux_cache_sharing : forall char_signed default sorter calloc_ok x files max possible present meanings o t,
  qsort_contract sorter -> files_say default files max possible present meanings ->
  x86_linux_init char_signed default sorter calloc_ok x files = Ok o -> o_published o = Some t ->
  distinct_apic_ids (usable max possible present meanings) meanings ->
  sharing_allowed (xc_apic_bits (xi_l1i x)) (t_l1i t) /\ sharing_allowed (xc_apic_bits (xi_l1d x)) (t_l1d t) /\
  sharing_allowed (xc_apic_bits (xi_l2 x)) (t_l2 t) /\ sharing_allowed (xc_apic_bits (xi_l3 x)) (t_l3 t) /\
  sharing_allowed (xc_apic_bits (xi_l4 x)) (t_l4 t).
Proof. exact caches_bound. Qed.
Print Assumptions x86_linux_cache_sharing.

(** Whether two online CPUs share a core, cluster or package does not depend on which others are online. *)
Theorem x86_linux_sharing_stable :
  forall char_signed char_signed' default default' sorter sorter' calloc_ok calloc_ok' x files files' max max' possible possible'
    present present' meanings meanings' o o' t t' a b,
  qsort_contract sorter -> qsort_contract sorter' -> adjacent_fields x ->
  files_say default files max possible present meanings -> files_say default' files' max' possible' present' meanings' ->
  x86_linux_init char_signed default sorter calloc_ok x files = Ok o -> o_published o = Some t ->
  x86_linux_init char_signed' default' sorter' calloc_ok' x files' = Ok o' -> o_published o' = Some t' ->
  apic_given meanings 0 a None = apic_given meanings' 0 a None -> apic_given meanings 0 b None = apic_given meanings' 0 b None ->
  same_sharing t t' a b.
Proof. exact sharing_stable. Qed.
Print Assumptions x86_linux_sharing_stable.

(** An offline CPU is reported as a thread of the core, and in the package, with the lowest APIC ids. *)
Theorem x86_linux_offline_place : forall char_signed default sorter calloc_ok x files max possible present meanings o t,
  qsort_contract sorter -> files_say default files max possible present meanings ->
  x86_linux_init char_signed default sorter calloc_ok x files = Ok o -> o_published o = Some t -> forall cpu p,
  ~ has_apic_id meanings cpu -> In p (t_processors t) -> p_linux_id p = cpu -> adjacent_fields x -> forall q, In q (t_processors t) ->
  (p_core p = p_core q <-> p_apic_id q < 2 ^ xi_thread_length x) /\
  (p_package p = p_package q <-> p_apic_id q < 2 ^ (xi_thread_length x + xi_core_length x)).
Proof. exact offline_place. Qed.
Print Assumptions x86_linux_offline_place.

Example x86_linux_threads_on_case :
  files_say 32 (four_cpus threads_on_lines) 64 (Some [(0, 3)]) (Some [(0, 3)]) threads_on_meanings /\
  qsort_contract sample_sort /\ adjacent_fields sample_info /\ threads_share_last_level sample_info /\
  distinct_apic_ids (usable 64 (Some [(0, 3)]) (Some [(0, 3)]) threads_on_meanings) threads_on_meanings /\
  apic_given threads_on_meanings 0 0 None = apic_given threads_off_meanings 0 0 None /\
  apic_given threads_on_meanings 0 1 None = apic_given threads_off_meanings 0 1 None /\
  exists o t, x86_linux_init true 32 sample_sort (fun _ => true) sample_info (four_cpus threads_on_lines) = Ok o /\ o_published o = Some t /\
    map p_linux_id (t_processors t) = [0; 2; 1; 3] /\ map c_processor_count (t_cores t) = [2; 2]%nat.
Proof.
  split; [exact threads_on_say|]. split; [apply x86_linux_comparator_case|]. split; [apply x86_linux_sample|]. split; [apply x86_linux_sample|].
  split; [exact threads_on_distinct|]. split; [reflexivity|]. split; [reflexivity|].
  do 2 eexists. split; [vm_compute; reflexivity|]. split; [reflexivity|]. split; reflexivity.
Qed.

(** The second threads of a machine with two cores of two threads are switched off: its four CPUs are reported, three of
    them as threads of the first core. *)
Theorem x86_linux_threads_off_refuted : exists files max possible present meanings o t,
  files_say 32 files max possible present meanings /\ qsort_contract sample_sort /\ adjacent_fields sample_info /\
  threads_share_last_level sample_info /\
  (forall cpu, has_apic_id meanings cpu <-> cpu = 0 \/ cpu = 1) /\ apic_id_of meanings 0 <> apic_id_of meanings 1 /\
  x86_linux_init true 32 sample_sort (fun _ => true) sample_info files = Ok o /\ o_published o = Some t /\
  map p_linux_id (t_processors t) = [0; 2; 3; 1] /\ map p_core (t_processors t) = [Some 0%nat; Some 0%nat; Some 0%nat; Some 1%nat] /\
  ~ at_most (xi_thread_length sample_info) c_processor_count (t_cores t).
Proof.
  exists (four_cpus threads_off_lines), 64, (Some [(0, 3)]), (Some [(0, 3)]), threads_off_meanings. do 2 eexists.
  split; [exact threads_off_say|]. split; [apply x86_linux_comparator_case|]. split; [apply x86_linux_sample|]. split; [apply x86_linux_sample|].
  split.
  { intros cpu. unfold has_apic_id, threads_off_meanings. cbn [apic_given]. destruct (N.eqb_spec 0 cpu) as [E|E]; destruct (N.eqb_spec 1 cpu) as [F|F];
      (split; intros H; [|try discriminate]; try (exfalso; now apply H); try lia).
  }
  split; [vm_compute; discriminate|].
  split; [vm_compute; reflexivity|]. split; [reflexivity|]. split; [reflexivity|]. split; [reflexivity|].
  intros X. inversion X as [|c r C _]. vm_compute in C. now apply C.
Qed.
Print Assumptions x86_linux_threads_off_refuted.
