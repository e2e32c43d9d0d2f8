(** Property theorems about x86 Linux detection: C15-C21, and the parts of C05,
    C06, C27 and C42 that concern it. *)
From Verif Require Import Base Sorting Text LinuxTextModel TopologySpec X86CpuinfoModel X86CpuinfoSpec
  X86LinuxModel X86LinuxSpec X86FinalProofs X86Sample.
Open Scope N_scope.


(** ** C42: the comparator *)

Theorem x86_linux_comparator_total_preorder : total_preorder cmp_x86_linux_processor.
Proof. exact cmp_x86_preorder. Qed.
Print Assumptions x86_linux_comparator_total_preorder.

Example x86_linux_comparator_case :
  cmp_x86_linux_processor (XProc 7 0 flag_valid) (XProc 3 1 0) = (-1)%Z /\
  cmp_x86_linux_processor (XProc 7 0 flag_valid) (XProc 3 1 flag_valid) = 1%Z /\
  qsort_contract sample_sort.
Proof. split; [reflexivity|]. split; [reflexivity|]. exact (isort_sorts _ _ cmp_x86_preorder). Qed.

(** ** C15 *)

(** Whatever was published lists exactly the usable CPUs with their APIC ids. *)
Theorem x86_linux_lists_usable_cpus :
  forall char_signed default sorter calloc_ok x files max possible present meanings o t,
  qsort_contract sorter -> files_say default files max possible present meanings ->
  x86_linux_init char_signed default sorter calloc_ok x files = Ok o -> o_published o = Some t ->
  lists_cpus (fun cpu apic => usable max possible present meanings cpu /\ apic = apic_id_of meanings cpu) t.
Proof. exact lists_usable. Qed.
Print Assumptions x86_linux_lists_usable_cpus.

(** The maps from Linux CPU numbers agree with the tables, for arbitrary files. *)
Theorem x86_linux_maps : forall char_signed default sorter calloc_ok x files o t,
  qsort_contract sorter ->
  x86_linux_init char_signed default sorter calloc_ok x files = Ok o -> o_published o = Some t -> maps_cpus t.
Proof. exact published_maps. Qed.
Print Assumptions x86_linux_maps.

Example x86_linux_sample :
  files_say 32 sample_files 64 (Some [(0, 4)]) (Some [(0, 3)]) sample_meanings /\ bits_ok sample_info /\
  adjacent_fields sample_info /\ threads_share_last_level sample_info /\
  usable 64 (Some [(0, 4)]) (Some [(0, 3)]) sample_meanings 2 /\
  exists t, x86_linux_init true 32 sample_sort (fun _ => true) sample_info sample_files =
      Ok (Outcome (Some t) [B_l3; B_l2; B_l1d; B_l1i; B_packages; B_clusters; B_cores; B_core_map; B_processor_map; B_processors]) /\
    t_processors t = [Processor 0 (Some 0%nat) (Some 0%nat) (Some 0%nat) 2 0; Processor 1 (Some 0%nat) (Some 0%nat) (Some 0%nat) 0 1;
                      Processor 0 (Some 1%nat) (Some 0%nat) (Some 0%nat) 1 2; Processor 1 (Some 1%nat) (Some 0%nat) (Some 0%nat) 3 3] /\
    t_cores t = [Core 0 2 0 (Some 0%nat) (Some 0%nat) 1 2 3; Core 2 2 1 (Some 0%nat) (Some 0%nat) 1 2 3] /\
    t_clusters t = [Cluster 0 4 0 2 0 (Some 0%nat) 1 2 3] /\ t_packages t = [Package 0 4 0 2 0 1] /\
    t_processor_map t = [Some 1%nat; Some 2%nat; Some 0%nat; Some 3%nat] /\
    t_l2_of t = [Some 0%nat; Some 0%nat; Some 1%nat; Some 1%nat] /\ t_max_cache_size t = 8388608.
Proof.
  split; [exact sample_files_say|]. split.
  { repeat split; try reflexivity. intros c Hc _. cbn in Hc. repeat destruct Hc as [<-|Hc]; reflexivity || destruct Hc. }
  split; [repeat split; cbn; lia|]. split; [vm_compute; discriminate|]. split.
  { split; [lia|]. split; [exists 0, 3|exists 0, 4]; (split; [now left|lia]). }
  eexists. split; [vm_compute; reflexivity|]. repeat split.
Qed.

(** ** C16 *)

Theorem x86_linux_topology_consistent : forall char_signed default sorter calloc_ok x files o t,
  qsort_contract sorter -> threads_share_last_level x ->
  x86_linux_init char_signed default sorter calloc_ok x files = Ok o -> o_published o = Some t ->
  t_processors t <> [] /\ consistent (t_processors t) (t_cores t) (t_clusters t) (t_packages t).
Proof. exact published_consistent. Qed.
Print Assumptions x86_linux_topology_consistent.

(** ** C17 *)

Theorem x86_linux_grouping_follows_apic_id : forall char_signed default sorter calloc_ok x files o t,
  qsort_contract sorter -> adjacent_fields x ->
  x86_linux_init char_signed default sorter calloc_ok x files = Ok o -> o_published o = Some t ->
  grouped_by p_core (xi_thread_length x) (t_processors t) /\
  grouped_by p_package (xi_thread_length x + xi_core_length x) (t_processors t) /\
  grouped_by p_cluster (N.min (last_level_bits x) (xi_thread_length x + xi_core_length x)) (t_processors t).
Proof. exact published_grouped. Qed.
Print Assumptions x86_linux_grouping_follows_apic_id.

(** ** C18 *)

(** With meaningful files, fields narrower than the APIC id and a usable CPU
    with an ordinary APIC id, detection completes without any out-of-bounds
    access, shift or infinite loop, whatever calloc does; and if calloc never
    fails it publishes. *)
Theorem x86_linux_never_out_of_bounds :
  forall char_signed default sorter calloc_ok x files max possible present meanings cpu,
  qsort_contract sorter -> files_say default files max possible present meanings -> bits_ok x ->
  usable max possible present meanings cpu -> apic_id_of meanings cpu < u32max ->
  exists o, x86_linux_init char_signed default sorter calloc_ok x files = Ok o /\
    ((forall b, calloc_ok b = true) -> o_published o <> None).
Proof. exact init_completes. Qed.
Print Assumptions x86_linux_never_out_of_bounds.

(** The same for arbitrary table contents found by the readers. *)
Theorem x86_linux_never_out_of_bounds_any_table :
  forall char_signed default sorter calloc_ok x files procs mask,
  qsort_contract sorter -> bits_ok x ->
  detect_linux_processors char_signed default files = Ok (Some (procs, mask)) ->
  (exists p, In p procs /\ is_valid p = true /\ x_apic_id p < u32max) ->
  exists o, x86_linux_init char_signed default sorter calloc_ok x files = Ok o /\
    ((forall b, calloc_ok b = true) -> o_published o <> None).
Proof. exact init_total. Qed.
Print Assumptions x86_linux_never_out_of_bounds_any_table.

(** Without any usable CPU (present and possible lists disjoint) the first
    element of an empty table is read. *)
Theorem x86_linux_no_usable_cpu_refuted :
  exists files, bits_ok sample_info /\ qsort_contract sample_sort /\
    x86_linux_init true 32 sample_sort (fun _ => true) sample_info files = UB.
Proof.
  exists no_usable_files. split; [apply x86_linux_sample|]. split; [apply x86_linux_comparator_case|].
  vm_compute. reflexivity.
Qed.
Print Assumptions x86_linux_no_usable_cpu_refuted.

(** With the single APIC id 2^32-1 and no thread bits the core index is used
    before it is first incremented. *)
Theorem x86_linux_broadcast_apic_id_refuted :
  exists x files, bits_ok x /\ qsort_contract sample_sort /\
    x86_linux_init true 32 sample_sort (fun _ => true) x files = UB.
Proof.
  exists (XInfo 1 2 3 0 0 0 0 (sample_cache 0 0) (sample_cache 0 0) (sample_cache 0 0) (sample_cache 0 0) (sample_cache 0 0)), broadcast_files.
  split.
  { repeat split; try reflexivity. intros c Hc _. cbn in Hc. repeat destruct Hc as [<-|Hc]; reflexivity || destruct Hc. }
  split; [apply x86_linux_comparator_case|]. vm_compute. reflexivity.
Qed.
Print Assumptions x86_linux_broadcast_apic_id_refuted.

(** ** C19 *)

Theorem x86_linux_ids_are_offsets : forall char_signed default sorter calloc_ok x files o t,
  qsort_contract sorter -> threads_share_last_level x ->
  x86_linux_init char_signed default sorter calloc_ok x files = Ok o -> o_published o = Some t ->
  ids_are_offsets (t_processors t) (t_cores t) (t_clusters t) (t_packages t).
Proof. exact published_ids. Qed.
Print Assumptions x86_linux_ids_are_offsets.

(** ** C20 *)

Theorem x86_linux_caches : forall char_signed default sorter calloc_ok x files o t,
  qsort_contract sorter ->
  x86_linux_init char_signed default sorter calloc_ok x files = Ok o -> o_published o = Some t ->
  level_reported (xc_geometry (xi_l1i x)) (xc_apic_bits (xi_l1i x)) (t_processors t) (t_l1i_of t) (t_l1i t) (t_l1i_count t) /\
  level_reported (xc_geometry (xi_l1d x)) (xc_apic_bits (xi_l1d x)) (t_processors t) (t_l1d_of t) (t_l1d t) (t_l1d_count t) /\
  level_reported (xc_geometry (xi_l2 x)) (xc_apic_bits (xi_l2 x)) (t_processors t) (t_l2_of t) (t_l2 t) (t_l2_count t) /\
  level_reported (xc_geometry (xi_l3 x)) (xc_apic_bits (xi_l3 x)) (t_processors t) (t_l3_of t) (t_l3 t) (t_l3_count t) /\
  level_reported (xc_geometry (xi_l4 x)) (xc_apic_bits (xi_l4 x)) (t_processors t) (t_l4_of t) (t_l4 t) (t_l4_count t).
Proof. exact published_caches. Qed.
Print Assumptions x86_linux_caches.

(** ** C27, x86 Linux: the published maximum cache size *)

Theorem x86_linux_max_cache_size : forall char_signed default sorter calloc_ok x files o t,
  qsort_contract sorter ->
  x86_linux_init char_signed default sorter calloc_ok x files = Ok o -> o_published o = Some t ->
  t_max_cache_size t = last_level_size x.
Proof. exact published_max_cache. Qed.
Print Assumptions x86_linux_max_cache_size.

(** ** Microarchitecture *)

Theorem x86_linux_uarch : forall char_signed default sorter calloc_ok x files o t,
  qsort_contract sorter ->
  x86_linux_init char_signed default sorter calloc_ok x files = Ok o -> o_published o = Some t ->
  t_uarch t = xi_uarch x /\ t_uarch_cpuid t = xi_cpuid x /\
  Forall (fun c => c_vendor c = xi_vendor x /\ c_uarch c = xi_uarch x /\ c_cpuid c = xi_cpuid x) (t_cores t) /\
  Forall (fun c => cl_vendor c = xi_vendor x /\ cl_uarch c = xi_uarch x /\ cl_cpuid c = xi_cpuid x) (t_clusters t).
Proof. exact published_uarch. Qed.
Print Assumptions x86_linux_uarch.

(** ** C21 *)

(** Two threads of one core, caches described without sharing information: the
    second thread becomes a cluster of its own that contains no core. *)
Theorem x86_linux_cluster_without_core_refuted :
  exists x files t, bits_ok x /\ adjacent_fields x /\ qsort_contract sample_sort /\
    (exists o, x86_linux_init true 32 sample_sort (fun _ => true) x files = Ok o /\ o_published o = Some t) /\
    ~ threads_share_last_level x /\
    exists c, In c (t_clusters t) /\ cl_core_count c = 0%nat.
Proof.
  exists legacy_info, sample_files. eexists. split.
  { repeat split; try reflexivity. intros c Hc _. cbn in Hc. repeat destruct Hc as [<-|Hc]; reflexivity || destruct Hc. }
  split; [repeat split; cbn; lia|]. split; [apply x86_linux_comparator_case|]. split.
  { eexists. split; vm_compute; reflexivity. }
  split; [intros H; vm_compute in H; now apply H|].
  eexists. split; [right; left; reflexivity|]. reflexivity.
Qed.
Print Assumptions x86_linux_cluster_without_core_refuted.

(** ** C05 and C06, x86 Linux *)

(** Whatever calloc does and whatever the files contain: either nothing is
    published, or the published tables are complete (the theorems above) and the
    blocks still allocated are exactly the published ones.  If nothing is
    published everything has been freed, unless /proc/cpuinfo could not be
    parsed. *)
Theorem x86_linux_memory : forall char_signed default sorter calloc_ok x files o,
  qsort_contract sorter ->
  x86_linux_init char_signed default sorter calloc_ok x files = Ok o ->
  match o_published o with
  | None => o_live o = [] \/
      (o_live o = [B_linux_processors] /\ detect_linux_processors char_signed default files = Ok None)
  | Some t => forall b, In b (o_live o) <-> published_blocks t b
  end.
Proof. exact init_memory. Qed.
Print Assumptions x86_linux_memory.

Example x86_linux_memory_case :
  x86_linux_init true 32 sample_sort (fun b => negb (block_eqb b B_l2)) sample_info sample_files = Ok (Outcome None []).
Proof. vm_compute. reflexivity. Qed.

(** If /proc/cpuinfo cannot be opened the table of Linux processors is leaked. *)
Theorem x86_linux_leak_refuted :
  exists files, x86_linux_init true 32 sample_sort (fun _ => true) sample_info files
                = Ok (Outcome None [B_linux_processors]).
Proof.
  exists (LinuxFiles (lf_kernel_max sample_files) (lf_possible_max sample_files) (lf_present_max sample_files)
            (lf_possible sample_files) (lf_present sample_files) (File None [])).
  vm_compute. reflexivity.
Qed.
Print Assumptions x86_linux_leak_refuted.
