(** C93: one x86 machine, described alike by Linux, macOS, FreeBSD and Windows. *)
From Coq Require Import NArith List Lia Arith.
From Verif Require Import Base Text TopologySpec X86CpuinfoSpec X86LinuxModel X86LinuxSpec X86Sample X86OfflineSpec X86OfflineSample X86CountsSpec
  SameMachineSpec SameMachineProofs SameMachineLinux SameMachineOthers SameMachineSample.
From Verif Require X86LinuxProps X86CountsModel X86CountsProps X86WindowsModel X86WindowsSpec X86WindowsProps.
Import ListNotations.
Open Scope nat_scope.

(** Linux: whatever the numbers of the CPUs and the order of the files, the tables are these. *)
Theorem x86_linux_tables_written : forall char_signed default sorter calloc_ok x files max possible present meanings packages cpp tpc,
  0 < packages -> 0 < cpp -> 0 < tpc -> fields_hold x cpp tpc -> usual_sharing x -> (xi_thread_length x + xi_core_length x < 32)%N ->
  qsort_contract sorter -> files_say default files max possible present meanings ->
  linux_machine x packages cpp tpc (usable max possible present meanings) meanings -> (forall n, calloc_ok n = true) ->
  exists o t, x86_linux_init char_signed default sorter calloc_ok x files = Ok o /\ o_published o = Some t /\
    written packages cpp tpc x t /\ apic_ids_written x packages cpp tpc t /\ written_caches packages cpp tpc x t.
Proof. exact linux_publishes. Qed.
Print Assumptions x86_linux_tables_written.

Example x86_linux_tables_written_case : exists o t, x86_linux_init true 32 sample_sort (fun _ => true) small_info (four_cpus threads_on_lines) = Ok o /\
  o_published o = Some t /\ written 1 2 2 small_info t /\ apic_ids_written small_info 1 2 2 t /\ written_caches 1 2 2 small_info t /\
  map p_linux_id (t_processors t) = [0; 2; 1; 3]%N.
Proof.
  destruct (x86_linux_tables_written true 32 sample_sort (fun _ => true) small_info (four_cpus threads_on_lines) _ _ _ _ 1 2 2
    ltac:(lia) ltac:(lia) ltac:(lia) small_fields small_usual eq_refl (proj2 (proj2 X86LinuxProps.x86_linux_comparator_case)) threads_on_say
    (small_linux small_info eq_refl eq_refl) (fun _ => eq_refl)) as (o & t & E & O & W & A & C).
  exists o, t. repeat (split; [assumption|]). revert E. vm_compute x86_linux_init. intros E. injection E as <-. cbn in O. injection O as <-. reflexivity.
Qed.

(** However caches are shared below the last level, the topology is this if the last level spans the package. *)
Theorem x86_linux_topology_written : forall char_signed default sorter calloc_ok x files max possible present meanings packages cpp tpc o t,
  0 < packages -> 0 < cpp -> 0 < tpc -> fields_hold x cpp tpc -> (xi_thread_length x + xi_core_length x <= last_level_bits x)%N ->
  qsort_contract sorter -> files_say default files max possible present meanings ->
  linux_machine x packages cpp tpc (usable max possible present meanings) meanings ->
  x86_linux_init char_signed default sorter calloc_ok x files = Ok o -> o_published o = Some t ->
  written packages cpp tpc x t /\ apic_ids_written x packages cpp tpc t /\ (usual_sharing x -> written_caches packages cpp tpc x t).
Proof. exact linux_written. Qed.
Print Assumptions x86_linux_topology_written.

Example x86_linux_topology_written_case : ~ usual_sharing wide_info /\ exists o t,
  x86_linux_init true 32 sample_sort (fun _ => true) wide_info (four_cpus threads_on_lines) = Ok o /\ o_published o = Some t /\
  written 1 2 2 wide_info t /\ length (t_l2 t) = 1.
Proof.
  split; [intros [_ _ U _ _ _]; discriminate (U ltac:(discriminate))|].
  do 2 eexists. split; [vm_compute; reflexivity|]. split; [vm_compute; reflexivity|]. split; [constructor; reflexivity|reflexivity].
Qed.

(** macOS. *)
Theorem x86_mach_tables_written : forall calloc_ok x a packages cpp tpc,
  0 < packages -> 0 < cpp -> 0 < tpc -> fields_hold x cpp tpc ->
  mach_says (X86CountsModel.ma_physicalcpu_max a) (X86CountsModel.ma_logicalcpu_max a) (X86CountsModel.ma_packages a)
    packages (packages * cpp) (packages * cpp * tpc) ->
  usual_reports x cpp tpc (config_says (X86CountsModel.ma_cacheconfig a)) ->
  In (config_says (X86CountsModel.ma_cacheconfig a) 4) [0; packages * cpp * tpc] ->
  (N.of_nat (packages * cpp * tpc) < two32)%N -> (xi_thread_length x + xi_core_length x < 32)%N -> (forall n, calloc_ok n = true) ->
  exists o t, X86CountsModel.x86_mach_init calloc_ok x a = Ok o /\ X86CountsModel.o_published o = Some t /\ written packages cpp tpc x t /\
    (g_size (xc_geometry (xi_l4 x)) = 0%N -> written_caches packages cpp tpc x t) /\
    (N.of_nat cpp = (2 ^ xi_core_length x)%N -> (N.of_nat packages <= 2 ^ (32 - (xi_thread_length x + xi_core_length x)))%N ->
     apic_ids_written x packages cpp tpc t).
Proof. exact mach_written. Qed.
Print Assumptions x86_mach_tables_written.

Example x86_mach_tables_written_case : exists o t, X86CountsModel.x86_mach_init (fun _ => true) small_info small_mach = Ok o /\
  X86CountsModel.o_published o = Some t /\ written 1 2 2 small_info t /\ written_caches 1 2 2 small_info t /\ apic_ids_written small_info 1 2 2 t.
Proof.
  destruct (x86_mach_tables_written (fun _ => true) small_info small_mach 1 2 2 ltac:(lia) ltac:(lia) ltac:(lia) small_fields small_mach_says)
    as (o & t & E & O & W & C & A); try reflexivity; [repeat split; now left|now left|].
  exists o, t. repeat (split; [assumption|]). split; [now apply C|]. apply A; [reflexivity|discriminate].
Qed.

(** FreeBSD. *)
Theorem x86_freebsd_tables_written : forall calloc_ok x a packages cpp tpc spec,
  0 < packages -> 0 < cpp -> 0 < tpc -> fields_hold x cpp tpc ->
  X86CountsModel.fa_spec a = Some spec -> package_groups spec packages ->
  X86CountsModel.fa_cores a = Some (Z.of_nat (packages * cpp)) -> X86CountsModel.fa_threads_per_core a = Some (Z.of_nat tpc) ->
  (N.of_nat (packages * cpp * tpc) < two32)%N -> (xi_thread_length x + xi_core_length x < 32)%N -> (forall n, calloc_ok n = true) ->
  exists o t, X86CountsModel.x86_freebsd_init calloc_ok x a = Ok o /\ X86CountsModel.o_published o = Some t /\ written packages cpp tpc x t /\
    (g_size (xc_geometry (xi_l4 x)) = 0%N -> written_caches packages cpp tpc x t) /\
    (N.of_nat cpp = (2 ^ xi_core_length x)%N -> (N.of_nat packages <= 2 ^ (32 - (xi_thread_length x + xi_core_length x)))%N ->
     apic_ids_written x packages cpp tpc t).
Proof. exact freebsd_written. Qed.
Print Assumptions x86_freebsd_tables_written.

Example x86_freebsd_tables_written_case : exists o t, X86CountsModel.x86_freebsd_init (fun _ => true) small_info small_freebsd = Ok o /\
  X86CountsModel.o_published o = Some t /\ written 1 2 2 small_info t /\ written_caches 1 2 2 small_info t /\ apic_ids_written small_info 1 2 2 t.
Proof.
  destruct (x86_freebsd_tables_written (fun _ => true) small_info small_freebsd 1 2 2 small_groups ltac:(lia) ltac:(lia) ltac:(lia) small_fields eq_refl
    small_package eq_refl eq_refl) as (o & t & E & O & W & C & A); try reflexivity.
  exists o, t. repeat (split; [assumption|]). split; [now apply C|]. apply A; [reflexivity|discriminate].
Qed.

(** Windows, with one package. *)
Theorem x86_windows_tables_written : forall heap_ok x a sizes cpp tpc,
  0 < cpp -> 0 < tpc -> fields_hold x cpp tpc -> X86WindowsSpec.caches_defined x ->
  X86WindowsSpec.windows_says a sizes [map (fun c => seq (c * tpc) tpc) (seq 0 cpp)] ->
  (xi_thread_length x + xi_core_length x < 32)%N -> (forall n, heap_ok n = true) ->
  exists o t, X86WindowsModel.x86_windows_init heap_ok x a = Ok o /\ X86WindowsModel.o_published o = Some t /\
    written 1 cpp tpc x (X86WindowsModel.wt_tables t) /\ apic_ids_written x 1 cpp tpc (X86WindowsModel.wt_tables t) /\
    (usual_sharing x -> written_caches 1 cpp tpc x (X86WindowsModel.wt_tables t)).
Proof. exact windows_written. Qed.
Print Assumptions x86_windows_tables_written.

Example x86_windows_tables_written_case : exists o t, X86WindowsModel.x86_windows_init (fun _ => true) small_info small_windows = Ok o /\
  X86WindowsModel.o_published o = Some t /\ written 1 2 2 small_info (X86WindowsModel.wt_tables t) /\ written_caches 1 2 2 small_info (X86WindowsModel.wt_tables t).
Proof.
  destruct (x86_windows_tables_written (fun _ => true) small_info small_windows [4] 2 2 ltac:(lia) ltac:(lia) small_fields small_defined small_windows_says
    eq_refl (fun _ => eq_refl)) as (o & t & E & O & W & A & C).
  exists o, t. repeat (split; [assumption|]). exact (C small_usual).
Qed.

(** All of these tell the same of the same machine; the APIC ids too if the cores fill their field. Memory does not run out here. *)
Theorem x86_systems_same_tables : forall char_signed default sorter x files max possible present meanings a b spec packages cpp tpc,
  0 < packages -> 0 < cpp -> 0 < tpc -> fields_hold x cpp tpc -> usual_sharing x -> (xi_thread_length x + xi_core_length x < 32)%N ->
  (N.of_nat (packages * cpp * tpc) < two32)%N ->
  qsort_contract sorter -> files_say default files max possible present meanings ->
  linux_machine x packages cpp tpc (usable max possible present meanings) meanings ->
  mach_says (X86CountsModel.ma_physicalcpu_max a) (X86CountsModel.ma_logicalcpu_max a) (X86CountsModel.ma_packages a)
    packages (packages * cpp) (packages * cpp * tpc) ->
  usual_reports x cpp tpc (config_says (X86CountsModel.ma_cacheconfig a)) ->
  In (config_says (X86CountsModel.ma_cacheconfig a) 4) [0; packages * cpp * tpc] ->
  X86CountsModel.fa_spec b = Some spec -> package_groups spec packages ->
  X86CountsModel.fa_cores b = Some (Z.of_nat (packages * cpp)) -> X86CountsModel.fa_threads_per_core b = Some (Z.of_nat tpc) ->
  exists l m f t u v,
    x86_linux_init char_signed default sorter (fun _ => true) x files = Ok l /\ o_published l = Some t /\
    X86CountsModel.x86_mach_init (fun _ => true) x a = Ok m /\ X86CountsModel.o_published m = Some u /\
    X86CountsModel.x86_freebsd_init (fun _ => true) x b = Ok f /\ X86CountsModel.o_published f = Some v /\
    same_tables t u /\ same_tables t v /\
    (N.of_nat cpp = (2 ^ xi_core_length x)%N -> (N.of_nat packages <= 2 ^ (32 - (xi_thread_length x + xi_core_length x)))%N ->
     map p_apic_id (t_processors t) = map p_apic_id (t_processors u) /\ map p_apic_id (t_processors t) = map p_apic_id (t_processors v)).
Proof. exact systems_same. Qed.
Print Assumptions x86_systems_same_tables.

Theorem x86_windows_same_tables : forall char_signed default sorter x files max possible present meanings a sizes cpp tpc,
  0 < cpp -> 0 < tpc -> fields_hold x cpp tpc -> usual_sharing x -> (xi_thread_length x + xi_core_length x < 32)%N ->
  qsort_contract sorter -> files_say default files max possible present meanings ->
  linux_machine x 1 cpp tpc (usable max possible present meanings) meanings ->
  X86WindowsSpec.windows_says a sizes [map (fun c => seq (c * tpc) tpc) (seq 0 cpp)] ->
  exists l w t u,
    x86_linux_init char_signed default sorter (fun _ => true) x files = Ok l /\ o_published l = Some t /\
    X86WindowsModel.x86_windows_init (fun _ => true) x a = Ok w /\ X86WindowsModel.o_published w = Some u /\
    same_tables t (X86WindowsModel.wt_tables u) /\ map p_apic_id (t_processors t) = map p_apic_id (t_processors (X86WindowsModel.wt_tables u)).
Proof. exact windows_same. Qed.
Print Assumptions x86_windows_same_tables.

Example x86_systems_same_tables_case : exists l m f w t u v y,
  x86_linux_init true 32 sample_sort (fun _ => true) small_info (four_cpus threads_on_lines) = Ok l /\ o_published l = Some t /\
  X86CountsModel.x86_mach_init (fun _ => true) small_info small_mach = Ok m /\ X86CountsModel.o_published m = Some u /\
  X86CountsModel.x86_freebsd_init (fun _ => true) small_info small_freebsd = Ok f /\ X86CountsModel.o_published f = Some v /\
  X86WindowsModel.x86_windows_init (fun _ => true) small_info small_windows = Ok w /\ X86WindowsModel.o_published w = Some y /\
  same_tables t u /\ same_tables t v /\ same_tables t (X86WindowsModel.wt_tables y) /\
  length (t_l2 t) = 2 /\ length (t_l3 t) = 1 /\ map p_apic_id (t_processors t) = [0; 1; 2; 3]%N.
Proof.
  do 8 eexists. do 4 (split; [vm_compute; reflexivity|split; [vm_compute; reflexivity|]]).
  split; [constructor; now repeat split|]. split; [constructor; now repeat split|]. split; [constructor; now repeat split|]. now repeat split.
Qed.

(** If each core has its own third level, Linux publishes a cluster for each, the others one for the package. *)
Theorem x86_systems_clusters_refuted : exists l m f w t u v y,
  fields_hold split_info 2 2 /\
  linux_machine split_info 1 2 2 (usable 64 (Some [(0, 3)]%N) (Some [(0, 3)]%N) threads_on_meanings) threads_on_meanings /\
  x86_linux_init true 32 sample_sort (fun _ => true) split_info (four_cpus threads_on_lines) = Ok l /\ o_published l = Some t /\
  X86CountsModel.x86_mach_init (fun _ => true) split_info small_mach = Ok m /\ X86CountsModel.o_published m = Some u /\
  X86CountsModel.x86_freebsd_init (fun _ => true) split_info small_freebsd = Ok f /\ X86CountsModel.o_published f = Some v /\
  X86WindowsModel.x86_windows_init (fun _ => true) split_info small_windows = Ok w /\ X86WindowsModel.o_published w = Some y /\
  (t_clusters_count t, t_clusters_count u, t_clusters_count v, t_clusters_count (X86WindowsModel.wt_tables y)) = (2, 1, 1, 1) /\
  (length (t_l3 t), length (t_l3 u), length (t_l3 v), length (t_l3 (X86WindowsModel.wt_tables y))) = (2, 1, 1, 2).
Proof.
  do 8 eexists. split; [repeat split; cbn; lia|]. split; [exact (small_linux split_info eq_refl eq_refl)|].
  do 4 (split; [vm_compute; reflexivity|split; [vm_compute; reflexivity|]]). split; reflexivity.
Qed.
Print Assumptions x86_systems_clusters_refuted.
