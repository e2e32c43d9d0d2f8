(** Property theorems about x86 Linux's tables of caches, from the leaves of CPUID: C89. *)
From Verif Require Import Base Sorting TopologySpec X86CpuinfoSpec X86LinuxModel X86LinuxSpec X86LinuxProps X86Sample X86DescriptorModel X86DecodeModel X86DecodeSpec
  X86DecodeSample X86OfflineSpec X86OfflineSample X86CachesSpec X86CachesProofs.
Open Scope N_scope.

(** Every level that the leaf about caches describes is published as the leaf describes it. *)
Theorem x86_linux_caches_from_cpuid : forall b m fuel x char_signed default sorter calloc_ok files o t,
  (forall l i, regs_ok (cpuidex m l i)) -> leaves_end m fuel -> 1 <= eax (cpuid m 0) -> init_processor b m fuel = Ok x -> qsort_contract sorter ->
  x86_linux_init char_signed default sorter calloc_ok x files = Ok o -> o_published o = Some t -> forall s r,
  (tells_by_leaf_1d m -> told_by 3 (cpuidex m 0x8000001D) s r -> level_told false r (t_processors t) (level_pointers t s) (level_caches t s)) /\
  (tells_by_leaf_4 b m -> told_by 4 (cpuidex m 4) s r -> level_told true r (t_processors t) (level_pointers t s) (level_caches t s)).
Proof. exact linux_caches_from_cpuid. Qed.
Print Assumptions x86_linux_caches_from_cpuid.

(** If the CPUs have different APIC ids, no cache has more processors than the leaf says, rounded up to a power of two. *)
Theorem x86_linux_sharers_from_cpuid : forall b m fuel x char_signed default sorter calloc_ok files max possible present meanings o t,
  (forall l i, regs_ok (cpuidex m l i)) -> leaves_end m fuel -> 1 <= eax (cpuid m 0) -> init_processor b m fuel = Ok x -> qsort_contract sorter ->
  files_say default files max possible present meanings -> distinct_apic_ids (usable max possible present meanings) meanings ->
  x86_linux_init char_signed default sorter calloc_ok x files = Ok o -> o_published o = Some t -> forall s r,
  (tells_by_leaf_1d m /\ told_by 3 (cpuidex m 0x8000001D) s r) \/ (tells_by_leaf_4 b m /\ told_by 4 (cpuidex m 4) s r) ->
  Forall (fun c => N.of_nat (ca_processor_count c) < 2 * d_sharing r /\ forall n, d_sharing r = 2 ^ n -> N.of_nat (ca_processor_count c) <= d_sharing r) (level_caches t s).
Proof. exact linux_sharers_from_cpuid. Qed.
Print Assumptions x86_linux_sharers_from_cpuid.

(** The sharers of a cache share every cache that the leaf lets no fewer threads share. *)
Theorem x86_linux_sharing_nested : forall b m fuel x char_signed default sorter calloc_ok files o t,
  (forall l i, regs_ok (cpuidex m l i)) -> leaves_end m fuel -> 1 <= eax (cpuid m 0) -> init_processor b m fuel = Ok x -> qsort_contract sorter ->
  x86_linux_init char_signed default sorter calloc_ok x files = Ok o -> o_published o = Some t -> forall s s' r r' i j,
  (tells_by_leaf_1d m /\ told_by 3 (cpuidex m 0x8000001D) s r /\ told_by 3 (cpuidex m 0x8000001D) s' r') \/
  (tells_by_leaf_4 b m /\ told_by 4 (cpuidex m 4) s r /\ told_by 4 (cpuidex m 4) s' r') ->
  d_sharing r <= d_sharing r' -> share t s i j -> share t s' i j.
Proof. exact linux_sharing_nested. Qed.
Print Assumptions x86_linux_sharing_nested.

(** Four threads on two cores: each core's 256 KB of L2, and 8 MB of L3 for all. *)
Example x86_linux_intel_caches_case :
  let m := x2apic_cpu 1 2 in let b := Build false false in
  (forall l i, regs_ok (cpuidex m l i)) /\ leaves_end m 10 /\ 1 <= eax (cpuid m 0) /\ qsort_contract sample_sort /\
  files_say 32 (four_cpus threads_on_lines) 64 (Some [(0, 3)]) (Some [(0, 3)]) threads_on_meanings /\
  distinct_apic_ids (usable 64 (Some [(0, 3)]) (Some [(0, 3)]) threads_on_meanings) threads_on_meanings /\
  tells_by_leaf_4 b m /\ told_by 4 (cpuidex m 4) L2 (cpuidex m 4 2) /\ told_by 4 (cpuidex m 4) L3 (cpuidex m 4 3) /\
  d_sharing (cpuidex m 4 2) = 2 /\ d_sharing (cpuidex m 4 3) = 4 /\
  exists x o t, init_processor b m 10 = Ok x /\ x86_linux_init true 32 sample_sort (fun _ => true) x (four_cpus threads_on_lines) = Ok o /\
    o_published o = Some t /\ map p_linux_id (t_processors t) = [0; 2; 1; 3] /\
    t_l2_of t = [Some 0; Some 0; Some 1; Some 1]%nat /\ t_l3_of t = [Some 0; Some 0; Some 0; Some 0]%nat /\
    map (fun c => (ca_processor_start c, ca_processor_count c, g_size (ca_geometry c))) (t_l2 t) = [(0%nat, 2%nat, 262144); (2%nat, 2%nat, 262144)] /\
    map (fun c => (ca_processor_count c, g_size (ca_geometry c), g_associativity (ca_geometry c))) (t_l3 t) = [(4%nat, 8388608, 16)].
Proof.
  assert (E4 : ends_at d_type (sample_leaf4 8) 4).
  { split; [reflexivity|]. split; [reflexivity|]. intros j H. destruct j as [|[|[|[|]]]]; try lia; vm_compute; discriminate. }
  cbv zeta. split; [apply x2apic_cpu_ok; reflexivity|]. split; [apply x2apic_cpu_ends|]. split; [vm_compute; discriminate|].
  split; [apply x86_linux_comparator_case|]. split; [exact threads_on_say|]. split; [exact threads_on_distinct|].
  split. { split; [discriminate|]. split; [discriminate|]. split; [vm_compute; discriminate|]. intros (H & _). revert H. vm_compute. congruence. }
  split. { exists 4%nat, 2%nat. split; [exact E4|]. split; [lia|]. split; [reflexivity|]. split; [vm_compute; tauto|]. split; [|reflexivity].
    intros j H. replace j with 3%nat by lia. vm_compute. intuition discriminate. }
  split. { exists 4%nat, 3%nat. split; [exact E4|]. split; [lia|]. split; [reflexivity|]. split; [vm_compute; tauto|]. split; [|reflexivity]. lia. }
  split; [reflexivity|]. split; [reflexivity|]. eexists. eexists. eexists. split; [vm_compute; reflexivity|]. split; [vm_compute; reflexivity|].
  repeat split.
Qed.
(** The same caches told by an AMD processor with leaf 0x8000001D. *)
Example x86_linux_amd_caches_case :
  let m := amd_cpu true in let b := Build false false in
  (forall l i, regs_ok (cpuidex m l i)) /\ leaves_end m 10 /\ 1 <= eax (cpuid m 0) /\
  tells_by_leaf_1d m /\ told_by 3 (cpuidex m 0x8000001D) L1D (cpuidex m 0x8000001D 0) /\ d_sharing (cpuidex m 0x8000001D 0) = 2 /\
  exists x o t, init_processor b m 10 = Ok x /\ x86_linux_init true 32 sample_sort (fun _ => true) x (four_cpus threads_on_lines) = Ok o /\
    o_published o = Some t /\ t_l1d_of t = [Some 0; Some 0; Some 1; Some 1]%nat /\
    map (fun c => (ca_processor_start c, ca_processor_count c, g_size (ca_geometry c))) (t_l1d t) = [(0%nat, 2%nat, 32768); (2%nat, 2%nat, 32768)].
Proof.
  assert (E4 : ends_at d_type (sample_leaf4 1) 4).
  { split; [reflexivity|]. split; [reflexivity|]. intros j H. destruct j as [|[|[|[|]]]]; try lia; vm_compute; discriminate. }
  cbv zeta. split; [apply amd_cpu_ok|]. split; [apply amd_cpu_ends|]. split; [vm_compute; discriminate|].
  split. { split; [vm_compute; discriminate|split; [discriminate|reflexivity]]. }
  split. { exists 4%nat, 0%nat. split; [exact E4|]. split; [lia|]. split; [reflexivity|]. split; [vm_compute; tauto|]. split; [|reflexivity].
    intros j H. destruct j as [|[|[|[|]]]]; try lia; vm_compute; intuition discriminate. }
  split; [reflexivity|]. eexists. eexists. eexists. split; [vm_compute; reflexivity|]. split; [vm_compute; reflexivity|].
  repeat split.
Qed.
