(** Property theorems about CPUID decoding: C22, C23, C25, C40, C43, C44, C45. *)
From Verif Require Import Base Text Sorting LinuxTextModel TopologySpec X86CpuinfoModel X86LinuxModel X86LinuxSpec X86LinuxProps
  X86Sample X86DescriptorModel X86DecodeModel X86DecodeSpec X86DecodeProofs X86DescriptorProofs X86LevelsProofs X86LeavesProofs X86GroupProofs
  X86DecodeSample.
Open Scope N_scope.

(** ** C22: deterministic cache parameters *)

(** One subleaf of leaf 4: refused iff its type is null; otherwise exactly the
    caches it describes are set, to what it says. *)
Theorem x86_leaf4_subleaf : forall r cs, regs_ok r ->
  (d_type r = 0 /\ decode_deterministic_cache_parameters r cs = None) \/
  (d_type r <> 0 /\ exists cs', decode_deterministic_cache_parameters r cs = Some (cs', d_package_cores r) /\
     caches_updated true 4 r cs cs').
Proof. exact leaf4_decodes. Qed.
Print Assumptions x86_leaf4_subleaf.

(** One subleaf of AMD's leaf 0x8000001D, likewise. *)
Theorem x86_leaf1d_subleaf : forall r cs, regs_ok r ->
  (d_type r = 0 /\ decode_cache_properties r cs = None) \/
  (d_type r <> 0 /\ exists cs', decode_cache_properties r cs = Some cs' /\ caches_updated false 3 r cs cs').
Proof. exact leaf1d_decodes. Qed.
Print Assumptions x86_leaf1d_subleaf.

(** The loop over leaf 4 stops at the first null subleaf, and every cache is the
    one of the last subleaf that describes it. *)
Theorem x86_leaf4_loop : forall m k fuel n cs max, (forall i, regs_ok (cpuidex m 4 i)) ->
  N.of_nat k + n < two32 -> ends_at d_type (fun i => cpuidex m 4 (n + i)) k -> (k < fuel)%nat ->
  exists cs', leaf4_loop m fuel n cs max =
      Ok (cs', match k with O => max | S j => d_package_cores (cpuidex m 4 (n + N.of_nat j)) end) /\
    (forall s, last_described true 4 (fun i => cpuidex m 4 (n + i)) k s (cs_cache cs s) (cs_cache cs' s)) /\
    same_rest cs cs'.
Proof. exact leaf4_loop_spec. Qed.
Print Assumptions x86_leaf4_loop.

Theorem x86_leaf1d_loop : forall m k fuel n cs, (forall i, regs_ok (cpuidex m 0x8000001D i)) ->
  N.of_nat k + n < two32 -> ends_at d_type (fun i => cpuidex m 0x8000001D (n + i)) k -> (k < fuel)%nat ->
  exists cs', leaf1d_loop m fuel n cs = Ok cs' /\
    (forall s, last_described false 3 (fun i => cpuidex m 0x8000001D (n + i)) k s (cs_cache cs s) (cs_cache cs' s)) /\
    same_rest cs cs'.
Proof. exact leaf1d_loop_spec. Qed.
Print Assumptions x86_leaf1d_loop.

Example x86_leaf4_case :
  (forall l i, regs_ok (cpuidex (x2apic_cpu 1 2) l i)) /\ leaves_end (x2apic_cpu 1 2) 10 /\
  describes 4 (cpuidex (x2apic_cpu 1 2) 4 3) L3 /\ d_size (cpuidex (x2apic_cpu 1 2) 4 3) = 8388608 /\
  exists cs, leaf4_loop (x2apic_cpu 1 2) 10 0 cstate0 0 = Ok (cs, 8) /\ g_size (xc_geometry (cs_cache cs L3)) = 8388608 /\
    xc_apic_bits (cs_cache cs L3) = 2 /\ g_size (xc_geometry (cs_cache cs L4)) = 0.
Proof.
  split; [apply x2apic_cpu_ok; reflexivity|]. split; [apply x2apic_cpu_ends|].
  split; [split; [reflexivity|right; reflexivity]|]. split; [reflexivity|].
  eexists. split; [vm_compute; reflexivity|]. repeat split.
Qed.

(** Initialization reads no leaf that the processor does not have... *)
Theorem x86_only_leaves_there : forall b m m' fuel,
  (forall l i, leaf_there m l -> cpuidex m' l i = cpuidex m l i) ->
  (2 <= eax (cpuid m 0) -> forall i, cpuid2 m' i = cpuid2 m i) ->
  init_processor b m' fuel = init_processor b m fuel.
Proof. exact only_leaves_there. Qed.
Print Assumptions x86_only_leaves_there.

(** ...and the reported caches are those of leaf 0x8000001D if the processor has
    it, otherwise, for vendors other than AMD and Hygon, those of leaf 4. *)
Theorem x86_caches_reported : forall b m fuel x, (forall l i, regs_ok (cpuidex m l i)) -> leaves_end m fuel ->
  1 <= eax (cpuid m 0) -> init_processor b m fuel = Ok x ->
  let vendor := decode_vendor b (ebx (cpuid m 0)) (ecx (cpuid m 0)) (edx (cpuid m 0)) in
  (0x8000001D <= eax (cpuid m 0x80000000) -> amd_extensions m -> caches_follow false 3 (cpuidex m 0x8000001D) (xi_cache x)) /\
  (vendor <> vendor_amd -> vendor <> vendor_hygon -> 4 <= eax (cpuid m 0) ->
   eax (cpuid m 0x80000000) < 0x8000001D \/ ~ amd_extensions m -> caches_follow true 4 (cpuidex m 4) (xi_cache x)).
Proof. exact caches_reported. Qed.
Print Assumptions x86_caches_reported.

Example x86_leaves_case :
  (forall ext l i, regs_ok (cpuidex (amd_cpu ext) l i)) /\ (forall ext, leaves_end (amd_cpu ext) 10) /\
  amd_extensions (amd_cpu true) /\ ~ amd_extensions (amd_cpu false) /\
  (exists x, init_processor (Build false false) (amd_cpu true) 10 = Ok x /\ g_size (xc_geometry (xi_l3 x)) = 8388608) /\
  (exists x, init_processor (Build false false) (amd_cpu false) 10 = Ok x /\ g_size (xc_geometry (xi_l3 x)) = 0) /\
  (forall l, leaf_there (amd_cpu false) l -> l <> 0x8000001D) /\
  exists x, init_processor (Build false false) (x2apic_cpu 1 2) 10 = Ok x /\ g_size (xc_geometry (xi_l2 x)) = 262144 /\
    eax (cpuid (x2apic_cpu 1 2) 0x80000000) < 0x8000001D.
Proof.
  split; [apply amd_cpu_ok|]. split; [apply amd_cpu_ends|]. split; [split; [discriminate|reflexivity]|].
  split; [intros (_ & H); vm_compute in H; discriminate|].
  split; [eexists; split; [vm_compute; reflexivity|reflexivity]|]. split; [eexists; split; [vm_compute; reflexivity|reflexivity]|].
  split; [|eexists; split; [vm_compute; reflexivity|split; reflexivity]].
  intros l (_ & _ & H) E. destruct (H E) as (_ & H'). vm_compute in H'. discriminate.
Qed.

(** A cache of 4 GB or more: the size is reported modulo 2^32, possibly as 0,
    which means that there is no such cache. *)
Theorem x86_leaf4_huge_cache_refuted : exists r c, regs_ok r /\ describes 4 r L4 /\ d_size r = 2 ^ 32 /\
  decode_deterministic_cache_parameters r cstate0 = Some (c, 1) /\ g_size (xc_geometry (cs_cache c L4)) = 0.
Proof.
  exists (Regs 0x183 0x03C0003F (2 ^ 22 - 1) 0). eexists.
  split; [repeat split; reflexivity|]. split; [split; [reflexivity|]; split; [vm_compute; discriminate|right; reflexivity]|].
  split; [reflexivity|]. split; [reflexivity|]. reflexivity.
Qed.
Print Assumptions x86_leaf4_huge_cache_refuted.

(** ** C23: the signature *)

Theorem x86_signature_fields : forall sig, sig < two32 ->
  let mi := decode_model_info sig in
  mi_stepping mi = field 0 4 sig /\ mi_base_model mi = field 4 4 sig /\ mi_base_family mi = field 8 4 sig /\
  mi_processor_type mi = field 12 2 sig /\ mi_extended_model mi = field 16 4 sig /\ mi_extended_family mi = field 20 8 sig /\
  mi_family mi = field 8 4 sig + field 20 8 sig /\ mi_model mi = field 16 4 sig * 16 + field 4 4 sig.
Proof. exact model_info_fields. Qed.
Print Assumptions x86_signature_fields.

(** Nothing but the reserved bits is lost. *)
Theorem x86_signature_round_trip : forall sig, sig < two32 ->
  let mi := decode_model_info sig in
  sig = mi_stepping mi + 2 ^ 4 * mi_base_model mi + 2 ^ 8 * mi_base_family mi + 2 ^ 12 * mi_processor_type mi +
        2 ^ 14 * field 14 2 sig + 2 ^ 16 * mi_extended_model mi + 2 ^ 20 * mi_extended_family mi + 2 ^ 28 * field 28 4 sig.
Proof. exact signature_rebuilt. Qed.
Print Assumptions x86_signature_round_trip.

(** Family and model are the documented ones where the extended fields count or
    are zero. *)
Theorem x86_signature_documented_partial : forall sig, sig < two32 ->
  (field 8 4 sig = 15 \/ field 20 8 sig = 0 -> mi_family (decode_model_info sig) = documented_family sig) /\
  (field 8 4 sig = 15 \/ field 8 4 sig = 6 \/ field 16 4 sig = 0 -> mi_model (decode_model_info sig) = documented_model sig).
Proof. exact signature_documented. Qed.
Print Assumptions x86_signature_documented_partial.

Example x86_signature_case : 0x000906EA < two32 /\ field 8 4 0x000906EA = 6 /\
  mi_family (decode_model_info 0x000906EA) = 6 /\ mi_model (decode_model_info 0x000906EA) = 0x9E /\
  mi_family (decode_model_info 0x00800F82) = 0x17 /\ mi_model (decode_model_info 0x00800F82) = 0x08.
Proof. repeat split. Qed.

(** The extended fields are added whatever the base family is. *)
Theorem x86_signature_documented_refuted : exists sig, sig < two32 /\
  mi_family (decode_model_info sig) <> documented_family sig /\ mi_model (decode_model_info sig) <> documented_model sig.
Proof. exists 0x00110510. repeat split; vm_compute; discriminate. Qed.
Print Assumptions x86_signature_documented_refuted.

(** ** C43: the vendor string *)

Theorem x86_vendor_string : forall b ebx ecx edx v, decode_vendor b ebx ecx edx = v <->
  (exists s, In (s, v) (vendor_strings b) /\ spells s ebx ecx edx) \/
  (v = vendor_unknown /\ forall s w, In (s, w) (vendor_strings b) -> ~ spells s ebx ecx edx).
Proof. exact decode_vendor_spec. Qed.
Print Assumptions x86_vendor_string.

Example x86_vendor_case :
  spells "HygonGenuine" 0x6F677948 0x656E6975 0x6E65476E /\
  decode_vendor (Build false false) 0x6F677948 0x656E6975 0x6E65476E = vendor_hygon /\
  decode_vendor (Build false false) 0x69727943 0x64616574 0x736E4978 = vendor_unknown /\
  decode_vendor (Build true false) 0x69727943 0x64616574 0x736E4978 = vendor_cyrix.
Proof. repeat split. Qed.

(** ** C44: the microarchitecture *)

(** It is unknown or one of the vendor's. *)
Theorem x86_uarch_of_vendor : forall b vendor mi, decode_uarch b vendor mi = uarch_unknown \/
  uarch_vendor (decode_uarch b vendor mi) = vendor.
Proof. exact decode_uarch_vendor. Qed.
Print Assumptions x86_uarch_of_vendor.

(** It depends on vendor, family and model only. *)
Theorem x86_uarch_family_model : forall b vendor sig1 sig2, sig1 < two32 -> sig2 < two32 ->
  mi_family (decode_model_info sig1) = mi_family (decode_model_info sig2) ->
  mi_model (decode_model_info sig1) = mi_model (decode_model_info sig2) ->
  decode_uarch b vendor (decode_model_info sig1) = decode_uarch b vendor (decode_model_info sig2).
Proof. exact decode_uarch_stepping. Qed.
Print Assumptions x86_uarch_family_model.

Example x86_uarch_case :
  decode_uarch (Build false false) vendor_intel (decode_model_info 0x000906EA) = 0x0010020A /\
  decode_uarch (Build false false) vendor_intel (decode_model_info 0x000906ED) = 0x0010020A /\
  decode_uarch (Build false false) vendor_amd (decode_model_info 0x00800F82) = 0x00200109.
Proof. repeat split. Qed.

(** Every documented processor with a listed microarchitecture is recognised. *)
Theorem x86_uarch_documented : forall b vendor sig uarch, sig < two32 -> regular_signature sig ->
  documented_uarch vendor (documented_family sig) (documented_model sig) uarch ->
  decode_uarch b vendor (decode_model_info sig) = uarch.
Proof. exact documented_recognised. Qed.
Print Assumptions x86_uarch_documented.

Example x86_uarch_documented_case : regular_signature 0x00040661 /\
  documented_uarch vendor_intel (documented_family 0x00040661) (documented_model 0x00040661) 0x00100208.
Proof.
  split; [split; [right; reflexivity|right; left; reflexivity]|].
  exists [0x3C; 0x45; 0x46]. split; [do 8 right; left; reflexivity|right; right; left; reflexivity].
Qed.

(** AMD Dali (family 0x17, model 0x20), a Zen processor, is not. *)
Theorem x86_uarch_dali_refuted : forall b stepping, stepping < 16 ->
  documented_family (0x00820F00 + stepping) = 0x17 /\ documented_model (0x00820F00 + stepping) = 0x20 /\
  decode_uarch b vendor_amd (decode_model_info (0x00820F00 + stepping)) = uarch_unknown.
Proof. exact dali_unknown. Qed.
Print Assumptions x86_uarch_dali_refuted.

(** No Hygon Dhyana (family 0x18) is ever recognised. *)
Theorem x86_uarch_hygon_refuted : forall b sig, sig < two32 -> documented_family sig = 0x18 ->
  decode_uarch b vendor_hygon (decode_model_info sig) = uarch_unknown.
Proof. exact hygon_unknown. Qed.
Print Assumptions x86_uarch_hygon_refuted.

Example x86_uarch_hygon_case : documented_family 0x00900F02 = 0x18.
Proof. reflexivity. Qed.

(** ** C40: cache descriptors *)

(** On Intel processors a documented descriptor sets exactly the documented
    cache: all but 0x82 and 0xD2. *)
Theorem x86_descriptor_documented_partial : forall b family model d s kilobytes ways line cs,
  intel_cache family model d = Some (s, kilobytes, ways, line) -> d <> 0x82 -> d <> 0xD2 ->
  let cs' := decode_cache_descriptor b vendor_intel family model d cs in
  documented_geometry kilobytes ways line (xc_geometry (cs_cache cs' s)) /\
  forall s', s' <> s -> cs_cache cs' s' = cs_cache cs s'.
Proof. exact descriptor_documented. Qed.
Print Assumptions x86_descriptor_documented_partial.

(** Other descriptors leave the caches alone. *)
Theorem x86_descriptor_undocumented : forall b vendor family model d cs s,
  intel_cache family model d = None -> ~ unsourced d ->
  cs_cache (decode_cache_descriptor b vendor family model d cs) s = cs_cache cs s.
Proof. exact descriptor_undocumented. Qed.
Print Assumptions x86_descriptor_undocumented.

(** Every descriptor but 0xD2 sets caches whose size is the product of ways, sets,
    partitions and line size. *)
Theorem x86_descriptor_consistent : forall b vendor family model d cs s, d <> 0xD2 ->
  let cs' := decode_cache_descriptor b vendor family model d cs in
  cs_cache cs' s = cs_cache cs s \/
  (consistent_geometry (xc_geometry (cs_cache cs' s)) /\ xc_apic_bits (cs_cache cs' s) = 0).
Proof. exact descriptor_consistent. Qed.
Print Assumptions x86_descriptor_consistent.

(** So do all readings of leaf 2 together. *)
Theorem x86_leaf2_consistent : forall b m vendor mi n i cs s,
  (forall j, (i <= j < i + n)%nat -> ~ In 0xD2 (regs_bytes (cpuid2 m j))) ->
  let cs' := repeat_descriptors b m vendor mi n i cs in
  cs_cache cs' s = cs_cache cs s \/
  (consistent_geometry (xc_geometry (cs_cache cs' s)) /\ xc_apic_bits (cs_cache cs' s) = 0).
Proof. exact repeat_descriptors_good. Qed.
Print Assumptions x86_leaf2_consistent.

Example x86_descriptor_case :
  intel_cache 15 6 0x49 = Some (L3, 4096, 16, 64) /\ intel_cache 6 15 0x49 = Some (L2, 4096, 16, 64) /\
  intel_cache 6 23 0x4E = Some (L2, 6144, 24, 64) /\ intel_cache 6 23 0x05 = None /\ ~ unsourced 0x05 /\
  g_size (xc_geometry (cs_cache (repeat_descriptors (Build false false) (legacy_cpu 4 2) vendor_intel
     (decode_model_info 0x00010676) 1 0 cstate0) L2)) = 6291456.
Proof. repeat split. intros H. unfold unsourced in H. lia. Qed.

(** 0xD2: 2 * 1024 * 2014 bytes instead of 2 MB. *)
Theorem x86_descriptor_d2_refuted : forall b family model cs,
  intel_cache family model 0xD2 = Some (L3, 2048, 4, 64) /\
  let g := xc_geometry (cs_cache (decode_cache_descriptor b vendor_intel family model 0xD2 cs) L3) in
  g_size g = 4124672 /\ g_size g <> 2048 * 1024 /\ ~ consistent_geometry g.
Proof. exact descriptor_d2_wrong. Qed.
Print Assumptions x86_descriptor_d2_refuted.

(** 0x82: 4 ways instead of 8. *)
Theorem x86_descriptor_82_refuted : forall b family model cs,
  intel_cache family model 0x82 = Some (L2, 256, 8, 32) /\
  g_associativity (xc_geometry (cs_cache (decode_cache_descriptor b vendor_intel family model 0x82 cs) L2)) = 4.
Proof. exact descriptor_82_wrong. Qed.
Print Assumptions x86_descriptor_82_refuted.

(** ** C45: reserved registers of leaf 2 *)

(** Registers marked reserved are decoded all the same. *)
Theorem x86_leaf2_reserved_refuted : exists r, regs_ok r /\ no_valid_register r /\
  cs_cache (decode_descriptors (Build false false) vendor_intel (decode_model_info 0x00010676) r cstate0) L1I <> cs_cache cstate0 L1I.
Proof.
  exists (Regs 0x80000001 0x80000006 0x80000000 0x80000000). split; [repeat split|]. split; [repeat split|].
  vm_compute. discriminate.
Qed.
Print Assumptions x86_leaf2_reserved_refuted.

(** ** C25: thread and core fields of the APIC id *)

(** Leaf 0xB: each field is as wide as its level says and starts where the shifts
    of the earlier levels add up to. *)
Theorem x86_topology_x2apic_levels : forall m fuel max_base max_ext leaf1 t k,
  l_x2apic leaf1 = true -> 0xB <= max_base -> ends_at t_type (cpuidex m 0xB) k -> (k < fuel)%nat ->
  exists t', detect_topology m fuel max_base max_ext leaf1 t = Ok t' /\
    level_field 1 (cpuidex m 0xB) k (tp_thread_offset t') (tp_thread_length t') /\
    level_field 2 (cpuidex m 0xB) k (tp_core_offset t') (tp_core_length t') /\
    tp_apic_id t' = edx (cpuidex m 0xB (N.of_nat k)).
Proof. exact detect_topology_x2apic. Qed.
Print Assumptions x86_topology_x2apic_levels.

(** With one thread level and one core level these are the documented fields if
    and only if the thread field is empty. *)
Theorem x86_topology_x2apic_documented_iff : forall m fuel max_base max_ext leaf1 t,
  l_x2apic leaf1 = true -> 0xB <= max_base -> two_levels (cpuidex m 0xB) -> (2 < fuel)%nat ->
  exists t', detect_topology m fuel max_base max_ext leaf1 t = Ok t' /\
    (documented_x2apic (t_shift (cpuidex m 0xB 0)) (t_shift (cpuidex m 0xB 1)) t' <-> t_shift (cpuidex m 0xB 0) = 0).
Proof. exact two_levels_documented_iff. Qed.
Print Assumptions x86_topology_x2apic_documented_iff.

(** Without leaf 0xB and without CmpLegacy: thread and core fields together hold
    the logical processors of leaf 1, the core field the cores of leaf 4. *)
Theorem x86_topology_legacy : forall m fuel max_base max_ext leaf1 core_length,
  legacy_used leaf1 max_base -> l_htt leaf1 = true -> (max_ext < 0x80000001 \/ l_cmp_legacy m = false) ->
  l_logical leaf1 <> 0 ->
  (forall width, log2_up (l_logical leaf1) width -> core_length <= width) ->
  exists threads, log2_up (l_logical leaf1) (threads + core_length) /\
  detect_topology m fuel max_base max_ext leaf1 (Topology 0 0 0 0 core_length) =
    Ok (Topology (N.shiftr (ebx leaf1) 24) 0 threads threads core_length).
Proof. exact detect_topology_legacy. Qed.
Print Assumptions x86_topology_legacy.

(** AMD with CmpLegacy: no threads, the cores of leaf 0x80000008. *)
Theorem x86_topology_amd : forall m fuel max_base max_ext leaf1 core_length,
  legacy_used leaf1 max_base -> l_htt leaf1 = true -> 0x80000008 <= max_ext -> l_cmp_legacy m = true ->
  exists width, log2_up (l_amd_cores m) width /\
  detect_topology m fuel max_base max_ext leaf1 (Topology 0 0 0 0 core_length) =
    Ok (Topology (N.shiftr (ebx leaf1) 24) 0 0 0 width).
Proof. exact detect_topology_amd. Qed.
Print Assumptions x86_topology_amd.

(** With sane leaves, CPUID decoding yields adjacent fields within the APIC id, as
    x86 Linux detection needs (C17, C18). *)
Theorem x86_cpuid_fields_fit : forall b m fuel, (forall l i, regs_ok (cpuidex m l i)) -> leaves_end m fuel -> (2 < fuel)%nat ->
  sane_topology m -> exists x, init_processor b m fuel = Ok x /\ bits_ok x /\ adjacent_fields x.
Proof. exact init_processor_sane. Qed.
Print Assumptions x86_cpuid_fields_fit.

Example x86_cpuid_fields_case :
  sane_topology (x2apic_cpu 1 2) /\ sane_topology (legacy_cpu 4 2) /\
  leaves_end (x2apic_cpu 1 2) 10 /\ leaves_end (legacy_cpu 4 2) 10 /\
  (forall l i, regs_ok (cpuidex (legacy_cpu 4 2) l i)) /\ two_levels (cpuidex (x2apic_cpu 1 2) 0xB).
Proof.
  split; [left; repeat split; vm_compute; discriminate|].
  split.
  { right. split; [left; reflexivity|]. right. right. right. intros i. change (d_package_cores (sample_leaf4 2 i) <= 4).
    unfold sample_leaf4. repeat match goal with |- context [if ?b then _ else _] => destruct b end; vm_compute; discriminate. }
  split; [apply x2apic_cpu_ends|]. split; [apply legacy_cpu_ends|]. split; [apply legacy_cpu_ok; vm_compute; [reflexivity|discriminate]|].
  repeat split.
Qed.

(** From CPUID and files to the tables, without leaf 0xB: processors are in the same
    package iff their APIC ids agree above the bits that number the logical
    processors of a package, and in the same core iff they agree above the rest
    after removing the bits that number its cores. *)
Theorem x86_linux_grouping_from_cpuid_legacy :
  forall b m fuel j x char_signed default sorter calloc_ok files o t,
  (forall l i, regs_ok (cpuidex m l i)) -> leaves_end m fuel ->
  let vendor := decode_vendor b (ebx (cpuid m 0)) (ecx (cpuid m 0)) (edx (cpuid m 0)) in
  vendor <> vendor_amd -> vendor <> vendor_hygon -> 4 <= eax (cpuid m 0) ->
  (S j < fuel)%nat -> ends_at d_type (cpuidex m 4) (S j) ->
  legacy_used (cpuid m 1) (eax (cpuid m 0)) -> l_htt (cpuid m 1) = true ->
  (eax (cpuid m 0x80000000) < 0x80000001 \/ l_cmp_legacy m = false) ->
  d_package_cores (cpuidex m 4 (N.of_nat j)) <= l_logical (cpuid m 1) ->
  init_processor b m fuel = Ok x -> qsort_contract sorter ->
  x86_linux_init char_signed default sorter calloc_ok x files = Ok o -> o_published o = Some t ->
  exists core_bits package_bits,
    log2_up (d_package_cores (cpuidex m 4 (N.of_nat j))) core_bits /\ log2_up (l_logical (cpuid m 1)) package_bits /\
    grouped_by p_core (package_bits - core_bits) (t_processors t) /\ grouped_by p_package package_bits (t_processors t).
Proof. exact grouping_from_cpuid_legacy. Qed.
Print Assumptions x86_linux_grouping_from_cpuid_legacy.

(** With leaf 0xB: cores are told apart by the documented bits; packages by the
    documented bits if there are no threads. *)
Theorem x86_linux_grouping_from_cpuid_x2apic :
  forall b m fuel x char_signed default sorter calloc_ok files o t,
  (forall l i, regs_ok (cpuidex m l i)) -> leaves_end m fuel -> (2 < fuel)%nat ->
  l_x2apic (cpuid m 1) = true -> 0xB <= eax (cpuid m 0) -> two_levels (cpuidex m 0xB) ->
  t_shift (cpuidex m 0xB 0) + t_shift (cpuidex m 0xB 1) <= 32 ->
  init_processor b m fuel = Ok x -> qsort_contract sorter ->
  x86_linux_init char_signed default sorter calloc_ok x files = Ok o -> o_published o = Some t ->
  grouped_by p_core (t_shift (cpuidex m 0xB 0)) (t_processors t) /\
  (t_shift (cpuidex m 0xB 0) = 0 -> grouped_by p_package (t_shift (cpuidex m 0xB 1)) (t_processors t)).
Proof. exact grouping_from_cpuid_x2apic. Qed.
Print Assumptions x86_linux_grouping_from_cpuid_x2apic.

(** With threads, processors of different packages end up in one. *)
Theorem x86_linux_merged_packages_refuted : exists m x o t,
  (forall l i, regs_ok (cpuidex m l i)) /\ leaves_end m 10 /\ sane_topology m /\
  t_shift (cpuidex m 0xB 0) = 1 /\ t_shift (cpuidex m 0xB 1) = 2 /\
  init_processor (Build false false) m 10 = Ok x /\
  x86_linux_init true 32 sample_sort (fun _ => true) x two_cpu_files = Ok o /\ o_published o = Some t /\
  map p_apic_id (t_processors t) = [0; 4] /\ map p_package (t_processors t) = [Some 0%nat; Some 0%nat] /\
  ~ agree_above (t_shift (cpuidex m 0xB 1)) 0 4.
Proof.
  exists (x2apic_cpu 1 2). eexists. eexists. eexists.
  split; [apply x2apic_cpu_ok; reflexivity|]. split; [apply x2apic_cpu_ends|]. split; [apply x86_cpuid_fields_case|].
  split; [reflexivity|]. split; [reflexivity|]. split; [vm_compute; reflexivity|]. split; [vm_compute; reflexivity|].
  split; [reflexivity|]. split; [reflexivity|]. split; [reflexivity|]. vm_compute. discriminate.
Qed.
Print Assumptions x86_linux_merged_packages_refuted.

(** Fewer logical processors in leaf 1 than core ids in leaf 4 (seen in virtual
    machines): the width of the thread field wraps and building the tables shifts by
    more than the width of the type. *)
Theorem x86_linux_more_cores_than_processors_refuted : exists m x,
  (forall l i, regs_ok (cpuidex m l i)) /\ init_processor (Build false false) m 10 = Ok x /\
  x86_linux_init true 32 sample_sort (fun _ => true) x two_cpu_files = UB.
Proof.
  exists (legacy_cpu 2 64). eexists. split; [apply legacy_cpu_ok; vm_compute; [reflexivity|discriminate]|].
  split; [vm_compute; reflexivity|]. vm_compute. reflexivity.
Qed.
Print Assumptions x86_linux_more_cores_than_processors_refuted.
