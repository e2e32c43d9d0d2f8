(** What CPUID's leaves about caches say about the caches of a Linux machine, independent of the decoding and of the tables' code. *)
From Verif Require Import Base TopologySpec X86LinuxSpec X86DescriptorModel X86DecodeModel X86DecodeSpec.
Open Scope N_scope.

(** The geometry that a subleaf gives. *)
Record geometry_told (complex_indexing : bool) (r : regs) (g : geometry) : Prop := {
  gt_size : g_size g = d_size r;
  gt_ways : g_associativity g = d_ways r;
  gt_sets : g_sets g = d_sets r;
  gt_partitions : g_partitions g = d_partitions r;
  gt_line_size : g_line_size g = d_line_size r;
  gt_flags : forall i, N.testbit (g_flags g) i =
    match i with
    | 0 => d_type r =? 3
    | 1 => N.testbit (edx r) 1
    | 2 => complex_indexing && N.testbit (edx r) 2
    | _ => false
    end
}.

(** A level as the subleaf [r] describes it: every processor has one of the caches, those whose APIC ids differ in no
    higher bit than the number of sharing threads needs have the same. *)
Record level_told (complex_indexing : bool) (r : regs) (ps : list processor) (pointers : list (option nat)) (caches : list cache) : Prop := {
  lt_ranges : length pointers = length ps /\ points_to pointers (map cache_processors caches);
  lt_geometry : Forall (fun c => geometry_told complex_indexing r (ca_geometry c)) caches;
  lt_sharing : exists bits, log2_up (d_sharing r) bits /\
    forall i j p q, nth_error ps i = Some p -> nth_error ps j = Some q ->
      (nth_error pointers i = nth_error pointers j <-> agree_above bits (p_apic_id p) (p_apic_id q))
}.

(** The level of a slot in the tables. *)
Definition level_pointers (t : tables) (s : slot) : list (option nat) :=
  match s with L1I => t_l1i_of t | L1D => t_l1d_of t | L2 => t_l2_of t | L3 => t_l3_of t | L4 => t_l4_of t end.
Definition level_caches (t : tables) (s : slot) : list cache :=
  match s with L1I => t_l1i t | L1D => t_l1d t | L2 => t_l2 t | L3 => t_l3 t | L4 => t_l4 t end.

(** The last subleaf of a leaf that describes the slot, with a size that fits into 32 bits. *)
Definition told_by (levels : N) (leaf : N -> regs) (s : slot) (r : regs) : Prop :=
  exists k i, ends_at d_type leaf k /\ (i < k)%nat /\ r = leaf (N.of_nat i) /\ describes levels r s /\
    (forall j, (i < j < k)%nat -> ~ describes levels (leaf (N.of_nat j)) s) /\ d_size r < two32.

(** Which leaf a processor tells its caches with. *)
Definition tells_by_leaf_1d (m : cpu) : Prop := 0x8000001D <= eax (cpuid m 0x80000000) /\ amd_extensions m.
Definition tells_by_leaf_4 (b : build) (m : cpu) : Prop :=
  let vendor := decode_vendor b (ebx (cpuid m 0)) (ecx (cpuid m 0)) (edx (cpuid m 0)) in
  vendor <> vendor_amd /\ vendor <> vendor_hygon /\ 4 <= eax (cpuid m 0) /\ ~ tells_by_leaf_1d m.

(** Processors share a cache of a level: they have the same one. *)
Definition share (t : tables) (s : slot) (i j : nat) : Prop :=
  exists k, nth_error (level_pointers t s) i = Some (Some k) /\ nth_error (level_pointers t s) j = Some (Some k).
