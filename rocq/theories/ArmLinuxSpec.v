(** What ARM Linux detection should report, independent of the detection code. *)
From Verif Require Import Base LinuxTextModel LinuxTextSpec TopologySpec.
From Verif Require RiscvLinuxSpec ArmMidrSpec ArmClustersModel ArmClusterMidrModel ArmCpuinfoSpec X86LinuxSpec ArmLinuxModel.
Import ArmMidrSpec(midr_field, Architecture, field_of, design, fast_designs, slow_designs, prime_designs, partner_designs).
Import ArmClustersModel(sibling_files, sf_cluster_cpus, sf_core_siblings).
Import ArmClusterMidrModel(chipset).
Import ArmCpuinfoSpec(arm_line_means, arm_meaning, said, Field, Arch, told, last_said, version_said, field_said).
Import X86LinuxSpec(list_says, max_says).
Import RiscvLinuxSpec(number_says, or_zero).
Import ArmLinuxModel(arm_decoders, ad_uarch, ad_chipset, ad_caches, ad_max_cache, acpu_files, ac_max_frequency, ac_min_frequency, ac_package_id,
  ac_siblings, arm_files, amf_kernel_max, amf_possible_max, amf_present_max, amf_possible, amf_present, amf_cpuinfo, amf_cpu,
  arm_uarch, au_uarch, au_midr, au_processors, au_cores,
  arm_tables, at_processors, at_cores, at_clusters, at_package, at_uarchs, at_l1i, at_l1d, at_l2, at_l3, at_l2_of, at_l3_of,
  at_max_cache_size, at_linux_cpu_max, at_processor_map, at_core_map, at_uarch_map).
Open Scope nat_scope.

(** ** What the files say *)

(** /proc/cpuinfo is a sequence of meaningful lines that fit in the buffer. *)
Definition arm_cpuinfo_says (arm32 : bool) (f : file) (ms : list arm_meaning) : Prop :=
  no_io_error (f_reads f) /\
  exists lines, f_contents f = Some (join 10 lines) /\ lines <> [] /\
    Forall (fun l => ~ In 10%N l) lines /\ pieces_fit 1024 lines /\ Forall2 (arm_line_means arm32) lines ms.

(** The files together: [max] CPUs at most; the possible and present lists, the same in
    both readings, at least one of them there; the meanings of the lines of /proc/cpuinfo. *)
Record arm_files_say (arm32 : bool) (default : N) (fs : arm_files) (max : N) (possible present : option (list (N * N)))
       (ms : list arm_meaning) : Prop := {
  as_max : max_says default (amf_kernel_max fs) max;
  as_max_u32 : (0 < max < two32)%N;
  as_possible : list_says (amf_possible_max fs) possible /\ list_says (amf_possible fs) possible;
  as_present : list_says (amf_present_max fs) present /\ list_says (amf_present fs) present;
  as_either : possible <> None \/ present <> None;
  as_cpuinfo : arm_cpuinfo_says arm32 (amf_cpuinfo fs) ms
}.

(** A CPU is usable if it is below the kernel's limit and in each of the lists. *)
Definition in_list (l : option (list (N * N))) (cpu : nat) : Prop :=
  match l with Some rs => listed rs (N.of_nat cpu) | None => True end.
Definition arm_usable (max : N) (possible present : option (list (N * N))) (cpu : nat) : Prop :=
  (N.of_nat cpu < max)%N /\ in_list possible cpu /\ in_list present cpu.

(** What /proc/cpuinfo says about a CPU; a CPU that is offline is not in it. *)
Definition about (ms : list arm_meaning) (cpu : nat) : list said := told ms 0 (N.of_nat cpu).
Definition online (ms : list arm_meaning) (cpu : nat) : Prop := about ms cpu <> [].
Definition version_of (ms : list arm_meaning) (cpu : nat) : N := last_said version_said (about ms cpu) 0%N.
(** It gives the main id register [midr] (the architecture field only indirectly). *)
Definition gives_midr (ms : list arm_meaning) (cpu : nat) (midr : N) : Prop :=
  (exists v letters, In (Arch v letters) (about ms cpu)) /\
  forall f, f <> Architecture -> (exists v, In (Field f v) (about ms cpu)) /\
    last_said (field_said f) (about ms cpu) 0%N = field_of f midr.

(** Every usable CPU has a package id, and its list of siblings names, among the usable
    CPUs, those of its group: either all have a cluster_cpus_list, or the first one has
    none and all have a core_siblings_list. *)
Definition siblings_say (usable : nat -> Prop) (list_of : sibling_files -> file) (fs : arm_files) (group : nat -> nat) : Prop :=
  forall i, usable i -> exists ranges, list_says (list_of (ac_siblings (amf_cpu fs i))) (Some ranges) /\
    forall j, usable j -> (listed ranges (N.of_nat j) <-> group j = group i).
Definition id_file (f : file) : Prop := exists digits tail, f_contents f = Some (digits ++ tail) /\ no_io_error (f_reads f) /\
  is_decimal digits /\ bytes tail /\ ~ starts_with_digit tail /\ length (digits ++ tail) < 32 /\ (dec_value digits < two32)%N.
Record groups_say (usable : nat -> Prop) (fs : arm_files) (group : nat -> nat) : Prop := {
  gs_package_ids : forall i, usable i -> id_file (ac_package_id (amf_cpu fs i));
  gs_lists : siblings_say usable sf_cluster_cpus fs group \/
    ((forall i, usable i -> (forall j, j < i -> ~ usable j) -> list_says (sf_cluster_cpus (ac_siblings (amf_cpu fs i))) None) /\
     siblings_say usable sf_core_siblings fs group)
}.

(** ** What the tables should say *)

(** The processors are exactly the usable CPUs, each once, each with a core of its own;
    clusters are contiguous ranges, and the ids are offsets; a core is of the kind its
    cluster says. *)
Record arm_topology (usable : nat -> Prop) (t : arm_tables) : Prop := {
  ap_cpus : forall c, usable c <-> exists p, In p (at_processors t) /\ p_linux_id p = N.of_nat c;
  ap_once : NoDup (map p_linux_id (at_processors t));
  ap_consistent : consistent (at_processors t) (at_cores t) (at_clusters t) [at_package t];
  ap_offsets : ids_are_offsets (at_processors t) (at_cores t) (at_clusters t) [at_package t];
  ap_own_core : forall i p, nth_error (at_processors t) i = Some p -> p_core p = Some i;
  ap_cluster_kind : forall i c j l, nth_error (at_cores t) i = Some c -> c_cluster c = Some j ->
    nth_error (at_clusters t) j = Some l -> cl_vendor l = c_vendor c /\ cl_uarch l = c_uarch c /\ cl_cpuid l = c_cpuid c
}.

(** More powerful cores come first: no fast core after a slow one, no Cortex-X after
    the cores it is combined with. *)
Definition outranks (a b : N) : Prop :=
  (In (design a) fast_designs /\ In (design b) slow_designs) \/ (In (design a) prime_designs /\ In (design b) partner_designs).
Definition big_first (t : arm_tables) : Prop := forall i j a b, i < j ->
  nth_error (at_cores t) i = Some a -> nth_error (at_cores t) j = Some b -> ~ outranks (c_cpuid b) (c_cpuid a).

(** The maps from Linux CPU numbers agree with the tables. *)
Record arm_maps (t : arm_tables) : Prop := {
  am_lengths : length (at_processor_map t) = N.to_nat (at_linux_cpu_max t) /\
               length (at_core_map t) = N.to_nat (at_linux_cpu_max t);
  am_listed : forall i p, nth_error (at_processors t) i = Some p ->
     nth_error (at_processor_map t) (N.to_nat (p_linux_id p)) = Some (Some i) /\
     nth_error (at_core_map t) (N.to_nat (p_linux_id p)) = Some (p_core p);
  am_unlisted : forall cpu, cpu < N.to_nat (at_linux_cpu_max t) ->
     (forall p, In p (at_processors t) -> N.to_nat (p_linux_id p) <> cpu) ->
     nth_error (at_processor_map t) cpu = Some None /\ nth_error (at_core_map t) cpu = Some None
}.

(** Microarchitectures: runs of processors, [kind] telling the run of each.  Neighbouring
    runs differ; the map by CPU number is there if there are several. *)
Record arm_kinds (t : arm_tables) (kind : list nat) : Prop := {
  ak_runs : exists starts, length starts = length (at_uarchs t) /\
    grouping kind (combine starts (map au_processors (at_uarchs t)));
  ak_all : length kind = length (at_processors t);
  ak_cores : Forall (fun u => au_cores u = au_processors u) (at_uarchs t);
  ak_uarch : forall i c k u, nth_error (at_cores t) i = Some c -> nth_error kind i = Some k ->
    nth_error (at_uarchs t) k = Some u -> au_uarch u = c_uarch c;
  ak_differ : forall k u v, nth_error (at_uarchs t) k = Some u -> nth_error (at_uarchs t) (S k) = Some v -> au_uarch u <> au_uarch v;
  ak_map : match at_uarch_map t with
           | None => length (at_uarchs t) = 1
           | Some m => length m = N.to_nat (at_linux_cpu_max t) /\ 1 < length (at_uarchs t) /\
               Forall (fun k => k < length (at_uarchs t)) m /\
               forall i p k, nth_error (at_processors t) i = Some p -> nth_error kind i = Some k ->
                 nth_error m (N.to_nat (p_linux_id p)) = Some k
           end
}.

(** What [d] decodes for the processor with index [i], of architecture version [version]. *)
Definition decoded (d : arm_decoders) (chip : chipset) (version : N) (t : arm_tables) (i : nat) (g1i g1d g2 g3 : geometry) : Prop :=
  exists c l k, nth_error (at_cores t) i = Some c /\ c_cluster c = Some k /\ nth_error (at_clusters t) k = Some l /\
    ad_caches d (c_uarch c) (cl_core_count l) (c_cpuid c) chip k version = Ok (g1i, g1d, g2, g3).
Definition unpartitioned (g g' : geometry) : Prop :=
  g_size g' = g_size g /\ g_associativity g' = g_associativity g /\ g_sets g' = g_sets g /\ g_partitions g' = 1%N /\
  g_line_size g' = g_line_size g /\ g_flags g' = g_flags g.

(** Pointers and ranges agree: every cache is pointed to exactly by the processors in
    its range, and is not empty. *)
Definition ranges_agree (pointers : list (option nat)) (caches : list cache) : Prop :=
  (forall i k, nth_error pointers i = Some (Some k) -> k < length caches) /\
  forall k c, nth_error caches k = Some c -> 0 < ca_processor_count c /\
    ca_processor_start c + ca_processor_count c <= length pointers /\
    forall i, nth_error pointers i = Some (Some k) <->
      ca_processor_start c <= i < ca_processor_start c + ca_processor_count c.
(** The cache of a processor. *)
Definition its_cache (pointers : list (option nat)) (caches : list cache) (i : nat) (c : cache) : Prop :=
  exists k, nth_error pointers i = Some (Some k) /\ nth_error caches k = Some c.

(** One first-level instruction and data cache per processor; a second-level cache per
    processor below a third-level one, otherwise one per cluster. *)
Definition same_cluster (t : arm_tables) (i j : nat) : Prop :=
  exists p q, nth_error (at_processors t) i = Some p /\ nth_error (at_processors t) j = Some q /\ p_cluster p = p_cluster q.
Record arm_caches (d : arm_decoders) (chip : chipset) (version : N) (t : arm_tables) : Prop := {
  ac_decoded : forall i, i < length (at_processors t) -> exists g1i g1d g2 g3, decoded d chip version t i g1i g1d g2 g3;
  ac_lengths : length (at_l2_of t) = length (at_processors t) /\ length (at_l3_of t) = length (at_processors t);
  ac_l2_ranges : ranges_agree (at_l2_of t) (at_l2 t);
  ac_l2_none : forall i g1i g1d g2 g3, decoded d chip version t i g1i g1d g2 g3 ->
    (nth_error (at_l2_of t) i = Some None <-> g_size g2 = 0%N /\ g_size g3 = 0%N);
  ac_l2_geometry : forall i g1i g1d g2 g3 c, decoded d chip version t i g1i g1d g2 g3 ->
    its_cache (at_l2_of t) (at_l2 t) i c -> unpartitioned g2 (ca_geometry c);
  ac_l2_sharing : forall i j g1i g1d g2 g3, decoded d chip version t i g1i g1d g2 g3 -> j < length (at_processors t) ->
    nth_error (at_l2_of t) i <> Some None ->
    (nth_error (at_l2_of t) i = nth_error (at_l2_of t) j <-> if (g_size g3 =? 0)%N then same_cluster t i j else i = j)
}.

(** The third level.  The code takes clusters with a cache of the size of the first
    cluster's as sharing it, which is right in two cases: all processors have such a cache,
    or no other cluster does. *)
Inductive l3_case := Shared | Per_cluster.
Definition l3_sizes (d : arm_decoders) (chip : chipset) (version : N) (t : arm_tables) (case : l3_case) : Prop :=
  forall i g1i g1d g2 g3, decoded d chip version t i g1i g1d g2 g3 ->
  forall h1i h1d h2 h3, decoded d chip version t 0 h1i h1d h2 h3 ->
    match case with
    | Shared => g_size g3 <> 0%N /\ g_size g3 = g_size h3
    | Per_cluster => ~ same_cluster t 0 i -> g_size g3 <> 0%N -> g_size g3 <> g_size h3
    end.
Record arm_l3 (d : arm_decoders) (chip : chipset) (version : N) (t : arm_tables) (case : l3_case) : Prop := {
  a3_ranges : ranges_agree (at_l3_of t) (at_l3 t);
  a3_none : forall i g1i g1d g2 g3, decoded d chip version t i g1i g1d g2 g3 ->
    (nth_error (at_l3_of t) i = Some None <-> g_size g3 = 0%N);
  a3_size : forall i g1i g1d g2 g3 c, decoded d chip version t i g1i g1d g2 g3 ->
    its_cache (at_l3_of t) (at_l3 t) i c -> g_size (ca_geometry c) = g_size g3;
  a3_sharing : forall i j, nth_error (at_l3_of t) i <> Some None -> i < length (at_processors t) -> j < length (at_processors t) ->
    (nth_error (at_l3_of t) i = nth_error (at_l3_of t) j <-> match case with Shared => True | Per_cluster => same_cluster t i j end);
  a3_geometry : forall k c, nth_error (at_l3 t) k = Some c -> exists g1i g1d g2 g3,
    decoded d chip version t (ca_processor_start c) g1i g1d g2 g3 /\ unpartitioned g3 (ca_geometry c)
}.

(** First-level caches as decoded; 32-bit kernels may override them. *)
Record arm_l1 (d : arm_decoders) (chip : chipset) (version : N) (t : arm_tables) : Prop := {
  a1_lengths : length (at_l1i t) = length (at_processors t) /\ length (at_l1d t) = length (at_processors t);
  a1_each : forall i g1i g1d g2 g3, decoded d chip version t i g1i g1d g2 g3 ->
    nth_error (at_l1i t) i = Some (Cache g1i i 1) /\ nth_error (at_l1d t) i = Some (Cache g1d i 1)
}.

(** What 32-bit kernels tell of a first-level cache of a CPU (of the data if [data]): all of its four numbers, of which the
    last ones count. *)
Definition tells_l1 (ms : list arm_meaning) (cpu : nat) (data : bool) : Prop :=
  forall which, exists n, In (ArmCpuinfoSpec.L1 data which n) (about ms cpu).
Definition told_l1 (ms : list arm_meaning) (cpu : nat) (data : bool) : geometry :=
  let number which := last_said (ArmCpuinfoSpec.cache_said data which) (about ms cpu) 0%N in
  Geometry (number ArmCpuinfoSpec.CacheSize) (number ArmCpuinfoSpec.CacheWays) (number ArmCpuinfoSpec.CacheSets) 1
    (number ArmCpuinfoSpec.CacheLine) 0.
(** A cache that the kernel tells is published so, though for no processors; otherwise it is as decoded. *)
Definition told_or_decoded (ms : list arm_meaning) (cpu : nat) (data : bool) (decoded : geometry) (i : nat) (published : option cache) : Prop :=
  (tells_l1 ms cpu data -> published = Some (Cache (told_l1 ms cpu data) 0 0)) /\
  (~ tells_l1 ms cpu data -> published = Some (Cache decoded i 1)).
Record arm_l1_told (d : arm_decoders) (chip : chipset) (ms : list arm_meaning) (version : N) (t : arm_tables) : Prop := {
  t1_lengths : length (at_l1i t) = length (at_processors t) /\ length (at_l1d t) = length (at_processors t);
  t1_each : forall i p g1i g1d g2 g3, nth_error (at_processors t) i = Some p -> decoded d chip version t i g1i g1d g2 g3 ->
    told_or_decoded ms (N.to_nat (p_linux_id p)) false g1i i (nth_error (at_l1i t) i) /\
    told_or_decoded ms (N.to_nat (p_linux_id p)) true g1d i (nth_error (at_l1d t) i)
}.

(** The maximum cache size: a constant of the microarchitecture of the first core, or the
    size of the last-level cache of the first processor. *)
Definition max_size_rule (d : arm_decoders) (t : arm_tables) : Prop :=
  exists c, nth_error (at_cores t) 0 = Some c /\
  match ad_max_cache d (c_uarch c) with
  | Some n => at_max_cache_size t = n
  | None =>
      (forall x, its_cache (at_l3_of t) (at_l3 t) 0 x -> at_max_cache_size t = g_size (ca_geometry x)) /\
      (nth_error (at_l3_of t) 0 = Some None -> forall x, its_cache (at_l2_of t) (at_l2 t) 0 x ->
         at_max_cache_size t = g_size (ca_geometry x)) /\
      (nth_error (at_l3_of t) 0 = Some None -> nth_error (at_l2_of t) 0 = Some None ->
         forall x, nth_error (at_l1d t) 0 = Some x -> at_max_cache_size t = g_size (ca_geometry x))
  end.

(** ** The decoders and the machine *)

(** What the buffers of the Hardware and Revision lines hold: texts that are too long are cut
    off, and without a Revision line nothing was ever written.  (Texts of exactly the size of
    the buffer overrun it and have no meaning.) *)
Definition latest (question : arm_meaning -> option (list N)) (ms : list arm_meaning) : option (list N) :=
  ArmCpuinfoSpec.last_text question ms None.
Record board_texts (ms : list arm_meaning) (hardware revision : list (option N)) : Prop := {
  bt_lengths : length hardware = 64 /\ length revision = 9;
  bt_fits : (forall v, latest ArmCpuinfoSpec.board_said ms = Some v -> length v <> 64) /\
    (forall v, latest ArmCpuinfoSpec.board_revision_said ms = Some v -> length v <> 9);
  bt_no_hardware : latest ArmCpuinfoSpec.board_said ms = None -> ArmCpuinfoSpec.holds_string hardware [];
  bt_hardware : forall v, latest ArmCpuinfoSpec.board_said ms = Some v ->
    (length v < 64 -> ArmCpuinfoSpec.holds_string hardware v) /\ (64 < length v -> hardware = map Some (firstn 64 v));
  bt_revision : forall v, latest ArmCpuinfoSpec.board_revision_said ms = Some v ->
    (length v < 9 -> ArmCpuinfoSpec.holds_string revision v) /\ (9 < length v -> revision = map Some (firstn 9 v));
  bt_no_revision : latest ArmCpuinfoSpec.board_revision_said ms = None -> revision = repeat None 9
}.

(** The decoders give an answer for whatever they are asked during detection. *)
Definition decoders_answer (d : arm_decoders) (ms : list arm_meaning) : Prop :=
  (forall hardware revision n, board_texts ms hardware revision -> exists chip, ad_chipset d hardware revision n = Ok chip) /\
  forall midr vfpv4 count chip id version,
    exists g1i g1d g2 g3, ad_caches d (snd (ad_uarch d midr vfpv4)) count midr chip id version = Ok (g1i, g1d, g2, g3).

(** Some CPU is usable, all usable CPUs are online, and of one architecture version. *)
Record all_online (usable : nat -> Prop) (ms : list arm_meaning) (version : N) : Prop := {
  ao_some : exists c, usable c;
  ao_online : forall c, usable c -> online ms c;
  ao_version : forall c, usable c -> version_of ms c = version
}.

(** ** Everything together *)

(** The chipset is decoded from the Hardware and Revision lines. *)
Definition chipset_from (d : arm_decoders) (ms : list arm_meaning) (count : nat) (chip : chipset) : Prop :=
  exists hardware revision, board_texts ms hardware revision /\ ad_chipset d hardware revision count = Ok chip.

(** Vendor and microarchitecture are those of the main id register; whether there is
    VFPv4 is taken from a processor of the cluster. *)
Definition says_feature (arm32 : bool) (ms : list arm_meaning) (cpu bit : nat) : Prop :=
  exists names w, In (ArmCpuinfoSpec.Feats names) (about ms cpu) /\ In w names /\ ArmCpuinfoSpec.stands_for arm32 false w bit.
Definition arm_designs (arm32 : bool) (d : arm_decoders) (ms : list arm_meaning) (t : arm_tables) : Prop :=
  forall i c, nth_error (at_cores t) i = Some c -> exists j q vfpv4, nth_error (at_processors t) j = Some q /\ same_cluster t i j /\
    (c_vendor c, c_uarch c) = ad_uarch d (c_cpuid c) vfpv4 /\ (vfpv4 = true <-> says_feature arm32 ms (N.to_nat (p_linux_id q)) 16).

Record arm_reports (arm32 : bool) (d : arm_decoders) (usable : nat -> Prop) (ms : list arm_meaning) (version : N) (t : arm_tables) : Prop := {
  rp_topology : arm_topology usable t;
  rp_big_first : big_first t;
  rp_maps : arm_maps t;
  rp_kinds : exists kind, arm_kinds t kind;
  rp_designs : arm_designs arm32 d ms t;
  rp_max : max_size_rule d t;
  rp_caches : exists chip, chipset_from d ms (length (at_processors t)) chip /\ arm_caches d chip version t /\
    (arm32 = false -> arm_l1 d chip version t) /\ (arm32 = true -> arm_l1_told d chip ms version t) /\
    forall case, l3_sizes d chip version t case -> arm_l3 d chip version t case
}.

(** Processors are in the same cluster if and only if they are in the same group. *)
Definition clusters_follow (t : arm_tables) (group : nat -> nat) : Prop :=
  forall p q, In p (at_processors t) -> In q (at_processors t) ->
    (p_cluster p = p_cluster q <-> group (N.to_nat (p_linux_id p)) = group (N.to_nat (p_linux_id q))).
(** Every core has the main id register that was reported. *)
Definition midrs_follow (t : arm_tables) (midr : nat -> N) : Prop :=
  forall i p c, nth_error (at_processors t) i = Some p -> nth_error (at_cores t) i = Some c ->
    forall f, f <> Architecture -> field_of f (c_cpuid c) = field_of f (midr (N.to_nat (p_linux_id p))).
(** All are reported, alike within a group. *)
Definition midrs_given (usable : nat -> Prop) (ms : list arm_meaning) (group : nat -> nat) (midr : nat -> N) : Prop :=
  (forall c, usable c -> gives_midr ms c (midr c)) /\
  forall a b, usable a -> usable b -> group a = group b -> midr a = midr b.

(** ** The order of the processors *)

(** The kernel tells the highest clock of each CPU, in kHz. *)
Definition clocks_say (usable : nat -> Prop) (fs : arm_files) (khz : nat -> option N) : Prop :=
  forall c, usable c -> number_says (ac_max_frequency (amf_cpu fs c)) (khz c).
(** The clock of a group is the one told for the first of its CPUs for which one is told, if any is. *)
Inductive group_clock (usable : nat -> Prop) (group : nat -> nat) (khz : nat -> option N) (cpu : nat) : N -> Prop :=
| clock_told : forall c, usable c -> group c = group cpu -> or_zero (khz c) <> 0%N ->
    (forall k, k < c -> usable k -> group k = group cpu -> or_zero (khz k) = 0%N) -> group_clock usable group khz cpu (or_zero (khz c))
| clock_untold : (forall k, usable k -> group k = group cpu -> or_zero (khz k) = 0%N) -> group_clock usable group khz cpu 0.
Definition first_of_group (usable : nat -> Prop) (group : nat -> nat) (cpu first : nat) : Prop :=
  usable first /\ group first = group cpu /\ forall k, usable k -> group k = group cpu -> first <= k.
(** Of two processors with cores of the same design, the one with the higher clock is listed first, at equal clocks the one
    of the group with the higher numbers, and within a group the one with the lower number. *)
Definition ordered_by_clock (usable : nat -> Prop) (group : nat -> nat) (khz : nat -> option N) (t : arm_tables) : Prop :=
  forall i j p q a b, i < j -> nth_error (at_processors t) i = Some p -> nth_error (at_processors t) j = Some q ->
  nth_error (at_cores t) i = Some a -> nth_error (at_cores t) j = Some b -> design (c_cpuid a) = design (c_cpuid b) ->
  let x := N.to_nat (p_linux_id p) in let y := N.to_nat (p_linux_id q) in
  forall clock_x clock_y first_x first_y,
    group_clock usable group khz x clock_x -> group_clock usable group khz y clock_y ->
    first_of_group usable group x first_x -> first_of_group usable group y first_y ->
    (clock_y < clock_x)%N \/ (clock_x = clock_y /\ (first_y < first_x \/ (first_x = first_y /\ x < y))).
