(** What ARM Linux detection should report if some CPUs are offline, independent of the
    detection code. *)
From Verif Require Import Base LinuxTextModel LinuxTextSpec TopologySpec X86LinuxSpec ArmClustersModel ArmMidrSpec ArmCpuinfoSpec.
From Verif Require Import ArmLinuxModel ArmLinuxSpec.
Open Scope nat_scope.

(** The caches of a design do not depend on the architecture version. *)
Definition version_free (d : arm_decoders) (midr : N) : Prop := forall m' vfpv4 count chip id v v',
  (forall f, f <> Architecture -> field_of f m' = field_of f midr) ->
  ad_caches d (snd (ad_uarch d m' vfpv4)) count m' chip id v = ad_caches d (snd (ad_uarch d m' vfpv4)) count m' chip id v'.

(** Some usable CPU is online, and those that are have their main id register in /proc/cpuinfo;
    the others are not mentioned there. *)
Record some_online (d : arm_decoders) (usable : nat -> Prop) (ms : list arm_meaning) : Prop := {
  so_some : exists c, usable c /\ online ms c;
  so_designs : forall c, usable c -> online ms c -> exists midr, gives_midr ms c midr /\ version_free d midr
}.
(** Their number. *)
Definition number_online (usable : nat -> Prop) (ms : list arm_meaning) (n : nat) : Prop :=
  exists l, NoDup l /\ (forall c, In c l <-> usable c /\ online ms c) /\ length l = n.

(** As many processors as CPUs are online, different usable CPUs.  Each has a core of its own, is
    in the range of its cluster and in that of its caches. *)
Definition in_range (start count i : nat) : Prop := start <= i < start + count.
Definition within (pointers : list (option nat)) (caches : list cache) : Prop :=
  forall i k, nth_error pointers i = Some (Some k) -> exists c, nth_error caches k = Some c /\ in_range (ca_processor_start c) (ca_processor_count c) i.
Record arm_offline_reports (usable : nat -> Prop) (ms : list arm_meaning) (t : arm_tables) : Prop := {
  or_count : number_online usable ms (length (at_processors t));
  or_usable : forall p, In p (at_processors t) -> usable (N.to_nat (p_linux_id p));
  or_once : NoDup (map p_linux_id (at_processors t));
  or_cores : length (at_cores t) = length (at_processors t);
  or_core : forall i p c, nth_error (at_processors t) i = Some p -> nth_error (at_cores t) i = Some c ->
    p_core p = Some i /\ c_processor_start c = i /\ c_processor_count c = 1 /\ c_cluster c = p_cluster p;
  or_cluster : forall i p c, nth_error (at_processors t) i = Some p -> nth_error (at_cores t) i = Some c ->
    exists k l, p_cluster p = Some k /\ nth_error (at_clusters t) k = Some l /\ in_range (cl_processor_start l) (cl_processor_count l) i /\
      cl_vendor l = c_vendor c /\ cl_uarch l = c_uarch c /\ cl_cpuid l = c_cpuid c;
  or_big_first : big_first t;
  or_maps : arm_maps t;
  or_lengths : length (at_l1i t) = length (at_processors t) /\ length (at_l1d t) = length (at_processors t) /\
    length (at_l2_of t) = length (at_processors t) /\ length (at_l3_of t) = length (at_processors t);
  or_l2 : within (at_l2_of t) (at_l2 t);
  or_l3 : within (at_l3_of t) (at_l3 t);
  or_uarchs : match at_uarch_map t with
    | None => length (at_uarchs t) = 1
    | Some m => length m = N.to_nat (at_linux_cpu_max t) /\ Forall (fun k => k < length (at_uarchs t)) m /\
        forall i p c, nth_error (at_processors t) i = Some p -> nth_error (at_cores t) i = Some c ->
          exists k u, nth_error m (N.to_nat (p_linux_id p)) = Some k /\ nth_error (at_uarchs t) k = Some u /\ au_uarch u = c_uarch c
    end
}.

(** The kernel tells the package and the siblings of the online CPUs only: the list of such a CPU
    names, among the usable ones, the online CPUs of its group.  Either all have a
    cluster_cpus_list, or the first one has none and all have a core_siblings_list. *)
Definition siblings_online (usable : nat -> Prop) (ms : list arm_meaning) (list_of : sibling_files -> file) (fs : arm_files) (group : nat -> nat) : Prop :=
  forall i, usable i -> online ms i -> exists ranges, list_says (list_of (ac_siblings (amf_cpu fs i))) (Some ranges) /\
    forall j, usable j -> (listed ranges (N.of_nat j) <-> online ms j /\ group j = group i).
Record groups_online (usable : nat -> Prop) (ms : list arm_meaning) (fs : arm_files) (group : nat -> nat) : Prop := {
  go_package_ids : forall i, usable i -> online ms i -> id_file (ac_package_id (amf_cpu fs i));
  go_absent : forall i, usable i -> ~ online ms i -> f_contents (ac_package_id (amf_cpu fs i)) = None;
  go_lists : siblings_online usable ms sf_cluster_cpus fs group \/
    ((forall i, usable i -> online ms i -> (forall j, j < i -> usable j -> ~ online ms j) -> list_says (sf_cluster_cpus (ac_siblings (amf_cpu fs i))) None) /\
     siblings_online usable ms sf_core_siblings fs group)
}.
(** Different processors are in the same cluster if and only if both are online and in the same
    group. *)
Definition clusters_online (ms : list arm_meaning) (group : nat -> nat) (t : arm_tables) : Prop :=
  forall p q, In p (at_processors t) -> In q (at_processors t) -> p_linux_id p <> p_linux_id q ->
    (p_cluster p = p_cluster q <-> let a := N.to_nat (p_linux_id p) in let b := N.to_nat (p_linux_id q) in
       online ms a /\ online ms b /\ group a = group b).
(** The registers of the online CPUs, alike within a group except for the architecture. *)
Definition midrs_online (usable : nat -> Prop) (ms : list arm_meaning) (group : nat -> nat) (midr : nat -> N) : Prop :=
  (forall i, usable i -> online ms i -> gives_midr ms i (midr i)) /\
  forall i j, usable i -> usable j -> group i = group j -> forall f, f <> Architecture -> field_of f (midr i) = field_of f (midr j).
(** A processor that is online has a core with its register. *)
Definition cores_online (ms : list arm_meaning) (midr : nat -> N) (t : arm_tables) : Prop :=
  forall i p c, nth_error (at_processors t) i = Some p -> nth_error (at_cores t) i = Some c -> online ms (N.to_nat (p_linux_id p)) ->
    forall f, f <> Architecture -> field_of f (c_cpuid c) = field_of f (midr (N.to_nat (p_linux_id p))).

(** The designs with cache sizes of their own in every build: by implementer and part number. *)
Definition own_sizes : list (N * list N) :=
  [(0x41%N, [0xD03; 0xD04; 0xD05; 0xD06; 0xD07; 0xD08; 0xD09; 0xD0A; 0xD0B; 0xD0C; 0xD0D; 0xD0E; 0xD40; 0xD49; 0xD4F]%N);
   (0x51%N, [0x201; 0x205; 0x211; 0x800; 0x801; 0x802; 0x803; 0x804; 0x805]%N)].
Definition has_own_sizes (midr : N) : Prop := exists parts, In (field_of Implementer midr, parts) own_sizes /\ In (field_of PartNumber midr) parts.
