(** What the tables of a machine with equal packages should say: [packages] packages of [cpp]
    cores with [tpc] threads each. *)
From Verif Require Import Base Text TopologySpec.
From Verif Require X86LinuxModel X86CountsModel.
Import X86LinuxModel(xinfo, xcache, xc_geometry, xi_vendor, xi_uarch, xi_cpuid, xi_thread_offset, xi_thread_length, xi_core_offset,
  xi_core_length, xi_l1i, xi_l1d, xi_l2, xi_l3, xi_l4).
Import X86CountsModel(block, B_processors, B_cores, B_clusters, B_packages, B_l1i, B_l1d, B_l2, B_l3, B_l4).
Open Scope nat_scope.

Record describes (packages cpp tpc : nat) (x : xinfo) (t : tables) : Prop := {
  ds_processors : length (t_processors t) = packages * cpp * tpc;
  ds_cores : length (t_cores t) = packages * cpp;
  ds_clusters : length (t_clusters t) = packages;
  ds_packages : length (t_packages t) = packages;
  ds_counts : (t_processors_count t, t_cores_count t, t_clusters_count t, t_packages_count t) =
              (packages * cpp * tpc, packages * cpp, packages, packages);
  ds_threads_per_core : Forall (fun c => c_processor_count c = tpc) (t_cores t);
  ds_cores_per_package : Forall (fun k => pk_core_count k = cpp) (t_packages t);
  ds_consistent : consistent (t_processors t) (t_cores t) (t_clusters t) (t_packages t);
  ds_ids : ids_are_offsets (t_processors t) (t_cores t) (t_clusters t) (t_packages t);
  ds_core_decoded : Forall (fun c => (c_vendor c, c_uarch c, c_cpuid c) = (xi_vendor x, xi_uarch x, xi_cpuid x)) (t_cores t);
  ds_cluster_decoded : Forall (fun c => (cl_vendor c, cl_uarch c, cl_cpuid c) = (xi_vendor x, xi_uarch x, xi_cpuid x)) (t_clusters t);
  ds_uarch : (t_uarch t, t_uarch_cpuid t, t_uarch_processor_count t, t_uarch_core_count t) =
             (xi_uarch x, xi_cpuid x, packages * cpp * tpc, packages * cpp)
}.

(** A level: every [width] processors share one cache of the geometry, if there is one. *)
Definition level_shared (g : geometry) (threads width : nat) (pointers : list (option nat)) (caches : list cache) (count : nat) : Prop :=
  length pointers = threads /\
  (g_size g = 0%N -> caches = [] /\ Forall (fun q => q = None) pointers) /\
  (g_size g <> 0%N -> points_to pointers (map cache_processors caches) /\ count = length caches /\
     Forall (fun c => ca_geometry c = g /\ ca_processor_count c = width) caches).

(** How many threads share a cache of each level: what the kernel reports, if it does, or
    else the core, the package, or all of them. *)
Definition shared_by (reported assumed : nat) : nat := if reported =? 0 then assumed else reported.
Definition l1_width (reported : nat -> nat) (tpc : nat) : nat := shared_by (reported 1) tpc.
Definition l2_width (x : xinfo) (reported : nat -> nat) (cpp tpc : nat) : nat :=
  shared_by (reported 2) (if (g_size (xc_geometry (xi_l3 x)) =? 0)%N then cpp * tpc else tpc).
Definition l3_width (reported : nat -> nat) (cpp tpc : nat) : nat := shared_by (reported 3) (cpp * tpc).
Definition l4_width (reported : nat -> nat) (packages cpp tpc : nat) : nat := shared_by (reported 4) (packages * cpp * tpc).

Record caches_described (packages cpp tpc : nat) (reported : nat -> nat) (x : xinfo) (t : tables) : Prop := {
  cd_l1i : level_shared (xc_geometry (xi_l1i x)) (packages * cpp * tpc) (l1_width reported tpc) (t_l1i_of t) (t_l1i t) (t_l1i_count t);
  cd_l1d : level_shared (xc_geometry (xi_l1d x)) (packages * cpp * tpc) (l1_width reported tpc) (t_l1d_of t) (t_l1d t) (t_l1d_count t);
  cd_l2 : level_shared (xc_geometry (xi_l2 x)) (packages * cpp * tpc) (l2_width x reported cpp tpc) (t_l2_of t) (t_l2 t) (t_l2_count t);
  cd_l3 : level_shared (xc_geometry (xi_l3 x)) (packages * cpp * tpc) (l3_width reported cpp tpc) (t_l3_of t) (t_l3 t) (t_l3_count t);
  cd_l4 : level_shared (xc_geometry (xi_l4 x)) (packages * cpp * tpc) (l4_width reported packages cpp tpc) (t_l4_of t) (t_l4 t) (t_l4_count t);
  (** The last data cache of the first processor. *)
  cd_max : t_max_cache_size t =
    match find (fun n => negb (n =? 0)%N) (map (fun c => g_size (xc_geometry c)) [xi_l4 x; xi_l3 x; xi_l2 x; xi_l1d x]) with
    | Some n => n | None => 0%N end
}.

(** The reported numbers of sharing threads divide the number of threads. *)
Definition widths_divide (packages cpp tpc : nat) (reported : nat -> nat) : Prop :=
  forall l, 1 <= l <= 4 -> reported l <> 0 -> Nat.divide (reported l) (packages * cpp * tpc).

(** Fields of an APIC id: positions and widths are such that the shifts are defined. *)
Definition package_offset (x : xinfo) : N := N.max (xi_thread_offset x + xi_thread_length x) (xi_core_offset x + xi_core_length x).
Definition fields_defined (x : xinfo) : Prop := (package_offset x < 32)%N.

(** The fields do not overlap and are wide enough. *)
Definition fields_suffice (packages cpp tpc : nat) (x : xinfo) : Prop :=
  ((xi_thread_offset x + xi_thread_length x <= xi_core_offset x) \/ (xi_core_offset x + xi_core_length x <= xi_thread_offset x))%N /\
  (N.of_nat tpc <= 2 ^ xi_thread_length x)%N /\ (N.of_nat cpp <= 2 ^ xi_core_length x)%N /\
  (N.of_nat packages <= 2 ^ (32 - package_offset x))%N.

Definition field (a offset length : N) : N := ((a / 2 ^ offset) mod 2 ^ length)%N.

(** Positions at which a text occurs in another one. *)
Definition occurs_at (tag s : list N) (i : nat) : Prop := exists r, skipn i s = tag ++ r.
Definition occurrences (tag s : list N) (n : nat) : Prop :=
  exists positions, NoDup positions /\ length positions = n /\ forall i, In i positions <-> occurs_at tag s i.

(** What the kernel says.  Mach: three numbers. *)
Definition mach_says (physical logical packages_answer : option Z) (packages cores threads : nat) : Prop :=
  physical = Some (Z.of_nat cores) /\ logical = Some (Z.of_nat threads) /\ packages_answer = Some (Z.of_nat packages).
Definition config_says (config : option (list N)) (level : nat) : nat :=
  match config with Some l => N.to_nat (nth level l 0%N mod 2 ^ 32) | None => 0 end.

(** FreeBSD: the groups of level two without a cache are packages; if there are none, those
    of level one are. *)
Definition package_groups (spec : list N) (packages : nat) : Prop :=
  occurrences (text "<group level=""2"" cache-level=""0"">") spec packages /\ packages <> 0 \/
  occurrences (text "<group level=""2"" cache-level=""0"">") spec 0 /\ occurrences (text "<group level=""1"" ") spec packages.

(** APIC ids: distinct, and made of the positions.  The core field is the position in the
    package only if the cores of a package fill the field. *)
Record apic_described (cpp : nat) (x : xinfo) (t : tables) : Prop := {
  ad_distinct : NoDup (map p_apic_id (t_processors t));
  ad_fields : forall i p j c, nth_error (t_processors t) i = Some p -> p_core p = Some j -> nth_error (t_cores t) j = Some c ->
    field (p_apic_id p) (xi_thread_offset x) (xi_thread_length x) = N.of_nat (p_smt_id p) /\
    (exists k, p_package p = Some k /\ (p_apic_id p / 2 ^ package_offset x)%N = N.of_nat k) /\
    (N.of_nat cpp = (2 ^ xi_core_length x)%N -> field (p_apic_id p) (xi_core_offset x) (xi_core_length x) = N.of_nat (c_core_id c))
}.

(** A level fits exactly if the number of sharing threads divides the number of threads. *)
Definition exact_level (c : xcache) (threads reported assumed : nat) (pointers : list (option nat)) (caches : list cache) : Prop :=
  g_size (xc_geometry c) <> 0%N -> (points_to pointers (map cache_processors caches) <-> Nat.divide (shared_by reported assumed) threads).

(** A first-level instruction cache is reported if and only if a data cache is. *)
Definition both_or_neither (x : xinfo) : Prop :=
  g_size (xc_geometry (xi_l1i x)) = 0%N <-> g_size (xc_geometry (xi_l1d x)) = 0%N.

(** The memory behind published pointers. *)
Definition published_block (x : xinfo) (t : tables) (b : block) : Prop :=
  match b with
  | B_processors | B_cores | B_clusters | B_packages => True
  | B_l1i => g_size (xc_geometry (xi_l1i x)) <> 0%N | B_l1d => g_size (xc_geometry (xi_l1d x)) <> 0%N
  | B_l2 => t_l2_count t <> 0 | B_l3 => t_l3_count t <> 0 | B_l4 => t_l4_count t <> 0
  end.
