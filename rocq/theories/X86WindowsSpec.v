(** What the tables must say on Windows, in terms of a machine: the list of its packages, each
    a list of cores, each a list of processors.  Nothing here mentions the code. *)
From Verif Require Import Base TopologySpec X86WindowsModel X86CountsSpec.
From Verif Require X86LinuxModel X86LinuxSpec.
Import X86LinuxModel(xinfo, xc_geometry, xi_vendor, xi_uarch, xi_cpuid, xi_thread_offset, xi_thread_length, xi_core_offset,
  xi_core_length, xi_l1i, xi_l1d, xi_l2, xi_l3, xi_l4, xc_apic_bits).
Import X86LinuxSpec(level_reported, bits_ok, last_level_size).
Open Scope nat_scope.

Definition machine := list (list (list nat)).
Definition machine_cores (m : machine) : list (list nat) := concat m.
Definition machine_packages (m : machine) : list (list nat) := map (@concat nat) m.

(** Every core has processors, every package has cores; processors are numbered in order. *)
Record ordered (n : nat) (m : machine) : Prop := {
  or_all : concat (concat m) = seq 0 n;
  or_cores : Forall (fun c => c <> []) (concat m);
  or_packages : Forall (fun k => k <> []) m
}.

(** The processors of an affinity mask, by number among all processors: a group's processors
    come after those of the groups before it. *)
Definition group_start (sizes : list nat) (g : nat) : nat := list_sum (firstn g sizes).
Definition mask_processors (sizes : list nat) (e : nat * N) : list nat :=
  map (fun b => group_start sizes (fst e) + b) (filter (fun b => N.testbit (snd e) (N.of_nat b)) (seq 0 (nth (fst e) sizes 0))).
Definition mask_valid (sizes : list nat) (e : nat * N) : Prop :=
  fst e < length sizes /\ forall b, N.testbit (snd e) b = true -> (b < N.of_nat (nth (fst e) sizes 0%nat))%N.

(** A list of answers describes a list of sets of processors.  Answers of another kind do not
    count. *)
Definition says (sizes : list nat) (infos : list winfo) (sets : list (list nat)) : Prop :=
  (forall i e, In i infos -> wi_expected i = true -> In e (wi_groups i) -> mask_valid sizes e) /\
  map (fun i => flat_map (mask_processors sizes) (wi_groups i)) (filter wi_expected infos) = sets.

(** Windows describes a machine. *)
Record windows_says (a : windows_answers) (sizes : list nat) (m : machine) : Prop := {
  ws_sizes : sizes = map (wa_group_size a) (seq 0 (if wa_wine a then 1 else wa_group_count a));
  ws_ordered : ordered (list_sum sizes) m;
  ws_some : 0 < list_sum sizes;
  ws_readable : wa_sizes a = true;
  ws_packages : exists infos, wa_packages a = Some infos /\ says sizes infos (machine_packages m);
  ws_cores : exists infos, wa_cores a = Some infos /\ says sizes infos (machine_cores m)
}.

Definition range (r : nat * nat) : list nat := seq (fst r) (snd r).

(** The tables without the clusters. *)
Record described (x : xinfo) (m : machine) (n : nat) (t : tables) : Prop := {
  de_processors : length (t_processors t) = n;
  de_cores : map (fun c => range (core_processors c)) (t_cores t) = machine_cores m;
  de_packages : map (fun k => range (package_processors k)) (t_packages t) = machine_packages m;
  de_clusters : length (t_clusters t) = length m;
  de_in_cores : points_to (map p_core (t_processors t)) (map core_processors (t_cores t));
  de_in_packages : points_to (map p_package (t_processors t)) (map package_processors (t_packages t));
  de_cores_in_packages : points_to (map c_package (t_cores t)) (map package_cores (t_packages t));
  de_path : forall i p j c, nth_error (t_processors t) i = Some p -> p_core p = Some j -> nth_error (t_cores t) j = Some c ->
    p_package p = c_package c /\ i = c_processor_start c + p_smt_id p /\ p_smt_id p < c_processor_count c;
  de_kinds : Forall (fun c => c_vendor c = xi_vendor x /\ c_uarch c = xi_uarch x /\ c_cpuid c = xi_cpuid x) (t_cores t) /\
             Forall (fun c => cl_vendor c = xi_vendor x /\ cl_uarch c = xi_uarch x /\ cl_cpuid c = xi_cpuid x) (t_clusters t);
  de_clusters_of : map package_clusters (t_packages t) = map (fun j => (j, 1)) (seq 0 (length m)) /\
                   map cl_package (t_clusters t) = map Some (seq 0 (length m)) /\ Forall (fun c => cl_cluster_id c = 0) (t_clusters t);
  de_counts : t_processors_count t = n /\ t_cores_count t = length (t_cores t) /\ t_clusters_count t = length (t_clusters t) /\
              t_packages_count t = length (t_packages t)
}.

(** The numbers Windows uses for the processors. *)
Definition numbered (sizes : list nat) (ids : list (nat * nat)) (n : nat) : Prop :=
  length ids = n /\
  forall i g b, nth_error ids i = Some (g, b) -> g < length sizes /\ b < nth g sizes 0 /\ i = group_start sizes g + b.

(** The fields of APIC ids are wide enough for the machine, and threads lie below cores. *)
Record fields_fit (x : xinfo) (m : machine) : Prop := {
  ff_order : (xi_thread_offset x + xi_thread_length x <= xi_core_offset x)%N;
  ff_threads : Forall (fun c => (N.of_nat (length c) <= 2 ^ xi_thread_length x)%N) (concat m);
  ff_cores : Forall (fun k => (N.of_nat (length k) <= 2 ^ xi_core_length x)%N) m;
  ff_packages : (N.of_nat (length m) <= 2 ^ (32 - package_offset x))%N
}.

(** APIC ids, core ids and caches. *)
Record apic_derived (x : xinfo) (t : tables) : Prop := {
  ap_increasing : StronglySorted N.lt (map p_apic_id (t_processors t));
  ap_fields : forall i p j c, nth_error (t_processors t) i = Some p -> p_core p = Some j -> nth_error (t_cores t) j = Some c ->
    field (p_apic_id p) (xi_thread_offset x) (xi_thread_length x) = N.of_nat (p_smt_id p) /\
    field (p_apic_id p) (xi_core_offset x) (xi_core_length x) = N.of_nat (c_core_id c) /\
    exists k, p_package p = Some k /\ (p_apic_id p / 2 ^ package_offset x)%N = N.of_nat k;
  ap_core_ids : forall i c j k, nth_error (t_cores t) i = Some c -> c_package c = Some j -> nth_error (t_packages t) j = Some k ->
    i = pk_core_start k + c_core_id c;
  ap_caches :
    level_reported (xc_geometry (xi_l1i x)) (xc_apic_bits (xi_l1i x)) (t_processors t) (t_l1i_of t) (t_l1i t) (t_l1i_count t) /\
    level_reported (xc_geometry (xi_l1d x)) (xc_apic_bits (xi_l1d x)) (t_processors t) (t_l1d_of t) (t_l1d t) (t_l1d_count t) /\
    level_reported (xc_geometry (xi_l2 x)) (xc_apic_bits (xi_l2 x)) (t_processors t) (t_l2_of t) (t_l2 t) (t_l2_count t) /\
    level_reported (xc_geometry (xi_l3 x)) (xc_apic_bits (xi_l3 x)) (t_processors t) (t_l3_of t) (t_l3 t) (t_l3_count t) /\
    level_reported (xc_geometry (xi_l4 x)) (xc_apic_bits (xi_l4 x)) (t_processors t) (t_l4_of t) (t_l4 t) (t_l4_count t);
  ap_max : t_max_cache_size t = last_level_size x
}.

(** The memory behind published pointers. *)
Definition published_block (t : tables) (b : block) : Prop :=
  match b with
  | B_processors | B_cores | B_clusters | B_packages => True
  | B_infos => False
  | B_l1i => t_l1i_count t <> 0 | B_l1d => t_l1d_count t <> 0
  | B_l2 => t_l2_count t <> 0 | B_l3 => t_l3_count t <> 0 | B_l4 => t_l4_count t <> 0
  end.

(** Caches are shared by sets of processors given by the number of low bits. *)
Definition caches_defined (x : xinfo) : Prop :=
  forall c, In c [xi_l1i x; xi_l1d x; xi_l2 x; xi_l3 x; xi_l4 x] -> g_size (xc_geometry c) <> 0%N -> (xc_apic_bits c < 32)%N.

(** What must hold of what is published. *)
Definition windows_described (x : xinfo) (sizes : list nat) (m : machine) (t : windows_tables) : Prop :=
  described x m (list_sum sizes) (wt_tables t) /\ numbered sizes (wt_ids t) (list_sum sizes) /\
  (fields_fit x m -> apic_derived x (wt_tables t)).
