(** The tables of a machine with [packages] equal packages of [cpp] cores with [tpc] threads each, written out. *)
From Verif Require Import Base TopologySpec X86CpuinfoSpec X86LinuxSpec X86OfflineSpec.
From Verif Require X86LinuxModel.
Import X86LinuxModel(xinfo, xcache, xc_geometry, xc_apic_bits, xi_vendor, xi_uarch, xi_cpuid, xi_thread_offset, xi_thread_length, xi_core_offset,
  xi_core_length, xi_l1i, xi_l1d, xi_l2, xi_l3, xi_l4).
From Coq Require Import List. Import ListNotations.
Open Scope nat_scope.

(** What a processor says of its place: its number in the core, its core, cluster and package. *)
Definition place (p : processor) : nat * option nat * option nat * option nat := (p_smt_id p, p_core p, p_cluster p, p_package p).

(** A level: every [width] processors share one cache of the geometry, or there is none. *)
Definition level_written (g : geometry) (threads width : nat) (pointers : list (option nat)) (caches : list cache) : Prop :=
  if (g_size g =? 0)%N then caches = [] /\ pointers = repeat None threads
  else caches = map (fun q => Cache g (q * width) width) (seq 0 (threads / width)) /\ pointers = map (fun i => Some (i / width)) (seq 0 threads).

Record written (packages cpp tpc : nat) (x : xinfo) (t : tables) : Prop := {
  wr_processors : map place (t_processors t) =
    map (fun i => (i mod tpc, Some (i / tpc), Some (i / (cpp * tpc)), Some (i / (cpp * tpc)))) (seq 0 (packages * cpp * tpc));
  wr_cores : t_cores t = map (fun q => Core (q * tpc) tpc (q mod cpp) (Some (q / cpp)) (Some (q / cpp)) (xi_vendor x) (xi_uarch x) (xi_cpuid x))
    (seq 0 (packages * cpp));
  wr_clusters : t_clusters t = map (fun k => Cluster (k * (cpp * tpc)) (cpp * tpc) (k * cpp) cpp 0 (Some k) (xi_vendor x) (xi_uarch x) (xi_cpuid x))
    (seq 0 packages);
  wr_packages : t_packages t = map (fun k => Package (k * (cpp * tpc)) (cpp * tpc) (k * cpp) cpp k 1) (seq 0 packages);
  wr_counts : (t_processors_count t, t_cores_count t, t_clusters_count t, t_packages_count t) = (packages * cpp * tpc, packages * cpp, packages, packages)
}.

(** The usual sharing: a core's first level, a package's third; the second is the core's if there is a third and else the package's; no fourth. *)
Record written_caches (packages cpp tpc : nat) (x : xinfo) (t : tables) : Prop := {
  wc_l1i : level_written (xc_geometry (xi_l1i x)) (packages * cpp * tpc) tpc (t_l1i_of t) (t_l1i t);
  wc_l1d : level_written (xc_geometry (xi_l1d x)) (packages * cpp * tpc) tpc (t_l1d_of t) (t_l1d t);
  wc_l2 : level_written (xc_geometry (xi_l2 x)) (packages * cpp * tpc) (if (g_size (xc_geometry (xi_l3 x)) =? 0)%N then cpp * tpc else tpc) (t_l2_of t) (t_l2 t);
  wc_l3 : level_written (xc_geometry (xi_l3 x)) (packages * cpp * tpc) (cpp * tpc) (t_l3_of t) (t_l3 t);
  wc_l4 : t_l4 t = [] /\ t_l4_of t = repeat None (packages * cpp * tpc);
  wc_max : t_max_cache_size t = last_level_size x
}.

(** CPUID's bits of the APIC id for that sharing. *)
Record usual_sharing (x : xinfo) : Prop := {
  us_l1i : g_size (xc_geometry (xi_l1i x)) <> 0%N -> xc_apic_bits (xi_l1i x) = xi_thread_length x;
  us_l1d : g_size (xc_geometry (xi_l1d x)) <> 0%N -> xc_apic_bits (xi_l1d x) = xi_thread_length x;
  us_l2 : g_size (xc_geometry (xi_l2 x)) <> 0%N ->
    xc_apic_bits (xi_l2 x) = if (g_size (xc_geometry (xi_l3 x)) =? 0)%N then (xi_thread_length x + xi_core_length x)%N else xi_thread_length x;
  us_l3 : g_size (xc_geometry (xi_l3 x)) <> 0%N -> xc_apic_bits (xi_l3 x) = (xi_thread_length x + xi_core_length x)%N;
  us_l4 : g_size (xc_geometry (xi_l4 x)) = 0%N;
  us_some : g_size (xc_geometry (xi_l2 x)) <> 0%N \/ g_size (xc_geometry (xi_l3 x)) <> 0%N
}.

(** The APIC id of a thread: numbers of the package, the core in it and the thread in that, side by side. *)
Definition apic_of (x : xinfo) (package core thread : nat) : N :=
  (N.of_nat package * 2 ^ (xi_thread_length x + xi_core_length x) + N.of_nat core * 2 ^ xi_thread_length x + N.of_nat thread)%N.
Definition fields_hold (x : xinfo) (cpp tpc : nat) : Prop :=
  adjacent_fields x /\ (N.of_nat tpc <= 2 ^ xi_thread_length x)%N /\ (N.of_nat cpp <= 2 ^ xi_core_length x)%N.

(** Linux finds exactly the machine's threads online, in whatever order of CPU numbers. *)
Record linux_machine (x : xinfo) (packages cpp tpc : nat) (is_cpu : N -> Prop) (ms : list meaning) : Prop := {
  lm_each : forall k c j, k < packages -> c < cpp -> j < tpc -> exists cpu, is_cpu cpu /\ apic_id_of ms cpu = apic_of x k c j;
  lm_only : forall cpu, is_cpu cpu -> exists k c j, k < packages /\ c < cpp /\ j < tpc /\ apic_id_of ms cpu = apic_of x k c j;
  lm_once : distinct_apic_ids is_cpu ms
}.

(** The APIC ids of the threads in order. *)
Definition apic_ids_written (x : xinfo) (packages cpp tpc : nat) (t : tables) : Prop :=
  map p_apic_id (t_processors t) = map (fun i => apic_of x (i / (cpp * tpc)) (i / tpc mod cpp) (i mod tpc)) (seq 0 (packages * cpp * tpc)).

(** The numbers that the kernel reports, if it does, are the usual ones. *)
Definition usual_reports (x : xinfo) (cpp tpc : nat) (reported : nat -> nat) : Prop :=
  In (reported 1) [0; tpc] /\ In (reported 2) [0; if (g_size (xc_geometry (xi_l3 x)) =? 0)%N then cpp * tpc else tpc] /\ In (reported 3) [0; cpp * tpc].

(** Two systems tell the same: all but the systems' own numbers of the processors, and APIC ids. *)
Record same_tables (t u : tables) : Prop := {
  st_places : map place (t_processors t) = map place (t_processors u);
  st_cores : t_cores t = t_cores u;
  st_clusters : t_clusters t = t_clusters u;
  st_packages : t_packages t = t_packages u;
  st_counts : (t_processors_count t, t_cores_count t, t_clusters_count t, t_packages_count t) =
              (t_processors_count u, t_cores_count u, t_clusters_count u, t_packages_count u);
  st_l1i : t_l1i t = t_l1i u /\ t_l1i_of t = t_l1i_of u;
  st_l1d : t_l1d t = t_l1d u /\ t_l1d_of t = t_l1d_of u;
  st_l2 : t_l2 t = t_l2 u /\ t_l2_of t = t_l2_of u;
  st_l3 : t_l3 t = t_l3 u /\ t_l3_of t = t_l3_of u;
  st_l4 : t_l4 t = t_l4 u /\ t_l4_of t = t_l4_of u;
  st_max : t_max_cache_size t = t_max_cache_size u
}.
