(** The published tables (include/cpuinfo.h) and what it means for them to
    describe a consistent machine.  No detection code is mentioned here. *)
From Verif Require Import Base.

(** struct cpuinfo_processor, include/cpuinfo.h:608-653.  Pointers are indexes
    into the published tables, NULL is [None].  The five cache pointers are kept
    in separate arrays, one per level (see [tables] below). *)
Record processor := Processor {
  p_smt_id : nat;
  p_core : option nat;
  p_cluster : option nat;
  p_package : option nat;
  p_linux_id : N;
  p_apic_id : N
}.

(** struct cpuinfo_core, include/cpuinfo.h:655-679 (the frequency is left out). *)
Record core := Core {
  c_processor_start : nat;
  c_processor_count : nat;
  c_core_id : nat;
  c_cluster : option nat;
  c_package : option nat;
  c_vendor : N;
  c_uarch : N;
  c_cpuid : N
}.

(** struct cpuinfo_cluster, include/cpuinfo.h:681-709 (the frequency is left out). *)
Record cluster := Cluster {
  cl_processor_start : nat;
  cl_processor_count : nat;
  cl_core_start : nat;
  cl_core_count : nat;
  cl_cluster_id : nat;
  cl_package : option nat;
  cl_vendor : N;
  cl_uarch : N;
  cl_cpuid : N
}.

(** struct cpuinfo_package, include/cpuinfo.h:713-727 (the name is left out). *)
Record package := Package {
  pk_processor_start : nat;
  pk_processor_count : nat;
  pk_core_start : nat;
  pk_core_count : nat;
  pk_cluster_start : nat;
  pk_cluster_count : nat
}.

(** struct cpuinfo_cache, include/cpuinfo.h:111-136.  [geometry] is the part
    that does not depend on the sharing processors. *)
Record geometry := Geometry {
  g_size : N; g_associativity : N; g_sets : N; g_partitions : N; g_line_size : N; g_flags : N
}.
Record cache := Cache {
  ca_geometry : geometry;
  ca_processor_start : nat;
  ca_processor_count : nat
}.

(** calloc'ed (all-zero) elements. *)
Definition processor0 : processor := Processor 0 None None None 0 0.
Definition core0 : core := Core 0 0 0 None None 0 0 0.
Definition cluster0 : cluster := Cluster 0 0 0 0 0 None 0 0 0.
Definition package0 : package := Package 0 0 0 0 0 0.
Definition geometry0 : geometry := Geometry 0 0 0 0 0 0.
Definition cache0 : cache := Cache geometry0 0 0.

(** The global variables behind the API (src/api.c:18-47).
    The cache pointers of struct cpuinfo_processor are the arrays [t_l1i_of] etc.,
    indexed by processor; the global uarch record is given by its four numbers. *)
Record tables := Tables {
  t_processors : list processor;
  t_cores : list core;
  t_clusters : list cluster;
  t_packages : list package;
  t_l1i : list cache; t_l1d : list cache; t_l2 : list cache; t_l3 : list cache; t_l4 : list cache;
  t_l1i_of : list (option nat); t_l1d_of : list (option nat); t_l2_of : list (option nat);
  t_l3_of : list (option nat); t_l4_of : list (option nat);
  t_processors_count : nat;
  t_cores_count : nat;
  t_clusters_count : nat;
  t_packages_count : nat;
  t_l1i_count : nat; t_l1d_count : nat; t_l2_count : nat; t_l3_count : nat; t_l4_count : nat;
  t_max_cache_size : N;
  t_uarch : N; t_uarch_cpuid : N; t_uarch_processor_count : nat; t_uarch_core_count : nat;
  t_linux_cpu_max : N;
  t_processor_map : list (option nat);
  t_core_map : list (option nat)
}.

(** Consecutive non-empty ranges (start, length) that cover [from, to). *)
Fixpoint tiles (from : nat) (ranges : list (nat * nat)) (to : nat) : Prop :=
  match ranges with
  | [] => from = to
  | (s, c) :: rs => s = from /\ 0 < c /\ tiles (s + c) rs to
  end.

(** [owner] says for each element which group it points to; [ranges] what each
    group claims to contain.  The groups are non-empty, disjoint, cover all
    elements, and contain exactly the elements that point to them. *)
Definition grouping (owner : list nat) (ranges : list (nat * nat)) : Prop :=
  tiles 0 ranges (length owner) /\
  forall i j, nth_error owner i = Some j <->
              exists s c, nth_error ranges j = Some (s, c) /\ s <= i < s + c.

(** All pointers are non-NULL and agree with the ranges. *)
Definition points_to (pointers : list (option nat)) (ranges : list (nat * nat)) : Prop :=
  exists owner, pointers = map Some owner /\ grouping owner ranges.

Definition core_processors (c : core) := (c_processor_start c, c_processor_count c).
Definition cluster_processors (c : cluster) := (cl_processor_start c, cl_processor_count c).
Definition cluster_cores (c : cluster) := (cl_core_start c, cl_core_count c).
Definition package_processors (p : package) := (pk_processor_start p, pk_processor_count p).
Definition package_cores (p : package) := (pk_core_start p, pk_core_count p).
Definition package_clusters (p : package) := (pk_cluster_start p, pk_cluster_count p).
Definition cache_processors (c : cache) := (ca_processor_start c, ca_processor_count c).

(** Processors, cores, clusters and packages describe one machine. *)
Record consistent (ps : list processor) (cs : list core) (ls : list cluster) (ks : list package)
  : Prop := {
  processors_in_cores : points_to (map p_core ps) (map core_processors cs);
  processors_in_clusters : points_to (map p_cluster ps) (map cluster_processors ls);
  processors_in_packages : points_to (map p_package ps) (map package_processors ks);
  cores_in_clusters : points_to (map c_cluster cs) (map cluster_cores ls);
  cores_in_packages : points_to (map c_package cs) (map package_cores ks);
  clusters_in_packages : points_to (map cl_package ls) (map package_clusters ks);
  same_path : forall i p j c, nth_error ps i = Some p -> p_core p = Some j ->
    nth_error cs j = Some c -> p_cluster p = c_cluster c /\ p_package p = c_package c;
  same_package : forall i p j l, nth_error ps i = Some p -> p_cluster p = Some j ->
    nth_error ls j = Some l -> p_package p = cl_package l
}.

(** The ids are offsets within the containing object. *)
Record ids_are_offsets (ps : list processor) (cs : list core) (ls : list cluster)
       (ks : list package) : Prop := {
  smt_ids : forall i p j c, nth_error ps i = Some p -> p_core p = Some j -> nth_error cs j = Some c ->
    i = c_processor_start c + p_smt_id p /\ p_smt_id p < c_processor_count c;
  core_ids : forall i c j k, nth_error cs i = Some c -> c_package c = Some j -> nth_error ks j = Some k ->
    i = pk_core_start k + c_core_id c /\ c_core_id c < pk_core_count k;
  cluster_ids : forall i l j k, nth_error ls i = Some l -> cl_package l = Some j -> nth_error ks j = Some k ->
    i = pk_cluster_start k + cl_cluster_id l /\ cl_cluster_id l < pk_cluster_count k
}.
