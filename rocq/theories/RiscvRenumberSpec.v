(** The same RISC-V machine with its CPUs numbered in another way. *)
From Coq Require Import NArith List Sorting.Permutation.
From Verif Require Import Base TopologySpec RiscvLinuxModel RiscvLinuxSpec.
Import ListNotations.
Open Scope nat_scope.

(** CPU [cpu] of the first numbering is CPU [f cpu] of the second: the CPUs are the same, and at every
    level they are grouped in the same way. *)
Record riscv_renumbered (f : nat -> nat) (cpus : list nat) (group : grouping_fn) (cpus' : list nat) (group' : grouping_fn) : Prop := {
  rv_same : Permutation cpus' (map f cpus);
  rv_groups : forall v a b, In a cpus -> In b cpus -> (group' v (f a) = group' v (f b) <-> group v a = group v b)
}.

(** The tables tell the same of every CPU: they are as long, every CPU's core, cluster and package have as many
    processors, cores and clusters, and two CPUs share one in the first if and only if they do in the second. *)
Record riscv_alike (f : nat -> nat) (t t' : riscv_tables) : Prop := {
  ra_lengths : (length (rt_processors t'), length (rt_cores t'), length (rt_clusters t'), length (rt_packages t')) =
               (length (rt_processors t), length (rt_cores t), length (rt_clusters t), length (rt_packages t));
  ra_uarchs : rt_uarchs t' = rt_uarchs t;
  ra_listed : forall p, In p (rt_processors t) -> exists p', In p' (rt_processors t') /\ p_linux_id p' = N.of_nat (f (N.to_nat (p_linux_id p)));
  ra_counts : forall p p', In p (rt_processors t) -> In p' (rt_processors t') -> p_linux_id p' = N.of_nat (f (N.to_nat (p_linux_id p))) ->
    exists c l k c' l' k', its_core t p c /\ its_cluster t p l /\ its_package t p k /\ its_core t' p' c' /\ its_cluster t' p' l' /\ its_package t' p' k' /\
      c_processor_count c' = c_processor_count c /\
      (cl_processor_count l', cl_core_count l') = (cl_processor_count l, cl_core_count l) /\
      (pk_processor_count k', pk_core_count k', pk_cluster_count k') = (pk_processor_count k, pk_core_count k, pk_cluster_count k);
  ra_together : forall p q p' q', In p (rt_processors t) -> In q (rt_processors t) -> In p' (rt_processors t') -> In q' (rt_processors t') ->
    p_linux_id p' = N.of_nat (f (N.to_nat (p_linux_id p))) -> p_linux_id q' = N.of_nat (f (N.to_nat (p_linux_id q))) ->
    (p_core p' = p_core q' <-> p_core p = p_core q) /\ (p_cluster p' = p_cluster q' <-> p_cluster p = p_cluster q) /\
    (p_package p' = p_package q' <-> p_package p = p_package q)
}.
