(** The same machine with its CPUs numbered in another way. *)
From Coq Require Import NArith List.
From Verif Require Import TopologySpec X86CpuinfoSpec X86LinuxSpec.
Import ListNotations.
Open Scope nat_scope.

(** CPU [cpu] of the first numbering is CPU [f cpu] of the second: the usable CPUs are the
    same, and so are their APIC ids. *)
Record renumbered (f : N -> N) (is_cpu : N -> Prop) (ms : list meaning) (is_cpu' : N -> Prop) (ms' : list meaning) : Prop := {
  rn_same : forall cpu, is_cpu cpu -> is_cpu' (f cpu) /\ apic_id_of ms' (f cpu) = apic_id_of ms cpu;
  rn_all : forall cpu', is_cpu' cpu' -> exists cpu, is_cpu cpu /\ f cpu = cpu'
}.

(** A published processor with its system's number replaced. *)
Definition with_number (f : N -> N) (p : processor) : processor :=
  Processor (p_smt_id p) (p_core p) (p_cluster p) (p_package p) (f (p_linux_id p)) (p_apic_id p).

(** Two sets of tables are the same except that the CPUs are numbered in the other way. *)
Record same_but_numbers (f : N -> N) (is_cpu : N -> Prop) (t t' : tables) : Prop := {
  sn_processors : t_processors t' = map (with_number f) (t_processors t);
  sn_topology : (t_cores t', t_clusters t', t_packages t') = (t_cores t, t_clusters t, t_packages t);
  sn_caches : (t_l1i t', t_l1d t', t_l2 t', t_l3 t', t_l4 t') = (t_l1i t, t_l1d t, t_l2 t, t_l3 t, t_l4 t);
  sn_pointers : (t_l1i_of t', t_l1d_of t', t_l2_of t', t_l3_of t', t_l4_of t') = (t_l1i_of t, t_l1d_of t, t_l2_of t, t_l3_of t, t_l4_of t);
  sn_counts : (t_processors_count t', t_cores_count t', t_clusters_count t', t_packages_count t') =
              (t_processors_count t, t_cores_count t, t_clusters_count t, t_packages_count t);
  sn_cache_counts : (t_l1i_count t', t_l1d_count t', t_l2_count t', t_l3_count t', t_l4_count t') =
                    (t_l1i_count t, t_l1d_count t, t_l2_count t, t_l3_count t, t_l4_count t);
  sn_largest : t_max_cache_size t' = t_max_cache_size t;
  sn_uarch : (t_uarch t', t_uarch_cpuid t', t_uarch_processor_count t', t_uarch_core_count t') =
             (t_uarch t, t_uarch_cpuid t, t_uarch_processor_count t, t_uarch_core_count t);
  sn_maps : forall cpu, is_cpu cpu ->
    nth_error (t_processor_map t') (N.to_nat (f cpu)) = nth_error (t_processor_map t) (N.to_nat cpu) /\
    nth_error (t_core_map t') (N.to_nat (f cpu)) = nth_error (t_core_map t) (N.to_nat cpu)
}.
