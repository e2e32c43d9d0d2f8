(** What sharing the hardware allows, and which CPUs are online, for x86 Linux. *)
From Verif Require Import Base LinuxTextModel LinuxTextSpec TopologySpec X86CpuinfoSpec X86LinuxSpec.
From Verif Require X86LinuxModel.
Import X86LinuxModel(xinfo, xi_thread_length, xi_core_length).
Open Scope N_scope.

(** /proc/cpuinfo gives an APIC id for the CPU: it is online. *)
Definition has_apic_id (ms : list meaning) (cpu : N) : Prop := apic_given ms 0 cpu None <> None.
(** The usable CPUs have different APIC ids. *)
Definition distinct_apic_ids (is_cpu : N -> Prop) (ms : list meaning) : Prop :=
  forall a b, is_cpu a -> is_cpu b -> apic_id_of ms a = apic_id_of ms b -> a = b.

(** [bits] bits of the APIC id tell the processors of a group apart: there are at most 2^bits. *)
Definition at_most (bits : N) {A} (count : A -> nat) (groups : list A) : Prop := Forall (fun g => N.of_nat (count g) <= 2 ^ bits) groups.

(** No core has more threads than the thread field of the APIC id can number, and so on. *)
Record hardware_allows (x : xinfo) (t : tables) : Prop := {
  ha_threads : at_most (xi_thread_length x) c_processor_count (t_cores t);
  ha_smt_ids : Forall (fun p => N.of_nat (p_smt_id p) < 2 ^ xi_thread_length x) (t_processors t);
  ha_clusters : at_most (N.min (last_level_bits x) (xi_thread_length x + xi_core_length x)) cl_processor_count (t_clusters t);
  ha_packages : at_most (xi_thread_length x + xi_core_length x) pk_processor_count (t_packages t)
}.
(** No cache is shared by more processors than CPUID says. *)
Definition sharing_allowed (bits : N) (caches : list cache) : Prop := at_most bits ca_processor_count caches.

(** The same two CPUs in two tables: they share a core, cluster or package in both or in neither. *)
Definition same_sharing (t u : tables) (a b : N) : Prop :=
  forall p q p' q', In p (t_processors t) -> In q (t_processors t) -> In p' (t_processors u) -> In q' (t_processors u) ->
    p_linux_id p = a -> p_linux_id q = b -> p_linux_id p' = a -> p_linux_id q' = b ->
    (p_core p = p_core q <-> p_core p' = p_core q') /\ (p_cluster p = p_cluster q <-> p_cluster p' = p_cluster q') /\
    (p_package p = p_package q <-> p_package p' = p_package q').
