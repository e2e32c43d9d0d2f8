(** The commit step of RISC-V Linux detection.  Definitions only. *)
From Verif Require Import Base TopologySpec ApiModel RiscvLinuxModel.
Open Scope nat_scope.

Definition riscv_linux : config := Config true true.

(** src/riscv/linux/init.c:578-596.  The counts are those the arrays were
    allocated with (lines 438-490). *)
Definition riscv_linux_commit (t : riscv_tables) : list gstore :=
  [St_pointer Processors (Some (Processors, length (rt_processors t)));
   St_count Processors (N.of_nat (length (rt_processors t)));
   St_pointer Cores (Some (Cores, length (rt_cores t)));
   St_count Cores (N.of_nat (length (rt_cores t)));
   St_pointer Clusters (Some (Clusters, length (rt_clusters t)));
   St_count Clusters (N.of_nat (length (rt_clusters t)));
   St_pointer Packages (Some (Packages, length (rt_packages t)));
   St_count Packages (N.of_nat (length (rt_packages t)));
   St_pointer Uarchs (Some (Uarchs, length (rt_uarchs t)));
   St_count Uarchs (N.of_nat (length (rt_uarchs t)));
   St_cpu_max (rt_linux_cpu_max t);
   St_processor_map (rt_processor_map t);
   St_core_map (rt_core_map t);
   St_uarch_map (Some (map N.of_nat (rt_uarch_index_map t)));
   St_initialized].

(** The stores of a detection run with a given outcome; the instruction set is
    stored first if detection gets that far (line 374). *)
Definition riscv_linux_routine (o : routcome) : list gstore :=
  match ro_isa o with Some _ => [St_other] | None => [] end ++
  match ro_published o with Some t => riscv_linux_commit t | None => [] end.
