(** The commit step of ARM Linux detection.  Definitions only. *)
From Verif Require Import Base TopologySpec ApiModel ArmLinuxModel.
Open Scope nat_scope.

Definition arm_linux : config := Config true true.

(** src/arm/linux/init.c:835-864.  The counts are those the arrays were allocated with
    (lines 518-599 and 732-752; l3_count is not zero only if l2_count is not, see
    [count_caches]); the package is a static variable. *)
Definition arm_linux_commit (t : arm_tables) : list gstore :=
  [St_pointer Processors (Some (Processors, length (at_processors t)));
   St_pointer Cores (Some (Cores, length (at_cores t)));
   St_pointer Clusters (Some (Clusters, length (at_clusters t)));
   St_pointer Packages (Some (Packages, 1));
   St_pointer Uarchs (Some (Uarchs, length (at_uarchs t)));
   St_pointer (Caches L1i) (Some (Caches L1i, length (at_l1i t)));
   St_pointer (Caches L1d) (Some (Caches L1d, length (at_l1d t)));
   St_pointer (Caches L2) (block_of (Caches L2) (at_l2 t));
   St_pointer (Caches L3) (block_of (Caches L3) (at_l3 t));
   St_count Processors (N.of_nat (length (at_processors t)));
   St_count Cores (N.of_nat (length (at_processors t)));
   St_count Clusters (N.of_nat (length (at_clusters t)));
   St_count Packages 1;
   St_count Uarchs (N.of_nat (length (at_uarchs t)));
   St_count (Caches L1i) (N.of_nat (length (at_processors t)));
   St_count (Caches L1d) (N.of_nat (length (at_processors t)));
   St_count (Caches L2) (N.of_nat (length (at_l2 t)));
   St_count (Caches L3) (N.of_nat (length (at_l3 t)));
   St_max_cache_size (at_max_cache_size t);
   St_cpu_max (at_linux_cpu_max t);
   St_processor_map (at_processor_map t);
   St_core_map (at_core_map t);
   St_uarch_map (option_map (map N.of_nat) (at_uarch_map t));
   St_initialized].

(** The stores of a detection run with a given outcome; the instruction set is stored
    first if detection gets that far (lines 289-309). *)
Definition arm_linux_routine (o : aoutcome) : list gstore :=
  (if ao_isa o then [St_other] else []) ++
  match ao_published o with Some t => arm_linux_commit t | None => [] end.
