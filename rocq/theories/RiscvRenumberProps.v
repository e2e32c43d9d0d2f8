(** Property theorems: C96 on RISC-V Linux. *)
From Coq Require Import NArith List Sorting.Sorted.
From Verif Require Import Base TopologySpec RiscvLinuxModel RiscvLinuxSpec RiscvSample RiscvRenumberSpec RiscvRenumberProofs RiscvRenumberSample.
Import ListNotations.
Open Scope nat_scope.

(** ** C96 *)

(** As long as the CPUs of every group have consecutive numbers in both numberings, the two runs describe the
    same machine. *)
Theorem riscv_linux_renumbered :
  forall char_signed char_signed' default default' sorter sorter' fs fs' f cpus group cpus' group',
  riscv_files_say default fs cpus group -> nested cpus group -> contiguous cpus group -> order_keeping sorter ->
  riscv_files_say default' fs' cpus' group' -> contiguous cpus' group' -> order_keeping sorter' ->
  riscv_renumbered f cpus group cpus' group' ->
  exists t o t' o', riscv_linux_init char_signed default sorter (fun _ => true) fs = Ok o /\ ro_published o = Some t /\
    riscv_linux_init char_signed' default' sorter' (fun _ => true) fs' = Ok o' /\ ro_published o' = Some t' /\ riscv_alike f t t'.
Proof. exact riscv_renumber. Qed.
Print Assumptions riscv_linux_renumbered.

(** The core with three threads is CPUs 0 to 2, or CPUs 2 to 4. *)
Example riscv_linux_renumbered_case :
  riscv_files_say 64 (machine_files five_cpus big_first 0) five_cpus big_first /\ nested five_cpus big_first /\ contiguous five_cpus big_first /\
  riscv_files_say 64 (machine_files five_cpus small_first 0) five_cpus small_first /\ contiguous five_cpus small_first /\
  order_keeping stable_sort /\ riscv_renumbered two_on five_cpus big_first five_cpus small_first /\
  (exists o t, riscv_linux_init true 64 stable_sort (fun _ => true) (machine_files five_cpus big_first 0) = Ok o /\ ro_published o = Some t /\
     map p_core (rt_processors t) = [Some 0; Some 0; Some 0; Some 1; Some 1] /\ map c_processor_count (rt_cores t) = [3; 2]) /\
  (exists o t, riscv_linux_init true 64 stable_sort (fun _ => true) (machine_files five_cpus small_first 0) = Ok o /\ ro_published o = Some t /\
     map p_core (rt_processors t) = [Some 0; Some 0; Some 1; Some 1; Some 1] /\ map c_processor_count (rt_cores t) = [2; 3]).
Proof.
  split; [apply machine_says; [discriminate|repeat constructor|repeat constructor]|].
  split; [apply five_nested; [intros [| |] c H; [reflexivity|reflexivity|destruct (H eq_refl)]|reflexivity]|].
  split; [apply (cut_contiguous 3)|].
  split; [apply machine_says; [discriminate|repeat constructor|repeat constructor]|].
  split; [apply (cut_contiguous 2)|]. split; [exact stable_sort_sorts|]. split; [exact small_renumbered|].
  split; do 2 eexists; (split; [vm_compute; reflexivity|]; split; [reflexivity|]; split; reflexivity).
Qed.
