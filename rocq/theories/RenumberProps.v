(** Property theorems: C96. *)
From Coq Require Import NArith List.
From Verif Require RiscvLinuxModel RiscvLinuxSpec RiscvSample.
From Verif Require Import Base Text LinuxTextModel LinuxTextSpec TopologySpec X86CpuinfoModel X86CpuinfoSpec X86LinuxModel X86LinuxSpec X86Sample
  X86LinuxProps X86OfflineSpec X86OfflineSample RenumberSpec RenumberProofs RenumberSample.
Import ListNotations.
Open Scope nat_scope.

(** ** C96 *)

(** Two kernels number the CPUs of one machine differently, and may describe them by different
    files: if the first run publishes, so does the second, and their tables differ in the
    numbers only. *)
Theorem x86_linux_renumbered :
  forall char_signed char_signed' default default' sorter sorter' calloc_ok x fs fs' f max possible present meanings max' possible' present' meanings' o t,
  files_say default fs max possible present meanings -> files_say default' fs' max' possible' present' meanings' ->
  distinct_apic_ids (usable max possible present meanings) meanings ->
  renumbered f (usable max possible present meanings) meanings (usable max' possible' present' meanings') meanings' ->
  qsort_contract sorter -> qsort_contract sorter' ->
  x86_linux_init char_signed default sorter calloc_ok x fs = Ok o -> o_published o = Some t ->
  exists t', x86_linux_init char_signed' default' sorter' calloc_ok x fs' = Ok (Outcome (Some t') (o_live o)) /\
    same_but_numbers f (usable max possible present meanings) t t'.
Proof. exact x86_renumbered. Qed.
Print Assumptions x86_linux_renumbered.

(** Two cores with two threads each: CPUs 0 and 2 on the first core, or CPUs 0 and 1. *)
Example x86_linux_renumbered_case :
  files_say 32 (four_cpus threads_on_lines) 64 (Some [(0, 3)]%N) (Some [(0, 3)]%N) threads_on_meanings /\
  files_say 32 (four_cpus by_core_lines) 64 (Some [(0, 3)]%N) (Some [(0, 3)]%N) by_core_meanings /\
  distinct_apic_ids (usable 64 (Some [(0, 3)]%N) (Some [(0, 3)]%N) threads_on_meanings) threads_on_meanings /\
  renumbered swap12 (usable 64 (Some [(0, 3)]%N) (Some [(0, 3)]%N) threads_on_meanings) threads_on_meanings
    (usable 64 (Some [(0, 3)]%N) (Some [(0, 3)]%N) by_core_meanings) by_core_meanings /\
  qsort_contract sample_sort /\
  (exists o t, x86_linux_init true 32 sample_sort (fun _ => true) sample_info (four_cpus threads_on_lines) = Ok o /\ o_published o = Some t /\
     map p_linux_id (t_processors t) = [0; 2; 1; 3]%N /\ map p_core (t_processors t) = [Some 0; Some 0; Some 1; Some 1]) /\
  (exists o t, x86_linux_init true 32 sample_sort (fun _ => true) sample_info (four_cpus by_core_lines) = Ok o /\ o_published o = Some t /\
     map p_linux_id (t_processors t) = [0; 1; 2; 3]%N /\ map p_core (t_processors t) = [Some 0; Some 0; Some 1; Some 1]).
Proof.
  split; [exact threads_on_say|]. split; [exact by_core_say|]. split; [exact threads_on_distinct|]. split; [exact by_core_renumbered|].
  split; [apply x86_linux_comparator_case|].
  split; do 2 eexists; (split; [vm_compute; reflexivity|]; split; [reflexivity|]; split; reflexivity).
Qed.

(** On RISC-V Linux the numbers do matter: two CPUs of one core are listed under different cores if
    the kernel numbers them otherwise. *)
Theorem riscv_linux_renumbered_refuted : exists cpus f group group' fs fs' o o' t t' a b p q p' q',
  RiscvLinuxSpec.riscv_files_say 64 fs cpus group /\ RiscvLinuxSpec.riscv_files_say 64 fs' cpus group' /\
  RiscvLinuxSpec.nested cpus group /\ RiscvLinuxSpec.nested cpus group' /\ RiscvLinuxSpec.order_keeping RiscvSample.stable_sort /\
  (forall c, In c cpus -> In (f c) cpus /\ f (f c) = c) /\ (forall v c, In c cpus -> group' v (f c) = group v c) /\
  RiscvLinuxModel.riscv_linux_init true 64 RiscvSample.stable_sort (fun _ => true) fs = Ok o /\ RiscvLinuxModel.ro_published o = Some t /\
  RiscvLinuxModel.riscv_linux_init true 64 RiscvSample.stable_sort (fun _ => true) fs' = Ok o' /\ RiscvLinuxModel.ro_published o' = Some t' /\
  In p (RiscvLinuxModel.rt_processors t) /\ In q (RiscvLinuxModel.rt_processors t) /\
  In p' (RiscvLinuxModel.rt_processors t') /\ In q' (RiscvLinuxModel.rt_processors t') /\
  p_linux_id p = N.of_nat a /\ p_linux_id q = N.of_nat b /\ p_linux_id p' = N.of_nat (f a) /\ p_linux_id q' = N.of_nat (f b) /\
  p_core p = p_core q /\ p_core p' <> p_core q'.
Proof.
  exists [0; 1; 2; 3], swap_cpus, by_core_group, RiscvSample.interleaved_group.
  exists (RiscvSample.machine_files [0; 1; 2; 3] by_core_group 0), (RiscvSample.machine_files [0; 1; 2; 3] RiscvSample.interleaved_group 0).
  do 4 eexists. exists 0, 1. do 4 eexists.
  split; [apply RiscvSample.machine_says; [discriminate|repeat constructor|repeat constructor]|].
  split; [apply RiscvSample.machine_says; [discriminate|repeat constructor|repeat constructor]|].
  split; [intros p q Hp Hq; now split|]. split; [intros p q Hp Hq; now split|]. split; [exact RiscvSample.stable_sort_sorts|].
  split; [intros c Hc; cbn in Hc; repeat (destruct Hc as [<-|Hc]; [cbn; tauto|]); destruct Hc|].
  split; [intros [] c Hc; cbn in Hc; repeat (destruct Hc as [<-|Hc]; [reflexivity|]); destruct Hc|].
  split; [vm_compute; reflexivity|]. split; [reflexivity|]. split; [vm_compute; reflexivity|]. split; [reflexivity|].
  split; [now left|]. split; [right; now left|]. split; [now left|]. split; [right; right; now left|].
  repeat split; try reflexivity. vm_compute. discriminate.
Qed.
Print Assumptions riscv_linux_renumbered_refuted.
