(** Property C79: the files in which the library looks for a processor. *)
From Verif Require Import Base Text SysfsNameModel SysfsNameSpec SysfsNameProofs.
Open Scope nat_scope.

(** Each name fits in its buffer whatever the processor's number, it is the kernel's name for that
    fact about that processor, and no two are the same. *)
Theorem processor_files_exact : forall k n, (n < two32)%N ->
  exists path, file_name k n = Some path /\ described path = Some (n, kernel_name k) /\
    forall k' n', (n' < two32)%N -> file_name k' n' = Some path -> k' = k /\ n' = n.
Proof. exact names_exact. Qed.
Print Assumptions processor_files_exact.

Example processor_files_case :
  file_name Core_id 4294967295 = Some (text "/sys/devices/system/cpu/cpu4294967295/topology/core_id") /\
  file_name Package_cpus 0 = Some (text "/sys/devices/system/cpu/cpu0/topology/package_cpus_list").
Proof. split; vm_compute; reflexivity. Qed.
