(** The names of the files that src/linux/processors.c reads.  Definitions only. *)
From Verif Require Import Base Text ToolsModel.
Open Scope nat_scope.

(** Lines 151-290 and 422-580: one function for each, which formats the name. *)
Inductive kind := Cur_freq | Max_freq | Min_freq | Core_id | Package_id | Core_cpus | Core_siblings | Thread_siblings | Cluster_cpus | Package_cpus.

(** Lines 24-26, 30, 33, 37, 40, 43, 46 and 49: what stands around the number. *)
Definition before_number : list N := text "/sys/devices/system/cpu/cpu".
Definition behind_number (k : kind) : list N :=
  match k with
  | Cur_freq => text "/cpufreq/cpuinfo_cur_freq"
  | Max_freq => text "/cpufreq/cpuinfo_max_freq"
  | Min_freq => text "/cpufreq/cpuinfo_min_freq"
  | Core_id => text "/topology/core_id"
  | Package_id => text "/topology/physical_package_id"
  | Core_cpus => text "/topology/core_cpus_list"
  | Core_siblings => text "/topology/core_siblings_list"
  | Thread_siblings => text "/topology/thread_siblings_list"
  | Cluster_cpus => text "/topology/cluster_cpus_list"
  | Package_cpus => text "/topology/package_cpus_list"
  end.
(** Lines 22-23, 28-29, 32, 36, 38-39, 41-42, 44-45 and 47-48: STRINGIFY does not expand its
    argument, so that sizeof counts the letters of UINT32_MAX, and the final zero. *)
Definition sized (suffix : list N) : nat := length (text "/sys/devices/system/cpu/cpu") + length (text "UINT32_MAX") + length suffix + 1.
Definition name_size (k : kind) : nat :=
  match k with
  | Cur_freq | Max_freq | Min_freq => sized (text "/cpufreq/cpuinfo_max_freq")
  | Core_id => sized (text "/topology/core_id")
  | Package_id => sized (text "/topology/physical_package_id")
  | Core_cpus => sized (text "/topology/core_cpus_list")
  | Core_siblings => sized (text "/topology/core_siblings_list")
  | Thread_siblings => sized (text "/topology/thread_siblings_list")
  | Cluster_cpus => sized (text "/topology/cluster_cpus_list")
  | Package_cpus => sized (text "/topology/package_cpus_list")
  end.
(** Lines 153-154 and the like: snprintf, and the check that nothing was cut off. *)
Definition file_name (k : kind) (processor : N) : option (list N) :=
  let s := before_number ++ number processor ++ behind_number k in
  if name_size k <=? length s then None else Some s.

(** Lines 20, 51 and 52, and src/arm/linux/cpuinfo.c:1022, src/x86/linux/cpuinfo.c:219. *)
Definition single_files : list (list N) :=
  [text "/proc/cpuinfo"; text "/sys/devices/system/cpu/kernel_max"; text "/sys/devices/system/cpu/possible";
   text "/sys/devices/system/cpu/present"].
