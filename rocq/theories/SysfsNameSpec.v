(** The files in which Linux describes its processors: Documentation/ABI/testing/sysfs-devices-system-cpu
    and Documentation/admin-guide/cputopology.rst of the kernel. *)
From Verif Require Import Base Text ReportSpec SysfsNameModel.
Open Scope nat_scope.

Local Notation "'let*' x := e 'in' f" := (match e with Some x => f | None => None end) (at level 200, x pattern, f at level 200).

(** The processor that a file describes, and the name within its directory. *)
Definition described (path : list N) : option (N * list N) :=
  let* s := after (text "/sys/devices/system/cpu/cpu") path in
  let* (n, s) := a_number s in
  let* s := after (text "/") s in
  Some (n, s).

(** The kernel's name for each. *)
Definition kernel_name (k : kind) : list N :=
  match k with
  | Cur_freq => text "cpufreq/cpuinfo_cur_freq"
  | Max_freq => text "cpufreq/cpuinfo_max_freq"
  | Min_freq => text "cpufreq/cpuinfo_min_freq"
  | Core_id => text "topology/core_id"
  | Package_id => text "topology/physical_package_id"
  | Core_cpus => text "topology/core_cpus_list"
  | Core_siblings => text "topology/core_siblings_list"
  | Thread_siblings => text "topology/thread_siblings_list"
  | Cluster_cpus => text "topology/cluster_cpus_list"
  | Package_cpus => text "topology/package_cpus_list"
  end.
