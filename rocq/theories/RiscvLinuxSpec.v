(** What RISC-V Linux detection should report, independent of the detection code. *)
From Verif Require Import Base Sorting LinuxTextModel LinuxTextSpec TopologySpec X86LinuxSpec.
From Verif Require RiscvLinuxModel.
Import RiscvLinuxModel(rlevel, RCore, RCluster, RPackage, rproc, r_uarch, riscv_files, rf_kernel_max, rf_present_max, rf_present, rf_cpu,
  level_file, rc_core_id, rc_frequency, rc_hwprobe, riscv_core_frequency, riscv_cluster_frequency, riscv_tables, rt_processors, rt_cores, rt_clusters, rt_packages, rt_uarchs, rt_linux_cpu_max,
  rt_processor_map, rt_core_map, rt_uarch_index_map, uarch_info, ua_uarch, ua_processors, ua_cores,
  cmp_riscv_linux_processors).
Open Scope nat_scope.

(** The machine: the numbers of its CPUs and, for each level, which group a CPU
    belongs to.  Two CPUs are on the same core, say, if their labels are equal. *)
Definition grouping_fn := rlevel -> nat -> nat.

(** The CPUs in the group of [cpu]. *)
Definition members (cpus : list nat) (group : grouping_fn) (v : rlevel) (cpu : nat) : list nat :=
  filter (fun q => group v q =? group v cpu) cpus.
(** How many different groups of level [v] the CPUs belong to. *)
Definition distinct_groups (group : grouping_fn) (v : rlevel) (cpus : list nat) : nat :=
  length (nodup Nat.eq_dec (map (group v) cpus)).

(** Ranges as the kernel writes them: increasing, without overlap. *)
Definition ascending (rs : list (N * N)) : Prop := StronglySorted (fun a b => snd a < fst b)%N rs.

(** The kernel's files describe the machine: the present list is the machine's
    CPUs, and the list of every CPU at every level is the CPUs of its group. *)
Record riscv_files_say (default : N) (fs : riscv_files) (cpus : list nat) (group : grouping_fn) : Prop := {
  rs_ordered : StronglySorted lt cpus;
  rs_max : exists max, max_says default (rf_kernel_max fs) max /\ (0 < max < two32)%N /\
             Forall (fun c => N.of_nat c < max)%N cpus;
  rs_present : exists ranges, list_says (rf_present_max fs) (Some ranges) /\ list_says (rf_present fs) (Some ranges) /\
                 forall c, listed ranges (N.of_nat c) <-> In c cpus;
  rs_groups : forall v p, In p cpus -> exists ranges, list_says (level_file v (rf_cpu fs p)) (Some ranges) /\
                 ascending ranges /\
                 forall q, listed ranges (N.of_nat q) <-> In q (members cpus group v p)
}.

(** CPUs on one core are in one cluster, CPUs in one cluster are in one package. *)
Definition nested (cpus : list nat) (group : grouping_fn) : Prop :=
  forall p q, In p cpus -> In q cpus ->
    (group RCore p = group RCore q -> group RCluster p = group RCluster q) /\
    (group RCluster p = group RCluster q -> group RPackage p = group RPackage q).

(** The CPUs of a group have consecutive numbers among the CPUs of the machine. *)
Definition contiguous (cpus : list nat) (group : grouping_fn) : Prop :=
  forall v a b c, In a cpus -> In b cpus -> In c cpus -> a <= b <= c ->
    group v a = group v c -> group v b = group v a.

(** Values of enum cpuinfo_uarch, include/cpuinfo.h:279-606, are below 2^31. *)
Definition enum_uarch (p : rproc) : Prop := (r_uarch p < 2147483648)%N.
Definition in_uarch_order (l : list rproc) : Prop :=
  StronglySorted (fun a b => (cmp_riscv_linux_processors a b <= 0)%Z) l.

(** The contract of qsort for tables with such values... *)
Definition riscv_sorter (sorter : list rproc -> list rproc) : Prop :=
  forall l, Forall enum_uarch l -> Permutation l (sorter l) /\ in_uarch_order (sorter l).
(** ...and a sort that, as a stable one does, leaves a sorted table as it is. *)
Definition order_keeping (sorter : list rproc -> list rproc) : Prop :=
  riscv_sorter sorter /\ forall l, Forall enum_uarch l -> in_uarch_order l -> sorter l = l.

(** The maps from Linux CPU numbers agree with the tables. *)
Record riscv_maps (t : riscv_tables) : Prop := {
  rm_lengths : length (rt_processor_map t) = N.to_nat (rt_linux_cpu_max t) /\
               length (rt_core_map t) = N.to_nat (rt_linux_cpu_max t) /\
               length (rt_uarch_index_map t) = N.to_nat (rt_linux_cpu_max t);
  rm_listed : forall i p, nth_error (rt_processors t) i = Some p ->
     nth_error (rt_processor_map t) (N.to_nat (p_linux_id p)) = Some (Some i) /\
     nth_error (rt_core_map t) (N.to_nat (p_linux_id p)) = Some (p_core p);
  rm_unlisted : forall cpu, cpu < N.to_nat (rt_linux_cpu_max t) ->
     (forall p, In p (rt_processors t) -> N.to_nat (p_linux_id p) <> cpu) ->
     nth_error (rt_processor_map t) cpu = Some None /\ nth_error (rt_core_map t) cpu = Some None
}.

(** The record a processor points to. *)
Definition its_core (t : riscv_tables) (p : processor) (c : core) : Prop :=
  exists i, p_core p = Some i /\ nth_error (rt_cores t) i = Some c.
Definition its_cluster (t : riscv_tables) (p : processor) (l : cluster) : Prop :=
  exists i, p_cluster p = Some i /\ nth_error (rt_clusters t) i = Some l.
Definition its_package (t : riscv_tables) (p : processor) (k : package) : Prop :=
  exists i, p_package p = Some i /\ nth_error (rt_packages t) i = Some k.

(** Processors share a pointer iff they share the group; every element of the
    table is pointed to. *)
Definition pointers_follow {A} (pointer : processor -> option nat) (table : list A) (label : nat -> nat) (t : riscv_tables)
  : Prop :=
  (forall p q, In p (rt_processors t) -> In q (rt_processors t) ->
     (pointer p = pointer q <-> label (N.to_nat (p_linux_id p)) = label (N.to_nat (p_linux_id q)))) /\
  (forall i, i < length table -> exists p, In p (rt_processors t) /\ pointer p = Some i).

(** The tables describe the machine.  [*_processor_start] is the lowest CPU number
    of the group (not an index into the table of processors). *)
Record riscv_reports (cpus : list nat) (group : grouping_fn) (t : riscv_tables) : Prop := {
  rr_processors : map p_linux_id (rt_processors t) = map N.of_nat cpus;
  rr_cores : pointers_follow p_core (rt_cores t) (group RCore) t;
  rr_clusters : pointers_follow p_cluster (rt_clusters t) (group RCluster) t;
  rr_packages : pointers_follow p_package (rt_packages t) (group RPackage) t;
  rr_records : forall p, In p (rt_processors t) ->
    let cpu := N.to_nat (p_linux_id p) in
    let on_core := members cpus group RCore cpu in
    let in_cluster := members cpus group RCluster cpu in
    let in_package := members cpus group RPackage cpu in
    exists c l k, its_core t p c /\ its_cluster t p l /\ its_package t p k /\
      c_cluster c = p_cluster p /\ c_package c = p_package p /\ cl_package l = p_package p /\
      c_processor_start c = hd 0 on_core /\ c_processor_count c = length on_core /\
      cl_processor_start l = hd 0 in_cluster /\ cl_processor_count l = length in_cluster /\
      cl_core_count l = distinct_groups group RCore in_cluster /\
      pk_processor_start k = hd 0 in_package /\ pk_processor_count k = length in_package /\
      pk_core_count k = distinct_groups group RCore in_package /\
      pk_cluster_count k = distinct_groups group RCluster in_package
}.

(** What [processor_start] and [processor_count] should delimit: the indexes of
    the processors that point to the record. *)
Definition range_is {A} (t : riscv_tables) (pointer : processor -> option nat) (table : list A) (start count : A -> nat) : Prop :=
  forall i x j p, nth_error table i = Some x -> nth_error (rt_processors t) j = Some p ->
    (pointer p = Some i <-> start x <= j < start x + count x).

(** The extensions named by the kernel's AT_HWCAP word: bit 0 is 'A', bit 25 'Z'. *)
Definition kernel_names (hwcap : N) (letter : N) : Prop := N.testbit hwcap (letter - 65) = true.

(** The vendor for a mvendorid (cut to 32 bits): SiFive (17) for 0x489, otherwise unknown. *)
Definition riscv_vendor_told (answer : option (N * N * N)) (vendor : N) : Prop :=
  match answer with
  | None => vendor = 0%N
  | Some (mvendorid, _, _) => ((mvendorid mod two32)%N = 1161%N -> vendor = 17%N) /\ ((mvendorid mod two32)%N <> 1161%N -> vendor = 0%N)
  end.

(** A file of the kernel that holds a number: the number, or [None] where there
    is no such file or no number in it. *)
Inductive number_says : file -> option N -> Prop :=
| number_there : forall f digits tail, f_contents f = Some (digits ++ tail) -> no_io_error (f_reads f) ->
    is_decimal digits -> bytes tail -> ~ starts_with_digit tail -> (dec_value digits < two32)%N -> length (digits ++ tail) < 32 ->
    number_says f (Some (dec_value digits))
| number_no_file : forall f, f_contents f = None -> number_says f None
| number_no_digit : forall f contents, f_contents f = Some contents -> no_io_error (f_reads f) -> bytes contents ->
    ~ starts_with_digit contents -> number_says f None.
Definition or_zero (n : option N) : N := match n with Some v => v | None => 0%N end.

(** The kernel tells the core id and the clock, in kHz, of each CPU. *)
Definition riscv_numbers_say (fs : riscv_files) (cpus : list nat) (core_id khz : nat -> option N) : Prop :=
  forall c, In c cpus -> number_says (rc_core_id (rf_cpu fs c)) (core_id c) /\ number_says (rc_frequency (rf_cpu fs c)) (khz c).

(** The core and the cluster of each processor have the details of their first CPU. *)
Definition details_of_first (fs : riscv_files) (cpus : list nat) (group : grouping_fn) (core_id khz : nat -> option N) (t : riscv_tables) : Prop :=
  forall p, In p (rt_processors t) ->
    let cpu := N.to_nat (p_linux_id p) in
    let first := hd 0 (members cpus group RCore cpu) in
    let first_in_cluster := hd 0 (members cpus group RCluster cpu) in
    exists c l, its_core t p c /\ its_cluster t p l /\
      c_core_id c = N.to_nat (or_zero (core_id first)) /\
      riscv_core_frequency c = or_zero (khz first) /\
      riscv_vendor_told (rc_hwprobe (rf_cpu fs first)) (c_vendor c) /\
      cl_cluster_id l = first_in_cluster /\
      riscv_cluster_frequency l = or_zero (khz first_in_cluster) /\
      riscv_vendor_told (rc_hwprobe (rf_cpu fs first_in_cluster)) (cl_vendor l).
