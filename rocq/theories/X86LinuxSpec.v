(** What x86 Linux detection should report, independent of the detection code. *)
From Verif Require Import Base LinuxTextModel LinuxTextSpec TopologySpec X86CpuinfoSpec.
From Verif Require X86LinuxModel.
Import X86LinuxModel(xinfo, xcache, xc_geometry, xc_apic_bits, xi_thread_offset, xi_thread_length, xi_core_offset,
  xi_core_length, xi_l1i, xi_l1d, xi_l2, xi_l3, xi_l4, linux_files, lf_kernel_max, lf_possible_max, lf_present_max,
  lf_possible, lf_present, lf_cpuinfo).
Open Scope N_scope.

(** A kernel CPU list file: the ranges it lists, or [None] if it cannot be read. *)
Inductive list_says : file -> option (list (N * N)) -> Prop :=
| says_ranges : forall f contents rs, f_contents f = Some contents -> no_io_error (f_reads f) ->
    cpu_list_file contents rs -> list_says f (Some rs)
| says_nothing : forall f, f_contents f = None -> list_says f None.

(** kernel_max: the highest CPU number the kernel supports; the number of CPUs is
    one more, or the default if the file cannot be read. *)
Inductive max_says (default : N) : file -> N -> Prop :=
| max_number : forall f digits tail, f_contents f = Some (digits ++ tail) -> no_io_error (f_reads f) ->
    is_decimal digits -> bytes tail -> ~ starts_with_digit tail -> (length (digits ++ tail) < 32)%nat ->
    dec_value digits < u32max -> max_says default f (dec_value digits + 1)
| max_default : forall f, f_contents f = None -> max_says default f default.

(** /proc/cpuinfo is a sequence of meaningful lines that fit in the buffer. *)
Definition cpuinfo_says (f : file) (ms : list meaning) : Prop :=
  no_io_error (f_reads f) /\
  exists lines, f_contents f = Some (join 10 lines) /\ lines <> [] /\
    Forall (fun l => ~ In 10 l) lines /\ pieces_fit 2048 lines /\ Forall2 line_means lines ms.

(** A CPU is usable if it is below the kernel's limit, in the present list (in
    /proc/cpuinfo if there is none) and in the possible list (if there is one). *)
Definition usable (max : N) (possible present : option (list (N * N))) (ms : list meaning) (cpu : N) : Prop :=
  cpu < max /\
  match present with Some rs => listed rs cpu | None => In (Announces cpu) ms end /\
  match possible with Some rs => listed rs cpu | None => True end.

(** Its APIC id: the one given in /proc/cpuinfo, 0 if none is given. *)
Definition apic_id_of (ms : list meaning) (cpu : N) : N :=
  match apic_given ms 0 cpu None with Some a => a | None => 0 end.

(** APIC ids agree above the lowest [bits] bits. *)
Definition agree_above (bits a b : N) : Prop := a / 2 ^ bits = b / 2 ^ bits.

(** One cache level: [geometry] describes the caches, [bits] the number of low
    APIC id bits that differ between processors sharing one.  With size 0 there
    are no caches and all pointers are NULL; otherwise every processor points to
    the cache whose range contains it, all caches have the geometry, and two
    processors share a cache iff their APIC ids agree above [bits]. *)
Definition level_reported (g : geometry) (bits : N) (ps : list processor)
           (pointers : list (option nat)) (caches : list cache) (count : nat) : Prop :=
  count = length caches /\ length pointers = length ps /\
  (g_size g = 0 -> caches = [] /\ Forall (fun q => q = None) pointers) /\
  (g_size g <> 0 ->
     points_to pointers (map cache_processors caches) /\
     Forall (fun c => ca_geometry c = g) caches /\
     forall i j p q, nth_error ps i = Some p -> nth_error ps j = Some q ->
       (nth_error pointers i = nth_error pointers j <-> agree_above bits (p_apic_id p) (p_apic_id q))).

(** The tables list exactly the processors [is_cpu linux_id apic_id], each once,
    in APIC id order, with counts equal to the table lengths. *)
Record lists_cpus (is_cpu : N -> N -> Prop) (t : tables) : Prop := {
  lists_exactly : forall cpu apic,
    In (cpu, apic) (map (fun p => (p_linux_id p, p_apic_id p)) (t_processors t)) <-> is_cpu cpu apic;
  lists_once : NoDup (map p_linux_id (t_processors t));
  lists_sorted : StronglySorted N.le (map p_apic_id (t_processors t));
  count_processors : t_processors_count t = length (t_processors t);
  count_cores : t_cores_count t = length (t_cores t);
  count_clusters : t_clusters_count t = length (t_clusters t);
  count_packages : t_packages_count t = length (t_packages t);
  count_uarch : t_uarch_processor_count t = length (t_processors t) /\
                t_uarch_core_count t = length (t_cores t)
}.

(** The maps from Linux CPU numbers: entry [cpu] points to the processor with
    that number and to its core, and is NULL if there is none. *)
Definition maps_cpus (t : tables) : Prop :=
  length (t_processor_map t) = N.to_nat (t_linux_cpu_max t) /\
  length (t_core_map t) = N.to_nat (t_linux_cpu_max t) /\
  (forall i p, nth_error (t_processors t) i = Some p ->
     nth_error (t_processor_map t) (N.to_nat (p_linux_id p)) = Some (Some i) /\
     nth_error (t_core_map t) (N.to_nat (p_linux_id p)) = Some (p_core p)) /\
  (forall cpu, (cpu < N.to_nat (t_linux_cpu_max t))%nat ->
     (forall p, In p (t_processors t) -> N.to_nat (p_linux_id p) <> cpu) ->
     nth_error (t_processor_map t) cpu = Some None /\ nth_error (t_core_map t) cpu = Some None).

(** Processors with agreeing pointers are those whose APIC ids agree above [bits]. *)
Definition grouped_by (pointer : processor -> option nat) (bits : N) (ps : list processor) : Prop :=
  forall p q, In p ps -> In q ps ->
    (pointer p = pointer q <-> agree_above bits (p_apic_id p) (p_apic_id q)).

(** The files together: [max] CPUs at most; the possible and present lists, the
    same in both readings; the meanings of the lines of /proc/cpuinfo. *)
Record files_say (default : N) (fs : linux_files) (max : N) (possible present : option (list (N * N)))
       (ms : list meaning) : Prop := {
  say_max : max_says default (lf_kernel_max fs) max;
  say_max_u32 : 0 < max < two32;
  say_possible : list_says (lf_possible_max fs) possible /\ list_says (lf_possible fs) possible;
  say_present : list_says (lf_present_max fs) present /\ list_says (lf_present fs) present;
  say_cpuinfo : cpuinfo_says (lf_cpuinfo fs) ms
}.

(** ** The description of the processor package decoded from CPUID *)

(** The APIC id is 32 bits wide: fields and cache sharing widths are below 32. *)
Definition bits_ok (x : xinfo) : Prop :=
  xi_thread_length x < 32 /\ xi_thread_offset x < 32 /\ xi_core_length x < 32 /\ xi_core_offset x < 32 /\
  forall c, In c [xi_l1i x; xi_l1d x; xi_l2 x; xi_l3 x; xi_l4 x] ->
    g_size (xc_geometry c) <> 0 -> xc_apic_bits c < 32.

(** Thread field at bit 0, core field right above it. *)
Definition adjacent_fields (x : xinfo) : Prop :=
  xi_thread_offset x = 0 /\ xi_core_offset x = xi_thread_length x /\
  xi_thread_length x + xi_core_length x <= 32.

(** The highest data cache level present. *)
Definition last_level (x : xinfo) : option xcache :=
  find (fun c => negb (g_size (xc_geometry c) =? 0)) [xi_l4 x; xi_l3 x; xi_l2 x; xi_l1d x].
Definition last_level_bits (x : xinfo) : N :=
  match last_level x with Some c => xc_apic_bits c | None => 0 end.
Definition last_level_size (x : xinfo) : N :=
  match last_level x with Some c => g_size (xc_geometry c) | None => 0 end.

(** All threads of a core share the last level cache. *)
Definition threads_share_last_level (x : xinfo) : Prop :=
  xi_thread_offset x + xi_thread_length x <= last_level_bits x.
