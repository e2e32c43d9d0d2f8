(** Model of src/riscv/linux/init.c, src/riscv/linux/riscv-hw.c, src/riscv/linux/riscv-isa.c
    and src/riscv/uarch.c.  Definitions only.
    The log messages and the package names are left out. *)
From Verif Require Import Base Sorting LinuxTextModel TopologySpec.
Open Scope nat_scope.

(** The three groupings the kernel describes. *)
Inductive rlevel := RCore | RCluster | RPackage.

(** What a table entry holds for one grouping: <level>_leader_id of
    src/riscv/linux/api.h:24-47 and the fields of its core, cluster or package
    that the parsers set.  core_start, cluster_start and cluster_id always equal
    processor_start (lines 131-134 and 211-214) and are not kept separately;
    counts a level does not have stay 0. *)
Record rgroup := RGroup {
  rg_leader : N; rg_start : N; rg_processors : N; rg_clusters : N; rg_cores : N
}.

(** struct cpuinfo_riscv_linux_processor, src/riscv/linux/api.h:11-48. *)
Record rproc := RProc {
  r_flags : N; r_linux_id : N; r_core_id : N; r_vendor : N; r_uarch : N; r_frequency : N;
  r_core : rgroup; r_cluster : rgroup; r_package : rgroup
}.
Definition rgroup0 : rgroup := RGroup 0 0 0 0 0.
Definition rproc0 : rproc := RProc 0 0 0 0 0 0 rgroup0 rgroup0 rgroup0.

Definition group_of (v : rlevel) (p : rproc) : rgroup :=
  match v with RCore => r_core p | RCluster => r_cluster p | RPackage => r_package p end.
Definition with_group (v : rlevel) (g : rgroup) (p : rproc) : rproc :=
  match v with
  | RCore => RProc (r_flags p) (r_linux_id p) (r_core_id p) (r_vendor p) (r_uarch p) (r_frequency p) g (r_cluster p) (r_package p)
  | RCluster => RProc (r_flags p) (r_linux_id p) (r_core_id p) (r_vendor p) (r_uarch p) (r_frequency p) (r_core p) g (r_package p)
  | RPackage => RProc (r_flags p) (r_linux_id p) (r_core_id p) (r_vendor p) (r_uarch p) (r_frequency p) (r_core p) (r_cluster p) g
  end.
Definition with_rflags (f : N) (p : rproc) : rproc :=
  RProc f (r_linux_id p) (r_core_id p) (r_vendor p) (r_uarch p) (r_frequency p) (r_core p) (r_cluster p) (r_package p).
Definition with_leader (id : N) (g : rgroup) : rgroup :=
  RGroup id (rg_start g) (rg_processors g) (rg_clusters g) (rg_cores g).

(** src/linux/api.h:13-26. *)
Definition rflag_present : N := 0x1.
Definition rflag_valid : N := 0x1000.
Definition rflag_core_id : N := 0x20.
Definition rflag_cur_frequency : N := 0x2000.
(** CPUINFO_LINUX_FLAG_CORE_CLUSTER, _CLUSTER_CLUSTER and _PACKAGE_CLUSTER. *)
Definition level_flag (v : rlevel) : N :=
  match v with RCore => 0x200 | RCluster => 0x4000 | RPackage => 0x400 end%N.

(** src/linux/api.h bitmask_all (src/arm/linux/api.h:265-267). *)
Definition has_flags (bitfield mask : N) : bool := (N.land bitfield mask =? mask)%N.
Definition r_valid (p : rproc) : bool := has_flags (r_flags p) rflag_valid.
Definition is_leader (v : rlevel) (cpu : nat) (p : rproc) : bool := (rg_leader (group_of v p) =? N.of_nat cpu)%N.

(** Lines 35, 105 and 177: the variables of the loop over a range.  UINT32_MAX in
    [sc_start] means that no processor has been seen. *)
Record rscan := RScan { sc_start : N; sc_processors : N; sc_clusters : N; sc_cores : N }.

(** One iteration of lines 45-58, 115-136 and 188-212 on the valid entry [p] of
    index [cpu].  Clusters are counted by the package parser, cores by the
    cluster and package parsers. *)
Definition scan_one (v : rlevel) (cpu : nat) (p : rproc) (s : rscan) : rscan :=
  RScan (if (sc_start s =? u32max)%N then N.of_nat cpu else sc_start s)
        (sc_processors s + 1)
        (sc_clusters s + match v with RPackage => if is_leader RCluster cpu p then 1 else 0 | _ => 0 end)
        (sc_cores s + match v with RCore => 0 | _ => if is_leader RCore cpu p then 1 else 0 end).

Fixpoint scan_range (v : rlevel) (cpus : list nat) (s : rscan) (procs : list rproc)
  : res (rscan * list rproc) :=
  match cpus with
  | [] => Ok (s, procs)
  | cpu :: cpus' =>
      do p <- rd procs cpu;
      if negb (r_valid p) then scan_range v cpus' s procs
      else
        let s' := scan_one v cpu p s in
        do procs' <- wr procs cpu (with_group v (with_leader (sc_start s') (group_of v p)) p);
        scan_range v cpus' s' procs'
  end.

(** src/riscv/linux/init.c:31-74, 86-144 and 159-226: the three parsers differ
    in the field and flag of their level, in what they count, and in the result:
    only core_cpus_parser fails when the range holds no valid processor. *)
Definition cpus_parser (v : rlevel) (processor : nat) (ctx : res (list rproc)) (first end_ : N)
  : bool * res (list rproc) :=
  let r :=
    do procs <- ctx;
    do p <- rd procs processor;
    let start := if has_flags (r_flags p) (level_flag v) then rg_leader (group_of v p) else u32max in
    do sp <- scan_range v (seq (N.to_nat first) (N.to_nat end_ - N.to_nat first)) (RScan start 0 0 0) procs;
    let '(s, procs') := sp in
    do q <- rd procs' processor;
    let g := group_of v q in
    let g1 := if negb (has_flags (r_flags q) (level_flag v)) || (sc_start s <? rg_start g)%N
              then RGroup (sc_start s) (sc_start s) (rg_processors g) (rg_clusters g) (rg_cores g) else g in
    let g2 := RGroup (rg_leader g1) (rg_start g1) (u32 (rg_processors g1 + sc_processors s))
                     (u32 (rg_clusters g1 + sc_clusters s)) (u32 (rg_cores g1 + sc_cores s)) in
    do procs'' <- wr procs' processor (with_rflags (N.lor (r_flags q) (level_flag v)) (with_group v g2 q));
    Ok (sc_processors s, procs'') in
  match r with
  | Ok (count, procs) => (match v with RCore => negb (count =? 0)%N | _ => true end, Ok procs)
  | UB => (true, UB)
  | Hang => (true, Hang)
  end.

(** src/riscv/uarch.c:6-27: the vendor; every microarchitecture is unknown (0). *)
Definition riscv_vendor (vendor_id : N) : N := if (vendor_id =? 0x489)%N then 17 else 0.
Definition riscv_decode (ids : N * N * N) : N * N := let '(vendor_id, _, _) := ids in (riscv_vendor (u32 vendor_id), 0%N).

(** src/riscv/linux/riscv-hw.c:74-184.  [None]: the system call or the CPU set
    allocation fails and the fields keep their zeros (lines 83-84).  Otherwise
    the three 64-bit ids, 0 where the kernel does not know them, cut to 32 bits. *)
Definition hwprobe_decode (answer : option (N * N * N)) : N * N :=
  match answer with None => (0, 0)%N | Some ids => riscv_decode ids end.

(** The files of one logical processor and the answer of its hwprobe call. *)
Record rcpu_files := RCpuFiles {
  rc_core_cpus : file; rc_core_id : file; rc_frequency : file; rc_cluster_cpus : file; rc_package_cpus : file;
  rc_hwprobe : option (N * N * N)
}.
Record riscv_files := RiscvFiles {
  rf_kernel_max : file; rf_present_max : file; rf_present : file;
  rf_cpu : nat -> rcpu_files; rf_hwcap : N
}.
Definition level_file (v : rlevel) (c : rcpu_files) : file :=
  match v with RCore => rc_core_cpus c | RCluster => rc_cluster_cpus c | RPackage => rc_package_cpus c end.

(** cpuinfo_linux_detect_{core,cluster,package}_cpus with the parser of the level. *)
Definition detect_group (sg : bool) (max : N) (v : rlevel) (processor : nat) (f : file) (procs : list rproc)
  : res (bool * list rproc) :=
  do r <- detect_siblings sg max (cpus_parser v processor) (f_contents f) (f_reads f) (Ok procs);
  let '(ok, rp) := r in do procs' <- rp; Ok (ok, procs').

(** Lines 308-331, for the processor whose core list has been read. *)
Definition fill_core (processor : nat) (c : rcpu_files) (procs : list rproc) : res (list rproc) :=
  do id <- get_processor_id_file (f_contents (rc_core_id c)) (f_reads (rc_core_id c));
  let '(vendor, uarch) := hwprobe_decode (rc_hwprobe c) in
  do frequency <- get_processor_frequency (f_contents (rc_frequency c)) (f_reads (rc_frequency c));
  modify procs processor (fun p =>
    let flags := match id with Some _ => N.lor (r_flags p) rflag_core_id | None => r_flags p end in
    RProc (if (frequency =? 0)%N then flags else N.lor flags rflag_cur_frequency) (r_linux_id p)
          (match id with Some i => i | None => r_core_id p end) vendor uarch
          (if (frequency =? 0)%N then r_frequency p else frequency)
          (r_core p) (r_cluster p) (r_package p)).

(** The loops of lines 292-331, 334-357 and 360-371; [None] is the jump to
    cleanup.  The vendor, uarch and frequency of a cluster are copies of those of
    the same entry's core (lines 353-355) and are not kept separately. *)
Fixpoint detect_level (sg : bool) (max : N) (files : nat -> rcpu_files) (v : rlevel) (todo : list nat)
         (procs : list rproc) : res (option (list rproc)) :=
  match todo with
  | [] => Ok (Some procs)
  | processor :: todo' =>
      do p <- rd procs processor;
      if negb (r_valid p) then detect_level sg max files v todo' procs
      else
        do r <- detect_group sg max v processor (level_file v (files processor)) procs;
        let '(ok, procs1) := r in
        if negb ok then Ok None
        else
          do procs2 <- match v with RCore => fill_core processor (files processor) procs1 | _ => Ok procs1 end;
          detect_level sg max files v todo' procs2
  end.

(** Lines 276-289: the flags of the table, then the linux_id of valid entries. *)
Definition initial_procs (flags : list N) : list rproc :=
  map (fun iq => let '(i, f) := iq in
                 RProc f (if has_flags f rflag_valid then N.of_nat i else 0) 0 0 0 0 rgroup0 rgroup0 rgroup0)
      (combine (seq 0 (length flags)) flags).

(** Lines 276-371. *)
Definition detect_riscv (sg : bool) (max : N) (fs : riscv_files) : res (option (list rproc)) :=
  do r <- detect_listed_processors sg max (N.lor rflag_present rflag_valid)
            (f_contents (rf_present fs)) (f_reads (rf_present fs)) (repeat 0%N (N.to_nat max));
  let '(ok, flags) := r in
  if negb ok then Ok None
  else
    let all := seq 0 (N.to_nat max) in
    do r1 <- detect_level sg max (rf_cpu fs) RCore all (initial_procs flags);
    match r1 with
    | None => Ok None
    | Some procs1 =>
        do r2 <- detect_level sg max (rf_cpu fs) RCluster all procs1;
        match r2 with
        | None => Ok None
        | Some procs2 => detect_level sg max (rf_cpu fs) RPackage all procs2
        end
    end.

(** Lines 16-23: the difference of two enum values (unsigned int) converted to int. *)
Definition cmp_riscv_linux_processors (a b : rproc) : Z :=
  let d := sub32 (r_uarch a) (r_uarch b) in
  (if (d <? 2147483648)%N then Z.of_N d else Z.of_N d - 4294967296)%Z.

(** struct cpuinfo_uarch_info, include/cpuinfo.h:729-743. *)
Record uarch_info := UarchInfo { ua_uarch : N; ua_processors : nat; ua_cores : nat }.
Definition uarch_info0 : uarch_info := UarchInfo 0 0 0.

(** The published tables of RISC-V Linux. *)
Record riscv_tables := RiscvTables {
  rt_processors : list processor; rt_cores : list core; rt_clusters : list cluster; rt_packages : list package;
  rt_uarchs : list uarch_info;
  rt_linux_cpu_max : N;
  rt_processor_map : list (option nat); rt_core_map : list (option nat); rt_uarch_index_map : list nat
}.

(** Is the entry (of a sorted table) the leader of its group at this level? *)
Definition leads (v : rlevel) (p : rproc) : bool := (rg_leader (group_of v p) =? r_linux_id p)%N.

(** Lines 396-435: the counts over the valid entries. *)
Definition count_entries (f : rproc -> bool) (l : list rproc) : nat :=
  length (filter (fun p => r_valid p && f p) l).
Fixpoint count_uarchs (last : N) (n : nat) (l : list rproc) : nat :=
  match l with
  | [] => n
  | p :: l' =>
      if negb (r_valid p) then count_uarchs last n l'
      else if negb (last =? r_uarch p)%N || (n =? 0) then count_uarchs (r_uarch p) (S n) l'
      else count_uarchs last n l'
  end.

(** The variables of the transfer loop, lines 511-576.  The indexes are size_t;
    [index - 1] for index 0 is outside every array. *)
Record rstate := RState {
  st_processors : list processor; st_cores : list core; st_clusters : list cluster; st_packages : list package;
  st_uarchs : list uarch_info;
  st_processor_map : list (option nat); st_core_map : list (option nat); st_uarch_map : list nat;
  st_np : nat; st_nc : nat; st_nl : nat; st_nk : nat; st_nu : nat; st_last : N
}.
Definition pred_index (n : nat) : res nat := match n with O => UB | S m => Ok m end.

(** The records copied at lines 538-566 (the pointers are set afterwards).  The
    last field of a core and a cluster, cpuid on x86, which RISC-V does not have,
    stands for frequency (include/cpuinfo.h:677-678, 705-706). *)
Definition riscv_core_frequency : core -> N := c_cpuid.
Definition riscv_cluster_frequency : cluster -> N := cl_cpuid.
Definition core_record (p : rproc) : core :=
  let g := r_core p in
  Core (N.to_nat (rg_start g)) (N.to_nat (rg_processors g)) (N.to_nat (r_core_id p)) None None (r_vendor p) (r_uarch p) (r_frequency p).
Definition cluster_record (p : rproc) : cluster :=
  let g := r_cluster p in
  Cluster (N.to_nat (rg_start g)) (N.to_nat (rg_processors g)) (N.to_nat (rg_start g)) (N.to_nat (rg_cores g))
          (N.to_nat (rg_start g)) None (r_vendor p) (r_uarch p) (r_frequency p).
Definition package_record (p : rproc) : package :=
  let g := r_package p in
  Package (N.to_nat (rg_start g)) (N.to_nat (rg_processors g)) (N.to_nat (rg_start g)) (N.to_nat (rg_cores g))
          (N.to_nat (rg_start g)) (N.to_nat (rg_clusters g)).

(** "if (leader) memcpy(&array[index++], ..)". *)
Definition copy_if {A} (b : bool) (a : list A) (n : nat) (x : A) : res (list A * nat) :=
  if b then do a' <- wr a n x; Ok (a', S n) else Ok (a, n).

(** Lines 519-576, the body for one valid entry. *)
Definition transfer_one (p : rproc) (s : rstate) : res rstate :=
  let new := negb (st_last s =? r_uarch p)%N || (st_nu s =? 0) in
  do un <- copy_if new (st_uarchs s) (st_nu s) (UarchInfo (r_uarch p) 0 0);
  let '(uarchs, nu) := un in
  let last := if new then r_uarch p else st_last s in
  do processors <- wr (st_processors s) (st_np s) (Processor 0 None None None (r_linux_id p) 0);
  let np := S (st_np s) in
  do u <- pred_index nu;
  do uarchs <- modify uarchs u (fun i => UarchInfo (ua_uarch i) (S (ua_processors i)) (ua_cores i));
  do cn <- copy_if (leads RCore p) (st_cores s) (st_nc s) (core_record p);
  let '(cores, nc) := cn in
  do uarchs <- (if leads RCore p
                then modify uarchs u (fun i => UarchInfo (ua_uarch i) (ua_processors i) (S (ua_cores i)))
                else Ok uarchs);
  do ln <- copy_if (leads RCluster p) (st_clusters s) (st_nl s) (cluster_record p);
  let '(clusters, nl) := ln in
  do kn <- copy_if (leads RPackage p) (st_packages s) (st_nk s) (package_record p);
  let '(packages, nk) := kn in
  do i <- pred_index np;
  do c <- pred_index nc;
  do l <- pred_index nl;
  do k <- pred_index nk;
  do processors <- wr processors i (Processor 0 (Some c) (Some l) (Some k) (r_linux_id p) 0);
  do cores <- modify cores c (fun x => Core (c_processor_start x) (c_processor_count x) (c_core_id x)
                                            (Some l) (Some k) (c_vendor x) (c_uarch x) (c_cpuid x));
  do clusters <- modify clusters l (fun x => Cluster (cl_processor_start x) (cl_processor_count x)
                                               (cl_core_start x) (cl_core_count x) (cl_cluster_id x)
                                               (Some k) (cl_vendor x) (cl_uarch x) (cl_cpuid x));
  do processor_map <- wr (st_processor_map s) (N.to_nat (r_linux_id p)) (Some i);
  do core_map <- wr (st_core_map s) (N.to_nat (r_linux_id p)) (Some c);
  do uarch_map <- wr (st_uarch_map s) (N.to_nat (r_linux_id p)) u;
  Ok (RState processors cores clusters packages uarchs processor_map core_map uarch_map np nc nl nk nu last).

Fixpoint transfer (l : list rproc) (s : rstate) : res rstate :=
  match l with
  | [] => Ok s
  | p :: l' => if negb (r_valid p) then transfer l' s
               else do s' <- transfer_one p s; transfer l' s'
  end.

(** Lines 396-593, given the sorted table, when every allocation succeeds. *)
Definition build_riscv (l : list rproc) : res riscv_tables :=
  let n := length l in
  let np := count_entries (fun _ => true) l in
  do s <- transfer l
    (RState (repeat processor0 np) (repeat core0 (count_entries (leads RCore) l))
            (repeat cluster0 (count_entries (leads RCluster) l))
            (repeat package0 (count_entries (leads RPackage) l))
            (repeat uarch_info0 (count_uarchs 0 0 l))
            (repeat None n) (repeat None n) (repeat 0 n) 0 0 0 0 0 0%N);
  Ok (RiscvTables (st_processors s) (st_cores s) (st_clusters s) (st_packages s) (st_uarchs s)
                  (N.of_nat n) (st_processor_map s) (st_core_map s) (st_uarch_map s)).

(** Heap blocks, in the order of allocation. *)
Inductive rblock := R_linux_processors | R_processors | R_cores | R_clusters | R_packages | R_uarchs
  | R_processor_map | R_core_map | R_uarch_map.
Definition rblock_eqb (a b : rblock) : bool :=
  match a, b with
  | R_linux_processors, R_linux_processors | R_processors, R_processors | R_cores, R_cores
  | R_clusters, R_clusters | R_packages, R_packages | R_uarchs, R_uarchs
  | R_processor_map, R_processor_map | R_core_map, R_core_map | R_uarch_map, R_uarch_map => true
  | _, _ => false
  end.
Definition in_rblocks (b : rblock) (l : list rblock) : bool := existsb (rblock_eqb b) l.
Fixpoint rallocate (calloc_ok : rblock -> bool) (todo live : list rblock) : bool * list rblock :=
  match todo with
  | [] => (true, live)
  | b :: todo' => if calloc_ok b then rallocate calloc_ok todo' (b :: live) else (false, live)
  end.
(** Lines 438-507. *)
Definition riscv_allocations : list rblock :=
  [R_processors; R_cores; R_clusters; R_packages; R_uarchs; R_processor_map; R_core_map; R_uarch_map].
(** Lines 599-606 and 607-617. *)
Definition riscv_reset : list rblock :=
  [R_processors; R_cores; R_clusters; R_packages; R_uarchs; R_processor_map; R_core_map; R_uarch_map].
Definition riscv_frees : list rblock :=
  [R_linux_processors; R_processors; R_cores; R_clusters; R_packages; R_uarchs; R_processor_map; R_core_map;
   R_uarch_map].
Definition rcleanup (reset live : list rblock) : list rblock :=
  filter (fun b => in_rblocks b reset || negb (in_rblocks b riscv_frees)) live.

(** src/riscv/linux/riscv-isa.c:11-43 and include/cpuinfo.h:2144-2166.  The field
    [e] exists on 32-bit targets only and is never set. *)
Record riscv_isa := RiscvIsa {
  isa_i : bool; isa_m : bool; isa_a : bool; isa_f : bool; isa_d : bool; isa_c : bool; isa_v : bool; isa_e : bool
}.
Definition hwcap_bit (letter : N) : N := N.shiftl 1 (letter - 65).
Definition has_hwcap (hwcap letter : N) : bool := negb (N.land hwcap (hwcap_bit letter) =? 0)%N.
Definition decode_hwcap (hwcap : N) : riscv_isa :=
  RiscvIsa (has_hwcap hwcap 73) (has_hwcap hwcap 77) (has_hwcap hwcap 65) (has_hwcap hwcap 70)
           (has_hwcap hwcap 68) (has_hwcap hwcap 67) (has_hwcap hwcap 86) false.

(** cpuinfo_has_riscv_*, include/cpuinfo.h:2171-2240, on RISC-V targets. *)
Inductive riscv_getter := Has_i | Has_e | Has_m | Has_a | Has_f | Has_d | Has_g | Has_c | Has_v.
Definition has_riscv (rv32 : bool) (isa : riscv_isa) (g : riscv_getter) : bool :=
  match g with
  | Has_i => isa_i isa
  | Has_e => if rv32 then isa_e isa else false
  | Has_m => isa_m isa
  | Has_a => isa_a isa
  | Has_f => isa_f isa
  | Has_d => isa_d isa
  | Has_g => isa_i isa && isa_m isa && isa_a isa && isa_f isa && isa_d isa
  | Has_c => isa_c isa
  | Has_v => isa_v isa
  end.

(** What an execution leaves behind: the published tables, the blocks still
    allocated, and the global ISA record, which is written before publication
    (line 374). *)
Record routcome := ROutcome { ro_published : option riscv_tables; ro_live : list rblock; ro_isa : option riscv_isa }.

(** src/riscv/linux/init.c:229-618. *)
Definition riscv_linux_init (sg : bool) (default_max : N) (sorter : list rproc -> list rproc)
           (calloc_ok : rblock -> bool) (fs : riscv_files) : res routcome :=
  do max <- get_max_processors_count default_max (f_contents (rf_kernel_max fs)) (f_reads (rf_kernel_max fs));
  do last <- get_max_listed_processor sg max (f_contents (rf_present_max fs)) (f_reads (rf_present_max fs));
  let max_id := u32 (1 + last) in
  if (max_id =? 0)%N then Ok (ROutcome None [] None)
  else if negb (calloc_ok R_linux_processors) then Ok (ROutcome None [] None)
  else
    do d <- detect_riscv sg max_id fs;
    match d with
    | None => Ok (ROutcome None (rcleanup [] [R_linux_processors]) None)
    | Some procs =>
        let isa := decode_hwcap (rf_hwcap fs) in
        let sorted := sorter procs in
        let '(ok, live) := rallocate calloc_ok riscv_allocations [R_linux_processors] in
        if ok then
          do t <- build_riscv sorted;
          Ok (ROutcome (Some t) (rcleanup riscv_reset live) (Some isa))
        else Ok (ROutcome None (rcleanup [] live) (Some isa))
    end.
