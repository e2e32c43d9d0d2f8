(** Model of src/arm/linux/init.c, on top of the models of the files it uses.  Definitions only.
    The chipset is decoded differently for GNU/Linux and for Android: it is an argument.
    Left out: the log messages, the package name (ArmPackageModel) and the instruction set
    record (line 249-309), of which only the time of writing is kept. *)
From Verif Require Import Base Sorting LinuxTextModel TopologySpec ArmMidrModel Loops ArmClustersModel ArmClusterMidrModel
  ArmCpuinfoModel.
From Verif Require RiscvLinuxModel X86LinuxModel.
Import RiscvLinuxModel(copy_if, pred_index).
Import X86LinuxModel(cache_size_at).
Open Scope nat_scope.

(** The functions of other files that interpret a MIDR, given as arguments: vendor and
    microarchitecture (src/arm/uarch.c), chipset (src/arm/linux/chipset.c), caches
    (src/arm/cache.c; level 1 instruction and data, 2 and 3), and the maximum cache size
    if it depends on the microarchitecture only (src/arm/cache.c:1653-1786). *)
Record arm_decoders := ArmDecoders {
  ad_uarch : N -> bool -> N * N;
  ad_chipset : chars -> chars -> nat -> res chipset;
  ad_caches : N -> nat -> N -> chipset -> nat -> N -> res (geometry * geometry * geometry * geometry);
  ad_max_cache : N -> option N
}.

(** The files of one logical processor, and all files. *)
Record acpu_files := ACpuFiles {
  ac_max_frequency : file; ac_min_frequency : file; ac_package_id : file; ac_siblings : sibling_files
}.
Record arm_files := ArmFiles {
  amf_kernel_max : file; amf_possible_max : file; amf_present_max : file; amf_possible : file; amf_present : file;
  amf_cpuinfo : file; amf_cpu : nat -> acpu_files
}.

(** ** Before the clusters: init.c:154-335 *)

(** Lines 154-168: the flags of a table of [max] entries. *)
Definition listed_flags (sg : bool) (max : N) (possible present : bool) (fs : arm_files) : res (list N) :=
  let detect (wanted : bool) flag f flags :=
    if wanted then do r <- detect_listed_processors sg max flag (f_contents f) (f_reads f) flags; Ok (snd r) else Ok flags in
  do flags <- detect possible af_possible (amf_possible fs) (repeat 0%N (N.to_nat max));
  detect present af_present (amf_present fs) flags.

(** Lines 191-197. *)
Definition mark_valid (mask : N) (p : aproc) : aproc :=
  if bitmask_all (a_flags p) mask then add_aflag af_valid p else p.
(** Lines 203-204. *)
Definition number_processors (ps : list aproc) : list aproc :=
  map (fun ip => let '(i, p) := ip in with_aid i p) (combine (seq 0 (length ps)) ps).
(** Lines 205-212: valid_processors. *)
Definition count_listed (ps : list aproc) : nat :=
  length (filter (fun p => a_valid p && any_flag (a_flags p) af_processor) ps).

(** Lines 312-330, one iteration. *)
Definition frequency_step (files : nat -> acpu_files) (i : nat) (ps : list aproc) : res (list aproc) :=
  do p <- rd ps i;
  if a_valid p then
    let read f := get_processor_frequency (f_contents f) (f_reads f) in
    do max <- read (ac_max_frequency (files i));
    let p1 := if (max =? 0)%N then p else add_aflag af_max_frequency (with_amax max p) in
    do min <- read (ac_min_frequency (files i));
    let p2 := if (min =? 0)%N then p1 else add_aflag af_min_frequency (with_amin min p1) in
    let f := ac_package_id (files i) in
    do id <- get_processor_id_file (f_contents f) (f_reads f);
    wr ps i (match id with Some _ => add_aflag af_package_id p2 | None => p2 end)
  else Ok ps.
Definition detect_frequencies (files : nat -> acpu_files) (ps : list aproc) : res (list aproc) :=
  for_each (frequency_step files) 0 (length ps) ps.

(** ** The order of the processors *)

(** src/arm/linux/init.c:29-31. *)
Definition cmp_nat (a b : nat) : Z :=
  ((if (b <? a)%nat then 1 else 0) - (if (a <? b)%nat then 1 else 0))%Z.
(** "x > y ? -1 : 1" and the test that x and y differ. *)
Definition cmp_down (a b : N) (otherwise : Z) : Z :=
  if (a =? b)%N then otherwise else if (b <? a)%N then (-1)%Z else 1%Z.
(** Lines 64-105. *)
Definition cmp_arm_linux_processor (arm32 : bool) (a b : aproc) : Z :=
  if negb (Bool.eqb (a_valid a) (a_valid b)) then
    ((if a_valid b then 1 else 0) - (if a_valid a then 1 else 0))%Z
  else
    let rest :=
      cmp_down (a_max a) (a_max b)
        (cmp_down (N.of_nat (a_leader a)) (N.of_nat (a_leader b)) (cmp_nat (a_id a) (a_id b))) in
    if (a_midr a =? a_midr b)%N then rest
    else cmp_down (midr_score_core arm32 (a_midr a)) (midr_score_core arm32 (a_midr b)) rest.

(** ** The tables, init.c:491-833 *)

(** Lines 491-503: uarch_index, and the number of microarchitectures; last_uarch is read
    only after it has been written. *)
Fixpoint number_uarchs (count : nat) (last : N) (ps : list aproc) : nat * N * list aproc :=
  match ps with
  | [] => (count, last, [])
  | p :: r =>
      if a_valid p then
        let new := (count =? 0) || negb (a_uarch p =? last)%N in
        let count' := if new then S count else count in
        let '(n, l, r') := number_uarchs count' (a_uarch p) r in
        (n, l, with_auarch_index (count' - 1) p :: r')
      else let '(n, l, r') := number_uarchs count last r in (n, l, p :: r')
  end.

(** struct cpuinfo_uarch_info, include/cpuinfo.h:729-743. *)
Record arm_uarch := ArmUarch { au_uarch : N; au_midr : N; au_processors : nat; au_cores : nat }.
Definition arm_uarch0 : arm_uarch := ArmUarch 0 0 0 0.
(** Lines 601-615; [index] is uarchs_index. *)
Fixpoint fill_uarchs (index : nat) (last : N) (uarchs : list arm_uarch) (ps : list aproc) : res (list arm_uarch) :=
  match ps with
  | [] => Ok uarchs
  | p :: r =>
      if a_valid p then
        do un <- copy_if ((index =? 0) || negb (a_uarch p =? last)%N) uarchs index (ArmUarch (a_uarch p) (a_midr p) 0 0);
        let '(uarchs1, index1) := un in
        do u <- pred_index index1;
        do uarchs2 <- modify uarchs1 u
          (fun x => ArmUarch (au_uarch x) (au_midr x) (S (au_processors x)) (S (au_cores x)));
        fill_uarchs index1 (a_uarch p) uarchs2 r
      else fill_uarchs index last uarchs r
  end.

Definition is_cluster_leader (p : aproc) : bool := a_leader p =? a_id p.

(** Lines 623-666: the processor, its core, and its cluster if it is the first one of
    it.  [ts_next] is cluster_id + 1. *)
Record tstate := TState {
  ts_processors : list processor; ts_cores : list core; ts_clusters : list cluster; ts_next : nat;
  ts_processor_map : list (option nat); ts_core_map : list (option nat); ts_uarch_map : option (list nat)
}.
Definition place (i : nat) (p : aproc) (s : tstate) : res tstate :=
  do cn <- copy_if (is_cluster_leader p) (ts_clusters s) (ts_next s)
             (Cluster i (a_count p) i (a_count p) (ts_next s) (Some 0) (a_vendor p) (a_uarch p) (a_midr p));
  let '(clusters, next) := cn in
  do id <- pred_index next;
  do processors <- wr (ts_processors s) i (Processor 0 (Some i) (Some id) (Some 0) (N.of_nat (a_id p)) 0);
  do processor_map <- wr (ts_processor_map s) (a_id p) (Some i);
  do cores <- wr (ts_cores s) i (Core i 1 i (Some id) (Some 0) (a_vendor p) (a_uarch p) (a_midr p));
  do core_map <- wr (ts_core_map s) (a_id p) (Some i);
  do uarch_map <- match ts_uarch_map s with
                  | None => Ok None
                  | Some m => do m' <- wr m (a_id p) (a_uarch_index p); Ok (Some m')
                  end;
  Ok (TState processors cores clusters next processor_map core_map uarch_map).

(** Lines 668-679 and 759-771: the caches of a processor; [id] is cluster_id. *)
Definition caches_of (d : arm_decoders) (chip : chipset) (id : nat) (p : aproc)
  : res (geometry * geometry * geometry * geometry) :=
  ad_caches d (a_uarch p) (a_count p) (a_midr p) chip id (ar_architecture_version (a_report p)).

(** Lines 680-703: what /proc/cpuinfo said overrides the first-level caches on 32-bit
    ARM; the fields that are not named are zero. *)
Definition l1_cache (arm32 : bool) (i : nat) (g : geometry) (mask : N) (report : l1_report) (p : aproc) : cache :=
  if arm32 && bitmask_all (a_flags p) mask then
    Cache (Geometry (lr_size report) (lr_assoc report) (lr_sets report) 1 (lr_line report) 0) 0 0
  else Cache g i 1.

(** The variables of lines 617-619. *)
Record counts := Counts { n_l2 : nat; n_l3 : nat; n_big_l3 : N; n_shared_l3 : bool }.
(** Lines 705-729; [id] is cluster_id. *)
Definition count_caches (id : nat) (p : aproc) (g2 g3 : geometry) (c : counts) : counts :=
  if negb (g_size g3 =? 0)%N then
    let c1 := Counts (S (n_l2 c)) (n_l3 c) (n_big_l3 c) (n_shared_l3 c) in
    if is_cluster_leader p then
      if id =? 0 then Counts (n_l2 c1) 1 (g_size g3) (n_shared_l3 c1)
      else if negb (g_size g3 =? n_big_l3 c1)%N then Counts (n_l2 c1) (S (n_l3 c1)) (n_big_l3 c1) false
      else c1
    else c1
  else
    Counts (if negb (g_size g2 =? 0)%N && is_cluster_leader p then S (n_l2 c) else n_l2 c) (n_l3 c) (n_big_l3 c) false.

(** Lines 621-730, one iteration. *)
Record fstate := FState { fs_topology : tstate; fs_l1i : list cache; fs_l1d : list cache; fs_counts : counts }.
Definition fill_step (arm32 : bool) (d : arm_decoders) (chip : chipset) (ps : list aproc) (i : nat) (s : fstate) : res fstate :=
  do p <- rd ps i;
  do t <- place i p (fs_topology s);
  do id <- pred_index (ts_next t);
  do gs <- caches_of d chip id p;
  let '(g1i, g1d, g2, g3) := gs in
  do l1i <- wr (fs_l1i s) i (l1_cache arm32 i g1i af_icache (ar_icache (a_report p)) p);
  do l1d <- wr (fs_l1d s) i (l1_cache arm32 i g1d af_dcache (ar_dcache (a_report p)) p);
  Ok (FState t l1i l1d (count_caches id p g2 g3 (fs_counts s))).

(** Lines 777-822: the shared caches.  [ss_next], [ss_next_l2] and [ss_next_l3] are
    cluster_id + 1, l2_index + 1 and l3_index + 1. *)
Record sstate := SState {
  ss_next : nat; ss_l2 : list cache; ss_next_l2 : nat; ss_l3 : list cache; ss_next_l3 : nat;
  ss_l2_of : list (option nat); ss_l3_of : list (option nat)
}.
Definition one_partition (g : geometry) : geometry :=
  Geometry (g_size g) (g_associativity g) (g_sets g) 1 (g_line_size g) (g_flags g).
(** A pointer to the first element, if there is an array. *)
Definition first_of {A} (l : list A) : option nat := match l with [] => None | _ => Some 0 end.
(** l3_index < l3_count, where l3_index starts as UINT32_MAX. *)
Definition in_table {A} (next : nat) (l : list A) : bool := (0 <? next) && (next <=? length l).

(** Lines 754-833, one iteration; [usable] is valid_processors. *)
Definition share_step (d : arm_decoders) (chip : chipset) (ps : list aproc) (usable : nat) (shared_l3 : bool) (i : nat)
           (s : sstate) : res sstate :=
  do p <- rd ps i;
  let leads := is_cluster_leader p in
  let next := if leads then S (ss_next s) else ss_next s in
  do id <- pred_index next;
  do gs <- caches_of d chip id p;
  let '(_, _, g2, g3) := gs in
  if negb (g_size g3 =? 0)%N then
    let k := ss_next_l2 s in
    do l2 <- wr (ss_l2 s) k (Cache (one_partition g2) i 1);
    do l2_of <- wr (ss_l2_of s) i (Some k);
    let next3 := if leads then S (ss_next_l3 s) else ss_next_l3 s in
    do l3 <- (if leads && in_table next3 (ss_l3 s)
              then wr (ss_l3 s) (next3 - 1) (Cache (one_partition g3) i (if shared_l3 then usable else a_count p))
              else Ok (ss_l3 s));
    do l3_of <- (if shared_l3 then wr (ss_l3_of s) i (first_of l3)
                 else if in_table next3 l3 then wr (ss_l3_of s) i (Some (next3 - 1)) else Ok (ss_l3_of s));
    Ok (SState next l2 (S k) l3 next3 l2_of l3_of)
  else if negb (g_size g2 =? 0)%N then
    do ln <- copy_if leads (ss_l2 s) (ss_next_l2 s) (Cache (one_partition g2) i (a_count p));
    let '(l2, next2) := ln in
    do k <- pred_index next2;
    do l2_of <- wr (ss_l2_of s) i (Some k);
    Ok (SState next l2 next2 (ss_l3 s) (ss_next_l3 s) l2_of (ss_l3_of s))
  else Ok (SState next (ss_l2 s) (ss_next_l2 s) (ss_l3 s) (ss_next_l3 s) (ss_l2_of s) (ss_l3_of s)).

(** The published tables of ARM Linux. *)
Record arm_tables := ArmTables {
  at_processors : list processor; at_cores : list core; at_clusters : list cluster; at_package : package;
  at_uarchs : list arm_uarch;
  at_l1i : list cache; at_l1d : list cache; at_l2 : list cache; at_l3 : list cache;
  at_l2_of : list (option nat); at_l3_of : list (option nat);
  at_max_cache_size : N;
  at_linux_cpu_max : N;
  at_processor_map : list (option nat); at_core_map : list (option nat); at_uarch_map : option (list nat)
}.

(** src/arm/cache.c:1653-1786 and src/cache.c:6-17 applied to &processors[0] (line 855);
    its L1 data cache is that of index 0 (line 649). *)
Definition arm_max_cache_size (d : arm_decoders) (cores : list core) (l1d l2 l3 : list cache) (l2_of l3_of : list (option nat))
  : res N :=
  do c <- rd cores 0;
  match ad_max_cache d (c_uarch c) with
  | Some n => Ok n
  | None =>
      do p3 <- rd l3_of 0;
      match p3 with
      | Some i => cache_size_at l3 i
      | None =>
          do p2 <- rd l2_of 0;
          match p2 with Some i => cache_size_at l2 i | None => cache_size_at l1d 0 end
      end
  end.

(** Heap blocks, in the order of allocation. *)
Inductive ablock := A_linux_processors | A_processors | A_cores | A_clusters | A_uarchs
  | A_processor_map | A_core_map | A_uarch_map | A_l1i | A_l1d | A_l2 | A_l3.
Definition ablock_eqb (a b : ablock) : bool :=
  match a, b with
  | A_linux_processors, A_linux_processors | A_processors, A_processors | A_cores, A_cores | A_clusters, A_clusters
  | A_uarchs, A_uarchs | A_processor_map, A_processor_map | A_core_map, A_core_map | A_uarch_map, A_uarch_map
  | A_l1i, A_l1i | A_l1d, A_l1d | A_l2, A_l2 | A_l3, A_l3 => true
  | _, _ => false
  end.
Definition in_ablocks (b : ablock) (l : list ablock) : bool := existsb (ablock_eqb b) l.
Fixpoint aallocate (calloc_ok : ablock -> bool) (todo live : list ablock) : bool * list ablock :=
  match todo with
  | [] => (true, live)
  | b :: todo' => if calloc_ok b then aallocate calloc_ok todo' (b :: live) else (false, live)
  end.
(** Lines 518-599 and 732-752. *)
Definition arm_allocations (uarchs : nat) : list ablock :=
  [A_processors; A_cores; A_clusters; A_uarchs; A_processor_map; A_core_map] ++
  (if 1 <? uarchs then [A_uarch_map] else []) ++ [A_l1i; A_l1d].
Definition arm_cache_allocations (l2 l3 : nat) : list ablock :=
  if l2 =? 0 then [] else A_l2 :: (if l3 =? 0 then [] else [A_l3]).
(** Lines 866-873 and 875-887. *)
Definition arm_reset : list ablock :=
  [A_processors; A_cores; A_clusters; A_uarchs; A_l1i; A_l1d; A_l2; A_l3; A_processor_map; A_core_map; A_uarch_map].
Definition arm_frees : list ablock :=
  [A_linux_processors; A_processors; A_cores; A_clusters; A_uarchs; A_l1i; A_l1d; A_l2; A_l3; A_processor_map; A_core_map;
   A_uarch_map].
Definition acleanup (reset live : list ablock) : list ablock :=
  filter (fun b => in_ablocks b reset || negb (in_ablocks b arm_frees)) live.

(** What an execution leaves behind; [ao_isa] tells whether the global instruction set
    record and the package record have been written. *)
Record aoutcome := AOutcome { ao_published : option arm_tables; ao_live : list ablock; ao_isa : bool }.

(** Lines 491-887: the tables, given the sorted array. *)
Definition build_arm (arm32 : bool) (d : arm_decoders) (chip : chipset) (calloc_ok : ablock -> bool) (usable clusters : nat)
           (sorted : list aproc) : res aoutcome :=
  let n := length sorted in
  let '(uarchs_count, last_uarch, ps) := number_uarchs 0 0 sorted in
  let '(ok, live) := aallocate calloc_ok (arm_allocations uarchs_count) [A_linux_processors] in
  if negb ok then Ok (AOutcome None (acleanup [] live) true)
  else
    do uarchs <- fill_uarchs 0 last_uarch (repeat arm_uarch0 uarchs_count) ps;
    do f <- for_each (fill_step arm32 d chip ps) 0 usable
      (FState (TState (repeat processor0 usable) (repeat core0 usable) (repeat cluster0 clusters) 0
                      (repeat None n) (repeat None n) (if 1 <? uarchs_count then Some (repeat 0 n) else None))
              (repeat cache0 usable) (repeat cache0 usable) (Counts 0 0 0 true));
    let t := fs_topology f in
    let c := fs_counts f in
    let '(ok, live) := aallocate calloc_ok (arm_cache_allocations (n_l2 c) (n_l3 c)) live in
    if negb ok then Ok (AOutcome None (acleanup [] live) true)
    else
      do s <- for_each (share_step d chip ps usable (n_shared_l3 c)) 0 usable
        (SState 0 (repeat cache0 (n_l2 c)) 0 (if n_l2 c =? 0 then [] else repeat cache0 (n_l3 c)) 0
                (repeat None usable) (repeat None usable));
      do max <- arm_max_cache_size d (ts_cores t) (fs_l1d f) (ss_l2 s) (ss_l3 s) (ss_l2_of s) (ss_l3_of s);
      Ok (AOutcome
            (Some (ArmTables (ts_processors t) (ts_cores t) (ts_clusters t) (Package 0 usable 0 usable 0 clusters) uarchs
                             (fs_l1i f) (fs_l1d f) (ss_l2 s) (ss_l3 s) (ss_l2_of s) (ss_l3_of s) max (N.of_nat n)
                             (ts_processor_map t) (ts_core_map t) (ts_uarch_map t)))
            (acleanup arm_reset live) true).

(** Lines 170-239: the Hardware and Revision buffers, the number of processors that are usable
    and listed, and the table.  [None]: /proc/cpuinfo cannot be read. *)
Definition read_board (sg arm32 : bool) (mask : N) (fs : arm_files) (flags : list N) : res (option (chars * chars * nat * list aproc)) :=
  let max := N.of_nat (length flags) in
  do r <- arm_parse_proc_cpuinfo arm32 sg max (f_contents (amf_cpuinfo fs)) (f_reads (amf_cpuinfo fs))
            (repeat None hardware_value_max) (repeat None revision_value_max) (map (fun f => with_aflags f aproc0) flags);
  let '(ok, st) := r in
  if negb ok then Ok None
  else
    let ps := number_processors (map (mark_valid mask) (cs_procs st)) in
    Ok (Some (cs_hardware st, cs_revision st, count_listed ps, ps)).

(** Lines 170-464: the table of processors before sorting, with the chipset, the number
    of processors that are usable and listed, and the number of clusters.  [garbage] stands
    for uninitialised variables. *)
Definition detect_arm (sg arm32 android : bool) (garbage : known) (d : arm_decoders) (mask : N) (fs : arm_files) (flags : list N)
  : res (option (chipset * nat * nat * list aproc)) :=
  do r <- read_board sg arm32 mask fs flags;
  match r with
  | None => Ok None
  | Some (hardware, revision, usable, ps) =>
      do chip <- ad_chipset d hardware revision usable;
      do ps1 <- detect_frequencies (amf_cpu fs) ps;
      do ps2 <- detect_clusters sg (android && arm32) garbage (fun i => ac_siblings (amf_cpu fs i)) usable ps1;
      do cm <- assign_midrs arm32 (ad_uarch d) chip usable ps2;
      let '(clusters, ps3) := cm in
      Ok (Some (chip, usable, clusters, ps3))
  end.

(** Lines 121-168: the lists of processors, then [rest] of the mask and the flags; [nothing]
    without lists or memory. *)
Definition with_lists {A} (sg : bool) (default_max : N) (calloc_ok : ablock -> bool) (fs : arm_files) (nothing : A)
           (rest : N -> list N -> res A) : res A :=
  do max <- get_max_processors_count default_max (f_contents (amf_kernel_max fs)) (f_reads (amf_kernel_max fs));
  do last_possible <- get_max_listed_processor sg max (f_contents (amf_possible_max fs)) (f_reads (amf_possible_max fs));
  do last_present <- get_max_listed_processor sg max (f_contents (amf_present_max fs)) (f_reads (amf_present_max fs));
  let possible := u32 (1 + last_possible) in
  let present := u32 (1 + last_present) in
  let has_possible := negb (possible =? 0)%N in
  let has_present := negb (present =? 0)%N in
  let count := if has_present then N.min max present else max in
  let count := if has_possible then N.min count possible else count in
  let mask := N.lor (if has_present then af_present else 0) (if has_possible then af_possible else 0) in
  if negb (has_present || has_possible) then Ok nothing
  else if negb (calloc_ok A_linux_processors) then Ok nothing
  else
    do flags <- listed_flags sg count has_possible has_present fs;
    rest mask flags.

(** src/arm/linux/init.c:107-888; [android]: the build is for Android. *)
Definition arm_linux_init (sg arm32 android : bool) (garbage : known) (default_max : N) (sorter : list aproc -> list aproc)
           (calloc_ok : ablock -> bool) (d : arm_decoders) (fs : arm_files) : res aoutcome :=
  with_lists sg default_max calloc_ok fs (AOutcome None [] false) (fun mask flags =>
    do r <- detect_arm sg arm32 android garbage d mask fs flags;
    match r with
    | None => Ok (AOutcome None [A_linux_processors] false)
    | Some (chip, usable, clusters, ps) => build_arm arm32 d chip calloc_ok usable clusters (sorter ps)
    end).
