(** Model of src/x86/linux/init.c.  Definitions only.
    The log messages, the package name and the brand string are left out. *)
From Verif Require Import Base Sorting LinuxTextModel X86CpuinfoModel TopologySpec.
Open Scope nat_scope.

(** struct cpuinfo_x86_cache, src/x86/api.h:16-24; the first six fields are the
    geometry that is copied to the published cache. *)
Record xcache := XCache { xc_geometry : geometry; xc_apic_bits : N }.

(** The parts of struct cpuinfo_x86_processor (src/x86/api.h:46-73) that init.c
    reads.  cpuinfo_x86_init_processor, which fills it from CPUID, is modelled
    elsewhere. *)
Record xinfo := XInfo {
  xi_vendor : N; xi_uarch : N; xi_cpuid : N;
  xi_thread_offset : N; xi_thread_length : N; xi_core_offset : N; xi_core_length : N;
  xi_l1i : xcache; xi_l1d : xcache; xi_l2 : xcache; xi_l3 : xcache; xi_l4 : xcache
}.

(** src/x86/linux/init.c:13-15: a shift by 32 or more is undefined. *)
Definition bit_mask (bits : N) : res N :=
  if (bits <? 32)%N then Ok (sub32 (u32 (N.shiftl 1 bits)) 1) else UB.

(** [bit_mask(length) << offset], as in lines 61-63. *)
Definition field_mask (length offset : N) : res N :=
  do m <- bit_mask length;
  if (offset <? 32)%N then Ok (u32 (N.shiftl m offset)) else UB.

(** src/x86/linux/init.c:17-19. *)
Definition bitmask_all (bitfield mask : N) : bool := (N.land bitfield mask =? mask)%N.

(** src/x86/linux/init.c:25-27: the sign of the result. *)
Definition cmp_u32 (a b : N) : Z :=
  ((if (b <? a)%N then 1 else 0) - (if (a <? b)%N then 1 else 0))%Z.

(** src/x86/linux/init.c:29-44. *)
Definition cmp_x86_linux_processor (a b : xproc) : Z :=
  let usable_a := bitmask_all (x_flags a) flag_valid in
  let usable_b := bitmask_all (x_flags b) flag_valid in
  if negb (Bool.eqb usable_a usable_b) then
    ((if usable_b then 1 else 0) - (if usable_a then 1 else 0))%Z
  else cmp_u32 (x_apic_id a) (x_apic_id b).

(** The qsort call of line 233: any function that sorts by the comparator. *)
Definition qsort_contract : (list xproc -> list xproc) -> Prop := sorts cmp_x86_linux_processor.

(** src/x86/linux/init.c:60-66 and 379-384: core, package and cluster masks. *)
Definition apic_masks (x : xinfo) (llc_apic_bits : N) : res (N * N * N) :=
  do t <- field_mask (xi_thread_length x) (xi_thread_offset x);
  let core_mask := not32 t in
  do c <- field_mask (xi_core_length x) (xi_core_offset x);
  let package_mask := N.land core_mask (not32 c) in
  do l <- bit_mask llc_apic_bits;
  let llc_mask := not32 l in
  Ok (core_mask, package_mask, N.lor package_mask llc_mask).

(** One counter of src/x86/linux/init.c:46-145.  The C loop advances the eight
    counters together; they do not influence one another, so each is a loop of
    its own here.  [key] is the id the counter compares. *)
Fixpoint count_keys (mask : N) (key : N -> N) (l : list xproc) (last : N) (count : nat) : nat :=
  match l with
  | [] => count
  | p :: l' =>
      if bitmask_all (x_flags p) mask then
        let id := key (x_apic_id p) in
        if (id =? last)%N then count_keys mask key l' last count
        else count_keys mask key l' id (S count)
      else count_keys mask key l' last count
  end.

Definition count_objects (mask key_mask : N) (l : list xproc) : nat :=
  count_keys mask (fun a => N.land a key_mask) l u32max 0.

(** Lines 93-134: caches of size 0 are not counted. *)
Definition count_caches (mask : N) (c : xcache) (l : list xproc) : res nat :=
  if (g_size (xc_geometry c) =? 0)%N then Ok 0
  else do m <- bit_mask (xc_apic_bits c); Ok (count_objects mask (not32 m) l).

(** src/x86/linux/init.c:247-256. *)
Definition llc_apic_bits (x : xinfo) : N :=
  let has c := negb (g_size (xc_geometry c) =? 0)%N in
  if has (xi_l4 x) then xc_apic_bits (xi_l4 x)
  else if has (xi_l3 x) then xc_apic_bits (xi_l3 x)
  else if has (xi_l2 x) then xc_apic_bits (xi_l2 x)
  else if has (xi_l1d x) then xc_apic_bits (xi_l1d x)
  else 0%N.

(** Variables of the main loop, src/x86/linux/init.c:386-393, and the tables it
    fills, without the caches.  An index of UINT32_MAX is [None]. *)
Record lstate := LState {
  s_processors : list processor;
  s_cores : list core;
  s_clusters : list cluster;
  s_packages : list package;
  s_processor_map : list (option nat);
  s_core_map : list (option nat);
  s_processor_index : option nat;
  s_core_index : option nat;
  s_cluster_index : option nat;
  s_package_index : option nat;
  s_cluster_id : nat;
  s_core_id : nat;
  s_smt_id : nat;
  s_last_core : N;
  s_last_cluster : N;
  s_last_package : N
}.

(** Field updates. *)
Definition add_core_processor (c : core) : core :=
  Core (c_processor_start c) (S (c_processor_count c)) (c_core_id c) (c_cluster c) (c_package c)
       (c_vendor c) (c_uarch c) (c_cpuid c).
Definition add_cluster_core (c : cluster) : cluster :=
  Cluster (cl_processor_start c) (cl_processor_count c) (cl_core_start c) (S (cl_core_count c))
          (cl_cluster_id c) (cl_package c) (cl_vendor c) (cl_uarch c) (cl_cpuid c).
Definition add_cluster_processor (c : cluster) : cluster :=
  Cluster (cl_processor_start c) (S (cl_processor_count c)) (cl_core_start c) (cl_core_count c)
          (cl_cluster_id c) (cl_package c) (cl_vendor c) (cl_uarch c) (cl_cpuid c).
Definition start_cluster (x : xinfo) (pi ci : nat) (id : nat) (package : option nat) (c : cluster) : cluster :=
  Cluster pi 1 ci (cl_core_count c) id package (xi_vendor x) (xi_uarch x) (xi_cpuid x).
Definition add_package_core (p : package) : package :=
  Package (pk_processor_start p) (pk_processor_count p) (pk_core_start p) (S (pk_core_count p))
          (pk_cluster_start p) (pk_cluster_count p).
Definition add_package_cluster (p : package) : package :=
  Package (pk_processor_start p) (pk_processor_count p) (pk_core_start p) (pk_core_count p)
          (pk_cluster_start p) (S (pk_cluster_count p)).
Definition add_package_processor (p : package) : package :=
  Package (pk_processor_start p) (S (pk_processor_count p)) (pk_core_start p) (pk_core_count p)
          (pk_cluster_start p) (pk_cluster_count p).
Definition start_package (pi ci li : nat) (p : package) : package :=
  Package pi 1 ci (pk_core_count p) li (pk_cluster_count p).

(** The value of an index variable where the C code stores it as a number. *)
Definition index_value (i : option nat) : res nat := match i with Some n => Ok n | None => UB end.

(** Body of the main loop for one usable processor, src/x86/linux/init.c:396-487
    (everything but the caches). *)
Definition topology_step (x : xinfo) (masks : N * N * N) (p : xproc) (s : lstate) : res lstate :=
  let '(core_mask, package_mask, cluster_mask) := masks in
  let apic := x_apic_id p in
  let pi := incr_index (s_processor_index s) in
  let core_key := N.land apic core_mask in
  let new_core := negb (core_key =? s_last_core s)%N in
  let ci := if new_core then incr_index (s_core_index s) else s_core_index s in
  let core_id1 := if new_core then S (s_core_id s) else s_core_id s in
  let smt_id := if new_core then 0 else S (s_smt_id s) in
  let cluster_key := N.land apic cluster_mask in
  let new_cluster := negb (cluster_key =? s_last_cluster s)%N in
  let li := if new_cluster then incr_index (s_cluster_index s) else s_cluster_index s in
  let cluster_id1 := if new_cluster then S (s_cluster_id s) else s_cluster_id s in
  let package_key := N.land apic package_mask in
  let new_package := negb (package_key =? s_last_package s)%N in
  let ki := if new_package then incr_index (s_package_index s) else s_package_index s in
  let core_id := if new_package then 0 else core_id1 in
  let cluster_id := if new_package then 0 else cluster_id1 in
  do pin <- index_value pi;
  (* lines 427-433 *)
  do processors <- wr (s_processors s) pin
                     (Processor smt_id ci li ki (x_linux_id p) (x_apic_id p));
  (* lines 435-454 *)
  do cs <- (if new_core then
              do cores <- wr_at (s_cores s) ci
                            (Core pin 1 core_id li ki (xi_vendor x) (xi_uarch x) (xi_cpuid x));
              do clusters <- modify_at (s_clusters s) li add_cluster_core;
              do packages <- modify_at (s_packages s) ki add_package_core;
              Ok (cores, clusters, packages)
            else
              do cores <- modify_at (s_cores s) ci add_core_processor;
              Ok (cores, s_clusters s, s_packages s));
  let '(cores, clusters, packages) := cs in
  do cin <- index_value ci;
  (* lines 456-472 *)
  do ls <- (if new_cluster then
              do clusters <- modify_at clusters li (start_cluster x pin cin cluster_id ki);
              do packages <- modify_at packages ki add_package_cluster;
              Ok (clusters, packages)
            else
              do clusters <- modify_at clusters li add_cluster_processor;
              Ok (clusters, packages));
  let '(clusters, packages) := ls in
  do lin <- index_value li;
  (* lines 474-487 *)
  do packages <- (if new_package then modify_at packages ki (start_package pin cin lin)
                  else modify_at packages ki add_package_processor);
  (* lines 489-490 *)
  do processor_map <- wr (s_processor_map s) (N.to_nat (x_linux_id p)) pi;
  do core_map <- wr (s_core_map s) (N.to_nat (x_linux_id p)) ci;
  Ok (LState processors cores clusters packages processor_map core_map pi ci li ki
             cluster_id core_id smt_id core_key cluster_key package_key).

(** State of one cache level: the table, the processors' pointers into it, the
    index variable and the last id. *)
Record cstate := CState {
  cs_caches : list cache;
  cs_pointers : list (option nat);
  cs_index : option nat;
  cs_last : N
}.

(** Lines 492-516 (L1I; the other four levels, lines 517-616, are the same
    text).  [i] is the loop variable, which the code uses as the processor's
    index here.  The first store to the pointer (line 494) is overwritten by
    the second and left out. *)
Definition cache_step (c : xcache) (i : nat) (pi : nat) (apic : N) (s : cstate) : res cstate :=
  if (g_size (xc_geometry c) =? 0)%N then
    Ok (CState (cs_caches s) (cs_pointers s) (cs_index s) u32max)
  else
    do m <- bit_mask (xc_apic_bits c);
    let id := N.land apic (not32 m) in
    if negb (id =? cs_last s)%N then
      let idx := incr_index (cs_index s) in
      do caches <- wr_at (cs_caches s) idx (Cache (xc_geometry c) pi 1);
      do pointers <- wr (cs_pointers s) i idx;
      Ok (CState caches pointers idx id)
    else
      do caches <- modify_at (cs_caches s) (cs_index s)
        (fun k => Cache (ca_geometry k) (ca_processor_start k) (S (ca_processor_count k)));
      do pointers <- wr (cs_pointers s) i (cs_index s);
      Ok (CState caches pointers (cs_index s) (cs_last s)).

Record mstate := MState {
  m_topology : lstate;
  m_l1i : cstate; m_l1d : cstate; m_l2 : cstate; m_l3 : cstate; m_l4 : cstate
}.

Definition main_step (x : xinfo) (masks : N * N * N) (i : nat) (p : xproc) (s : mstate) : res mstate :=
  if bitmask_all (x_flags p) flag_valid then
    do t <- topology_step x masks p (m_topology s);
    do pi <- index_value (s_processor_index t);
    do l1i <- cache_step (xi_l1i x) i pi (x_apic_id p) (m_l1i s);
    do l1d <- cache_step (xi_l1d x) i pi (x_apic_id p) (m_l1d s);
    do l2 <- cache_step (xi_l2 x) i pi (x_apic_id p) (m_l2 s);
    do l3 <- cache_step (xi_l3 x) i pi (x_apic_id p) (m_l3 s);
    do l4 <- cache_step (xi_l4 x) i pi (x_apic_id p) (m_l4 s);
    Ok (MState t l1i l1d l2 l3 l4)
  else Ok s.

(** The main loop, src/x86/linux/init.c:394-618. *)
Fixpoint main_loop (x : xinfo) (masks : N * N * N) (i : nat) (l : list xproc) (s : mstate) : res mstate :=
  match l with
  | [] => Ok s
  | p :: l' => do s' <- main_step x masks i p s; main_loop x masks (S i) l' s'
  end.

(** The blocks the function allocates. *)
Inductive block := B_linux_processors | B_processors | B_processor_map | B_core_map | B_cores
  | B_clusters | B_packages | B_l1i | B_l1d | B_l2 | B_l3 | B_l4.

Definition block_eqb (a b : block) : bool :=
  match a, b with
  | B_linux_processors, B_linux_processors | B_processors, B_processors
  | B_processor_map, B_processor_map | B_core_map, B_core_map | B_cores, B_cores
  | B_clusters, B_clusters | B_packages, B_packages | B_l1i, B_l1i | B_l1d, B_l1d
  | B_l2, B_l2 | B_l3, B_l3 | B_l4, B_l4 => true
  | _, _ => false
  end.

(** What an execution of the function leaves behind: the published tables, if
    any, and the blocks that have not been freed. *)
Record outcome := Outcome { o_published : option tables; o_live : list block }.

(** A sequence of "if ((x = calloc(..)) == NULL) goto cleanup;".  [calloc_ok]
    says which calls succeed. *)
Fixpoint allocate (calloc_ok : block -> bool) (todo : list block) (live : list block)
  : bool * list block :=
  match todo with
  | [] => (true, live)
  | b :: todo' => if calloc_ok b then allocate calloc_ok todo' (b :: live) else (false, live)
  end.

(** Lines 665-677: the pointers freed at the label cleanup. *)
Definition cleanup_frees : list block :=
  [B_linux_processors; B_processors; B_cores; B_clusters; B_packages; B_l1i; B_l1d; B_l2; B_l3;
   B_l4; B_processor_map; B_core_map].

(** Lines 657-663: pointers reset to NULL after publication. *)
Definition reset_to_null : list block :=
  [B_processors; B_cores; B_clusters; B_packages; B_l1i; B_l1d; B_l2; B_l3; B_l4;
   B_processor_map; B_core_map].

Definition in_blocks (b : block) (l : list block) : bool := existsb (block_eqb b) l.

(** free at cleanup: a block stays if its variable was reset or is not freed. *)
Definition cleanup (reset : list block) (live : list block) : list block :=
  filter (fun b => in_blocks b reset || negb (in_blocks b cleanup_frees)) live.

(** src/cache.c:6-17 applied to &processors[0] (line 640): processors[0] must
    exist; each pointer, if not NULL, must point into its table. *)
Definition cache_size_at (caches : list cache) (i : nat) : res N :=
  do c <- rd caches i; Ok (g_size (ca_geometry c)).
Definition compute_max_cache_size (l1d l2 l3 l4 : cstate) : res N :=
  do p4 <- rd (cs_pointers l4) 0;
  match p4 with
  | Some i => cache_size_at (cs_caches l4) i
  | None =>
      do p3 <- rd (cs_pointers l3) 0;
      match p3 with
      | Some i => cache_size_at (cs_caches l3) i
      | None =>
          do p2 <- rd (cs_pointers l2) 0;
          match p2 with
          | Some i => cache_size_at (cs_caches l2) i
          | None =>
              do p1 <- rd (cs_pointers l1d) 0;
              match p1 with
              | Some i => cache_size_at (cs_caches l1d) i
              | None => Ok 0%N
              end
          end
      end
  end.

(** Lines 394-649 and everything they need, given the sorted table, once all
    memory is allocated. *)
Definition initial_topology (nproc ncore ncluster npackage nlinux : nat) : lstate :=
  LState (repeat processor0 nproc) (repeat core0 ncore) (repeat cluster0 ncluster)
         (repeat package0 npackage) (repeat None nlinux) (repeat None nlinux)
         None None None None 0 0 0 u32max u32max u32max.
Definition initial_caches (ncache nproc : nat) : cstate :=
  CState (repeat cache0 ncache) (repeat None nproc) None u32max.

Definition build_tables (x : xinfo) (mask : N) (l : list xproc) (processors_count : nat) : res tables :=
  do masks <- apic_masks x (llc_apic_bits x);
  let '(core_mask, package_mask, cluster_mask) := masks in
  let ncores := count_objects mask core_mask l in
  let nclusters := count_objects mask cluster_mask l in
  let npackages := count_objects mask package_mask l in
  do nl1i <- count_caches mask (xi_l1i x) l;
  do nl1d <- count_caches mask (xi_l1d x) l;
  do nl2 <- count_caches mask (xi_l2 x) l;
  do nl3 <- count_caches mask (xi_l3 x) l;
  do nl4 <- count_caches mask (xi_l4 x) l;
  let n := processors_count in
  do s <- main_loop x masks 0 l
            (MState (initial_topology n ncores nclusters npackages (length l))
                    (initial_caches nl1i n) (initial_caches nl1d n) (initial_caches nl2 n)
                    (initial_caches nl3 n) (initial_caches nl4 n));
  let t := m_topology s in
  do mcs <- compute_max_cache_size (m_l1d s) (m_l2 s) (m_l3 s) (m_l4 s);
  Ok (Tables (s_processors t) (s_cores t) (s_clusters t) (s_packages t)
             (cs_caches (m_l1i s)) (cs_caches (m_l1d s)) (cs_caches (m_l2 s))
             (cs_caches (m_l3 s)) (cs_caches (m_l4 s))
             (cs_pointers (m_l1i s)) (cs_pointers (m_l1d s)) (cs_pointers (m_l2 s))
             (cs_pointers (m_l3 s)) (cs_pointers (m_l4 s))
             n ncores nclusters npackages nl1i nl1d nl2 nl3 nl4
             mcs (xi_uarch x) (xi_cpuid x) n ncores
             (N.of_nat (length l)) (s_processor_map t) (s_core_map t)).

(** The files the function reads.  The possible and present lists are read
    twice, possibly with different contents. *)
Record linux_files := LinuxFiles {
  lf_kernel_max : file;
  lf_possible_max : file; lf_present_max : file;
  lf_possible : file; lf_present : file;
  lf_cpuinfo : file
}.

(** Putting the flags field back into the table (the C code passes the address
    of the first flags field and a stride). *)
Fixpoint with_flags (procs : list xproc) (flags : list N) : list xproc :=
  match procs, flags with
  | p :: ps, f :: fs => XProc (x_apic_id p) (x_linux_id p) f :: with_flags ps fs
  | _, _ => []
  end.

(** Lines 214-218. *)
Definition mark_valid (mask : N) (p : xproc) : xproc :=
  if bitmask_all (x_flags p) mask
  then XProc (x_apic_id p) (x_linux_id p) (N.lor (x_flags p) flag_valid) else p.

(** Lines 226-232. *)
Definition is_valid (p : xproc) : bool := bitmask_all (x_flags p) flag_valid.
Fixpoint set_linux_ids (i : nat) (l : list xproc) : list xproc :=
  match l with
  | [] => []
  | p :: l' => (if is_valid p then XProc (x_apic_id p) (N.of_nat i) (x_flags p) else p)
               :: set_linux_ids (S i) l'
  end.
Definition count_valid (l : list xproc) : nat := length (filter is_valid l).

(** Lines 161-181: the number of table entries, the mask, and the two counts. *)
Definition x86_limits (max possible present : N) : N * N :=
  let '(count1, mask1) :=
    if negb (present =? 0)%N then (N.min max present, flag_present) else (max, flag_proc_cpuinfo) in
  if negb (possible =? 0)%N then (N.min count1 possible, N.lor mask1 flag_possible) else (count1, mask1).

(** Lines 161-232: the table of Linux processors before sorting.  [None] is the
    early return of line 211. *)
Definition detect_linux_processors (sg : bool) (default_max : N) (fs : linux_files)
  : res (option (list xproc * N)) :=
  do max <- get_max_processors_count default_max (f_contents (lf_kernel_max fs)) (f_reads (lf_kernel_max fs));
  do mpo <- get_max_listed_processor sg max (f_contents (lf_possible_max fs)) (f_reads (lf_possible_max fs));
  let possible := u32 (1 + mpo) in
  do mpr <- get_max_listed_processor sg max (f_contents (lf_present_max fs)) (f_reads (lf_present_max fs));
  let present := u32 (1 + mpr) in
  let '(count, mask) := x86_limits max possible present in
  let procs0 := repeat (XProc 0 0 0) (N.to_nat count) in
  do flags1 <- (if negb (possible =? 0)%N then
                  do r <- detect_listed_processors sg count flag_possible (f_contents (lf_possible fs))
                            (f_reads (lf_possible fs)) (map x_flags procs0);
                  Ok (snd r)
                else Ok (map x_flags procs0));
  do flags2 <- (if negb (present =? 0)%N then
                  do r <- detect_listed_processors sg count flag_present (f_contents (lf_present fs))
                            (f_reads (lf_present fs)) flags1;
                  Ok (snd r)
                else Ok flags1);
  do r <- x86_parse_proc_cpuinfo sg count (f_contents (lf_cpuinfo fs)) (f_reads (lf_cpuinfo fs))
            (with_flags procs0 flags2);
  let '(ok, procs) := r in
  if ok then Ok (Some (set_linux_ids 0 (map (mark_valid mask) procs), mask)) else Ok None.

(** Lines 284-378: the remaining allocations; the caches only if there are any. *)
Definition needed (n : nat) (b : block) : list block := match n with O => [] | S _ => [b] end.
Definition allocations (nl1i nl1d nl2 nl3 nl4 : nat) : list block :=
  [B_processor_map; B_core_map; B_cores; B_clusters; B_packages]
  ++ needed nl1i B_l1i ++ needed nl1d B_l1d ++ needed nl2 B_l2 ++ needed nl3 B_l3 ++ needed nl4 B_l4.

(** src/x86/linux/init.c:147-678. *)
Definition x86_linux_init (sg : bool) (default_max : N) (sorter : list xproc -> list xproc)
           (calloc_ok : block -> bool) (x : xinfo) (fs : linux_files) : res outcome :=
  if negb (calloc_ok B_linux_processors) then Ok (Outcome None [])           (* line 189 *)
  else
    do d <- detect_linux_processors sg default_max fs;
    match d with
    | None => Ok (Outcome None [B_linux_processors])                         (* line 211 *)
    | Some (procs, mask) =>
        let sorted := sorter procs in
        if negb (calloc_ok B_processors) then Ok (Outcome None (cleanup [] [B_linux_processors])) else
        do masks <- apic_masks x (llc_apic_bits x);
        do nl1i <- count_caches mask (xi_l1i x) sorted;
        do nl1d <- count_caches mask (xi_l1d x) sorted;
        do nl2 <- count_caches mask (xi_l2 x) sorted;
        do nl3 <- count_caches mask (xi_l3 x) sorted;
        do nl4 <- count_caches mask (xi_l4 x) sorted;
        let '(ok, live) := allocate calloc_ok (allocations nl1i nl1d nl2 nl3 nl4)
                             [B_processors; B_linux_processors] in
        if ok then
          do t <- build_tables x mask sorted (count_valid procs);
          Ok (Outcome (Some t) (cleanup reset_to_null live))
        else Ok (Outcome None (cleanup [] live))
    end.
