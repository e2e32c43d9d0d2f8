(** Model of src/mach/topology.c, src/freebsd/topology.c, src/x86/mach/init.c and
    src/x86/freebsd/init.c, which build the tables from the numbers of threads, cores and
    packages.  Definitions only.  Products of an index and a quotient stay below the number of
    threads or cores, so indexes are natural numbers.  Names and log messages are left out. *)
From Verif Require Import Base Text Loops Fill TopologySpec ApiModel.
From Verif Require X86LinuxModel.
Import X86LinuxModel(xinfo, xcache, xc_geometry, xi_vendor, xi_uarch, xi_cpuid, xi_thread_offset, xi_thread_length, xi_core_offset,
  xi_core_length, xi_l1i, xi_l1d, xi_l2, xi_l3, xi_l4, bit_mask, cstate, CState, cs_caches, cs_pointers, compute_max_cache_size).
Open Scope nat_scope.

(** ** The numbers *)

(** An int read with sysctlbyname; [None] is an error. *)
Definition sysctl := option Z.

(** src/mach/topology.c:13-41: a failing call leaves the initial value; one for the threads
    too, whatever the number of cores is. *)
Record mach_answers := MachAnswers {
  ma_physicalcpu_max : sysctl; ma_logicalcpu_max : sysctl; ma_packages : sysctl;
  ma_cacheconfig : option (list N)
}.
Record mach_topology := MachTopology { mt_packages : nat; mt_cores : nat; mt_threads : nat; mt_threads_per_cache : nat -> nat }.

Definition checked (answer : sysctl) (initial otherwise : Z) : Z :=
  match answer with Some v => if (v <=? 0)%Z then otherwise else v | None => initial end.

(** Lines 42-69 for macOS: at most eight levels. *)
Definition mach_detect_topology (a : mach_answers) : mach_topology :=
  let cores := checked (ma_physicalcpu_max a) 1 1 in
  let threads := checked (ma_logicalcpu_max a) 1 cores in
  let packages := checked (ma_packages a) 1 1 in
  MachTopology (Z.to_nat packages) (Z.to_nat cores) (Z.to_nat threads)
    (fun i => match ma_cacheconfig a with
              | Some l => match nth_error (firstn 8 l) i with Some n => N.to_nat (u32 n) | None => 0 end
              | None => 0
              end).

(** src/freebsd/topology.c:11-21. *)
Definition sysctl_int (answer : sysctl) : Z := checked answer 0 0.

(** strstr: the suffix that starts with the first occurrence. *)
Fixpoint prefixb (tag s : list N) : bool :=
  match tag, s with
  | [], _ => true
  | c :: tag', d :: s' => (c =? d)%N && prefixb tag' s'
  | _ :: _, [] => false
  end.
Fixpoint strstr (s tag : list N) : option (list N) :=
  if prefixb tag s then Some s else match s with [] => None | _ :: s' => strstr s' tag end.

(** Lines 60-65. *)
Fixpoint count_tags (fuel : nat) (p : option (list N)) (tag : list N) (packages : nat) : res nat :=
  match p with
  | None => Ok packages
  | Some s => match fuel with
              | O => Hang
              | S fuel' => match s with
                           | [] => UB
                           | _ :: s' => count_tags fuel' (strstr s' tag) tag (S packages)
                           end
              end
  end.

(** The tags of line 57. *)
Definition level2_tag : list N := text "<group level=""2"" cache-level=""0"">".
Definition level1_tag : list N := text "<group level=""1"" ".

(** Lines 58-69. *)
Definition count_packages (spec : list N) : res nat :=
  do n <- count_tags (S (length spec)) (strstr spec level2_tag) level2_tag 0;
  if 0 <? n then Ok n else count_tags (S (length spec)) (strstr spec level1_tag) level1_tag n.

Record freebsd_answers := FreebsdAnswers { fa_spec : option (list N); fa_cores : sysctl; fa_threads_per_core : sysctl }.

(** Lines 46-98: packages, cores, threads, threads per core; [None] is a result without
    packages. *)
Definition freebsd_detect_topology (a : freebsd_answers) : res (option (nat * nat * nat * nat)) :=
  match fa_spec a with
  | None => Ok None
  | Some spec =>
      do packages <- count_packages spec;
      if packages =? 0 then Ok None else
      let cores := Z.to_nat (sysctl_int (fa_cores a)) in
      if cores =? 0 then Ok None else
      if cores <? packages then Ok None else
      let threads_per_core := Z.to_nat (sysctl_int (fa_threads_per_core a)) in
      if threads_per_core =? 0 then Ok None else
      Ok (Some (packages, cores, N.to_nat (u32 (N.of_nat threads_per_core * N.of_nat cores)), threads_per_core))
  end.

(** ** The tables *)

Definition divide (a b : nat) : res nat := if b =? 0 then UB else Ok (a / b).
Definition modulo (a b : nat) : res nat := if b =? 0 then UB else Ok (a mod b).
(** The threads per core are not a quotient on FreeBSD. *)
Definition mul32 (a b : nat) : nat := N.to_nat (u32 (N.of_nat a * N.of_nat b)).
Definition shl32 (x bits : N) : res N := if (bits <? 32)%N then Ok (u32 (N.shiftl x bits)) else UB.

(** "array + i": an address inside the array of [n] elements or right behind it. *)
Definition address (n i : nat) : res (option nat) := if i <=? n then Ok (Some i) else UB.

(** src/x86/mach/init.c:111-119. *)
Definition apic_of (x : xinfo) (smt core package : nat) : res N :=
  do thread_mask <- bit_mask (xi_thread_length x);
  do core_mask <- bit_mask (xi_core_length x);
  let package_offset := N.max (u32 (xi_thread_offset x + xi_thread_length x)) (u32 (xi_core_offset x + xi_core_length x)) in
  do a <- shl32 (N.land (N.of_nat smt) thread_mask) (xi_thread_offset x);
  do b <- shl32 (N.land (N.of_nat core) core_mask) (xi_core_offset x);
  do c <- shl32 (N.of_nat package) package_offset;
  Ok (N.lor (N.lor a b) c).

Record objects := Objects { ob_processors : list processor; ob_cores : list core; ob_clusters : list cluster; ob_packages : list package }.

(** src/x86/mach/init.c:71-127, src/x86/freebsd/init.c:76-132. *)
Definition build_objects (x : xinfo) (packages cores threads threads_per_core : nat) : res objects :=
  do threads_per_package <- divide threads packages;
  do cores_per_package <- divide cores packages;
  do clusters <- fill (fun i => do package <- address packages i;
                         Ok (Cluster (i * threads_per_package) threads_per_package (i * cores_per_package) cores_per_package 0 package
                                     (xi_vendor x) (xi_uarch x) (xi_cpuid x))) packages (repeat cluster0 packages);
  do packages_table <- fill (fun i => Ok (Package (i * threads_per_package) threads_per_package (i * cores_per_package) cores_per_package i 1))
                         packages (repeat package0 packages);
  do cores_table <- fill (fun i => do core_id <- modulo i cores_per_package;
                            do k <- divide i cores_per_package;
                            do cluster <- address packages k;
                            Ok (Core (mul32 i threads_per_core) threads_per_core core_id cluster cluster
                                     (xi_vendor x) (xi_uarch x) (xi_cpuid x))) cores (repeat core0 cores);
  do processors <- fill (fun i => do smt_id <- modulo i threads_per_core;
                           do core_id <- divide i threads_per_core;
                           do package_id <- divide i threads_per_package;
                           do apic <- apic_of x smt_id core_id package_id;
                           do core <- address cores core_id;
                           do package <- address packages package_id;
                           Ok (Processor smt_id core package package 0 apic)) threads (repeat processor0 threads);
  Ok (Objects processors cores_table clusters packages_table).

(** One level: src/x86/mach/init.c:208-223 and its four copies. *)
Definition build_level (c : xcache) (threads width count : nat) : res cstate :=
  do caches <- fill (fun k => Ok (Cache (xc_geometry c) (k * width) width)) count (repeat cache0 count);
  do pointers <- fill (fun t => do k <- divide t width; address count k) threads (repeat None threads);
  Ok (CState caches pointers None 0).
Definition no_level (threads : nat) : cstate := CState [] (repeat None threads) None 0.

Definition present (c : xcache) : bool := negb (g_size (xc_geometry c) =? 0)%N.

(** The widths and counts of the levels. *)
Record widths := Widths { w_l1 : nat; w_l1_count : nat; w_l2 : nat; w_l2_count : nat; w_l3 : nat; w_l3_count : nat; w_l4 : nat; w_l4_count : nat }.

(** src/x86/mach/init.c:129-198: reported, or assumed. *)
Definition mach_width (is_present : bool) (threads reported : nat) (assumed : res nat) : res (nat * nat) :=
  if is_present then
    do width <- (if reported =? 0 then assumed else Ok reported);
    do count <- divide threads width;
    Ok (width, count)
  else Ok (0, 0).
Definition mach_widths (x : xinfo) (t : mach_topology) : res widths :=
  let threads := mt_threads t in
  do l1 <- mach_width (present (xi_l1i x) || present (xi_l1d x)) threads (mt_threads_per_cache t 1) (divide threads (mt_cores t));
  do l2 <- mach_width (present (xi_l2 x)) threads (mt_threads_per_cache t 2)
             (if present (xi_l3 x) then divide threads (mt_cores t) else divide threads (mt_packages t));
  do l3 <- mach_width (present (xi_l3 x)) threads (mt_threads_per_cache t 3) (divide threads (mt_packages t));
  do l4 <- mach_width (present (xi_l4 x)) threads (mt_threads_per_cache t 4) (Ok threads);
  Ok (Widths (fst l1) (snd l1) (fst l2) (snd l2) (fst l3) (snd l3) (fst l4) (snd l4)).

(** src/x86/freebsd/init.c:134-212: assumed; a width of zero ends initialisation. *)
Definition freebsd_width (is_present : bool) (threads : nat) (assumed : res nat) : res (option (nat * nat)) :=
  if is_present then
    do width <- assumed;
    if width =? 0 then Ok None else
    do count <- divide threads width;
    Ok (Some (width, count))
  else Ok (Some (0, 0)).
Definition freebsd_widths (x : xinfo) (packages cores threads : nat) : res (option widths) :=
  do l1 <- freebsd_width (present (xi_l1i x) || present (xi_l1d x)) threads (divide threads cores);
  match l1 with None => Ok None | Some l1 =>
  do l2 <- freebsd_width (present (xi_l2 x)) threads (if present (xi_l3 x) then divide threads cores else divide threads packages);
  match l2 with None => Ok None | Some l2 =>
  do l3 <- freebsd_width (present (xi_l3 x)) threads (divide threads packages);
  match l3 with None => Ok None | Some l3 =>
  do l4 <- freebsd_width (present (xi_l4 x)) threads (Ok threads);
  match l4 with None => Ok None | Some l4 =>
  Ok (Some (Widths (fst l1) (snd l1) (fst l2) (snd l2) (fst l3) (snd l3) (fst l4) (snd l4)))
  end end end end.

(** src/x86/mach/init.c:200-358, src/x86/freebsd/init.c:214-376: the caches and the numbers.
    The second to fourth level exist if their counts are not zero.  The loops that fill a
    level cannot fail, so they are put behind all allocations. *)
Definition build_tables (x : xinfo) (packages cores threads : nat) (o : objects) (w : widths) : res tables :=
  do l1i <- (if present (xi_l1i x) then build_level (xi_l1i x) threads (w_l1 w) (w_l1_count w) else Ok (no_level threads));
  do l1d <- (if present (xi_l1d x) then build_level (xi_l1d x) threads (w_l1 w) (w_l1_count w) else Ok (no_level threads));
  do l2 <- (if 0 <? w_l2_count w then build_level (xi_l2 x) threads (w_l2 w) (w_l2_count w) else Ok (no_level threads));
  do l3 <- (if 0 <? w_l3_count w then build_level (xi_l3 x) threads (w_l3 w) (w_l3_count w) else Ok (no_level threads));
  do l4 <- (if 0 <? w_l4_count w then build_level (xi_l4 x) threads (w_l4 w) (w_l4_count w) else Ok (no_level threads));
  do max_cache_size <- compute_max_cache_size l1d l2 l3 l4;
  Ok (Tables (ob_processors o) (ob_cores o) (ob_clusters o) (ob_packages o)
             (cs_caches l1i) (cs_caches l1d) (cs_caches l2) (cs_caches l3) (cs_caches l4)
             (cs_pointers l1i) (cs_pointers l1d) (cs_pointers l2) (cs_pointers l3) (cs_pointers l4)
             threads cores packages packages (w_l1_count w) (w_l1_count w) (w_l2_count w) (w_l3_count w) (w_l4_count w)
             max_cache_size (xi_uarch x) (xi_cpuid x) threads cores 0 [] []).

(** ** Memory *)

Inductive block := B_processors | B_cores | B_clusters | B_packages | B_l1i | B_l1d | B_l2 | B_l3 | B_l4.
Definition block_eqb (a b : block) : bool :=
  match a, b with
  | B_processors, B_processors | B_cores, B_cores | B_clusters, B_clusters | B_packages, B_packages
  | B_l1i, B_l1i | B_l1d, B_l1d | B_l2, B_l2 | B_l3, B_l3 | B_l4, B_l4 => true
  | _, _ => false
  end.
Fixpoint allocate (calloc_ok : block -> bool) (todo live : list block) : bool * list block :=
  match todo with
  | [] => (true, live)
  | b :: todo' => if calloc_ok b then allocate calloc_ok todo' (live ++ [b]) else (false, live)
  end.
Definition objects_blocks : list block := [B_processors; B_cores; B_clusters; B_packages].
Definition when (c : bool) (b : block) : list block := if c then [b] else [].
Definition cache_blocks (x : xinfo) (w : widths) : list block :=
  when (present (xi_l1i x)) B_l1i ++ when (present (xi_l1d x)) B_l1d ++
  when (0 <? w_l2_count w) B_l2 ++ when (0 <? w_l3_count w) B_l3 ++ when (0 <? w_l4_count w) B_l4.

(** src/x86/mach/init.c:370-379, src/x86/freebsd/init.c:388-397: what is freed at the label
    cleanup, unless the variable has been reset (lines 364-368, 382-386). *)
Definition cleanup_frees : list block := [B_processors; B_cores; B_clusters; B_packages; B_l1i; B_l1d; B_l2; B_l3; B_l4].
Definition reset_to_null : list block := [B_processors; B_cores; B_clusters; B_packages; B_l1i; B_l1d; B_l2; B_l3; B_l4].
Definition cleanup (reset live : list block) : list block :=
  filter (fun b => existsb (block_eqb b) reset || negb (existsb (block_eqb b) cleanup_frees)) live.

Record outcome := Outcome { o_published : option tables; o_live : list block }.

(** src/x86/mach/init.c:19-380.  If memory for caches is missing the function returns without
    freeing anything (lines 208, 234, 260, 286, 312). *)
Definition x86_mach_init (calloc_ok : block -> bool) (x : xinfo) (a : mach_answers) : res outcome :=
  let t := mach_detect_topology a in
  let '(ok, live) := allocate calloc_ok objects_blocks [] in
  if negb ok then Ok (Outcome None (cleanup [] live)) else
  do threads_per_core <- divide (mt_threads t) (mt_cores t);
  do o <- build_objects x (mt_packages t) (mt_cores t) (mt_threads t) threads_per_core;
  do w <- mach_widths x t;
  let '(ok, live) := allocate calloc_ok (cache_blocks x w) live in
  if negb ok then Ok (Outcome None live) else
  do tables <- build_tables x (mt_packages t) (mt_cores t) (mt_threads t) o w;
  Ok (Outcome (Some tables) (cleanup reset_to_null live)).

(** src/x86/freebsd/init.c:19-398. *)
Definition x86_freebsd_init (calloc_ok : block -> bool) (x : xinfo) (a : freebsd_answers) : res outcome :=
  do d <- freebsd_detect_topology a;
  match d with
  | None => Ok (Outcome None [])
  | Some (packages, cores, threads, threads_per_core) =>
      let '(ok, live) := allocate calloc_ok objects_blocks [] in
      if negb ok then Ok (Outcome None (cleanup [] live)) else
      do o <- build_objects x packages cores threads threads_per_core;
      do w <- freebsd_widths x packages cores threads;
      match w with
      | None => Ok (Outcome None (cleanup [] live))
      | Some w =>
          let '(ok, live) := allocate calloc_ok (cache_blocks x w) live in
          if negb ok then Ok (Outcome None (cleanup [] live)) else
          do tables <- build_tables x packages cores threads o w;
          Ok (Outcome (Some tables) (cleanup reset_to_null live))
      end
  end.

(** ** Publication: src/x86/mach/init.c:331-362, src/x86/freebsd/init.c:349-380.  Without a level
    the pointer is NULL.  (An empty array of first-level caches is not distinguished from
    NULL; neither has elements.) *)
Definition x86_counts_commit (t : tables) : list gstore :=
  [St_pointer Processors (Some (Processors, length (t_processors t)));
   St_pointer Cores (Some (Cores, length (t_cores t)));
   St_pointer Clusters (Some (Clusters, length (t_clusters t)));
   St_pointer Packages (Some (Packages, length (t_packages t)));
   St_pointer (Caches L1i) (block_of (Caches L1i) (t_l1i t));
   St_pointer (Caches L1d) (block_of (Caches L1d) (t_l1d t));
   St_pointer (Caches L2) (block_of (Caches L2) (t_l2 t));
   St_pointer (Caches L3) (block_of (Caches L3) (t_l3 t));
   St_pointer (Caches L4) (block_of (Caches L4) (t_l4 t));
   St_count Processors (N.of_nat (t_processors_count t));
   St_count Cores (N.of_nat (t_cores_count t));
   St_count Clusters (N.of_nat (t_clusters_count t));
   St_count Packages (N.of_nat (t_packages_count t));
   St_count (Caches L1i) (N.of_nat (t_l1i_count t));
   St_count (Caches L1d) (N.of_nat (t_l1d_count t));
   St_count (Caches L2) (N.of_nat (t_l2_count t));
   St_count (Caches L3) (N.of_nat (t_l3_count t));
   St_count (Caches L4) (N.of_nat (t_l4_count t));
   St_max_cache_size (t_max_cache_size t);
   St_other;
   St_initialized].

(** Neither Linux nor several microarchitectures. *)
Definition x86_counts : config := Config false false.

Definition x86_counts_routine (o : outcome) : list gstore :=
  match o_published o with Some t => x86_counts_commit t | None => [] end.
