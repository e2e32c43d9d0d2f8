(** Model of src/x86/windows/init.c.  Definitions only.  Indexes are natural numbers (a group
    has at most 64 processors).  Names and log messages are left out. *)
From Verif Require Import Base Loops TopologySpec ApiModel.
From Verif Require X86CpuinfoModel X86LinuxModel X86CountsModel.
Import X86CpuinfoModel(xproc, XProc, flag_valid).
Import X86LinuxModel(xinfo, xcache, xc_geometry, xi_vendor, xi_uarch, xi_cpuid, xi_thread_offset, xi_thread_length, xi_core_offset,
  xi_core_length, xi_l1i, xi_l1d, xi_l2, xi_l3, xi_l4, bit_mask, cstate, CState, cs_caches, cs_pointers, compute_max_cache_size,
  count_caches, cache_step, initial_caches).
Import X86CountsModel(shl32, x86_counts_commit).
Open Scope nat_scope.

(** ** What Windows says *)

(** One SYSTEM_LOGICAL_PROCESSOR_INFORMATION_EX: whether its Relationship is the one asked for,
    and the groups and affinity masks. *)
Record winfo := WInfo { wi_expected : bool; wi_groups : list (nat * N) }.

Record windows_answers := WindowsAnswers {
  wa_wine : bool;
  wa_group_count : nat;            (* GetMaximumProcessorGroupCount() *)
  wa_group_size : nat -> nat;      (* GetMaximumProcessorCount(group) *)
  wa_sizes : bool;                 (* the sizes of both lists can be had *)
  wa_packages : option (list winfo); (* the lists; None is an error *)
  wa_cores : option (list winfo)
}.

(** Lines 128-142. *)
Definition group_sizes (a : windows_answers) : list nat :=
  map (wa_group_size a) (seq 0 (if wa_wine a then 1 else wa_group_count a)).
Definition total (l : list nat) : nat := fold_left Nat.add l 0.

(** Lines 144-151. *)
Fixpoint before_groups (sizes : list nat) (count : nat) : list nat :=
  match sizes with [] => [] | n :: sizes' => count :: before_groups sizes' (count + n) end.

(** ** Affinity masks *)

(** Lines 23-35: the lowest bit that is set. *)
Fixpoint low_index_pos (p : positive) : nat := match p with xO q => S (low_index_pos q) | _ => 0 end.
Definition low_index (mask : N) : nat := match mask with N0 => 0 | Npos p => low_index_pos p end.

(** Lines 226-238 and 281-313: "while (mask != 0) { ... mask &= mask - 1; }".  The body does not
    use the mask otherwise, so the loop goes through this list. *)
Fixpoint low_bits (fuel : nat) (mask : N) : list nat :=
  match fuel with
  | O => []
  | S fuel' => if (mask =? 0)%N then [] else low_index mask :: low_bits fuel' (N.land mask (mask - 1))
  end.
Definition mask_bits (mask : N) : list nat := low_bits (N.size_nat mask) mask.

(** ** Processors before their pointers are adjusted *)

Record wproc := WProc {
  wp_core : nat; wp_package : nat; wp_group : nat; wp_number : nat; wp_apic : N; wp_smt : nat
}.
Definition wproc0 : wproc := WProc 0 0 0 0 0 0.

Fixpoint each {A T} (body : A -> T -> res T) (l : list A) (s : T) : res T :=
  match l with [] => Ok s | a :: l' => do s' <- body a s; each body l' s' end.

(** Lines 123-126. *)
Definition package_bits (x : xinfo) : N :=
  N.max (u32 (xi_thread_offset x + xi_thread_length x)) (u32 (xi_core_offset x + xi_core_length x)).

(** Lines 218-239. *)
Definition package_group (before : list nat) (package_id : nat) (apic : N) (g : nat * N) (ps : list wproc) : res (list wproc) :=
  do start <- rd before (fst g);
  each (fun b ps => modify ps (start + b) (fun p => WProc (wp_core p) package_id (fst g) b apic (wp_smt p))) (mask_bits (snd g)) ps.

(** Lines 200-240. *)
Definition package_step (x : xinfo) (before : list nat) (info : winfo) (s : nat * list wproc) : res (nat * list wproc) :=
  if negb (wi_expected info) then Ok s else
  let '(package_id, ps) := s in
  do apic <- shl32 (N.of_nat package_id) (package_bits x);
  do ps <- each (package_group before package_id apic) (wi_groups info) ps;
  Ok (S package_id, ps).

(** Lines 249-314.  [st_smt] is the variable smt_id of the current core. *)
Record core_state := CoreState { st_smt : nat; st_start : nat; st_current : N; st_processors : list wproc }.

Definition core_processor (x : xinfo) (thread_mask core_mask : N) (core_id start b : nat) (s : core_state) : res core_state :=
  do p <- rd (st_processors s) (start + b);
  let '(core_start, current) :=
    if negb (wp_apic p =? st_current s)%N then (core_id, wp_apic p) else (st_start s, st_current s) in
  do t <- shl32 (N.land (N.of_nat (st_smt s)) thread_mask) (xi_thread_offset x);
  do c <- shl32 (N.land (N.of_nat (core_id - core_start)) core_mask) (xi_core_offset x);
  do ps <- wr (st_processors s) (start + b)
             (WProc core_id (wp_package p) (wp_group p) (wp_number p) (N.lor (wp_apic p) (N.lor t c)) (st_smt s));
  Ok (CoreState (S (st_smt s)) core_start current ps).

Definition core_group (x : xinfo) (thread_mask core_mask : N) (before : list nat) (core_id : nat) (g : nat * N) (s : core_state) : res core_state :=
  do start <- rd before (fst g);
  each (core_processor x thread_mask core_mask core_id start) (mask_bits (snd g)) s.

Definition core_step (x : xinfo) (thread_mask core_mask : N) (before : list nat) (info : winfo) (s : nat * core_state) : res (nat * core_state) :=
  if negb (wi_expected info) then Ok s else
  let '(core_id, c) := s in
  do core_apic_id <- shl32 (N.land (N.of_nat core_id) core_mask) (xi_core_offset x);
  do c <- each (core_group x thread_mask core_mask before core_id) (wi_groups info)
            (CoreState 0 (st_start c) (st_current c) (st_processors c));
  Ok (S core_id, c).

(** ** The tables *)

(** Lines 343-373.  The cluster pointer has not been set: it is the first cluster. *)
Record objects := Objects { ob_cores : list core; ob_clusters : list cluster; ob_packages : list package }.

Definition core_takes (i : nat) (c : core) : core :=
  Core i (S (c_processor_count c)) (c_core_id c) (c_cluster c) (c_package c) (c_vendor c) (c_uarch c) (c_cpuid c).
Definition cluster_takes (i : nat) (c : cluster) : cluster :=
  Cluster i (S (cl_processor_count c)) (cl_core_start c) (cl_core_count c) (cl_cluster_id c) (cl_package c) (cl_vendor c) (cl_uarch c) (cl_cpuid c).
Definition package_takes (i : nat) (p : package) : package :=
  Package i (S (pk_processor_count p)) (pk_core_start p) (pk_core_count p) (pk_cluster_start p) (pk_cluster_count p).

Definition adjust (ps : list wproc) (i : nat) (o : objects) : res objects :=
  do p <- rd ps i;
  do packages <- modify (ob_packages o) (wp_package p) (package_takes i);
  do clusters <- modify (ob_clusters o) 0 (cluster_takes i);
  do cores <- modify (ob_cores o) (wp_core p) (core_takes i);
  Ok (Objects cores clusters packages).

(** "for (i = n; i != 0; i--) { index = i - 1; ... }" *)
Definition for_down {T} (body : nat -> T -> res T) (n : nat) (s : T) : res T :=
  for_each (fun k s => body (n - 1 - k) s) 0 n s.

(** Lines 375-396. *)
Definition cluster_takes_core (i : nat) (c : cluster) : cluster :=
  Cluster (cl_processor_start c) (cl_processor_count c) i (S (cl_core_count c)) (cl_cluster_id c) (cl_package c) (cl_vendor c) (cl_uarch c) (cl_cpuid c).
Definition package_takes_core (i : nat) (p : package) : package :=
  Package (pk_processor_start p) (pk_processor_count p) i (S (pk_core_count p)) (pk_cluster_start p) (pk_cluster_count p).

Definition shr32 (x bits : N) : res N := if (bits <? 32)%N then Ok (N.shiftr x bits) else UB.

Definition adjust_core (x : xinfo) (core_mask : N) (ps : list wproc) (i : nat) (o : objects) : res objects :=
  do c <- rd (ob_cores o) i;
  do p <- rd ps (c_processor_start c);
  do id <- shr32 (wp_apic p) (xi_core_offset x);
  do cores <- wr (ob_cores o) i (Core (c_processor_start c) (c_processor_count c) (N.to_nat (N.land core_mask id)) (Some 0) (Some (wp_package p))
                                      (xi_vendor x) (xi_uarch x) (xi_cpuid x));
  do clusters <- modify (ob_clusters o) 0 (cluster_takes_core i);
  do packages <- modify (ob_packages o) (wp_package p) (package_takes_core i);
  Ok (Objects cores clusters packages).

(** Lines 398-409. *)
Definition adjust_package (i : nat) (o : objects) : res objects :=
  do l <- rd (ob_clusters o) i;
  do c <- rd (ob_cores o) (cl_core_start l);
  do clusters <- wr (ob_clusters o) i (Cluster (cl_processor_start l) (cl_processor_count l) (cl_core_start l) (cl_core_count l) (cl_cluster_id l)
                                               (Some i) (c_vendor c) (c_uarch c) (c_cpuid c));
  do packages <- modify (ob_packages o) i (fun p => Package (pk_processor_start p) (pk_processor_count p) (pk_core_start p) (pk_core_count p) i 1);
  Ok (Objects (ob_cores o) clusters packages).

(** Lines 37-94 and 467-601 are lines of src/x86/linux/init.c without the flags: all
    processors count. *)
Definition listed (ps : list wproc) : list xproc := map (fun p => XProc (wp_apic p) 0 flag_valid) ps.
Definition level_loop (c : xcache) (ps : list wproc) (count : nat) : res cstate :=
  for_each (fun i s => do p <- rd ps i; cache_step c i i (wp_apic p) s) 0 (length ps) (initial_caches count (length ps)).

Definition published_processor (p : wproc) : processor :=
  Processor (wp_smt p) (Some (wp_core p)) (Some 0) (Some (wp_package p)) 0 (wp_apic p).

(** The tables and, for each processor, windows_group_id and windows_processor_id. *)
Record windows_tables := WindowsTables { wt_tables : tables; wt_ids : list (nat * nat) }.

(** Lines 467-634; the five levels do not depend on each other. *)
Definition build_tables (x : xinfo) (ps : list wproc) (o : objects) (nl1i nl1d nl2 nl3 nl4 : nat) : res windows_tables :=
  do l1i <- level_loop (xi_l1i x) ps nl1i;
  do l1d <- level_loop (xi_l1d x) ps nl1d;
  do l2 <- level_loop (xi_l2 x) ps nl2;
  do l3 <- level_loop (xi_l3 x) ps nl3;
  do l4 <- level_loop (xi_l4 x) ps nl4;
  do max_cache_size <- compute_max_cache_size l1d l2 l3 l4;
  let processors := length ps in
  let cores := length (ob_cores o) in
  let packages := length (ob_packages o) in
  Ok (WindowsTables
    (Tables (map published_processor ps) (ob_cores o) (ob_clusters o) (ob_packages o)
            (cs_caches l1i) (cs_caches l1d) (cs_caches l2) (cs_caches l3) (cs_caches l4)
            (cs_pointers l1i) (cs_pointers l1d) (cs_pointers l2) (cs_pointers l3) (cs_pointers l4)
            processors cores packages packages nl1i nl1d nl2 nl3 nl4
            max_cache_size (xi_uarch x) (xi_cpuid x) processors cores 0 [] [])
    (map (fun p => (wp_group p, wp_number p)) ps)).

(** ** Memory *)

Inductive block := B_processors | B_infos | B_cores | B_clusters | B_packages | B_l1i | B_l1d | B_l2 | B_l3 | B_l4.
Definition block_eqb (a b : block) : bool :=
  match a, b with
  | B_processors, B_processors | B_infos, B_infos | B_cores, B_cores | B_clusters, B_clusters | B_packages, B_packages
  | B_l1i, B_l1i | B_l1d, B_l1d | B_l2, B_l2 | B_l3, B_l3 | B_l4, B_l4 => true
  | _, _ => false
  end.
Fixpoint allocate (heap_ok : block -> bool) (todo live : list block) : bool * list block :=
  match todo with
  | [] => (true, live)
  | b :: todo' => if heap_ok b then allocate heap_ok todo' (live ++ [b]) else (false, live)
  end.
Definition when (n : nat) (b : block) : list block := if 0 <? n then [b] else [].

(** Lines 642-669: processor_infos is not freed.  Lines 636-640. *)
Definition cleanup_frees : list block := [B_processors; B_cores; B_clusters; B_packages; B_l1i; B_l1d; B_l2; B_l3; B_l4].
Definition reset_to_null : list block := [B_processors; B_cores; B_clusters; B_packages; B_l1i; B_l1d; B_l2; B_l3; B_l4].
Definition cleanup (reset live : list block) : list block :=
  filter (fun b => existsb (block_eqb b) reset || negb (existsb (block_eqb b) cleanup_frees)) live.

Record outcome := Outcome { o_published : option windows_tables; o_live : list block }.

(** Lines 105-671. *)
Definition x86_windows_init (heap_ok : block -> bool) (x : xinfo) (a : windows_answers) : res outcome :=
  do thread_mask <- bit_mask (xi_thread_length x);
  do core_mask <- bit_mask (xi_core_length x);
  let sizes := group_sizes a in
  let before := before_groups sizes 0 in
  let processors_count := total sizes in
  if negb (heap_ok B_processors) then Ok (Outcome None []) else
  if negb (wa_sizes a) then Ok (Outcome None (cleanup [] [B_processors])) else
  if negb (heap_ok B_infos) then Ok (Outcome None (cleanup [] [B_processors])) else
  let live := [B_processors; B_infos] in
  match wa_packages a with
  | None => Ok (Outcome None (cleanup [] live))
  | Some package_infos =>
      do r <- each (package_step x before) package_infos (0, repeat wproc0 processors_count);
      let '(packages_count, ps) := r in
      match wa_cores a with
      | None => Ok (Outcome None (cleanup [] live))
      | Some core_infos =>
          do r <- each (core_step x thread_mask core_mask before) core_infos (0, CoreState 0 0 0 ps);
          let '(cores_count, c) := r in
          let ps := st_processors c in
          let '(ok, live) := allocate heap_ok [B_cores; B_clusters; B_packages] live in
          if negb ok then Ok (Outcome None (cleanup [] live)) else
          let o := Objects (repeat core0 cores_count) (repeat cluster0 packages_count) (repeat package0 packages_count) in
          do o <- for_down (adjust ps) processors_count o;
          do o <- for_down (adjust_core x core_mask ps) cores_count o;
          do o <- for_each adjust_package 0 packages_count o;
          do nl1i <- count_caches flag_valid (xi_l1i x) (listed ps);
          do nl1d <- count_caches flag_valid (xi_l1d x) (listed ps);
          do nl2 <- count_caches flag_valid (xi_l2 x) (listed ps);
          do nl3 <- count_caches flag_valid (xi_l3 x) (listed ps);
          do nl4 <- count_caches flag_valid (xi_l4 x) (listed ps);
          let '(ok, live) := allocate heap_ok (when nl1i B_l1i ++ when nl1d B_l1d ++ when nl2 B_l2 ++ when nl3 B_l3 ++ when nl4 B_l4) live in
          if negb ok then Ok (Outcome None (cleanup [] live)) else
          do t <- build_tables x ps o nl1i nl1d nl2 nl3 nl4;
          Ok (Outcome (Some t) (cleanup reset_to_null live))
      end
  end.

(** Publication, lines 603-634: the same stores as on FreeBSD. *)
Definition x86_windows_routine (o : outcome) : list gstore :=
  match o_published o with Some t => x86_counts_commit (wt_tables t) | None => [] end.
