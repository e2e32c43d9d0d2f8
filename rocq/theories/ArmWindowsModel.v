(** Model of src/arm/windows/init.c and src/arm/windows/init-by-logical-sys-info.c.  Definitions
    only; log messages are left out.  Indexes are natural numbers (a group has at most 64
    processors), and the 16-bit numbers of groups and processors are not cut. *)
From Verif Require Import Base Text TopologySpec ApiModel ArmIsaModel ArmUarchModel.
From Verif Require X86WindowsModel ArmLinuxModel.
Import X86WindowsModel(winfo, WInfo, wi_expected, wi_groups, before_groups, total, mask_bits, each,
  core_takes, cluster_takes, package_takes).
Import ArmLinuxModel(arm_uarch, ArmUarch, arm_uarch0, au_uarch, au_midr, au_processors, au_cores).
Open Scope nat_scope.

(** ** Memory *)

(** The buffers of the five calls of read_all_logical_processor_info_of_relation are numbered. *)
Inductive hblock :=
  | H_text | H_chip | H_name | H_groups | H_processors | H_infos (call : nat)
  | H_packages | H_clusters | H_cores | H_caches | H_uarchs.

(** ** The registry: src/arm/windows/init.c *)

(** What RegGetValueW says, [None] being an error: the size of the name, its buffer (wide
    characters), and for the two numbers the size and the value. *)
Record registry := Registry {
  rg_name_size : option N; rg_name : option (list N); rg_midr : option (N * N); rg_mhz : option (N * N)
}.

(** Lines 40-78, and the blocks that stay allocated. *)
Definition read_registry (heap_ok : hblock -> bool) (r : registry) : option (list N) * list hblock :=
  match rg_name_size r with
  | None => (None, [])
  | Some size =>
      if (size =? 0)%N then (None, []) else
      if negb (heap_ok H_text) then (None, []) else
      match rg_name r with None => (None, []) | Some text => (Some text, [H_text]) end
  end.

(** Lines 80-106. *)
Definition read_number (size : N) (answer : option (N * N)) : N :=
  match answer with Some (n, value) => if (n =? size)%N then value else 0%N | None => 0%N end.

(** Lines 108-116: at most [n] wide characters of a string. *)
Fixpoint wcsn (n : nat) (buffer : list N) : res (list N) :=
  match n with
  | O => Ok []
  | S n' => match buffer with
            | [] => UB
            | c :: rest => if (c =? 0)%N then Ok [] else do s <- wcsn n' rest; Ok (c :: s)
            end
  end.

(** struct woa_chip_info; only the first microarchitecture is used. *)
Record chip_info := ChipInfo { ci_name : option (list N); ci_vendor : N; ci_uarch : N; ci_frequency : N }.

(** Line 20. *)
Definition chip_unknown : chip_info := ChipInfo (Some (text "Unknown")) 0 0 0.

(** Lines 118-134.  The decoder never stores zero and leaves what it does not know alone, and
    the two variables have not been initialized: [before] is what they happen to hold. *)
Definition core_info_from_midr (arm32 : bool) (before : N * N) (midr : N) : N * N :=
  let '(vendor, uarch) := decode_vendor_uarch arm32 midr false in
  (if (vendor =? 0)%N then fst before else vendor, if (uarch =? 0)%N then snd before else uarch).

(** CPUINFO_PACKAGE_NAME_MAX, include/cpuinfo.h:709. *)
Definition windows_name_max : nat := 48.

(** Lines 136-187.  The text is never freed. *)
Definition system_info_from_registry (arm32 : bool) (before : N * N) (heap_ok : hblock -> bool) (r : registry)
    : res (option chip_info * list hblock) :=
  let '(buffer, live) := read_registry heap_ok r in
  match buffer with
  | None => Ok (None, live)
  | Some buffer =>
      let midr := u32 (read_number 8 (rg_midr r)) in
      if (midr =? 0)%N then Ok (None, live) else
      let mhz := read_number 4 (rg_mhz r) in
      if (mhz =? 0)%N then Ok (None, live) else
      if negb (heap_ok H_chip) then Ok (None, live) else
      do name <- wcsn (windows_name_max - 1) buffer;
      let '(vendor, uarch) := core_info_from_midr arm32 before midr in
      Ok (Some (ChipInfo (if heap_ok H_name then Some name else None) vendor uarch (mhz * 1000000)),
          live ++ [H_chip] ++ if heap_ok H_name then [H_name] else [])
  end.

(** IsProcessorFeaturePresent. *)
Inductive pf := PF_atomic | PF_dot | PF_crypto | PF_crc32.

(** Lines 189-221; both cases of the switch are the same. *)
Definition windows_isa (present : pf -> bool) (i : isa) : isa :=
  let i := assign F_atomics (present PF_atomic) i in
  let i := assign F_dot (present PF_dot) i in
  let i := assign F_fp16arith (present PF_dot) i in
  let i := assign F_rdm (present PF_dot) i in
  let i := assign F_aes (present PF_crypto) i in
  let i := assign F_sha1 (present PF_crypto) i in
  let i := assign F_sha2 (present PF_crypto) i in
  let i := assign F_pmull (present PF_crypto) i in
  assign F_crc32 (present PF_crc32) i.

(** ** WideCharToMultiByte(CP_UTF8, WC_ERR_INVALID_CHARS, ...) *)

Definition utf8_char (c : N) : list N :=
  (if c <? 0x80 then [c]
   else if c <? 0x800 then [0xC0 + c / 64; 0x80 + c mod 64]
   else if c <? 0x10000 then [0xE0 + c / 4096; 0x80 + c / 64 mod 64; 0x80 + c mod 64]
   else [0xF0 + c / 262144; 0x80 + c / 4096 mod 64; 0x80 + c / 64 mod 64; 0x80 + c mod 64])%N.
(** UTF-16 to UTF-8; an unpaired surrogate is an error. *)
Fixpoint utf8_of (units : list N) : option (list N) :=
  match units with
  | [] => Some []
  | u :: rest =>
      if ((0xD800 <=? u) && (u <? 0xDC00))%N then
        match rest with
        | v :: rest' =>
            if ((0xDC00 <=? v) && (v <? 0xE000))%N then
              match utf8_of rest' with Some s => Some (utf8_char (0x10000 + (u - 0xD800) * 1024 + (v - 0xDC00))%N ++ s) | None => None end
            else None
        | [] => None
        end
      else if ((0xDC00 <=? u) && (u <? 0xE000))%N then None
      else match utf8_of rest with Some s => Some (utf8_char u ++ s) | None => None end
  end.
(** The string and its terminator must fit; a NULL string is an error. *)
Definition converted (name : option (list N)) : option (list N) :=
  match name with
  | None => None
  | Some units => match utf8_of units with
                  | Some s => if S (length s) <=? windows_name_max then Some s else None
                  | None => None
                  end
  end.

(** ** Reading the topology: src/arm/windows/init-by-logical-sys-info.c *)

(** CacheType of a CACHE_RELATIONSHIP: unified, instruction, data, trace. *)
Definition type_unified : N := 0.
Definition type_instruction : N := 1.
Definition type_data : N := 2.
(** One answer to a question about caches; the groups are the GroupCount elements of GroupMasks. *)
Record cinfo := CInfo {
  cc_expected : bool; cc_level : N; cc_type : N; cc_associativity : N; cc_line : N; cc_size : N; cc_groups : list (nat * N)
}.

(** The lists of GetLogicalProcessorInformationEx; [None] is an error of either call.  Cores
    and caches are asked for twice. *)
Record arm_windows_answers := ArmWindowsAnswers {
  aw_group_count : nat;
  aw_group_size : nat -> nat;
  aw_packages : option (list winfo);
  aw_cores : option (list winfo); aw_cores2 : option (list winfo);
  aw_caches : option (list cinfo); aw_caches2 : option (list cinfo)
}.

(** struct cpuinfo_processor while it is filled: package and cluster are offsets from NULL, and
    pointers to caches are indexes of the array of all caches. *)
Record wproc := WProc {
  wp_core : option nat; wp_cluster : nat; wp_package : nat; wp_group : nat; wp_number : nat;
  wp_l1i : option nat; wp_l1d : option nat; wp_l2 : option nat; wp_l3 : option nat
}.
Definition wproc0 : wproc := WProc None 0 0 0 0 None None None None.
Definition set_package (id group number : nat) (p : wproc) : wproc :=
  WProc (wp_core p) (wp_cluster p) id group number (wp_l1i p) (wp_l1d p) (wp_l2 p) (wp_l3 p).
Definition set_core (id : nat) (p : wproc) : wproc :=
  WProc (Some id) id (wp_package p) (wp_group p) (wp_number p) (wp_l1i p) (wp_l1d p) (wp_l2 p) (wp_l3 p).

(** struct cpuinfo_cache; processor_start is UINT32_MAX at first, which is [None]. *)
Record wcache := WCache { wc_geometry : geometry; wc_start : option nat; wc_count : nat }.

(** A state, or [None] if the function has returned false. *)
Definition obind {A B} (x : res (option A)) (f : A -> res (option B)) : res (option B) :=
  do o <- x; match o with Some a => f a | None => Ok None end.
Fixpoint each_opt {A T} (body : A -> T -> res (option T)) (l : list A) (s : T) : res (option T) :=
  match l with [] => Ok (Some s) | a :: l' => obind (body a s) (each_opt body l') end.

(** Lines 520-570: the loops over the groups and the bits of their masks. *)
Definition parse_processor_info {T} (before : list nat) (processors : nat) (store : nat -> nat -> nat -> T -> res T)
    (groups : list (nat * N)) (s : T) : res (option T) :=
  each_opt (fun g s =>
    each_opt (fun b s =>
      do start <- rd before (fst g);
      if processors <=? start + b then Ok None else do s <- store (start + b) (fst g) b s; Ok (Some s))
    (mask_bits (snd g)) s) groups s.

(** Lines 437-518: the number of structures (zero is an error) and the state. *)
Fixpoint parse_infos {A T} (expected : A -> bool) (parse : nat -> A -> T -> res (option T)) (infos : list A) (id : nat) (s : T)
    : res (option (nat * T)) :=
  match infos with
  | [] => Ok (Some (id, s))
  | info :: infos' =>
      if negb (expected info) then parse_infos expected parse infos' id s
      else obind (parse id info s) (parse_infos expected parse infos' (S id))
  end.
Definition read_relation {A T} (heap_ok : bool) (answer : option (list A)) (expected : A -> bool)
    (parse : nat -> A -> T -> res (option T)) (s : T) : res (option (nat * T)) :=
  match answer with
  | None => Ok None
  | Some infos =>
      if negb heap_ok then Ok None
      else obind (parse_infos expected parse infos 0 s) (fun r => if fst r =? 0 then Ok None else Ok (Some r))
  end.

(** Lines 686-702. *)
Definition store_package (id i group number : nat) (ps : list wproc) : res (list wproc) := modify ps i (set_package id group number).

(** Lines 704-731.  In the first round there are no cores. *)
Record cores_state := CoresState { cs_processors : list wproc; cs_cores : list core; cs_frequencies : list N }.
Definition store_core (chip : chip_info) (id i group number : nat) (s : cores_state) : res cores_state :=
  do ps <- modify (cs_processors s) i (set_core id);
  do cores <- modify (cs_cores s) id
                (fun c => Core (c_processor_start c) (c_processor_count c) id (c_cluster c) (c_package c) (c_vendor c) (ci_uarch chip) (c_cpuid c));
  do frequencies <- wr (cs_frequencies s) id (ci_frequency chip);
  Ok (CoresState ps cores frequencies).

(** Lines 572-613: the kind of a cache: 1i, 1d, 2, 3. *)
Inductive kind := K1i | K1d | K2 | K3.
Definition kind_of (info : cinfo) : option kind :=
  (if cc_level info =? 1 then
     if cc_type info =? type_instruction then Some K1i else if cc_type info =? type_data then Some K1d else None
   else if cc_level info =? 2 then Some K2
   else if cc_level info =? 3 then Some K3
   else None)%N.
(** A number per kind. *)
Record per_kind := PerKind { k1i : nat; k1d : nat; k2 : nat; k3 : nat }.
Definition of_kind (n : per_kind) (k : kind) : nat := match k with K1i => k1i n | K1d => k1d n | K2 => k2 n | K3 => k3 n end.
Definition bump (k : kind) (n : per_kind) : per_kind :=
  match k with
  | K1i => PerKind (S (k1i n)) (k1d n) (k2 n) (k3 n)
  | K1d => PerKind (k1i n) (S (k1d n)) (k2 n) (k3 n)
  | K2 => PerKind (k1i n) (k1d n) (S (k2 n)) (k3 n)
  | K3 => PerKind (k1i n) (k1d n) (k2 n) (S (k3 n))
  end.
Definition count_cache (id : nat) (info : cinfo) (n : per_kind) : res (option per_kind) :=
  Ok (Some (match kind_of info with Some k => bump k n | None => n end)).

(** Lines 614-617. *)
Definition base_of (n : per_kind) (k : kind) : nat :=
  match k with K1i => 0 | K1d => k1i n | K2 => k1i n + k1d n | K3 => k1i n + k1d n + k2 n end.

(** Lines 733-768. *)
Definition set_cache (k : kind) (cache : nat) (p : wproc) : wproc :=
  match k with
  | K1i => WProc (wp_core p) (wp_cluster p) (wp_package p) (wp_group p) (wp_number p) (Some cache) (wp_l1d p) (wp_l2 p) (wp_l3 p)
  | K1d => WProc (wp_core p) (wp_cluster p) (wp_package p) (wp_group p) (wp_number p) (wp_l1i p) (Some cache) (wp_l2 p) (wp_l3 p)
  | K2 => WProc (wp_core p) (wp_cluster p) (wp_package p) (wp_group p) (wp_number p) (wp_l1i p) (wp_l1d p) (Some cache) (wp_l3 p)
  | K3 => WProc (wp_core p) (wp_cluster p) (wp_package p) (wp_group p) (wp_number p) (wp_l1i p) (wp_l1d p) (wp_l2 p) (Some cache)
  end.
Definition lower_start (i : nat) (start : option nat) : option nat :=
  match start with None => Some i | Some s => if i <? s then Some i else Some s end.
Definition cache_takes (i : nat) (c : wcache) : wcache := WCache (wc_geometry c) (lower_start i (wc_start c)) (S (wc_count c)).

(** The counters are static variables, zero at first. *)
Record caches_state := CachesState { ks_processors : list wproc; ks_caches : list wcache; ks_counters : per_kind }.

(** CPUINFO_CACHE_UNIFIED, include/cpuinfo.h:107. *)
Definition flag_unified : N := 1.
(** Lines 633-667. *)
Definition geometry_of (info : cinfo) (flags : N) : res geometry :=
  (if cc_line info =? 0 then UB
   else if cc_associativity info =? 0 then UB
   else Ok (Geometry (cc_size info) (cc_associativity info) (cc_size info / cc_line info / cc_associativity info) 1 (cc_line info)
              (if cc_type info =? type_unified then flag_unified else flags)))%N.
(** Lines 614-684.  No bound on the index of the processor is checked. *)
Definition store_cache (numbers : per_kind) (before : list nat) (id : nat) (info : cinfo) (s : caches_state) : res (option caches_state) :=
  match kind_of info with
  | None => UB
  | Some k =>
      let index := base_of numbers k + of_kind (ks_counters s) k in
      do c <- rd (ks_caches s) index;
      do g <- geometry_of info (g_flags (wc_geometry c));
      do caches <- wr (ks_caches s) index (WCache g (wc_start c) (wc_count c));
      do r <- each (fun e r =>
                each (fun b r =>
                  do start <- rd before (fst e);
                  do caches <- modify (snd r) index (cache_takes (start + b));
                  do ps <- modify (fst r) (start + b) (set_cache k index);
                  Ok (ps, caches)) (mask_bits (snd e)) r) (cc_groups info) (ks_processors s, caches);
      Ok (Some (CachesState (fst r) (snd r) (bump k (ks_counters s))))
  end.
(** Lines 413-424 and the zeroed array of caches. *)
Definition reset_starts (numbers : per_kind) (all : nat) : res (list wcache) :=
  let n := k1i numbers + k1d numbers + k2 numbers + k3 numbers in
  if n <=? all then Ok (repeat (WCache geometry0 None 0) n ++ repeat (WCache geometry0 (Some 0) 0) (all - n)) else UB.

(** ** Connecting: lines 770-905 *)

Record objects := Objects {
  ob_cores : list core; ob_clusters : list cluster; ob_packages : list package; ob_names : list (list N); ob_frequencies : list N
}.
Definition connect_processor (name : option (list N)) (cores : nat) (ps : list wproc) (i : nat) (o : objects) : res (option objects) :=
  do p <- rd ps i;
  if length (ob_packages o) <=? wp_package p then Ok None else
  if cores <=? wp_cluster p then Ok None else
  match converted name with
  | None => Ok None
  | Some s =>
      do names <- wr (ob_names o) (wp_package p) s;
      do packages <- modify (ob_packages o) (wp_package p) (package_takes i);
      do clusters <- modify (ob_clusters o) (wp_cluster p) (cluster_takes i);
      match wp_core p with
      | None => UB
      | Some c => do cores <- modify (ob_cores o) c (core_takes i); Ok (Some (Objects cores clusters packages names (ob_frequencies o)))
      end
  end.
(** "for (i = n; i != 0; i--) { index = i - 1; ... }" *)
Fixpoint down_opt {T} (body : nat -> T -> res (option T)) (n : nat) (s : T) : res (option T) :=
  match n with O => Ok (Some s) | S i => obind (body i s) (down_opt body i) end.

(** Lines 872-904.  core_start of the cluster has just become the number of this core. *)
Definition connect_core (vendor : N) (ps : list wproc) (i : nat) (o : objects) : res (option objects) :=
  do c <- rd (ob_cores o) i;
  do p <- rd ps (c_processor_start c);
  do cores <- wr (ob_cores o) i (Core (c_processor_start c) (c_processor_count c) (c_core_id c) (Some (wp_cluster p)) (Some (wp_package p))
                                      vendor (c_uarch c) (c_cpuid c));
  do clusters <- modify (ob_clusters o) (wp_cluster p)
                   (fun l => Cluster (cl_processor_start l) (cl_processor_count l) i (S (cl_core_count l)) (cl_cluster_id l)
                                     (Some (wp_package p)) vendor (c_uarch c) (cl_cpuid l));
  do packages <- modify (ob_packages o) (wp_package p)
                   (fun k => Package (pk_processor_start k) (pk_processor_count k) i (S (pk_core_count k)) i (S (pk_core_count k)));
  Ok (Some (Objects cores clusters packages (ob_names o) (ob_frequencies o))).

(** ** Microarchitectures: lines 267-307 *)

Fixpoint count_uarchs (prev : N) (cores : list core) : nat :=
  match cores with [] => 0 | c :: rest => if (prev =? c_uarch c)%N then count_uarchs prev rest else S (count_uarchs (c_uarch c) rest) end.
Fixpoint fill_uarchs (first : bool) (prev : N) (index : nat) (cores : list core) (uarchs : list arm_uarch) : res (list arm_uarch) :=
  match cores with
  | [] => Ok uarchs
  | c :: rest =>
      if negb (prev =? c_uarch c)%N then
        let index := if first then index else S index in
        do uarchs <- modify uarchs index (fun u => ArmUarch (c_uarch c) (au_midr u) (c_processor_count c) 1);
        fill_uarchs false (c_uarch c) index rest uarchs
      else if negb (prev =? 0)%N then
        do uarchs <- modify uarchs index (fun u => ArmUarch (au_uarch u) (au_midr u) (au_processors u + c_processor_count c) (S (au_cores u)));
        fill_uarchs false prev index rest uarchs
      else fill_uarchs false prev index rest uarchs
  end.

(** ** What is published *)

Definition published_processor (p : wproc) : processor := Processor 0 (wp_core p) (Some (wp_cluster p)) (Some (wp_package p)) 0 0.
(** The part of the array of caches that is published for a kind. *)
Definition caches_of (numbers : per_kind) (caches : list wcache) (k : kind) : list wcache :=
  firstn (of_kind numbers k) (skipn (base_of numbers k) caches).
Definition cache_pointer (p : wproc) (k : kind) : option nat :=
  match k with K1i => wp_l1i p | K1d => wp_l1d p | K2 => wp_l2 p | K3 => wp_l3 p end.
(** The pointers of a kind as indexes into that part. *)
Definition pointers_of (numbers : per_kind) (ps : list wproc) (k : kind) : list (option nat) :=
  map (fun p => option_map (fun i => i - base_of numbers k) (cache_pointer p k)) ps.

Record arm_windows_tables := ArmWindowsTables {
  awt_processors : list processor; awt_ids : list (nat * nat);
  awt_cores : list core; awt_clusters : list cluster; awt_packages : list package;
  awt_names : list (list N);
  awt_core_frequencies : list N; awt_cluster_frequencies : list N;
  awt_uarchs : list arm_uarch;
  awt_caches : kind -> list wcache; awt_cache_of : kind -> list (option nat);
  awt_max_cache_size : N
}.

(** src/cache.c:6-17 for the first processor. *)
Definition max_cache_size (ps : list wproc) (caches : list wcache) : res N :=
  do p <- rd ps 0;
  let size i := do c <- rd caches i; Ok (g_size (wc_geometry c)) in
  match wp_l3 p, wp_l2 p, wp_l1d p with
  | Some i, _, _ => size i
  | None, Some i, _ => size i
  | None, None, Some i => size i
  | None, None, None => Ok 0%N
  end.

(** The frequency of a cluster is that of the core at core_start (line 902). *)
Definition cluster_frequency (frequencies : list N) (l : cluster) : N := nth (cl_core_start l) frequencies 0%N.

(** ** Initialization *)

Definition hblock_eqb (a b : hblock) : bool :=
  match a, b with
  | H_text, H_text | H_chip, H_chip | H_name, H_name | H_groups, H_groups | H_processors, H_processors
  | H_packages, H_packages | H_clusters, H_clusters | H_cores, H_cores | H_caches, H_caches | H_uarchs, H_uarchs => true
  | H_infos i, H_infos j => i =? j
  | _, _ => false
  end.
(** Lines 345-372: what is freed at the end, unless the variable has been reset (lines 338-343). *)
Definition windows_frees : list hblock := [H_processors; H_packages; H_clusters; H_cores; H_caches; H_uarchs; H_groups].
Definition windows_resets : list hblock := [H_processors; H_packages; H_clusters; H_cores; H_caches; H_uarchs].
Definition windows_cleanup (reset live : list hblock) : list hblock :=
  filter (fun b => existsb (hblock_eqb b) reset || negb (existsb (hblock_eqb b) windows_frees)) live.

Record windows_outcome := WindowsOutcome { wo_published : option arm_windows_tables; wo_live : list hblock }.

(** A step that may fail, with the jump to clean_up. *)
Definition otherwise {A} (live : list hblock) (x : res (option A)) (k : A -> res windows_outcome) : res windows_outcome :=
  do o <- x; match o with Some a => k a | None => Ok (WindowsOutcome None (windows_cleanup [] live)) end.
Definition with_heap (heap_ok : hblock -> bool) (b : hblock) (live : list hblock) (k : list hblock -> res windows_outcome) : res windows_outcome :=
  if heap_ok b then k (live ++ [b]) else Ok (WindowsOutcome None (windows_cleanup [] live)).

(** Lines 112-373.  The buffers of answers are freed before each call returns (lines 513-515).
    After the second round, [cores2] is the number of cores and of clusters. *)
Definition init_by_logical_sys_info (heap_ok : hblock -> bool) (chip : chip_info) (a : arm_windows_answers) (live : list hblock)
    : res windows_outcome :=
  with_heap heap_ok H_groups live (fun live =>
  let sizes := map (aw_group_size a) (seq 0 (aw_group_count a)) in
  let before := before_groups sizes 0 in
  let processors := total sizes in
  with_heap heap_ok H_processors live (fun live =>
  otherwise live (read_relation (heap_ok (H_infos 0)) (aw_packages a) wi_expected
           (fun id info => parse_processor_info before processors (store_package id) (wi_groups info))
           (repeat wproc0 processors)) (fun r =>
  let '(packages, ps) := r in
  otherwise live (read_relation (heap_ok (H_infos 1)) (aw_cores a) wi_expected
           (fun id info => parse_processor_info before processors (fun _ _ _ s => Ok s) (wi_groups info)) tt) (fun r =>
  let '(cores, _) := r in
  otherwise live (read_relation (heap_ok (H_infos 2)) (aw_caches a) cc_expected count_cache (PerKind 0 0 0 0)) (fun r =>
  let '(all_caches, numbers) := r in
  with_heap heap_ok H_packages live (fun live =>
  with_heap heap_ok H_clusters live (fun live =>
  with_heap heap_ok H_cores live (fun live =>
  with_heap heap_ok H_caches live (fun live =>
  do caches <- reset_starts numbers all_caches;
  otherwise live (read_relation (heap_ok (H_infos 3)) (aw_caches2 a) cc_expected (store_cache numbers before)
           (CachesState ps caches (PerKind 0 0 0 0))) (fun r =>
  let '(_, k) := r in
  otherwise live (read_relation (heap_ok (H_infos 4)) (aw_cores2 a) wi_expected
           (fun id info => parse_processor_info before processors (store_core chip id) (wi_groups info))
           (CoresState (ks_processors k) (repeat core0 cores) (repeat 0%N cores))) (fun r =>
  let '(cores2, c) := r in
  let ps := cs_processors c in
  otherwise live (down_opt (connect_processor (ci_name chip) cores2 ps) processors
           (Objects (cs_cores c) (repeat cluster0 cores) (repeat package0 packages) (repeat [] packages) (cs_frequencies c))) (fun o =>
  otherwise live (down_opt (connect_core (ci_vendor chip) ps) cores2 o) (fun o =>
  do table <- (if cores2 <=? cores then Ok (firstn cores2 (ob_cores o)) else UB);
  let uarchs := count_uarchs 0 table in
  with_heap heap_ok H_uarchs live (fun live =>
  do uarchs_table <- fill_uarchs true 0 0 table (repeat arm_uarch0 uarchs);
  do max <- max_cache_size ps (ks_caches k);
  Ok (WindowsOutcome
        (Some (ArmWindowsTables (map published_processor ps) (map (fun p => (wp_group p, wp_number p)) ps)
                 table (firstn cores2 (ob_clusters o)) (ob_packages o) (ob_names o)
                 (firstn cores2 (ob_frequencies o)) (map (cluster_frequency (ob_frequencies o)) (firstn cores2 (ob_clusters o)))
                 uarchs_table (caches_of numbers (ks_caches k)) (pointers_of numbers ps) max))
        (windows_cleanup windows_resets live)))))))))))))))).

(** src/arm/windows/init.c:22-36, without cpuinfo_isa. *)
Definition arm_windows_init (arm32 : bool) (before : N * N) (heap_ok : hblock -> bool) (r : registry) (a : arm_windows_answers)
    : res windows_outcome :=
  do found <- system_info_from_registry arm32 before heap_ok r;
  let '(chip, live) := found in
  init_by_logical_sys_info heap_ok (match chip with Some c => c | None => chip_unknown end) a live.

(** Lines 309-335, and the flag, src/arm/windows/init.c:33.  The pointers to caches point into
    one array and are never NULL. *)
Definition arm_windows_commit (t : arm_windows_tables) : list gstore :=
  let count k := length (awt_caches t k) in
  [St_pointer Processors (Some (Processors, length (awt_processors t)));
   St_pointer Packages (Some (Packages, length (awt_packages t)));
   St_pointer Clusters (Some (Clusters, length (awt_clusters t)));
   St_pointer Cores (Some (Cores, length (awt_cores t)));
   St_pointer Uarchs (Some (Uarchs, length (awt_uarchs t)));
   St_count Processors (N.of_nat (length (awt_processors t)));
   St_count Packages (N.of_nat (length (awt_packages t)));
   St_count Clusters (N.of_nat (length (awt_clusters t)));
   St_count Cores (N.of_nat (length (awt_cores t)));
   St_count Uarchs (N.of_nat (length (awt_uarchs t)));
   St_count (Caches L1i) (N.of_nat (count K1i));
   St_count (Caches L1d) (N.of_nat (count K1d));
   St_count (Caches L2) (N.of_nat (count K2));
   St_count (Caches L3) (N.of_nat (count K3));
   St_pointer (Caches L1i) (Some (Caches L1i, count K1i));
   St_pointer (Caches L1d) (Some (Caches L1d, count K1d));
   St_pointer (Caches L2) (Some (Caches L2, count K2));
   St_pointer (Caches L3) (Some (Caches L3, count K3));
   St_pointer (Caches L4) (Some (Caches L4, 0));
   St_max_cache_size (awt_max_cache_size t);
   St_initialized].

(** Not Linux, but several microarchitectures. *)
Definition arm_windows : config := Config false true.
Definition arm_windows_routine (o : windows_outcome) : list gstore :=
  St_other :: match wo_published o with Some t => arm_windows_commit t | None => [] end.
