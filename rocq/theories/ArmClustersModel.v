(** Model of src/arm/linux/clusters.c and of the parts of src/arm/linux/init.c that
    group the processors into clusters.  Definitions only.
    The log messages are left out; so is package_id, of which only its flag is used. *)
From Verif Require Import Base Loops LinuxTextModel ArmMidrModel.
Open Scope nat_scope.

(** struct cpuinfo_arm_linux_proc_cpuinfo_cache (src/arm/linux/api.h), one half. *)
Record l1_report := L1Report { lr_size : N; lr_assoc : N; lr_line : N; lr_sets : N }.

(** The fields of struct cpuinfo_arm_linux_processor that only parsing sets. *)
Record areport := AReport {
  ar_architecture_version : N; ar_architecture_flags : N; ar_icache : l1_report; ar_dcache : l1_report;
  ar_features : N; ar_features2 : N
}.

(** struct cpuinfo_arm_linux_processor, src/arm/linux/api.h:175-224. *)
Record aproc := AProc {
  a_flags : N; a_midr : N; a_max : N; a_min : N; a_leader : nat; a_count : nat; a_id : nat;
  a_vendor : N; a_uarch : N; a_uarch_index : nat; a_report : areport
}.
Definition l1_report0 : l1_report := L1Report 0 0 0 0.
Definition areport0 : areport := AReport 0 0 l1_report0 l1_report0 0 0.
Definition aproc0 : aproc := AProc 0 0 0 0 0 0 0 0 0 0 areport0.

Definition with_aflags (v : N) (p : aproc) : aproc :=
  AProc v (a_midr p) (a_max p) (a_min p) (a_leader p) (a_count p) (a_id p) (a_vendor p) (a_uarch p)
        (a_uarch_index p) (a_report p).
Definition with_amidr (v : N) (p : aproc) : aproc :=
  AProc (a_flags p) v (a_max p) (a_min p) (a_leader p) (a_count p) (a_id p) (a_vendor p) (a_uarch p)
        (a_uarch_index p) (a_report p).
Definition with_amax (v : N) (p : aproc) : aproc :=
  AProc (a_flags p) (a_midr p) v (a_min p) (a_leader p) (a_count p) (a_id p) (a_vendor p) (a_uarch p)
        (a_uarch_index p) (a_report p).
Definition with_amin (v : N) (p : aproc) : aproc :=
  AProc (a_flags p) (a_midr p) (a_max p) v (a_leader p) (a_count p) (a_id p) (a_vendor p) (a_uarch p)
        (a_uarch_index p) (a_report p).
Definition with_aleader (v : nat) (p : aproc) : aproc :=
  AProc (a_flags p) (a_midr p) (a_max p) (a_min p) v (a_count p) (a_id p) (a_vendor p) (a_uarch p)
        (a_uarch_index p) (a_report p).
Definition with_acount (v : nat) (p : aproc) : aproc :=
  AProc (a_flags p) (a_midr p) (a_max p) (a_min p) (a_leader p) v (a_id p) (a_vendor p) (a_uarch p)
        (a_uarch_index p) (a_report p).
Definition with_aid (v : nat) (p : aproc) : aproc :=
  AProc (a_flags p) (a_midr p) (a_max p) (a_min p) (a_leader p) (a_count p) v (a_vendor p) (a_uarch p)
        (a_uarch_index p) (a_report p).
Definition with_avendor_uarch (v u : N) (p : aproc) : aproc :=
  AProc (a_flags p) (a_midr p) (a_max p) (a_min p) (a_leader p) (a_count p) (a_id p) v u
        (a_uarch_index p) (a_report p).
Definition with_auarch_index (v : nat) (p : aproc) : aproc :=
  AProc (a_flags p) (a_midr p) (a_max p) (a_min p) (a_leader p) (a_count p) (a_id p) (a_vendor p) (a_uarch p)
        v (a_report p).
Definition with_areport (v : areport) (p : aproc) : aproc :=
  AProc (a_flags p) (a_midr p) (a_max p) (a_min p) (a_leader p) (a_count p) (a_id p) (a_vendor p) (a_uarch p)
        (a_uarch_index p) v.

(** src/linux/api.h:10-24 and src/arm/linux/api.h:149-171. *)
Definition af_present : N := 0x1.
Definition af_possible : N := 0x2.
Definition af_max_frequency : N := 0x4.
Definition af_min_frequency : N := 0x8.
Definition af_package_id : N := 0x40.
Definition af_cluster : N := 0x400.          (* CPUINFO_LINUX_FLAG_PACKAGE_CLUSTER *)
Definition af_valid : N := 0x1000.
Definition af_architecture : N := 0x10000.
Definition af_implementer : N := 0x20000.
Definition af_variant : N := 0x40000.
Definition af_part : N := 0x80000.
Definition af_revision : N := 0x100000.
Definition af_processor : N := 0x200000.
Definition af_features : N := 0x400000.
Definition af_midr : N := 0x3F0000.
Definition af_icache : N := 0x0F000000.
Definition af_dcache : N := 0xF0000000.

(** src/arm/linux/clusters.c:17-19 (and the same in init.c and midr.c), and "flags & mask". *)
Definition bitmask_all (bitfield mask : N) : bool := (N.land bitfield mask =? mask)%N.
Definition any_flag (bitfield mask : N) : bool := negb (N.land bitfield mask =? 0)%N.
Definition a_valid (p : aproc) : bool := bitmask_all (a_flags p) af_valid.
Definition clustered (p : aproc) : bool := any_flag (a_flags p) af_cluster.
Definition add_aflag (f : N) (p : aproc) : aproc := with_aflags (N.lor (a_flags p) f) p.

(** ** What the kernel says *)

(** src/arm/linux/init.c:42-55, one iteration for a sibling; [fst] is package_leader_id. *)
Definition sibling_step (sibling : nat) (s : nat * list aproc) : res (nat * list aproc) :=
  let '(leader, ps) := s in
  do q <- rd ps sibling;
  if negb (a_valid q) then Ok s
  else
    let leader' := if a_leader q <? leader then a_leader q else leader in
    do ps' <- wr ps sibling (add_aflag af_cluster (with_aleader leader' q));
    Ok (leader', ps').

(** src/arm/linux/init.c:33-62. *)
Definition cluster_siblings (processor first end_ : nat) (ps : list aproc) : res (list aproc) :=
  do ps1 <- modify ps processor (add_aflag af_cluster);
  do p <- rd ps1 processor;
  do r <- for_each sibling_step first (end_ - first) (a_leader p, ps1);
  let '(leader, ps2) := r in modify ps2 processor (with_aleader leader).
Definition cluster_siblings_parser (processor : nat) (ctx : res (list aproc)) (first end_ : N)
  : bool * res (list aproc) :=
  (true, do ps <- ctx; cluster_siblings processor (N.to_nat first) (N.to_nat end_) ps).

(** cpuinfo_linux_detect_core_siblings and cpuinfo_linux_detect_cluster_cpus with
    that callback. *)
Definition detect_cluster_list (sg : bool) (max : N) (processor : nat) (f : file) (ps : list aproc)
  : res (bool * list aproc) :=
  do r <- detect_siblings sg max (cluster_siblings_parser processor) (f_contents f) (f_reads f) (Ok ps);
  let '(ok, rp) := r in do ps' <- rp; Ok (ok, ps').

(** The two flags of lines 338-339: neither list tried yet, or the one in use. *)
Inductive sibling_source := Undecided | Core_siblings | Cluster_cpus.

(** The two sibling lists of a processor. *)
Record sibling_files := SiblingFiles { sf_cluster_cpus : file; sf_core_siblings : file }.

(** Lines 340-383, one iteration. *)
Definition sibling_lists_step (sg : bool) (max : N) (files : nat -> sibling_files) (i : nat)
           (s : sibling_source * list aproc) : res (sibling_source * list aproc) :=
  let '(source, ps) := s in
  do p <- rd ps i;
  if negb (a_valid p) then Ok s
  else if negb (bitmask_all (a_flags p) af_package_id) then Ok s
  else
    let core_siblings ps :=
      do r <- detect_cluster_list sg max i (sf_core_siblings (files i)) ps; Ok (Core_siblings, snd r) in
    match source with
    | Undecided =>
        do r <- detect_cluster_list sg max i (sf_cluster_cpus (files i)) ps;
        let '(ok, ps') := r in
        if (ok : bool) then Ok (Cluster_cpus, ps') else core_siblings ps'
    | Core_siblings => core_siblings ps
    | Cluster_cpus => do r <- detect_cluster_list sg max i (sf_cluster_cpus (files i)) ps; Ok (Cluster_cpus, snd r)
    end.

(** Lines 387-406; [fst] is clustered_processors. *)
Definition propagate_step (i : nat) (s : nat * list aproc) : res (nat * list aproc) :=
  let '(n, ps) := s in
  do p <- rd ps i;
  if bitmask_all (a_flags p) (N.lor af_valid af_cluster) then
    if a_leader p <? i then
      do q <- rd ps (a_leader p);
      do ps' <- wr ps i (with_aleader (a_leader q) p);
      Ok (S n, ps')
    else Ok (S n, ps)
  else Ok s.

(** Lines 332-406. *)
Definition leaders_are_self (ps : list aproc) : list aproc :=
  map (fun ip => let '(i, p) := ip in with_aleader i p) (combine (seq 0 (length ps)) ps).
Definition clusters_from_kernel (sg : bool) (files : nat -> sibling_files) (ps : list aproc)
  : res (nat * list aproc) :=
  let n := length ps in
  do r <- for_each (sibling_lists_step sg (N.of_nat n) files) 0 n (Undecided, leaders_are_self ps);
  for_each propagate_step 0 n (0, snd r).

(** ** What is known of a cluster *)

(** cluster_flags, cluster_midr, cluster_max_frequency, cluster_min_frequency.
    They are not initialised (clusters.c:111 and 419): a value whose flag is not
    set is whatever the variable held before. *)
Record known := Known { k_flags : N; k_midr : N; k_max : N; k_min : N }.

(** The attributes in the order in which they are compared. *)
Inductive attribute := Min_frequency | Max_frequency | Implementer | Variant | Part | Revision.
Definition attributes : list attribute := [Min_frequency; Max_frequency; Implementer; Variant; Part; Revision].
Definition attribute_flag (a : attribute) : N :=
  match a with
  | Min_frequency => af_min_frequency | Max_frequency => af_max_frequency
  | Implementer => af_implementer | Variant => af_variant | Part => af_part | Revision => af_revision
  end.
Definition attribute_value (a : attribute) (midr max min : N) : N :=
  match a with
  | Min_frequency => min
  | Max_frequency => max
  | Implementer => N.land midr implementer_mask
  | Variant => N.land midr variant_mask
  | Part => N.land midr part_mask
  | Revision => N.land midr revision_mask
  end.
Definition cluster_value (a : attribute) (k : known) : N := attribute_value a (k_midr k) (k_max k) (k_min k).
Definition processor_value (a : attribute) (p : aproc) : N := attribute_value a (a_midr p) (a_max p) (a_min p).
Definition learn (a : attribute) (p : aproc) (k : known) : known :=
  let flags := N.lor (k_flags k) (attribute_flag a) in
  match a with
  | Min_frequency => Known flags (k_midr k) (k_max k) (a_min p)
  | Max_frequency => Known flags (k_midr k) (a_max p) (k_min k)
  | Implementer => Known flags (midr_copy_implementer (k_midr k) (a_midr p)) (k_max k) (k_min k)
  | Variant => Known flags (midr_copy_variant (k_midr k) (a_midr p)) (k_max k) (k_min k)
  | Part => Known flags (midr_copy_part (k_midr k) (a_midr p)) (k_max k) (k_min k)
  | Revision => Known flags (midr_copy_revision (k_midr k) (a_midr p)) (k_max k) (k_min k)
  end.

(** Clusters.c:211-229 (and 231-336, 427-549): [None] if the processor differs
    from what is known of the cluster. *)
Definition check_attribute (p : aproc) (k : option known) (a : attribute) : option known :=
  match k with
  | None => None
  | Some k =>
      if any_flag (a_flags p) (attribute_flag a) then
        if any_flag (k_flags k) (attribute_flag a) then
          if (cluster_value a k =? processor_value a p)%N then Some k else None
        else Some (learn a p k)
      else Some k
  end.
Definition check_processor (p : aproc) (k : known) : option known :=
  fold_left (check_attribute p) attributes (Some k).

(** Clusters.c:571-595.  If a comparison failed, the C variables may by then hold
    values learned from the same processor; here they hold the older ones.  Both
    are dead: their flags are cleared (see [scan_ignores_old_values]). *)
Definition learn_if_known (p : aproc) (k : known) (a : attribute) : known :=
  if any_flag (a_flags p) (attribute_flag a) then learn a p k else k.
Definition start_known (p : aproc) (old : known) : known :=
  fold_left (learn_if_known p) attributes (Known 0 (k_midr old) (k_max old) (k_min old)).

(** ** The heuristic, clusters.c:68-373 *)

(** Lines 72-100; [android_arm32] is __ANDROID__ && CPUINFO_ARCH_ARM.  The
    elements that are not assigned are not in the list: reading one is undefined. *)
Definition cluster_layout (android_arm32 : bool) (usable : nat) : option (list nat) :=
  if usable =? 10 then Some [4; 4; 2]
  else if usable =? 8 then Some [4; 4]
  else if usable =? 6 then Some [4; 2]
  else if android_arm32 && (usable =? 5) then Some [4; 1]
  else None.

(** The variables of lines 109-112. *)
Record hscan := HScan { h_cluster : nat; h_expected : nat; h_exists : bool; h_start : nat; h_known : known }.

(** Lines 113-341, one iteration; [None] once the function has returned false. *)
Definition heuristic_check_step (layout : list nat) (ps : list aproc) (i : nat) (s : option hscan)
  : res (option hscan) :=
  match s with
  | None => Ok None
  | Some h =>
      do p <- rd ps i;
      if negb (a_valid p) then Ok s
      else if h_expected h =? 0 then
        do n <- rd layout (h_cluster h);
        if clustered p && negb (a_leader p =? i) then Ok None
        else
          let k := h_known h in
          Ok (Some (HScan (S (h_cluster h)) (n - 1) (clustered p) i
                          (if clustered p then k else Known 0 (k_midr k) (k_max k) (k_min k))))
      else if h_exists h then
        if negb (clustered p) then Ok None
        else if negb (a_leader p =? h_start h) then Ok None
        else Ok (Some (HScan (h_cluster h) (h_expected h - 1) (h_exists h) (h_start h) (h_known h)))
      else if clustered p then Ok None
      else
        match check_processor p (h_known h) with
        | None => Ok None
        | Some k => Ok (Some (HScan (h_cluster h) (h_expected h - 1) (h_exists h) (h_start h) k))
        end
  end.

(** Lines 344-371: cluster, expected_cluster_processors, cluster_start. *)
Record assign := Assign { as_cluster : nat; as_expected : nat; as_start : nat; as_procs : list aproc }.
Definition heuristic_assign_step (layout : list nat) (i : nat) (s : assign) : res assign :=
  do p <- rd (as_procs s) i;
  if negb (a_valid p) then Ok s
  else if as_expected s =? 0 then
    do n <- rd layout (as_cluster s);
    Ok (Assign (S (as_cluster s)) (n - 1) i (as_procs s))
  else
    do ps <- wr (as_procs s) i (add_aflag af_cluster (with_aleader (as_start s) p));
    Ok (Assign (as_cluster s) (as_expected s - 1) (as_start s) ps).

(** [garbage] stands for the values of the uninitialised variables. *)
Definition clusters_by_heuristic (android_arm32 : bool) (garbage : known) (usable : nat) (ps : list aproc)
  : res (bool * list aproc) :=
  match cluster_layout android_arm32 usable with
  | None => Ok (false, ps)
  | Some layout =>
      let n := length ps in
      do c <- for_each (heuristic_check_step layout ps) 0 n (Some (HScan 0 0 false 0 garbage));
      match c with
      | None => Ok (false, ps)
      | Some _ =>
          do s <- for_each (heuristic_assign_step layout) 0 n (Assign 0 0 0 ps);
          Ok (true, as_procs s)
      end
  end.

(** ** The sequential scan, clusters.c:414-598 *)
Record scan := Scan { s_processors : nat; s_start : nat; s_known : known; s_procs : list aproc }.
Definition scan_step (i : nat) (s : scan) : res scan :=
  do p <- rd (s_procs s) i;
  if negb (N.land (a_flags p) (N.lor af_valid af_cluster) =? af_valid)%N then Ok s
  else
    match (if s_processors s =? 0 then None else check_processor p (s_known s)) with
    | Some k =>
        do ps <- wr (s_procs s) i (add_aflag af_cluster (with_aleader (s_start s) p));
        Ok (Scan (S (s_processors s)) (s_start s) k ps)
    | None =>
        do ps <- wr (s_procs s) i (add_aflag af_cluster (with_aleader i p));
        Ok (Scan 1 i (start_known p (s_known s)) ps)
    end.
Definition clusters_by_scan (garbage : known) (ps : list aproc) : res (list aproc) :=
  do s <- for_each scan_step 0 (length ps) (Scan 0 0 (Known 0 (k_midr garbage) (k_max garbage) (k_min garbage)) ps);
  Ok (s_procs s).

(** ** Cluster sizes, clusters.c:613-632 *)
Definition count_step (i : nat) (ps : list aproc) : res (list aproc) :=
  do p <- rd ps i;
  if a_valid p then modify ps (a_leader p) (fun q => with_acount (S (a_count q)) q) else Ok ps.
Definition copy_count_step (i : nat) (ps : list aproc) : res (list aproc) :=
  do p <- rd ps i;
  if a_valid p then do q <- rd ps (a_leader p); wr ps i (with_acount (a_count q) p) else Ok ps.
Definition count_cluster_processors (ps : list aproc) : res (list aproc) :=
  do ps1 <- for_each count_step 0 (length ps) ps;
  for_each copy_count_step 0 (length ps1) ps1.

(** ** init.c:332-431 *)
Definition detect_clusters (sg android_arm32 : bool) (garbage : known) (files : nat -> sibling_files)
           (valid_processors : nat) (ps : list aproc) : res (list aproc) :=
  do r <- clusters_from_kernel sg files ps;
  let '(n, ps1) := r in
  do ps2 <- (if n =? valid_processors then Ok ps1
             else do h <- clusters_by_heuristic android_arm32 garbage valid_processors ps1;
                  if fst h then Ok (snd h) else clusters_by_scan garbage (snd h));
  count_cluster_processors ps2.
