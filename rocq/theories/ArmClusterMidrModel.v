(** Model of src/arm/linux/midr.c and of the loop of src/arm/linux/init.c that copies
    what is known of a cluster to its processors.  Definitions only.
    The log messages are left out. *)
From Verif Require Import Base Loops ArmMidrModel ArmClustersModel.
Open Scope nat_scope.

(** ** The table of chipsets *)

(** enum cpuinfo_arm_chipset_series, src/arm/api.h:42-76; the values in use below. *)
Definition series_msm : N := 2.
Definition series_mt : N := 5.
Definition series_exynos : N := 6.
Definition series_kirin : N := 9.
Definition series_atm : N := 10.
Definition series_rk : N := 25.

(** Some entries are compiled for one of the architectures only. *)
Inductive built_for := On_both | On_arm32 | On_arm64.
Definition built (arm32 : bool) (b : built_for) : bool :=
  match b with On_both => true | On_arm32 => arm32 | On_arm64 => negb arm32 end.

(** struct cluster_config, midr.c:26-52; the arrays have CLUSTERS_MAX elements. *)
Record cluster_config := Config {
  cc_for : built_for; cc_series : N; cc_model : N; cc_cores : nat; cc_clusters : nat;
  cc_cluster_cores : list nat; cc_cluster_midr : list N
}.
Definition clusters_max : nat := 3.

(** cluster_configs, midr.c:80-555. *)
Definition cluster_configs : list cluster_config := [
   Config On_arm32 series_msm 8916 4 1 [4; 0; 0] [0x410FD030; 0; 0]%N;
   Config On_arm32 series_msm 8939 8 2 [4; 4; 0] [0x410FD034; 0x410FD034; 0]%N;
   Config On_both series_msm 8956 6 2 [4; 2; 0] [0x410FD034; 0x410FD080; 0]%N;
   Config On_both series_msm 8976 8 2 [4; 4; 0] [0x410FD034; 0x410FD080; 0]%N;
   Config On_both series_msm 8992 6 2 [4; 2; 0] [0x410FD033; 0x411FD072; 0]%N;
   Config On_both series_msm 8994 8 2 [4; 4; 0] [0x410FD032; 0x411FD071; 0]%N;
   Config On_arm32 series_exynos 5422 8 2 [4; 4; 0] [0x410FC073; 0x412FC0F3; 0]%N;
   Config On_arm32 series_exynos 5430 8 2 [4; 4; 0] [0x410FC074; 0x413FC0F3; 0]%N;
   Config On_both series_exynos 5433 8 2 [4; 4; 0] [0x410FD031; 0x411FD070; 0]%N;
   Config On_both series_exynos 7420 8 2 [4; 4; 0] [0x410FD032; 0x411FD070; 0]%N;
   Config On_both series_exynos 8890 8 2 [4; 4; 0] [0x410FD034; 0x531F0011; 0]%N;
   Config On_arm32 series_kirin 920 8 2 [4; 4; 0] [0x410FC075; 0x413FC0F3; 0]%N;
   Config On_arm32 series_kirin 925 8 2 [4; 4; 0] [0x410FC075; 0x413FC0F3; 0]%N;
   Config On_arm32 series_kirin 928 8 2 [4; 4; 0] [0x410FC075; 0x413FC0F3; 0]%N;
   Config On_both series_kirin 950 8 2 [4; 4; 0] [0x410FD034; 0x410FD080; 0]%N;
   Config On_both series_kirin 955 8 2 [4; 4; 0] [0x410FD034; 0x410FD080; 0]%N;
   Config On_arm32 series_mt 8135 4 2 [2; 2; 0] [0x410FC073; 0x413FC0F2; 0]%N;
   Config On_both series_mt 8173 4 2 [2; 2; 0] [0x410FD032; 0x410FD080; 0]%N;
   Config On_both series_mt 8176 6 2 [4; 2; 0] [0x410FD032; 0x410FD080; 0]%N;
   Config On_arm64 series_mt 8735 4 1 [4; 0; 0] [0x410FD034; 0; 0]%N;
   Config On_arm32 series_mt 6592 4 2 [4; 4; 0] [0x410FC074; 0x410FC074; 0]%N;
   Config On_arm32 series_mt 6595 8 2 [4; 4; 0] [0x410FC075; 0x410FC0E0; 0]%N;
   Config On_both series_mt 6797 10 3 [4; 4; 2] [0x410FD034; 0x410FD034; 0x410FD081]%N;
   Config On_both series_mt 6799 10 3 [4; 4; 2] [0x410FD041; 0x410FD034; 0x410FD092]%N;
   Config On_both series_rk 3399 6 2 [4; 2; 0] [0x410FD034; 0x410FD082; 0]%N;
   Config On_arm32 series_atm 7029 4 1 [4; 0; 0] [0x410FC051; 0; 0]%N
].
Definition cluster_table (arm32 : bool) : list cluster_config := filter (fun c => built arm32 (cc_for c)) cluster_configs.

(** struct cpuinfo_arm_chipset, as far as it is looked at. *)
Record chipset := Chipset { ch_vendor : N; ch_series : N; ch_model : N }.

(** ** MIDR by chipset, midr.c:582-665 *)

(** Lines 617-632 and 737-749. *)
Definition known_mask (flags : N) : N :=
  let m := if any_flag flags af_implementer then implementer_mask else 0%N in
  let m := if any_flag flags af_variant then N.lor m variant_mask else m in
  let m := if any_flag flags af_part then N.lor m part_mask else m in
  if any_flag flags af_revision then N.lor m revision_mask else m.
Definition midr_agrees (p : aproc) (midr : N) : bool :=
  (N.land (N.lxor (a_midr p) midr) (known_mask (a_flags p)) =? 0)%N.

(** A loop over the clusters that returns false at the first one that fails. *)
Definition check_clusters (ok : nat -> res bool) (clusters : nat) : res bool :=
  for_each (fun c (so_far : bool) => if so_far then ok c else Ok false) 0 clusters true.

(** [leaders] are the elements of cluster_leaders that have been assigned. *)
Definition size_matches (leaders : list nat) (cfg : cluster_config) (ps : list aproc) (c : nat) : res bool :=
  do l <- rd leaders c; do n <- rd (cc_cluster_cores cfg) c; do p <- rd ps l; Ok (n =? a_count p).
Definition midr_matches (leaders : list nat) (cfg : cluster_config) (ps : list aproc) (c : nat) : res bool :=
  do l <- rd leaders c; do m <- rd (cc_cluster_midr cfg) c; do p <- rd ps l; Ok (midr_agrees p m).
Definition assign_tabulated (leaders : list nat) (cfg : cluster_config) (c : nat) (ps : list aproc) : res (list aproc) :=
  do l <- rd leaders c; do m <- rd (cc_cluster_midr cfg) c;
  modify ps l (fun p => add_aflag af_midr (with_amidr m p)).

Definition midr_by_chipset (table : list cluster_config) (chip : chipset) (clusters : nat) (leaders : list nat)
           (processors : nat) (ps : list aproc) (verify : bool) : res (bool * list aproc) :=
  if clusters <=? clusters_max then
    match find (fun cfg => (cc_model cfg =? ch_model chip)%N && (cc_series cfg =? ch_series chip)%N) table with
    | None => Ok (false, ps)
    | Some cfg =>
        if negb (cc_cores cfg =? processors) || negb (cc_clusters cfg =? clusters) then Ok (false, ps)
        else
          do sizes <- check_clusters (size_matches leaders cfg ps) clusters;
          if negb sizes then Ok (false, ps)
          else
            do midrs <- (if verify then check_clusters (midr_matches leaders cfg ps) clusters else Ok true);
            if negb midrs then Ok (false, ps)
            else do ps' <- for_each (assign_tabulated leaders cfg) 0 clusters ps; Ok (true, ps')
    end
  else Ok (false, ps).

(** ** MIDR of big.LITTLE systems, midr.c:699-780 *)

Definition guess_matches (leaders : list nat) (guess : nat -> N) (ps : list aproc) (c : nat) : res bool :=
  do l <- rd leaders c; do p <- rd ps l; Ok (midr_agrees p (guess l)).
Definition assign_guess (leaders : list nat) (guess : nat -> N) (flags : N) (c : nat) (ps : list aproc) : res (list aproc) :=
  do l <- rd leaders c; do p <- rd ps l;
  if bitmask_all (a_flags p) af_midr then Ok ps else wr ps l (add_aflag flags (with_amidr (guess l) p)).

Definition midr_by_big_little (clusters with_midr last_with_midr : nat) (leaders : list nat) (ps : list aproc) (verify : bool)
  : res (bool * list aproc) :=
  if negb (clusters =? 2) || negb (with_midr =? 1) then Ok (false, ps)
  else
    do p <- rd ps last_with_midr;
    do big <- rd ps (a_leader p);
    let midr_flags := N.land (a_flags big) af_midr in
    let big_midr := a_midr big in
    let little_midr := midr_little_core_for_big big_midr in
    do first <- rd leaders 0;
    do other <- rd leaders 1;
    do p0 <- rd ps first;
    do p1 <- rd ps other;
    let little := if any_flag (N.land (a_flags p0) (a_flags p1)) af_max_frequency
                  then if (a_max p1 <? a_max p0)%N then other else first
                  else first in
    let guess l := if l =? little then little_midr else big_midr in
    do ok <- (if verify then check_clusters (guess_matches leaders guess ps) clusters else Ok true);
    if negb ok then Ok (false, ps)
    else do ps' <- for_each (assign_guess leaders guess midr_flags) 0 clusters ps; Ok (true, ps').

(** ** The sequential scan, midr.c:797-819; [fst] is midr *)
Definition midr_scan_step (i : nat) (s : N * list aproc) : res (N * list aproc) :=
  let '(midr, ps) := s in
  do p <- rd ps i;
  if a_valid p && (a_leader p =? i) then
    if bitmask_all (a_flags p) af_midr then Ok (a_midr p, ps)
    else do ps' <- wr ps i (add_aflag af_midr (with_amidr midr p)); Ok (midr, ps')
  else Ok s.
Definition midr_by_scan (default : N) (ps : list aproc) : res (list aproc) :=
  do r <- for_each midr_scan_step 0 (length ps) (default, ps); Ok (snd r).

(** ** midr.c:836-1002 *)

(** The variables of lines 841-845.  All leaders are kept; the C array has the first
    CLUSTERS_MAX of them. *)
Record collect := Collect { co_leaders : list nat; co_last_listed : nat; co_last_midr : nat; co_with_midr : nat; co_procs : list aproc }.

(** Lines 867-876. *)
Definition inform_leader (p q : aproc) : aproc :=
  let q1 := if any_flag (N.land (a_flags p) (N.ldiff af_max_frequency (a_flags q))) af_max_frequency
            then add_aflag af_max_frequency (with_amax (a_max p) q) else q in
  if negb (bitmask_all (a_flags q1) af_midr) && bitmask_all (a_flags p) af_midr
  then add_aflag af_midr (with_amidr (a_midr p) q1) else q1.
Definition collect_step (i : nat) (s : collect) : res collect :=
  let ps := co_procs s in
  do p <- rd ps i;
  if a_valid p then
    let listed := if any_flag (a_flags p) af_processor then i else co_last_listed s in
    let reported := bitmask_all (a_flags p) (N.lor af_implementer af_part) in
    let last := if reported then i else co_last_midr s in
    let n := if reported then S (co_with_midr s) else co_with_midr s in
    if a_leader p =? i then Ok (Collect (co_leaders s ++ [i]) listed last n ps)
    else do q <- rd ps (a_leader p);
         do ps' <- wr ps (a_leader p) (inform_leader p q);
         Ok (Collect (co_leaders s) listed last n ps')
  else Ok s.

(** Lines 945-952. *)
Definition leads_with_midr (i : nat) (p : aproc) : bool :=
  bitmask_all (a_flags p) (N.lor af_valid af_midr) && (a_leader p =? i).
Definition clusters_with_midr (ps : list aproc) : nat :=
  length (filter (fun i => match nth_error ps i with Some p => leads_with_midr i p | None => false end) (seq 0 (length ps))).

Definition detect_cluster_midr (arm32 : bool) (chip : chipset) (usable : nat) (ps : list aproc) : res (nat * list aproc) :=
  let max := length ps in
  do s <- for_each collect_step 0 max (Collect [] max max 0 ps);
  let clusters := length (co_leaders s) in
  let leaders := firstn clusters_max (co_leaders s) in
  let last := co_last_midr s in
  let ps := co_procs s in
  let table := cluster_table arm32 in
  let scan := do p <- rd ps last; do l <- rd ps (a_leader p); do ps' <- midr_by_scan (a_midr l) ps; Ok (clusters, ps') in
  if (co_with_midr s =? 1) && (co_last_listed s =? last) && (1 <? clusters) then
    do r <- midr_by_chipset table chip clusters leaders usable ps false;
    if fst r then Ok (clusters, snd r)
    else
      do r <- midr_by_big_little clusters 1 last leaders ps false;
      if fst r then Ok (clusters, snd r) else scan
  else if co_with_midr s <? usable then
    if clusters_with_midr ps <? clusters then
      do r <- midr_by_chipset table chip clusters leaders usable ps true;
      if fst r then Ok (clusters, snd r)
      else if last =? max then Ok (clusters, ps)
      else
        do r <- midr_by_big_little clusters (co_with_midr s) last leaders ps true;
        if fst r then Ok (clusters, snd r) else scan
    else Ok (clusters, ps)
  else Ok (clusters, ps).

(** ** init.c:436-464; [decode] is cpuinfo_arm_decode_vendor_uarch *)
Definition feature_vfpv4 : N := 0x00010000.  (* CPUINFO_ARM_LINUX_FEATURE_VFPV4, src/arm/linux/api.h *)
Definition follow_step (decode : N -> bool -> N * N) (i : nat) (ps : list aproc) : res (list aproc) :=
  do p <- rd ps i;
  if a_valid p then
    if a_leader p =? i then
      let '(vendor, uarch) := decode (a_midr p) (any_flag (ar_features (a_report p)) feature_vfpv4) in
      wr ps i (with_avendor_uarch vendor uarch p)
    else
      do l <- rd ps (a_leader p);
      wr ps i (with_amax (a_max l) (with_avendor_uarch (a_vendor l) (a_uarch l) (with_amidr (a_midr l)
                (add_aflag (N.land (a_flags l) (N.lor af_midr af_max_frequency)) p))))
  else Ok ps.
Definition assign_midrs (arm32 : bool) (decode : N -> bool -> N * N) (chip : chipset) (usable : nat) (ps : list aproc)
  : res (nat * list aproc) :=
  do r <- detect_cluster_midr arm32 chip usable ps;
  let '(clusters, ps1) := r in
  do ps2 <- for_each (follow_step decode) 0 (length ps1) ps1;
  Ok (clusters, ps2).
