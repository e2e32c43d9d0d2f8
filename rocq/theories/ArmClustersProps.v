(** Property theorems about the clusters of ARM processors: C30 and C31. *)
From Verif Require Import Base LinuxTextModel X86DetectProofs ArmClustersModel ArmClustersSpec ArmScanProofs ArmClustersSample.
Open Scope nat_scope.

(** ** C30 *)

(** If the kernel's lists describe groups, the leader of every usable processor is
    the lowest usable processor of its group, whatever the fallbacks do. *)
Theorem arm_kernel_clusters_exact : forall char_signed arm32 garbage files listed_cpus ps group qs,
  (forall i, a_count (entry ps i) = 0) -> kernel_lists ps files group ->
  detect_clusters char_signed arm32 garbage files listed_cpus ps = Ok qs ->
  forall i, usable ps i -> is_first_of_group ps group i (leader qs i).
Proof. exact kernel_lists_clusters. Qed.
Print Assumptions arm_kernel_clusters_exact.

(** So two usable processors have the same leader if and only if they are in the
    same group. *)
Theorem arm_same_leader_iff_siblings : forall ps group i j li lj, usable ps i -> usable ps j ->
  is_first_of_group ps group i li -> is_first_of_group ps group j lj -> li = lj <-> group i = group j.
Proof. exact same_cluster_iff. Qed.
Print Assumptions arm_same_leader_iff_siblings.

(** And if /proc/cpuinfo lists as many processors as are usable, detection does succeed. *)
Theorem arm_kernel_clusters_succeed : forall char_signed arm32 garbage files ps group,
  (forall i, a_count (entry ps i) = 0) -> kernel_lists ps files group ->
  exists qs, detect_clusters char_signed arm32 garbage files (usable_count ps) ps = Ok qs.
Proof. exact kernel_lists_total. Qed.
Print Assumptions arm_kernel_clusters_succeed.

(** Seven usable processors in two clusters whose lists also name the absent one. *)
Example arm_kernel_clusters_case :
  kernel_lists two_clusters half_lists half /\ usable_count two_clusters = 7 /\
  exists qs, detect_clusters true false junk half_lists 7 two_clusters = Ok qs /\
    map a_leader qs = [0; 1; 1; 1; 4; 4; 4; 4] /\ map a_count qs = [0; 3; 3; 3; 4; 4; 4; 4].
Proof. split; [exact half_lists_say|]. split; [reflexivity|]. eexists. split; [vm_compute; reflexivity|]. split; reflexivity. Qed.

(** ** C31 *)

(** Whatever the files say: every usable processor has a usable leader that leads
    itself and does not come after it, the recorded size is the number of usable
    processors with its leader, and nothing else changes. *)
Theorem arm_every_core_in_one_cluster : forall char_signed arm32 garbage files listed_cpus ps qs,
  (forall i, a_count (entry ps i) = 0) -> detect_clusters char_signed arm32 garbage files listed_cpus ps = Ok qs ->
  clusters_ok qs /\ sizes_ok qs /\ only_clusters_changed ps qs.
Proof. exact every_core_clustered. Qed.
Print Assumptions arm_every_core_in_one_cluster.

(** No memory outside the tables is used, provided no more processors are usable
    than /proc/cpuinfo lists, or that number is none for which a layout is guessed. *)
Theorem arm_clusters_in_bounds : forall char_signed arm32 garbage files listed_cpus ps,
  (forall i, a_count (entry ps i) = 0) ->
  (forall i, commas (f_contents (sf_cluster_cpus (files i))) /\ commas (f_contents (sf_core_siblings (files i)))) ->
  usable_count ps <= listed_cpus \/ ~ In listed_cpus [5; 6; 8; 10] ->
  exists qs, detect_clusters char_signed arm32 garbage files listed_cpus ps = Ok qs.
Proof. exact clusters_total. Qed.
Print Assumptions arm_clusters_in_bounds.

(** Eight processors without any lists: two clusters of four. *)
Example arm_clusters_case :
  (forall i, commas (f_contents (sf_cluster_cpus (no_lists i))) /\ commas (f_contents (sf_core_siblings (no_lists i)))) /\
  usable_count eight = 8 /\
  exists qs, detect_clusters true false junk no_lists 8 eight = Ok qs /\
    map a_leader qs = [0; 0; 0; 0; 4; 4; 4; 4] /\ map a_count qs = repeat 4 8.
Proof.
  split; [exact no_lists_commas|]. split; [reflexivity|]. eexists. split; [vm_compute; reflexivity|]. split; reflexivity.
Qed.

(** With more usable processors than listed ones the guessed layout is read past
    its end: eight processors of which two are offline. *)
Theorem arm_clusters_offline_refuted :
  ~ (forall char_signed arm32 garbage files listed_cpus ps, (forall i, a_count (entry ps i) = 0) ->
     (forall i, commas (f_contents (sf_cluster_cpus (files i))) /\ commas (f_contents (sf_core_siblings (files i)))) ->
     exists qs, detect_clusters char_signed arm32 garbage files listed_cpus ps = Ok qs).
Proof.
  intros H. destruct (H true false junk no_lists 6 eight eight_uncounted no_lists_commas) as (qs & E). vm_compute in E. discriminate E.
Qed.
Print Assumptions arm_clusters_offline_refuted.

(** What the kernel has grouped is final, and no processor is added to such a group. *)
Theorem arm_kernel_clusters_kept : forall char_signed arm32 garbage files listed_cpus ps n grouped qs,
  (forall i, a_count (entry ps i) = 0) -> clusters_from_kernel char_signed files ps = Ok (n, grouped) ->
  detect_clusters char_signed arm32 garbage files listed_cpus ps = Ok qs ->
  forall i, usable ps i ->
    (clustered (entry grouped i) = true -> leader qs i = leader grouped i) /\
    (clustered (entry grouped i) = false -> clustered (entry grouped (leader qs i)) = false).
Proof. exact kernel_clusters_kept. Qed.
Print Assumptions arm_kernel_clusters_kept.

(** Only the last processor has a list: the others are grouped by their frequencies. *)
Example arm_kernel_clusters_kept_case :
  let files c := if c =? 7 then half_lists c else SiblingFiles no_file no_file in
  exists n grouped qs, clusters_from_kernel true files two_clusters = Ok (n, grouped) /\
    detect_clusters true false junk files 7 two_clusters = Ok qs /\
    map clustered grouped = [false; false; false; false; true; true; true; true] /\
    map a_leader qs = [0; 1; 1; 1; 4; 4; 4; 4].
Proof. do 3 eexists. split; [vm_compute; reflexivity|]. split; [vm_compute; reflexivity|]. split; reflexivity. Qed.

(** The sequential scan: what it finds grouped it leaves alone; it puts processors
    together only if no attribute known of both is different; every processor joins
    the cluster of the one before it unless some attribute differs from a member's;
    and the uninitialised variables do not matter. *)
Theorem arm_sequential_scan_exact : forall garbage ps, kernel_grouped ps ->
  exists qs, clusters_by_scan garbage ps = Ok qs /\ clusters_ok qs /\
    (forall i, ~ unplaced ps i -> entry qs i = entry ps i) /\
    (forall i j, unplaced ps i -> unplaced ps j -> leader qs i = leader qs j -> compatible (entry ps i) (entry ps j)) /\
    (forall i j, unplaced ps j -> previous_unplaced ps i j -> leader qs j = leader qs i \/
       leader qs j = j /\ exists m, m < j /\ unplaced ps m /\ leader qs m = leader qs i /\ ~ compatible (entry ps m) (entry ps j)) /\
    (forall other, clusters_by_scan other ps = Ok qs).
Proof. exact scan_exact. Qed.
Print Assumptions arm_sequential_scan_exact.

Example arm_sequential_scan_case : kernel_grouped ungrouped /\
  exists qs, clusters_by_scan junk ungrouped = Ok qs /\ map a_leader qs = [0; 0; 0; 3; 4; 4; 6].
Proof. split; [exact ungrouped_leads_itself|]. eexists. split; [vm_compute; reflexivity|reflexivity]. Qed.

(** The heuristic: if it accepts, the usable processors are dealt out in order over
    the layout for their number, what the kernel grouped is unchanged, and the
    members of a cluster other than its first have no different known attribute. *)
Theorem arm_layout_heuristic_exact : forall arm32 garbage listed_cpus ps qs, kernel_grouped ps ->
  clusters_by_heuristic arm32 garbage listed_cpus ps = Ok (true, qs) ->
  exists layout, In (listed_cpus, layout) [(5, [4; 1]); (6, [4; 2]); (8, [4; 4]); (10, [4; 4; 2])] /\ (listed_cpus = 5 -> arm32 = true) /\
    clusters_ok qs /\ only_leaders_changed ps qs /\
    (forall i, usable ps i -> dealt layout ps (leader qs i) i) /\
    (forall i, usable ps i -> clustered (entry ps i) = true -> leader qs i = leader ps i) /\
    (forall i j, unplaced ps i -> unplaced ps j -> leader qs i = leader qs j -> i <> leader qs i -> j <> leader qs j ->
       compatible (entry ps i) (entry ps j)).
Proof. exact heuristic_exact. Qed.
Print Assumptions arm_layout_heuristic_exact.

(** If it does not, it changes nothing. *)
Theorem arm_layout_heuristic_declines : forall arm32 garbage listed_cpus ps qs, kernel_grouped ps ->
  clusters_by_heuristic arm32 garbage listed_cpus ps = Ok (false, qs) -> qs = ps.
Proof. exact heuristic_declines. Qed.
Print Assumptions arm_layout_heuristic_declines.

(** But it does not look at the attributes of the first processor of a cluster:
    one with 3000 MHz is put together with three of 1000 MHz. *)
Theorem arm_layout_heuristic_compatible_refuted :
  ~ (forall arm32 garbage listed_cpus ps qs, kernel_grouped ps -> clusters_by_heuristic arm32 garbage listed_cpus ps = Ok (true, qs) ->
     forall i j, unplaced ps i -> unplaced ps j -> leader qs i = leader qs j -> compatible (entry ps i) (entry ps j)).
Proof.
  intros H. assert (E : exists qs, clusters_by_heuristic false junk 8 odd_first = Ok (true, qs) /\ map a_leader qs = [0; 0; 0; 0; 4; 4; 4; 4])
    by (eexists; split; [vm_compute; reflexivity|reflexivity]).
  destruct E as (qs & E & L). specialize (H false junk 8 odd_first qs odd_first_leads_itself E 0 1).
  assert (X : 3000%N = 1000%N); [|discriminate X].
  refine (H _ _ _ Max_frequency _ _); try (split; reflexivity); try reflexivity.
  vm_compute in E. injection E as <-. reflexivity.
Qed.
Print Assumptions arm_layout_heuristic_compatible_refuted.

Example arm_layout_heuristic_case : kernel_grouped odd_first /\
  exists qs, clusters_by_heuristic false junk 8 odd_first = Ok (true, qs) /\ map a_leader qs = [0; 0; 0; 0; 4; 4; 4; 4].
Proof. split; [exact odd_first_leads_itself|]. eexists. split; [vm_compute; reflexivity|reflexivity]. Qed.
