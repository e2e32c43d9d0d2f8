(** What it means for the processors of an ARM system to be grouped into clusters,
    independent of the detection code. *)
From Verif Require Import Base LinuxTextModel LinuxTextSpec.
From Verif Require X86LinuxSpec ArmClustersModel.
Import X86LinuxSpec(list_says, says_ranges, says_nothing).
Import ArmClustersModel(aproc, aproc0, a_flags, a_midr, a_max, a_min, a_leader, a_count, a_id, a_vendor, a_uarch, a_uarch_index,
  a_report, a_valid, clustered, attribute, Min_frequency, Max_frequency, Implementer, Variant, Part, Revision, any_flag, with_acount,
  af_cluster, af_package_id, bitmask_all, sibling_files, sf_cluster_cpus, sf_core_siblings).
Open Scope nat_scope.

(** The entry of a processor; what lies outside the table is not usable. *)
Definition entry (ps : list aproc) (i : nat) : aproc := nth i ps aproc0.
(** Possible and present. *)
Definition usable (ps : list aproc) (i : nat) : Prop := a_valid (entry ps i) = true.
Definition leader (ps : list aproc) (i : nat) : nat := a_leader (entry ps i).

(** How many are usable, in all and below [k]. *)
Definition usable_below (ps : list aproc) (k : nat) : nat := length (filter (fun i => a_valid (entry ps i)) (seq 0 k)).
Definition usable_count (ps : list aproc) : nat := usable_below ps (length ps).

(** Every usable processor has a leader: a usable processor that leads itself and
    does not come after it. *)
Definition clusters_ok (ps : list aproc) : Prop := forall i, usable ps i ->
  leader ps i <= i /\ usable ps (leader ps i) /\ leader ps (leader ps i) = leader ps i.

(** The usable processors with the same leader. *)
Definition cluster_members (ps : list aproc) (l : nat) : list nat :=
  filter (fun j => a_valid (entry ps j) && (leader ps j =? l)) (seq 0 (length ps)).
Definition sizes_ok (ps : list aproc) : Prop := forall i, usable ps i ->
  a_count (entry ps i) = length (cluster_members ps (leader ps i)).

(** A partial assignment: the processors the kernel has grouped are marked and
    their leaders are marked; the others lead themselves. *)
Definition kernel_grouped (ps : list aproc) : Prop := forall i, usable ps i ->
  if clustered (entry ps i)
  then leader ps i <= i /\ usable ps (leader ps i) /\ clustered (entry ps (leader ps i)) = true /\
       leader ps (leader ps i) = leader ps i
  else leader ps i = i.

(** Nothing but the leader and the mark of a processor differs. *)
Record only_leaders_differ (p q : aproc) : Prop := {
  oc_flags : forall m, N.land m af_cluster = 0%N -> N.land (a_flags q) m = N.land (a_flags p) m;
  oc_marked : clustered p = true -> clustered q = true;
  oc_midr : a_midr q = a_midr p;
  oc_max : a_max q = a_max p;
  oc_min : a_min q = a_min p;
  oc_size : a_count q = a_count p;
  oc_id : a_id q = a_id p;
  oc_vendor : a_vendor q = a_vendor p;
  oc_uarch : a_uarch q = a_uarch p;
  oc_uarch_index : a_uarch_index q = a_uarch_index p;
  oc_report : a_report q = a_report p
}.
Definition only_leaders_changed (ps qs : list aproc) : Prop :=
  length qs = length ps /\ forall i, only_leaders_differ (entry ps i) (entry qs i).
(** Nothing but the leaders, the marks and the sizes of the clusters. *)
Definition only_clusters_changed (ps qs : list aproc) : Prop :=
  length qs = length ps /\
  forall i, only_leaders_differ (entry ps i) (with_acount (a_count (entry ps i)) (entry qs i)).

(** The attributes of a processor: is it known, and what is it?  The masks are
    those of the architecture's main id register. *)
Definition knows (a : attribute) (p : aproc) : Prop :=
  N.testbit (a_flags p)
    match a with Max_frequency => 2 | Min_frequency => 3 | Implementer => 17 | Variant => 18 | Part => 19 | Revision => 20 end
  = true.
Definition attribute_of (a : attribute) (p : aproc) : N :=
  match a with
  | Min_frequency => a_min p
  | Max_frequency => a_max p
  | Implementer => N.shiftr (a_midr p) 24 mod 2 ^ 8
  | Variant => N.shiftr (a_midr p) 20 mod 2 ^ 4
  | Part => N.shiftr (a_midr p) 4 mod 2 ^ 12
  | Revision => a_midr p mod 2 ^ 4
  end.
(** No attribute known of both is different. *)
Definition compatible (p q : aproc) : Prop := forall a, knows a p -> knows a q -> attribute_of a p = attribute_of a q.

(** The processors the scan has to place, and the last of them before [j]. *)
Definition unplaced (ps : list aproc) (i : nat) : Prop := usable ps i /\ clustered (entry ps i) = false.
Definition previous_unplaced (ps : list aproc) (i j : nat) : Prop :=
  unplaced ps i /\ i < j /\ forall m, i < m < j -> ~ unplaced ps m.

(** The kernel's lists describe the groups [group] (a label for each processor):
    every usable processor has a package id, and its list names, among the usable
    processors, those of its group.  Either all have a cluster_cpus_list, or the first usable one has none and
    all have a core_siblings_list. *)
Definition lists_group (ps : list aproc) (list_of : sibling_files -> file) (files : nat -> sibling_files)
           (group : nat -> nat) : Prop :=
  forall i, usable ps i -> exists ranges, list_says (list_of (files i)) (Some ranges) /\
    forall j, usable ps j -> (listed ranges (N.of_nat j) <-> group j = group i).
Record kernel_lists (ps : list aproc) (files : nat -> sibling_files) (group : nat -> nat) : Prop := {
  kl_package_ids : forall i, usable ps i -> bitmask_all (a_flags (entry ps i)) af_package_id = true;
  kl_lists : lists_group ps sf_cluster_cpus files group \/
             ((forall i, usable ps i -> (forall j, j < i -> ~ usable ps j) -> list_says (sf_cluster_cpus (files i)) None) /\
              lists_group ps sf_core_siblings files group)
}.

(** The lowest usable processor of the group of [i]. *)
Definition is_first_of_group (ps : list aproc) (group : nat -> nat) (i l : nat) : Prop :=
  usable ps l /\ group l = group i /\ forall j, usable ps j -> group j = group i -> l <= j.

(** The usable processors dealt out in order, [layout] to each cluster: [l] is the
    first of the cluster that [j] falls into. *)
Definition dealt (layout : list nat) (ps : list aproc) (l j : nat) : Prop :=
  exists c n, nth_error layout c = Some n /\ usable_below ps l = list_sum (firstn c layout) /\
    usable_below ps l <= usable_below ps j < usable_below ps l + n.
