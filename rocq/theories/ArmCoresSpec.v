(** What ARM Linux detection should publish about a CPU whose main id register and siblings are known: the core, and the caches of
    its manual.  Independent of the decoding and of the tables' code. *)
From Verif Require Import Base TopologySpec ArmClustersModel ArmClusterMidrModel ArmCpuinfoSpec ArmLinuxModel ArmLinuxSpec ArmCacheModel ArmMidrSpec ArmManualSpec.
Open Scope nat_scope.

(** Cores whose second level is shared by the cluster: Cortex-A35, A53, A57, A72, A73; Kryo; Denver, Denver 2; Exynos M1, M2. *)
Definition l2_of_cluster : list N :=
  [0x00300335; 0x00300353; 0x00300357; 0x00300372; 0x00300373; 0x00400102; 0x00500100; 0x00500101; 0x00600100; 0x00600101]%N.
(** The same, cores of 32-bit programs only: Cortex-A7, A8, A15, A17; Scorpion, Krait. *)
Definition l2_of_cluster_32 : list N := [0x00300207; 0x00300208; 0x00300215; 0x00300217; 0x00400100; 0x00400101]%N.
(** Cores with a second level of their own, and a third one: Cortex-A55, A65, A75, A76, A77. *)
Definition l2_of_core : list N := [0x00300354; 0x00300355; 0x00300365; 0x00300375; 0x00300376; 0x00300377]%N.
(** Cores with a second level of their own, in systems whose third level is not known: Neoverse N1, V1, N2, V2. *)
Definition neoverse : list N := [0x00300400; 0x00300402; 0x00300403; 0x00300404]%N.
Definition is_a55 (core : N) : Prop := core = 0x00300354%N \/ core = 0x00300355%N.

(** /proc/cpuinfo tells of an Exynos. *)
Definition told_exynos (d : arm_decoders) (ms : list arm_meaning) (t : arm_tables) : Prop :=
  exists chip, chipset_from d ms (length (at_processors t)) chip /\ ch_series chip = series_exynos.

(** The position of a CPU in the tables: that of its processor and core. *)
Definition listed_at (t : arm_tables) (cpu i : nat) : Prop :=
  exists p, nth_error (at_processors t) i = Some p /\ p_linux_id p = N.of_nat cpu.
(** The number of cores of its cluster. *)
Definition cluster_cores_of (t : arm_tables) (i n : nat) : Prop :=
  exists p k l, nth_error (at_processors t) i = Some p /\ p_cluster p = Some k /\ nth_error (at_clusters t) k = Some l /\ cl_core_count l = n.

(** The first level, and a second one of the manual, shared as the manual says. *)
Record caches_by_manual (usable : nat -> Prop) (group : nat -> nat) (exynos : Prop) (t : arm_tables) (cpu i : nat) (m : manual) : Prop := {
  cm_l1 : exists a b, nth_error (at_l1i t) i = Some (Cache a i 1) /\ nth_error (at_l1d t) i = Some (Cache b i 1) /\
    built_as (mn_i m) a /\ built_as (mn_d m) b;
  cm_l2 : forall n l, cluster_cores_of t i n -> usual_cores (mn_core m) n -> (is_a55 (mn_core m) -> ~ exynos) -> mn_l2 m = Some l ->
    exists x, its_cache (at_l2_of t) (at_l2 t) i x /\ built_as l (ca_geometry x) /\ g_partitions (ca_geometry x) = 1%N;
  cm_cluster_l2 : forall n other j, In (mn_core m) l2_of_cluster -> cluster_cores_of t i n -> usual_cores (mn_core m) n ->
    usable other -> listed_at t other j ->
    (nth_error (at_l2_of t) i = nth_error (at_l2_of t) j <-> group cpu = group other);
  cm_own_l2 : forall other j, In (mn_core m) l2_of_core -> (is_a55 (mn_core m) -> ~ exynos) -> usable other -> listed_at t other j ->
    nth_error (at_l2_of t) i = nth_error (at_l2_of t) j -> cpu = other
}.

(** The CPU is listed once, with the core that its main id register means. *)
Record cpu_told (usable : nat -> Prop) (group : nat -> nat) (exynos : Prop) (t : arm_tables) (cpu : nat) (vendor core : N) : Prop := {
  ct_listed : exists i, listed_at t cpu i /\ forall j, listed_at t cpu j -> j = i;
  ct_core : forall i, listed_at t cpu i -> exists c, nth_error (at_cores t) i = Some c /\ c_vendor c = vendor /\ c_uarch c = core;
  ct_caches : forall i m, listed_at t cpu i -> In m manuals -> mn_core m = core -> caches_by_manual usable group exynos t cpu i m
}.

(** ** 32-bit programs *)

(** The register means the core, with VFPv4 (which matters for one part) as /proc/cpuinfo lists it for any CPU of the group. *)
Definition meant_to_group (arm32 : bool) (usable : nat -> Prop) (ms : list arm_meaning) (group : nat -> nat) (midr : nat -> N) (cpu : nat)
  (vendor core : N) : Prop :=
  forall vfpv4 other, usable other -> group other = group cpu -> (vfpv4 = true <-> says_feature arm32 ms other 16) ->
  core_meant arm32 vfpv4 (midr cpu) vendor core.

(** First-level caches that the kernel tells are published so; the others, and the second level, are as in the manual. *)
Record caches_by_manual_32 (usable : nat -> Prop) (ms : list arm_meaning) (group : nat -> nat) (exynos : Prop) (t : arm_tables) (cpu i : nat)
  (m : manual) : Prop := {
  cm32_told : forall data : bool, tells_l1 ms cpu data ->
    nth_error (if data then at_l1d t else at_l1i t) i = Some (Cache (told_l1 ms cpu data) 0 0);
  cm32_l1i : ~ tells_l1 ms cpu false -> exists a, nth_error (at_l1i t) i = Some (Cache a i 1) /\ built_as (mn_i m) a;
  cm32_l1d : ~ tells_l1 ms cpu true -> exists a, nth_error (at_l1d t) i = Some (Cache a i 1) /\ built_as (mn_d m) a;
  cm32_l2 : forall n l, cluster_cores_of t i n -> usual_cores (mn_core m) n -> (is_a55 (mn_core m) -> ~ exynos) -> mn_l2 m = Some l ->
    exists x, its_cache (at_l2_of t) (at_l2 t) i x /\ built_as l (ca_geometry x) /\ g_partitions (ca_geometry x) = 1%N;
  cm32_cluster_l2 : forall n other j, In (mn_core m) (l2_of_cluster ++ l2_of_cluster_32) -> cluster_cores_of t i n -> usual_cores (mn_core m) n ->
    usable other -> listed_at t other j ->
    (nth_error (at_l2_of t) i = nth_error (at_l2_of t) j <-> group cpu = group other);
  cm32_own_l2 : forall other j, In (mn_core m) l2_of_core -> (is_a55 (mn_core m) -> ~ exynos) -> usable other -> listed_at t other j ->
    nth_error (at_l2_of t) i = nth_error (at_l2_of t) j -> cpu = other
}.
(** The CPU is listed once, with the core that its main id register means; programs built for ARMv8 run on no older core. *)
Record cpu_told_32 (for_v8 : bool) (usable : nat -> Prop) (ms : list arm_meaning) (group : nat -> nat) (exynos : Prop) (t : arm_tables) (cpu : nat)
  (vendor core : N) : Prop := {
  ct32_listed : exists i, listed_at t cpu i /\ forall j, listed_at t cpu j -> j = i;
  ct32_core : forall i, listed_at t cpu i -> exists c, nth_error (at_cores t) i = Some c /\ c_vendor c = vendor /\ c_uarch c = core;
  ct32_caches : forall i m, listed_at t cpu i -> In m manuals -> mn_core m = core -> (mn_32 m = true -> for_v8 = false) ->
    caches_by_manual_32 usable ms group exynos t cpu i m
}.
