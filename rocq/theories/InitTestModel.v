(** Model of the project's own test of a running machine, test/init.cc: every TEST is a function from
    what the getters return to the verdict. *)
From Verif Require Import Base TopologySpec.
From Verif Require ArmLinuxModel RiscvLinuxModel.
From Coq Require Import String List. Import ListNotations.

Open Scope nat_scope.

(** What the getters return.  Pointers are indexes; the cache pointers of the processors are arrays, one per
    level; of a microarchitecture only the numbers of processors and cores are tested.  A table is NULL if and
    only if it is empty, as the code allocates a table only if there is something to put into it. *)
Inductive level := L1I | L1D | L2 | L3 | L4.
Record view := View {
  v_processors : list processor; v_cores : list core; v_clusters : list cluster; v_packages : list package;
  v_uarchs : list (nat * nat);
  v_caches : level -> list cache; v_cache_of : level -> list (option nat)
}.

(** The loops over a table, for (uint32_t i = 0; i < count; i++), with ASSERT_TRUE of the element. *)
Definition each {A} (l : list A) (f : nat -> A -> bool) : bool :=
  forallb (fun x => f (fst x) (snd x)) (combine (seq 0 (length l)) l).
(** The loops over a range, for (uint32_t j = 0; j < count; j++), with get(start + j) and ASSERT_TRUE of the result. *)
Definition over {A} (l : list A) (range : nat * nat) (f : nat -> A -> bool) : bool :=
  forallb (fun i => match nth_error l i with Some x => f i x | None => false end) (seq (fst range) (snd range)).
(** ASSERT_TRUE of a pointer, then a use of what it points to. *)
Definition at_pointer {A} (p : option nat) (l : list A) (f : A -> bool) : bool :=
  match p with Some k => match nth_error l k with Some x => f x | None => false end | None => false end.
Definition is_pointer (p : option nat) : bool := match p with Some _ => true | None => false end.
Definition is_at (p : option nat) (k : nat) : bool := match p with Some j => j =? k | None => false end.
(** EXPECT_GE(i, start); EXPECT_LT(i, start + count); sums of 32-bit numbers do not overflow here. *)
Definition inside (range : nat * nat) (i : nat) : bool := (fst range <=? i) && (i <? fst range + snd range).
(** EXPECT_LT(start, total); EXPECT_LE(start + count, total). *)
Definition fits (range : nat * nat) (total : nat) : bool := (fst range <? total) && (fst range + snd range <=? total).
Definition filled {A} (l : list A) : bool := negb (length l =? 0).

Definition test := (string * string * (view -> bool))%type.
Definition named (group name : string) (f : view -> bool) : test := (group, name, f).

(** Lines 5-181. *)
Definition processor_tests : list test := [
  named "PROCESSORS_COUNT" "non_zero" (fun v => filled (v_processors v));
  named "PROCESSORS" "non_null" (fun v => filled (v_processors v));
  named "PROCESSOR" "valid_smt_id" (fun v => each (v_processors v) (fun i p =>
     at_pointer (p_core p) (v_cores v) (fun c => p_smt_id p <? c_processor_count c)));
  named "PROCESSOR" "valid_core" (fun v => each (v_processors v) (fun i p => is_pointer (p_core p)));
  named "PROCESSOR" "consistent_core" (fun v => each (v_processors v) (fun i p =>
     at_pointer (p_core p) (v_cores v) (fun c => inside (core_processors c) i)));
  named "PROCESSOR" "valid_cluster" (fun v => each (v_processors v) (fun i p => is_pointer (p_cluster p)));
  named "PROCESSOR" "consistent_cluster" (fun v => each (v_processors v) (fun i p =>
     at_pointer (p_cluster p) (v_clusters v) (fun c => inside (cluster_processors c) i)));
  named "PROCESSOR" "valid_package" (fun v => each (v_processors v) (fun i p => is_pointer (p_package p)));
  named "PROCESSOR" "consistent_package" (fun v => each (v_processors v) (fun i p =>
     at_pointer (p_package p) (v_packages v) (fun k => inside (package_processors k) i)))].
Definition consistent_cache (l : level) (v : view) : bool :=
  each (v_processors v) (fun i _ =>
    match nth_error (v_cache_of v l) i with
    | Some (Some k) => at_pointer (Some k) (v_caches v l) (fun c => inside (cache_processors c) i)
    | _ => true
    end).
Definition processor_cache_tests : list test := [
  named "PROCESSOR" "consistent_l1i" (consistent_cache L1I);
  named "PROCESSOR" "consistent_l1d" (consistent_cache L1D);
  named "PROCESSOR" "consistent_l2" (consistent_cache L2);
  named "PROCESSOR" "consistent_l3" (consistent_cache L3);
  named "PROCESSOR" "consistent_l4" (consistent_cache L4)].

(** Lines 183-315. *)
Definition core_tests : list test := [
  named "CORES_COUNT" "within_bounds" (fun v =>
     filled (v_cores v) && (length (v_cores v) <=? length (v_processors v)) && (length (v_packages v) <=? length (v_cores v)));
  named "CORES" "non_null" (fun v => filled (v_cores v));
  named "CORE" "non_zero_processors" (fun v => each (v_cores v) (fun i c => negb (c_processor_count c =? 0)));
  named "CORE" "consistent_processors" (fun v => each (v_cores v) (fun i c =>
     over (v_processors v) (core_processors c) (fun _ p => is_at (p_core p) i)));
  named "CORE" "valid_core_id" (fun v => each (v_cores v) (fun i c =>
     at_pointer (c_package c) (v_packages v) (fun k => c_core_id c <? pk_core_count k)));
  named "CORE" "valid_cluster" (fun v => each (v_cores v) (fun i c => is_pointer (c_cluster c)));
  named "CORE" "consistent_cluster" (fun v => each (v_cores v) (fun i c =>
     at_pointer (c_cluster c) (v_clusters v) (fun l => inside (cluster_cores l) i)));
  named "CORE" "valid_package" (fun v => each (v_cores v) (fun i c => is_pointer (c_package c)));
  named "CORE" "consistent_package" (fun v => each (v_cores v) (fun i c =>
     at_pointer (c_package c) (v_packages v) (fun k => inside (package_cores k) i)))].
Definition known_tests : list test := [
  named "CORE" "known_vendor" (fun v => each (v_cores v) (fun i c => negb (c_vendor c =? 0)%N));
  named "CORE" "known_uarch" (fun v => each (v_cores v) (fun i c => negb (c_uarch c =? 0)%N))].

(** Lines 317-539.  Left out: consistent_frequency (525-539), as the records have no frequency.  On ARM the field [cpuid]
    stands for midr. *)
Definition cluster_tests : list test := [
  named "CLUSTERS_COUNT" "within_bounds" (fun v =>
     filled (v_clusters v) && (length (v_clusters v) <=? length (v_cores v)) && (length (v_clusters v) <=? length (v_processors v)) &&
     (length (v_packages v) <=? length (v_clusters v)));
  named "CLUSTERS" "non_null" (fun v => filled (v_clusters v));
  named "CLUSTER" "non_zero_processors" (fun v => each (v_clusters v) (fun i l => negb (cl_processor_count l =? 0)));
  named "CLUSTER" "valid_processors" (fun v => each (v_clusters v) (fun i l => fits (cluster_processors l) (length (v_processors v))));
  named "CLUSTER" "consistent_processors" (fun v => each (v_clusters v) (fun i l =>
     over (v_processors v) (cluster_processors l) (fun _ p => is_at (p_cluster p) i)));
  named "CLUSTER" "non_zero_cores" (fun v => each (v_clusters v) (fun i l => negb (cl_core_count l =? 0)));
  named "CLUSTER" "valid_cores" (fun v => each (v_clusters v) (fun i l => fits (cluster_cores l) (length (v_cores v))));
  named "CLUSTER" "consistent_cores" (fun v => each (v_clusters v) (fun i l =>
     over (v_cores v) (cluster_cores l) (fun _ c => is_at (c_cluster c) i)));
  named "CLUSTER" "valid_cluster_id" (fun v => each (v_clusters v) (fun i l =>
     at_pointer (cl_package l) (v_packages v) (fun k => cl_cluster_id l <? pk_cluster_count k) || (cl_core_count l =? 0)));
  named "CLUSTER" "valid_package" (fun v => each (v_clusters v) (fun i l => is_pointer (cl_package l)));
  named "CLUSTER" "consistent_package" (fun v => each (v_clusters v) (fun i l =>
     at_pointer (cl_package l) (v_packages v) (fun k => inside (package_clusters k) i)))].
Definition alike (f : cluster -> N) (g : core -> N) (v : view) : bool :=
  each (v_clusters v) (fun i l => over (v_cores v) (cluster_cores l) (fun _ c => (f l =? g c)%N)).
Definition kind_tests : list test := [
  named "CLUSTER" "consistent_vendor" (alike cl_vendor c_vendor);
  named "CLUSTER" "consistent_uarch" (alike cl_uarch c_uarch);
  named "CLUSTER" "consistent_cpuid" (alike cl_cpuid c_cpuid)].

(** Lines 541-678. *)
Definition package_tests : list test := [
  named "PACKAGES_COUNT" "within_bounds" (fun v =>
     filled (v_packages v) && (length (v_packages v) <=? length (v_cores v)) && (length (v_packages v) <=? length (v_processors v)));
  named "PACKAGES" "non_null" (fun v => filled (v_packages v));
  named "PACKAGE" "non_zero_processors" (fun v => each (v_packages v) (fun i k => negb (pk_processor_count k =? 0)));
  named "PACKAGE" "valid_processors" (fun v => each (v_packages v) (fun i k => fits (package_processors k) (length (v_processors v))));
  named "PACKAGE" "consistent_processors" (fun v => each (v_packages v) (fun i k =>
     over (v_processors v) (package_processors k) (fun _ p => is_at (p_package p) i)));
  named "PACKAGE" "non_zero_cores" (fun v => each (v_packages v) (fun i k => negb (pk_core_count k =? 0)));
  named "PACKAGE" "valid_cores" (fun v => each (v_packages v) (fun i k => fits (package_cores k) (length (v_cores v))));
  named "PACKAGE" "consistent_cores" (fun v => each (v_packages v) (fun i k =>
     over (v_cores v) (package_cores k) (fun _ c => is_at (c_package c) i)));
  named "PACKAGE" "non_zero_clusters" (fun v => each (v_packages v) (fun i k => negb (pk_cluster_count k =? 0)));
  named "PACKAGE" "valid_clusters" (fun v => each (v_packages v) (fun i k => fits (package_clusters k) (length (v_clusters v))));
  named "PACKAGE" "consistent_cluster" (fun v => each (v_packages v) (fun i k =>
     over (v_clusters v) (package_clusters k) (fun _ l => is_at (cl_package l) i)))].

(** Lines 680-744. *)
Definition uarch_tests : list test := [
  named "UARCHS_COUNT" "within_bounds" (fun v =>
     filled (v_uarchs v) && (length (v_packages v) <=? length (v_cores v)) && (length (v_packages v) <=? length (v_processors v)));
  named "UARCHS" "non_null" (fun v => filled (v_uarchs v));
  named "UARCH" "non_zero_processors" (fun v => each (v_uarchs v) (fun i u => negb (fst u =? 0)));
  named "UARCH" "valid_processors" (fun v => each (v_uarchs v) (fun i u => fst u <=? length (v_processors v)));
  named "UARCH" "non_zero_cores" (fun v => each (v_uarchs v) (fun i u => negb (snd u =? 0)));
  named "UARCH" "valid_cores" (fun v => each (v_uarchs v) (fun i u => snd u <=? length (v_cores v)))].

(** Lines 746-1521: the same tests for each level, as far as the counts are concerned with differences. *)
Definition each_cache (l : level) (f : geometry -> bool) (v : view) : bool := each (v_caches v l) (fun _ c => f (ca_geometry c)).
Definition count (v : view) (l : level) : nat := length (v_caches v l).
Definition at_most_processors (l : level) (v : view) : bool := count v l <=? length (v_processors v).
Definition count_tests : list test := [
  named "L1I_CACHES_COUNT" "within_bounds" (fun v => filled (v_caches v L1I) && at_most_processors L1I v);
  named "L1I_CACHES" "non_null" (fun v => filled (v_caches v L1I));
  named "L1D_CACHES_COUNT" "within_bounds" (fun v => filled (v_caches v L1D) && at_most_processors L1D v);
  named "L1D_CACHES" "non_null" (fun v => filled (v_caches v L1D));
  named "L2_CACHES_COUNT" "within_bounds" (fun v => filled (v_caches v L2) && at_most_processors L2 v && (count v L2 <=? count v L1D) && (count v L2 <=? count v L1I));
  named "L2_CACHES" "non_null" (fun v => filled (v_caches v L2));
  named "L3_CACHES_COUNT" "within_bounds" (fun v => at_most_processors L3 v && (count v L3 <=? count v L2));
  named "L4_CACHES_COUNT" "within_bounds" (fun v => at_most_processors L4 v && (count v L4 <=? count v L3))].
Definition geometry_tests (l : level) (name : string) : list test := [
  named name "non_zero_size" (each_cache l (fun g => negb (g_size g =? 0)%N));
  named name "valid_size" (each_cache l (fun g => g_size g =? u32 (g_associativity g * g_sets g * g_partitions g * g_line_size g))%N);
  named name "non_zero_associativity" (each_cache l (fun g => negb (g_associativity g =? 0)%N));
  named name "non_zero_partitions" (each_cache l (fun g => negb (g_partitions g =? 0)%N));
  named name "non_zero_line_size" (each_cache l (fun g => negb (g_line_size g =? 0)%N));
  named name "power_of_2_line_size" (each_cache l (fun g => negb (g_line_size g =? 0)%N && (N.land (g_line_size g) (sub32 (g_line_size g) 1) =? 0)%N));
  named name "reasonable_line_size" (each_cache l (fun g => (16 <=? g_line_size g)%N && (g_line_size g <=? 128)%N));
  named name "valid_flags" (each_cache l (fun g => (N.ldiff (g_flags g) 7 =? 0)%N))].
Definition range_tests (l : level) (name : string) : list test := [
  named name "non_zero_processors" (fun v => each (v_caches v l) (fun _ c => negb (ca_processor_count c =? 0)));
  named name "valid_processors" (fun v => each (v_caches v l) (fun _ c => fits (cache_processors c) (length (v_processors v))));
  named name "consistent_processors" (fun v => each (v_caches v l) (fun k c =>
     over (v_cache_of v l) (cache_processors c) (fun _ p => is_at p k)))].
Definition inclusive_tests (l : level) (name : string) : list test := [
  named name "non_inclusive" (each_cache l (fun g => negb (N.land (g_flags g) 2 =? 2)%N))].

(** The tests that do not look at caches, and all tests. *)
Definition topology_tests : list test := (processor_tests ++ core_tests ++ cluster_tests ++ package_tests)%list.
Definition level_tests : list test := flat_map (fun x => geometry_tests (fst x) (snd x) ++ range_tests (fst x) (snd x))
  [(L1I, "L1I_CACHE"%string); (L1D, "L1D_CACHE"%string); (L2, "L2_CACHE"%string); (L3, "L3_CACHE"%string); (L4, "L4_CACHE"%string)].
Definition init_tests : list test :=
  (topology_tests ++ processor_cache_tests ++ known_tests ++ kind_tests ++ uarch_tests ++ count_tests ++ level_tests ++
   inclusive_tests L1I "L1I_CACHE" ++ inclusive_tests L1D "L1D_CACHE")%list.
Definition passes (v : view) (t : test) : Prop := snd t v = true.

(** ** What is returned after detection *)

Definition by_level {A} (l1i l1d l2 l3 l4 : A) (l : level) : A :=
  match l with L1I => l1i | L1D => l1d | L2 => l2 | L3 => l3 | L4 => l4 end.
(** The tables of x86 and Emscripten; the one microarchitecture is cpuinfo_global_uarch. *)
Definition view_of (t : tables) : view :=
  View (t_processors t) (t_cores t) (t_clusters t) (t_packages t) [(t_uarch_processor_count t, t_uarch_core_count t)]
    (by_level (t_l1i t) (t_l1d t) (t_l2 t) (t_l3 t) (t_l4 t)) (by_level (t_l1i_of t) (t_l1d_of t) (t_l2_of t) (t_l3_of t) (t_l4_of t)).
(** The tables of ARM Linux; every processor has first-level caches of its own (src/arm/linux/init.c:642-643). *)
Definition arm_view (t : ArmLinuxModel.arm_tables) : view :=
  let processors := ArmLinuxModel.at_processors t in
  let own := map Some (seq 0 (length processors)) in
  View processors (ArmLinuxModel.at_cores t) (ArmLinuxModel.at_clusters t) [ArmLinuxModel.at_package t]
    (map (fun u => (ArmLinuxModel.au_processors u, ArmLinuxModel.au_cores u)) (ArmLinuxModel.at_uarchs t))
    (by_level (ArmLinuxModel.at_l1i t) (ArmLinuxModel.at_l1d t) (ArmLinuxModel.at_l2 t) (ArmLinuxModel.at_l3 t) [])
    (by_level own own (ArmLinuxModel.at_l2_of t) (ArmLinuxModel.at_l3_of t) (map (fun _ => None) processors)).
(** The tables of RISC-V Linux; it reports no caches (src/riscv/linux/init.c). *)
Definition riscv_view (t : RiscvLinuxModel.riscv_tables) : view :=
  View (RiscvLinuxModel.rt_processors t) (RiscvLinuxModel.rt_cores t) (RiscvLinuxModel.rt_clusters t) (RiscvLinuxModel.rt_packages t)
    (map (fun u => (RiscvLinuxModel.ua_processors u, RiscvLinuxModel.ua_cores u)) (RiscvLinuxModel.rt_uarchs t))
    (fun _ => []) (fun _ => map (fun _ => None) (RiscvLinuxModel.rt_processors t)).
(** The names of the tests that fail. *)
Definition failing (v : view) : list (string * string) := map fst (filter (fun t => negb (snd t v)) init_tests).
