(** What CPUID's leaves about caches say about the tables of macOS, FreeBSD and Windows, independent of the decoding and of the tables' code.
    [geometry_told], [level_told] and [told_by] are those of Linux. *)
From Verif Require Import Base TopologySpec X86DescriptorModel X86DecodeModel X86DecodeSpec X86CachesSpec.
Open Scope nat_scope.

(** The leaf in use tells the level of a slot with the registers [r]; whether it has a bit for complex indexing. *)
Definition level_in_cpuid (b : build) (m : cpu) (s : slot) (complex_indexing : bool) (r : regs) : Prop :=
  tells_by_leaf_1d m /\ complex_indexing = false /\ told_by 3 (cpuidex m 0x8000001D) s r \/
  tells_by_leaf_4 b m /\ complex_indexing = true /\ told_by 4 (cpuidex m 4) s r.

(** A level with the leaf's geometry, every [width] processors sharing a cache. *)
Record level_counted (complex_indexing : bool) (r : regs) (threads width : nat) (pointers : list (option nat)) (caches : list cache) : Prop := {
  lc_ranges : length pointers = threads /\ points_to pointers (map cache_processors caches);
  lc_geometry : Forall (fun c => geometry_told complex_indexing r (ca_geometry c)) caches;
  lc_width : Forall (fun c => ca_processor_count c = width) caches
}.

(** The sharers of a level: as many as the kernel reports.  If it reports none: a core's for the first level, a package's for the third,
    all for the fourth; for the second a core's if CPUID tells a third, or else a core's or a package's. *)
Definition level_number (s : slot) : nat := match s with L1I | L1D => 1 | L2 => 2 | L3 => 3 | L4 => 4 end.
Definition width_by_kernel (reported : nat -> nat) (third_told : Prop) (packages cpp tpc : nat) (s : slot) (width : nat) : Prop :=
  (reported (level_number s) <> 0 -> width = reported (level_number s)) /\
  (reported (level_number s) = 0 ->
   match s with
   | L1I | L1D => width = tpc
   | L2 => (third_told -> width = tpc) /\ (width = tpc \/ width = cpp * tpc)
   | L3 => width = cpp * tpc
   | L4 => width = packages * cpp * tpc
   end).

(** Every level that CPUID tells is in the tables, with the sharers of the kernel. *)
Definition levels_counted (b : build) (m : cpu) (reported : nat -> nat) (packages cpp tpc : nat) (t : tables) : Prop :=
  forall s complex_indexing r, level_in_cpuid b m s complex_indexing r -> exists width,
    level_counted complex_indexing r (packages * cpp * tpc) width (level_pointers t s) (level_caches t s) /\
    width_by_kernel reported (exists c r3, level_in_cpuid b m L3 c r3) packages cpp tpc s width.

(** Fewer than twice the threads that may share a cache, and no more than those if they are a power of two. *)
Definition sharers_told (r : regs) (caches : list cache) : Prop :=
  Forall (fun c => (N.of_nat (ca_processor_count c) < 2 * d_sharing r)%N /\
                   forall n, d_sharing r = (2 ^ n)%N -> (N.of_nat (ca_processor_count c) <= d_sharing r)%N) caches.
