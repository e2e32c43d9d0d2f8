(** What a machine must be like for the project's own tests to pass on it. *)
From Verif Require Import Base TopologySpec X86LinuxModel X86LinuxSpec.
From Verif Require X86CountsSpec.
Import X86CountsSpec(l1_width, l2_width, l3_width, l4_width).
From Coq Require Import List. Import ListNotations.
Open Scope N_scope.

(** A cache as the tests expect it: the product is the size, the line is a power of two from 16 to 128 bytes,
    and there are no flags but the three documented ones (include/cpuinfo.h:107-109). *)
Record plausible (g : geometry) : Prop := {
  pl_size : 0 < g_size g < 2 ^ 32;
  pl_product : g_size g = g_associativity g * g_sets g * g_partitions g * g_line_size g;
  pl_line : exists k, g_line_size g = 2 ^ k /\ 4 <= k <= 7;
  pl_flags : forall bit, N.testbit (g_flags g) bit = true -> bit < 3
}.
Definition inclusive (g : geometry) : Prop := N.testbit (g_flags g) 1 = true.

(** What CPUID says on an ordinary x86 machine: there are caches of the first and second level, a fourth only above a third,
    all plausible; the first level is not inclusive. *)
Record ordinary (x : xinfo) : Prop := {
  or_levels : forall c, In c [xi_l1i x; xi_l1d x; xi_l2 x; xi_l3 x; xi_l4 x] -> g_size (xc_geometry c) <> 0 -> plausible (xc_geometry c);
  or_present : forall c, In c [xi_l1i x; xi_l1d x; xi_l2 x] -> g_size (xc_geometry c) <> 0;
  or_l4 : g_size (xc_geometry (xi_l4 x)) <> 0 -> g_size (xc_geometry (xi_l3 x)) <> 0;
  or_first : ~ inclusive (xc_geometry (xi_l1i x)) /\ ~ inclusive (xc_geometry (xi_l1d x));
  or_known : xi_vendor x <> 0 /\ xi_uarch x <> 0
}.
(** The sharers of a cache share the one of the next level, if there is one. *)
Definition widening (x : xinfo) : Prop :=
  forall a b, In (a, b) [(xi_l1i x, xi_l2 x); (xi_l1d x, xi_l2 x); (xi_l2 x, xi_l3 x); (xi_l3 x, xi_l4 x)] ->
    g_size (xc_geometry b) <> 0 -> xc_apic_bits a <= xc_apic_bits b.

(** The same for a kernel that tells how many threads share the caches of each level. *)
Definition widening_counts (packages cpp tpc : nat) (reported : nat -> nat) (x : xinfo) : Prop :=
  Nat.divide (l1_width reported tpc) (l2_width x reported cpp tpc) /\
  (g_size (xc_geometry (xi_l3 x)) <> 0 -> Nat.divide (l2_width x reported cpp tpc) (l3_width reported cpp tpc)) /\
  (g_size (xc_geometry (xi_l4 x)) <> 0 -> Nat.divide (l3_width reported cpp tpc) (l4_width reported packages cpp tpc)).
