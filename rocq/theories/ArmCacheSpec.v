(** What the decoders of ARM main id registers should report, independent of their code. *)
From Verif Require Import Base TopologySpec.
Open Scope N_scope.

(** ** Caches *)

(** A cache that is there has a size that is the product of its ways, sets, partitions and
    line size, none of them zero, and lines of a power of two bytes. *)
Record sound_cache (g : geometry) : Prop := {
  sc_product : g_size g = g_associativity g * g_sets g * g_partitions g * g_line_size g;
  sc_size : 0 < g_size g;
  sc_ways : 0 < g_associativity g;
  sc_sets : 0 < g_sets g;
  sc_partitions : g_partitions g = 1;
  sc_line : exists k, g_line_size g = 2 ^ k /\ 5 <= k <= 7;
  sc_fits : g_size g < 2 ^ 32;
  sc_flags : g_flags g = 0 \/ g_flags g = 2
}.
Definition absent (g : geometry) : Prop := g_size g = 0.
Definition sound_or_absent (g : geometry) : Prop := absent g \/ sound_cache g.

(** The caches get larger from level to level, as far as there are levels. *)
Definition growing (i d l2 l3 : geometry) : Prop :=
  (g_size l2 <> 0 -> g_size i <= g_size l2 /\ g_size d <= g_size l2) /\
  (g_size l3 <> 0 -> g_size l2 <> 0 /\ g_size l2 <= g_size l3).
Definition all_at_most (bound : N) (i d l2 l3 : geometry) : Prop :=
  g_size i <= bound /\ g_size d <= bound /\ g_size l2 <= bound /\ g_size l3 <= bound.

(** ** Vendors and microarchitectures (include/cpuinfo.h) *)

(** The values of enum cpuinfo_uarch are grouped by the vendor of the design: the value
    divided by 2^20 tells which. *)
Definition family (uarch : N) : N := uarch / 2 ^ 20.
Definition families : list (N * N) :=
  (* Intel, ARM, Qualcomm, Nvidia, Samsung, Cavium, Marvell, Broadcom, Applied Micro, Huawei *)
  [(0x1, 1); (0x3, 3); (0x4, 4); (0x5, 7); (0x6, 6); (0x8, 12); (0x9, 31); (0xA, 13); (0xB, 14); (0xC, 15)].
Definition designed_by (uarch vendor : N) : Prop := uarch <> 0 /\ In (family uarch, vendor) families.

(** Designs with 32-bit instructions only: XScale, ARM7 to Cortex-A17, Scorpion, Krait,
    Marvell PJ4; and designs with 64-bit instructions only (or rather used with those
    only): Neoverse E1, Falkor, Saphira, Oryon, ThunderX, ThunderX2, TaiShan v110. *)
Definition only_32_bit (uarch : N) : Prop :=
  In uarch [0x00100600; 0x00300100; 0x00300101; 0x00300102; 0x00300205; 0x00300207; 0x00300208; 0x00300209; 0x00300212;
            0x00300215; 0x00300217; 0x00400100; 0x00400101; 0x00900100].
Definition only_64_bit (uarch : N) : Prop :=
  In uarch [0x00300401; 0x00400103; 0x00400104; 0x00400105; 0x00800100; 0x00800200; 0x00C00100].

(** Cortex-X4, A520 and A720 are values of the enumeration. *)
Definition cortex_x4 : N := 0x00300504.
Definition cortex_a520 : N := 0x00300552.
Definition cortex_a720 : N := 0x00300573.
