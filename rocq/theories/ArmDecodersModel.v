(** The decoders of main id registers as ARM Linux detection uses them.  Definitions only. *)
From Verif Require Import Base ArmClustersModel ArmClusterMidrModel ArmCpuinfoModel ArmLinuxModel ArmUarchModel ArmCacheModel.

(** src/arm/linux/init.c with src/arm/uarch.c and src/arm/cache.c; the chipset comes
    from [chipset_of]. *)
Definition library_decoders (b : build) (chipset_of : chars -> chars -> nat -> res chipset) : arm_decoders :=
  ArmDecoders (decode_vendor_uarch (b_arm32 b)) chipset_of (decode_cache b) arm_max_cache.
