(** Model of src/arm/midr.h.  Definitions only. *)
From Verif Require Import Base.
Open Scope N_scope.

(** src/arm/midr.h:4-14. *)
Definition implementer_mask : N := 0xFF000000.
Definition variant_mask : N := 0x00F00000.
Definition architecture_mask : N := 0x000F0000.
Definition part_mask : N := 0x0000FFF0.
Definition revision_mask : N := 0x0000000F.
Definition implementer_offset : N := 24.
Definition variant_offset : N := 20.
Definition architecture_offset : N := 16.
Definition part_offset : N := 4.
Definition revision_offset : N := 0.

(** The common shape of lines 39-62: [(midr & ~mask) | ((v << offset) & mask)]. *)
Definition put_field (mask offset midr v : N) : N :=
  N.lor (N.land midr (not32 mask)) (N.land (u32 (N.shiftl v offset)) mask).
Definition midr_set_implementer := put_field implementer_mask implementer_offset.
Definition midr_set_variant := put_field variant_mask variant_offset.
Definition midr_set_architecture := put_field architecture_mask architecture_offset.
Definition midr_set_part := put_field part_mask part_offset.
Definition midr_set_revision := put_field revision_mask revision_offset.

(** Lines 64-78: [(midr & mask) >> offset]. *)
Definition get_field (mask offset midr : N) : N := N.shiftr (N.land midr mask) offset.
Definition midr_get_variant := get_field variant_mask variant_offset.
Definition midr_get_implementer := get_field implementer_mask implementer_offset.
Definition midr_get_part := get_field part_mask part_offset.
Definition midr_get_revision := get_field revision_mask revision_offset.

(** Lines 80-98: [(midr & ~mask) | (other & mask)]. *)
Definition copy_field (mask midr other : N) : N := N.lor (N.land midr (not32 mask)) (N.land other mask).
Definition midr_copy_implementer := copy_field implementer_mask.
Definition midr_copy_variant := copy_field variant_mask.
Definition midr_copy_architecture := copy_field architecture_mask.
Definition midr_copy_part := copy_field part_mask.
Definition midr_copy_revision := copy_field revision_mask.

(** Lines 16-37. *)
Definition midr_arm1156 : N := 0x410FB560.
Definition midr_cortex_a7 : N := 0x410FC070.
Definition midr_cortex_a9 : N := 0x410FC090.
Definition midr_cortex_a15 : N := 0x410FC0F0.
Definition midr_cortex_a17 : N := 0x410FC0E0.
Definition midr_cortex_a35 : N := 0x410FD040.
Definition midr_cortex_a53 : N := 0x410FD030.
Definition midr_cortex_a55 : N := 0x410FD050.
Definition midr_cortex_a57 : N := 0x410FD070.
Definition midr_cortex_a72 : N := 0x410FD080.
Definition midr_cortex_a73 : N := 0x410FD090.
Definition midr_cortex_a75 : N := 0x410FD0A0.
Definition midr_kryo280_gold : N := 0x51AF8001.
Definition midr_kryo280_silver : N := 0x51AF8014.
Definition midr_kryo385_silver : N := 0x518F803C.
Definition midr_kryo_silver_821 : N := 0x510F2010.
Definition midr_kryo_gold : N := 0x510F2050.
Definition midr_kryo_silver_820 : N := 0x510F2110.
Definition midr_exynos_m1_m2 : N := 0x530F0010.
Definition midr_denver2 : N := 0x4E0F0030.
Definition midr_ampere_altra : N := 0x413FD0C1.

(** [uarch_mask] of lines 101, 110, 135, ... ([core_mask] of line 177) and [core_mask]
    of lines 251-252. *)
Definition uarch_mask : N := N.lor implementer_mask part_mask.
Definition core_mask : N := N.lor (N.lor implementer_mask architecture_mask) part_mask.

(** Lines 100-103, 109-112, 134-152 and 166-174. *)
Definition same_uarch (known midr : N) : bool := N.land midr uarch_mask =? N.land known uarch_mask.
Definition midr_is_arm1156 := same_uarch midr_arm1156.
Definition midr_is_cortex_a9 := same_uarch midr_cortex_a9.
Definition midr_is_cortex_a53 := same_uarch midr_cortex_a53.
Definition midr_is_qualcomm_cortex_a53_silver := same_uarch midr_kryo280_silver.
Definition midr_is_qualcomm_cortex_a55_silver := same_uarch midr_kryo385_silver.
Definition midr_is_kryo280_gold := same_uarch midr_kryo280_gold.
Definition midr_is_kryo_gold := same_uarch midr_kryo_gold.
Definition midr_is_ampere_altra := same_uarch midr_ampere_altra.

(** "switch (x) { case a: case b: ..": is [x] one of the labels? *)
Definition one_of (labels : list N) (x : N) : bool := existsb (N.eqb x) labels.

(** Lines 105-107, 114-132 and 154-164. *)
Definition midr_is_arm11 (midr : N) : bool := N.land midr (N.lor implementer_mask 0xF000) =? 0x4100B000.
Definition midr_is_scorpion (midr : N) : bool := one_of [0x510000F0; 0x510002D0] (N.land midr uarch_mask).
Definition midr_is_krait (midr : N) : bool := one_of [0x510004D0; 0x510006F0] (N.land midr uarch_mask).
Definition midr_is_kryo_silver (midr : N) : bool :=
  one_of [midr_kryo_silver_820; midr_kryo_silver_821] (N.land midr core_mask).

(** Lines 176-248; [arm32] is CPUINFO_ARCH_ARM, otherwise CPUINFO_ARCH_ARM64. *)
Definition score_6 : list N := [0x53000030; 0x53000040; 0x4100D440; 0x4100D480; 0x4100D4E0].
Definition score_5 (arm32 : bool) : list N :=
  [0x4100D080; 0x4100D090; 0x4100D0A0; 0x4100D0B0; 0x4100D0D0; 0x4100D0E0; 0x4100D410; 0x4100D470; 0x4100D4D0;
   0x4800D400; 0x4E000030; 0x51002050; 0x51008000; 0x51008020; 0x51008040; 0x53000010; 0x53000020] ++
  (if arm32 then [0x4100C0F0; 0x4100C0E0; 0x4100C0D0; 0x4100C0C0] else []).
Definition score_4 : list N := [0x4100D070].
Definition score_2 (arm32 : bool) : list N :=
  (if arm32 then [] else [0x4100D060]) ++ [0x4100D030; 0x4100D050; 0x4100D460].
Definition score_1 (arm32 : bool) : list N :=
  [0x4100D040] ++ (if arm32 then [0x4100C070] else []) ++
  [0x51008050; 0x51008030; 0x51008010; 0x51002110; 0x51002010].
Definition midr_score_core (arm32 : bool) (midr : N) : N :=
  let x := N.land midr uarch_mask in
  if one_of score_6 x then 6
  else if one_of (score_5 arm32) x then 5
  else if one_of score_4 x then 4
  else if one_of (score_2 arm32) x then 2
  else if one_of (score_1 arm32) x then 1
  else 3.

(** Lines 250-273. *)
Definition midr_little_core_for_big (midr : N) : N :=
  let x := N.land midr core_mask in
  if x =? midr_cortex_a75 then midr_cortex_a55
  else if one_of [midr_cortex_a73; midr_cortex_a72; midr_cortex_a57; midr_exynos_m1_m2] x then midr_cortex_a53
  else if one_of [midr_cortex_a17; midr_cortex_a15] x then midr_cortex_a7
  else if x =? midr_kryo280_gold then midr_kryo280_silver
  else if x =? midr_kryo_gold then midr_kryo_silver_820
  else if x =? midr_denver2 then midr_cortex_a57
  else midr.
