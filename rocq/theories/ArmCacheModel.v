(** Model of src/arm/cache.c.  Definitions only; log messages are left out. *)
From Verif Require Import Base TopologySpec ArmMidrModel ArmUarchModel ArmClusterMidrModel.
Open Scope N_scope.

(** What the library is built for: 32-bit ARM or not; __ARM_ARCH_7A__, __ARM_ARCH_8A__
    and __ANDROID__. *)
Record build := Build { b_arm32 : bool; b_arch_7a : bool; b_arch_8a : bool; b_android : bool }.

(** enum cpuinfo_arm_chipset_vendor and _series, src/arm/api.h. *)
Definition chipset_vendor_samsung : N := 3.
Definition series_apq : N := 3.
Definition series_snapdragon : N := 4.
Definition series_hi : N := 8.
Definition series_bcm : N := 14.

(** The fields of struct cpuinfo_cache that are written by the switch. *)
Record raw := Raw { r_size : N; r_ways : N; r_line : N; r_flags : N }.
Definition raw0 : raw := Raw 0 0 0 0.
Definition kb (n : N) : N := n * 1024.
Definition mb (n : N) : N := n * 1024 * 1024.
Definition plain (size ways line : N) : raw := Raw size ways line 0.
Definition inclusive (size ways line : N) : raw := Raw size ways line 2.

(** Level 1 instruction and data, 2 and 3, after the switch; [None] if it writes nothing.
    The level 2 and 3 structures are zero before (src/arm/linux/init.c:661, 761), those of
    level 1 are zero or uninitialised. *)
Definition four : Type := option (raw * raw) * raw * raw.
Definition with_l2 (l1i l1d l2 : raw) : four := (Some (l1i, l1d), l2, raw0).
Definition with_l3 (l1i l1d l2 l3 : raw) : four := (Some (l1i, l1d), l2, l3).

(** Lines 22-58. *)
Definition xscale_caches (midr : N) : four :=
  switch [(2, with_l2 (plain (kb 16) 32 32) (plain (kb 16) 4 64) raw0);
          (4, with_l2 (plain (kb 32) 32 32) (plain (kb 32) 32 32) raw0);
          (6, with_l2 (plain (kb 32) 4 32) (plain (kb 32) 4 32) (plain (kb 256) 8 32))]
    (N.shiftr (midr_get_part midr) 8) (None, raw0, raw0).

(** Lines 517-696: the sizes of L1 and L2 of a Cortex-A53, and its caches. *)
Definition a53_silver_l2 (chip : chipset) (cluster_id : nat) : N :=
  if ch_series chip =? series_msm then (if ch_model chip =? 8998 then mb 1 else kb 512)
  else if ch_series chip =? series_snapdragon then
    switch [(630, if (cluster_id =? 0)%nat then mb 1 else kb 512); (636, mb 1); (660, mb 1)] (ch_model chip) (kb 512)
  else kb 512.
Definition a53_sizes (chip : chipset) (cluster_id : nat) : N * N :=
  let big := (cluster_id =? 0)%nat in
  let model := ch_model chip in
  switch
    [(series_msm, (kb 32, switch [(8937, if big then mb 1 else kb 512); (8940, if big then mb 1 else kb 512);
                                  (8953, if big then mb 1 else kb 512); (8952, if big then kb 512 else kb 256)] model (kb 512)));
     (series_apq, (kb 32, kb 512));
     (series_snapdragon, (kb 32, if (model =? 450) && big then mb 1 else kb 512));
     (series_hi, (kb 32, kb 512));
     (series_kirin, (kb 32, if model =? 970 then mb 1 else kb 512));
     (series_mt, if model =? 8173 then (kb 32, kb 512) else (kb 16, kb 256));
     (series_rk, (kb 32, if (model =? 3368) && big then kb 512 else kb 256));
     (series_bcm, (kb 16, if model =? 2837 then kb 512 else kb 256));
     (series_exynos, (kb 32, kb 256))]
    (ch_series chip) (kb 16, kb 256).
Definition a53_caches (midr : N) (chip : chipset) (cluster_id : nat) : four :=
  if midr_is_qualcomm_cortex_a53_silver midr then
    with_l2 (plain (kb 32) 2 64) (plain (kb 32) 4 64) (plain (a53_silver_l2 chip cluster_id) 16 64)
  else let '(l1, l2) := a53_sizes chip cluster_id in
    with_l2 (plain l1 2 64) (plain l1 4 64) (plain l2 16 64).

(** Lines 749-833. *)
Definition a55_caches (midr : N) (chip : chipset) : four :=
  let l1 := plain (kb 32) 4 64 in
  let l2 := plain (kb 128) 4 64 in
  if midr_is_qualcomm_cortex_a55_silver midr then
    with_l3 l1 l1 l2 (plain (if (ch_series chip =? series_snapdragon) && (ch_model chip =? 845) then mb 2 else mb 1) 16 64)
  else if ch_series chip =? series_exynos then with_l2 l1 l1 (plain (kb 512) 16 64)
  else with_l3 l1 l1 l2 (plain (if (ch_series chip =? series_kirin) && (ch_model chip =? 980) then mb 4 else mb 1) 16 64).

(** Lines 996-1015. *)
Definition a72_caches (chip : chipset) : four :=
  with_l2 (plain (kb 48) 3 64) (plain (kb 32) 2 64) (inclusive (if ch_series chip =? series_kirin then mb 2 else mb 1) 16 64).
(** Lines 1073-1112. *)
Definition a73_caches (midr : N) (chip : chipset) : four :=
  let '(l1d, l2) :=
    if ch_series chip =? series_kirin then (kb 64, mb 2)
    else if ch_series chip =? series_mt then (kb 64, mb 1)
    else switch [(0x51AF8001, (kb 64, mb 2)); (0x51AF8002, (kb 64, mb 1))] midr (kb 32, kb 512) in
  with_l2 (plain (kb 64) 4 64) (plain l1d (N.shiftr l1d 12) 64) (inclusive l2 16 64).
(** Lines 1150-1166. *)
Definition a75_caches (chip : chipset) : four :=
  with_l3 (plain (kb 64) 4 64) (plain (kb 64) 16 64) (plain (kb 256) 8 64)
    (plain (if (ch_series chip =? series_snapdragon) && (ch_model chip =? 845) then mb 2 else mb 1) 16 64).
(** Lines 1215-1250. *)
Definition a76_caches (chip : chipset) : four :=
  let '(l2, l3) := if (ch_series chip =? series_kirin) && (ch_model chip =? 980) then (kb 512, mb 4) else (kb 256, mb 1) in
  with_l3 (plain (kb 64) 4 64) (plain (kb 64) 4 64) (inclusive l2 8 64) (plain l3 16 64).
(** Lines 1344-1368. *)
Definition neoverse_caches (uarch midr : N) : four :=
  with_l3 (plain (kb 64) 4 64) (plain (kb 64) 4 64)
    (inclusive (kb (if (uarch =? u_neoverse_v2) || midr_is_ampere_altra midr then 1024 else 256)) 8 64) (plain 0 16 64).
(** Lines 1436-1445. *)
Definition kryo_caches (midr : N) : four :=
  with_l2 (plain (kb 32) 4 64) (plain (kb 24) 3 64) (plain (if midr_is_kryo_silver midr then kb 512 else mb 1) 8 128).
(** Lines 1619-1637. *)
Definition generic_caches (cores arch_version : N) : four :=
  if 8 <=? arch_version then
    with_l2 (plain (kb 32) 4 64) (plain (kb 32) 4 64) (plain (u32 (cores * kb 256)) 8 64)
  else
    with_l2 (plain (kb 16) 4 32) (plain (kb 16) 4 32)
      (if 7 <=? arch_version then plain (u32 (cores * kb 128)) 8 32 else raw0).

(** The switch of lines 20-1638. *)
Definition caches_by_uarch (b : build) (uarch cores midr : N) (chip : chipset) (cluster_id : nat) (arch_version : N) : four :=
  let before_v7 := b_arm32 b && negb (b_arch_7a b) && negb (b_arch_8a b) in
  let before_v8 := b_arm32 b && negb (b_arch_8a b) in
  let server := negb (b_arm32 b) && negb (b_android b) in
  switch
    ((if before_v7 then
        [(u_xscale, xscale_caches midr); (u_arm11, with_l2 (plain (kb 16) 4 32) (plain (kb 16) 4 32) raw0)]
      else []) ++
     (if before_v8 then
        [(u_cortex_a5, with_l2 (plain (kb 32) 2 32) (plain (kb 32) 4 32) (plain (kb 256) 8 32));
         (u_cortex_a7, with_l2 (plain (kb 32) 2 32) (plain (kb 32) 4 64) (plain (u32 (kb 128 * cores)) 8 64));
         (u_cortex_a8, with_l2 (plain (kb 32) 4 64) (plain (kb 32) 4 64)
            (plain (if ch_vendor chip =? chipset_vendor_samsung then kb 512 else kb 256) 8 64));
         (u_cortex_a9, with_l2 (plain (kb 32) 4 32) (plain (kb 32) 4 32) (plain (mb 1) 16 32));
         (u_cortex_a15, with_l2 (plain (kb 32) 2 64) (plain (kb 32) 2 64) (plain (u32 (cores * kb 512)) 16 64));
         (u_cortex_a17, with_l2 (plain (kb 32) 4 64) (plain (kb 32) 4 64) (plain (u32 (cores * kb 512)) 16 64))]
      else []) ++
     [(u_cortex_a35, with_l2 (plain (kb 16) 2 64) (plain (kb 16) 4 64) (plain (kb 256) 8 64));
      (u_cortex_a53, a53_caches midr chip cluster_id);
      (u_cortex_a55r0, a55_caches midr chip); (u_cortex_a55, a55_caches midr chip);
      (u_cortex_a57, with_l2 (plain (kb 48) 3 64) (plain (kb 32) 2 64) (inclusive (u32 (cores * kb 512)) 16 64));
      (u_cortex_a65, with_l3 (plain (kb 32) 4 64) (plain (kb 32) 4 64) (inclusive (kb 128) 4 64) (plain (kb 512) 16 64));
      (u_cortex_a72, a72_caches chip); (u_cortex_a73, a73_caches midr chip); (u_cortex_a75, a75_caches chip);
      (u_cortex_a76, a76_caches chip);
      (u_cortex_a77, with_l3 (plain (kb 64) 4 64) (plain (kb 64) 4 64) (inclusive (kb 256) 8 64) (plain (mb 1) 16 64));
      (u_neoverse_n1, neoverse_caches uarch midr); (u_neoverse_v1, neoverse_caches uarch midr);
      (u_neoverse_n2, neoverse_caches uarch midr); (u_neoverse_v2, neoverse_caches uarch midr)] ++
     (if before_v8 then
        [(u_scorpion, with_l2 (plain (kb 32) 4 32) (plain (kb 32) 4 32) (plain (u32 (cores * kb 256)) 4 128));
         (u_krait, with_l2 (plain (kb 16) 4 64) (plain (kb 16) 4 64) (plain (u32 (cores * kb 512)) 8 128))]
      else []) ++
     [(u_kryo, kryo_caches midr);
      (u_denver, with_l2 (plain (kb 128) 4 64) (plain (kb 64) 4 64) (plain (mb 2) 16 64));
      (u_denver2, with_l2 (plain (kb 128) 4 64) (plain (kb 64) 4 64) (plain (mb 2) 16 64));
      (u_exynos_m1, with_l2 (plain (kb 64) 4 128) (plain (kb 32) 8 64) (plain (mb 2) 16 64));
      (u_exynos_m2, with_l2 (plain (kb 64) 4 128) (plain (kb 32) 8 64) (plain (mb 2) 16 64));
      (u_exynos_m3, with_l3 (plain (kb 64) 4 128) (plain (kb 64) 8 64) (plain (kb 512) 16 64) (plain (mb 4) 16 64))] ++
     (if server then
        [(u_thunderx, with_l2 (plain (kb 78) 4 64) (plain (kb 32) 4 64) (plain (mb 16) 8 64));
         (u_taishan_v110, with_l3 (plain (kb 64) 4 128) (plain (kb 64) 4 128) (inclusive (kb 512) 8 128)
            (plain (u32 (cores * mb 1)) 16 128))]
      else []))
    uarch (generic_caches cores arch_version).

(** Lines 1639-1650: the sets, by integer division, and the partitions. *)
Definition divided (r : raw) : res geometry :=
  let way := u32 (r_ways r * r_line r) in
  if way =? 0 then UB else Ok (Geometry (r_size r) (r_ways r) (r_size r / way) 1 (r_line r) (r_flags r)).
Definition undivided (r : raw) : geometry := Geometry (r_size r) (r_ways r) 0 0 (r_line r) (r_flags r).

(** src/arm/cache.c:9-1651. *)
Definition decode_cache (b : build) (uarch : N) (cores : nat) (midr : N) (chip : chipset) (cluster_id : nat) (arch_version : N)
  : res (geometry * geometry * geometry * geometry) :=
  match caches_by_uarch b uarch (N.of_nat cores) midr chip cluster_id arch_version with
  | (None, _, _) => UB
  | (Some (i, d), l2, l3) =>
      do gi <- divided i;
      do gd <- divided d;
      if r_size l2 =? 0 then Ok (gi, gd, undivided l2, undivided l3)
      else
        do g2 <- divided l2;
        do g3 <- (if r_size l3 =? 0 then Ok (undivided l3) else divided l3);
        Ok (gi, gd, g2, g3)
  end.

(** Lines 1653-1786; [None] for cpuinfo_compute_max_cache_size. *)
Definition arm_max_cache (uarch : N) : option N :=
  switch
    [(u_xscale, None); (u_arm11, None); (u_scorpion, None); (u_krait, None); (u_kryo, None); (u_exynos_m1, None);
     (u_exynos_m2, None); (u_exynos_m3, None);
     (u_cortex_a5, Some (kb 512)); (u_cortex_a7, Some (mb 1)); (u_cortex_a8, Some (mb 1)); (u_cortex_a9, Some (mb 1));
     (u_cortex_a12, Some (mb 8)); (u_cortex_a17, Some (mb 8)); (u_cortex_a15, Some (mb 4)); (u_cortex_a35, Some (mb 1));
     (u_cortex_a53, Some (mb 2)); (u_cortex_a57, Some (mb 2)); (u_cortex_a72, Some (mb 4)); (u_cortex_a73, Some (mb 8))]
    uarch (Some (mb 4)).
