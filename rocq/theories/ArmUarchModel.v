(** Model of src/arm/uarch.c.  Definitions only; log messages are left out.  The vendor
    and the microarchitecture are unknown, that is 0, before the call, as they are in
    the zeroed structures of src/arm/linux/init.c. *)
From Verif Require Import Base ArmMidrModel.
Open Scope N_scope.

(** enum cpuinfo_vendor, include/cpuinfo.h:155-308. *)
Definition v_intel : N := 1.
Definition v_arm : N := 3.
Definition v_qualcomm : N := 4.
Definition v_samsung : N := 6.
Definition v_nvidia : N := 7.
Definition v_cavium : N := 12.
Definition v_broadcom : N := 13.
Definition v_apm : N := 14.
Definition v_huawei : N := 15.
Definition v_marvell : N := 31.

(** enum cpuinfo_uarch, include/cpuinfo.h:387-605. *)
Definition u_unknown : N := 0.
Definition u_xscale : N := 0x00100600.
Definition u_arm7 : N := 0x00300100.
Definition u_arm9 : N := 0x00300101.
Definition u_arm11 : N := 0x00300102.
Definition u_cortex_a5 : N := 0x00300205.
Definition u_cortex_a7 : N := 0x00300207.
Definition u_cortex_a8 : N := 0x00300208.
Definition u_cortex_a9 : N := 0x00300209.
Definition u_cortex_a12 : N := 0x00300212.
Definition u_cortex_a15 : N := 0x00300215.
Definition u_cortex_a17 : N := 0x00300217.
Definition u_cortex_a32 : N := 0x00300332.
Definition u_cortex_a35 : N := 0x00300335.
Definition u_cortex_a53 : N := 0x00300353.
Definition u_cortex_a55r0 : N := 0x00300354.
Definition u_cortex_a55 : N := 0x00300355.
Definition u_cortex_a57 : N := 0x00300357.
Definition u_cortex_a65 : N := 0x00300365.
Definition u_cortex_a72 : N := 0x00300372.
Definition u_cortex_a73 : N := 0x00300373.
Definition u_cortex_a75 : N := 0x00300375.
Definition u_cortex_a76 : N := 0x00300376.
Definition u_cortex_a77 : N := 0x00300377.
Definition u_cortex_a78 : N := 0x00300378.
Definition u_neoverse_n1 : N := 0x00300400.
Definition u_neoverse_e1 : N := 0x00300401.
Definition u_neoverse_v1 : N := 0x00300402.
Definition u_neoverse_n2 : N := 0x00300403.
Definition u_neoverse_v2 : N := 0x00300404.
Definition u_cortex_x1 : N := 0x00300501.
Definition u_cortex_x2 : N := 0x00300502.
Definition u_cortex_x3 : N := 0x00300503.
Definition u_cortex_a510 : N := 0x00300551.
Definition u_cortex_a710 : N := 0x00300571.
Definition u_cortex_a715 : N := 0x00300572.
Definition u_scorpion : N := 0x00400100.
Definition u_krait : N := 0x00400101.
Definition u_kryo : N := 0x00400102.
Definition u_falkor : N := 0x00400103.
Definition u_saphira : N := 0x00400104.
Definition u_oryon : N := 0x00400105.
Definition u_denver : N := 0x00500100.
Definition u_denver2 : N := 0x00500101.
Definition u_carmel : N := 0x00500102.
Definition u_exynos_m1 : N := 0x00600100.
Definition u_exynos_m2 : N := 0x00600101.
Definition u_exynos_m3 : N := 0x00600102.
Definition u_exynos_m4 : N := 0x00600103.
Definition u_exynos_m5 : N := 0x00600104.
Definition u_thunderx : N := 0x00800100.
Definition u_thunderx2 : N := 0x00800200.
Definition u_pj4 : N := 0x00900100.
Definition u_brahma_b15 : N := 0x00A00100.
Definition u_brahma_b53 : N := 0x00A00101.
Definition u_xgene : N := 0x00B00100.
Definition u_taishan_v110 : N := 0x00C00100.

(** A switch: the first label that matches. *)
Fixpoint switch {A} (labels : list (N * A)) (x : N) (default : A) : A :=
  match labels with
  | [] => default
  | (l, a) :: r => if x =? l then a else switch r x default
  end.

(** Lines 15-147. *)
Definition arm_uarchs (arm32 : bool) (midr : N) : N :=
  let part := midr_get_part midr in
  switch
    ((if arm32 then
        [(0xC05, u_cortex_a5); (0xC07, u_cortex_a7); (0xC08, u_cortex_a8); (0xC09, u_cortex_a9); (0xC0C, u_cortex_a12);
         (0xC0E, u_cortex_a17); (0xC0D, u_cortex_a12); (0xC0F, u_cortex_a15)]
      else []) ++
     [(0xD01, u_cortex_a32); (0xD03, u_cortex_a53); (0xD04, u_cortex_a35);
      (0xD05, if N.land midr variant_mask =? 0 then u_cortex_a55r0 else u_cortex_a55);
      (0xD06, u_cortex_a65); (0xD07, u_cortex_a57); (0xD08, u_cortex_a72); (0xD09, u_cortex_a73); (0xD0A, u_cortex_a75);
      (0xD0B, u_cortex_a76); (0xD0C, u_neoverse_n1); (0xD0D, u_cortex_a77); (0xD0E, u_cortex_a76); (0xD40, u_neoverse_v1);
      (0xD41, u_cortex_a78); (0xD44, u_cortex_x1); (0xD46, u_cortex_a510); (0xD47, u_cortex_a710); (0xD48, u_cortex_x2);
      (0xD49, u_neoverse_n2)] ++
     (if arm32 then [] else [(0xD4A, u_neoverse_e1)]) ++
     [(0xD4D, u_cortex_a715); (0xD4E, u_cortex_x3); (0xD4F, u_neoverse_v2)])
    part
    (if arm32 then switch [(7, u_arm7); (9, u_arm9); (11, u_arm11)] (N.shiftr part 8) u_unknown else u_unknown).

(** Lines 148-171, 172-190, 191-208, 224-240 and 241-252. *)
Definition broadcom (arm32 : bool) (part : N) : N * N :=
  switch ([(0x00F, (v_broadcom, u_brahma_b15)); (0x100, (v_broadcom, u_brahma_b53))] ++
          (if arm32 then [] else [(0x516, (v_cavium, u_thunderx2))])) part (v_broadcom, u_unknown).
Definition cavium (part : N) : N * N :=
  (v_cavium, switch [(0x0A0, u_thunderx); (0x0A1, u_thunderx); (0x0A2, u_thunderx); (0x0A3, u_thunderx);
                     (0x0AF, u_thunderx2)] part u_unknown).
Definition huawei (arm32 : bool) (part : N) : N * N :=
  switch ((if arm32 then [] else [(0xD01, (v_huawei, u_taishan_v110))]) ++ [(0xD40, (v_arm, u_cortex_a76))]) part
         (v_huawei, u_unknown).
Definition nvidia (part : N) : N * N :=
  (v_nvidia, switch [(0x000, u_denver); (0x003, u_denver2); (0x004, u_carmel)] part u_unknown).
Definition apm (part : N) : N * N := (v_apm, switch [(0x000, u_xgene)] part u_unknown).
(** Lines 209-223. *)
Definition intel (part : N) : N * N :=
  (v_intel, switch [(2, u_xscale); (4, u_xscale); (6, u_xscale)] (N.shiftr part 8) u_unknown).
(** Lines 253-350. *)
Definition qualcomm (arm32 has_vfpv4 : bool) (part : N) : N * N :=
  switch
    ((if arm32 then
        [(0x00F, if has_vfpv4 then (v_arm, u_cortex_a5) else (v_qualcomm, u_scorpion)); (0x02D, (v_qualcomm, u_scorpion));
         (0x04D, (v_qualcomm, u_krait)); (0x06F, (v_qualcomm, u_krait))]
      else []) ++
     [(0x201, (v_qualcomm, u_kryo)); (0x205, (v_qualcomm, u_kryo)); (0x211, (v_qualcomm, u_kryo));
      (0x800, (v_arm, u_cortex_a73)); (0x801, (v_arm, u_cortex_a53)); (0x802, (v_arm, u_cortex_a75));
      (0x803, (v_arm, u_cortex_a55r0)); (0x804, (v_arm, u_cortex_a76)); (0x805, (v_arm, u_cortex_a55))] ++
     (if arm32 then []
      else [(0x001, (v_qualcomm, u_oryon)); (0xC00, (v_qualcomm, u_falkor)); (0xC01, (v_qualcomm, u_saphira))]))
    part (v_qualcomm, u_unknown).
(** Lines 351-406. *)
Definition samsung (midr : N) : N * N :=
  (v_samsung, switch [(0x00100010, u_exynos_m1); (0x00400010, u_exynos_m2); (0x00100020, u_exynos_m3);
                      (0x00100030, u_exynos_m4); (0x00100040, u_exynos_m5)]
                     (N.land midr (N.lor variant_mask part_mask)) u_unknown).
(** Lines 407-421. *)
Definition marvell (part : N) : N * N := (v_marvell, switch [(0x581, u_pj4); (0x584, u_pj4)] part u_unknown).

(** src/arm/uarch.c:7-429. *)
Definition decode_vendor_uarch (arm32 : bool) (midr : N) (has_vfpv4 : bool) : N * N :=
  let part := midr_get_part midr in
  switch
    ([(0x41, (v_arm, arm_uarchs arm32 midr)); (0x42, broadcom arm32 part)] ++
     (if arm32 then [] else [(0x43, cavium part)]) ++
     [(0x48, huawei arm32 part)] ++
     (if arm32 then [(0x69, intel part)] else []) ++
     [(0x4E, nvidia part); (0x50, apm part); (0x51, qualcomm arm32 has_vfpv4 part); (0x53, samsung midr)] ++
     (if arm32 then [(0x56, marvell part)] else []))
    (midr_get_implementer midr) (0, u_unknown).
