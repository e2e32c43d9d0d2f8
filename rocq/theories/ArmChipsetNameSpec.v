(** Names of chips, and the names that texts in tables stand for. *)
From Verif Require Import Base Text LinuxTextSpec ArmClusterMidrModel ArmCpuinfoModel ArmChipsetModel ArmChipsetSpec.
From Verif Require ArmMachSpec.
Import ArmMachSpec(numeral).
Open Scope N_scope.

(** The vendor and the series, as users read them. *)
Definition series_names : list (N * N * string) := [
  (se_qsd, ve_qualcomm, "Qualcomm QSD"); (se_msm, ve_qualcomm, "Qualcomm MSM"); (se_apq, ve_qualcomm, "Qualcomm APQ");
  (se_snapdragon, ve_qualcomm, "Qualcomm Snapdragon "); (se_mt, ve_mediatek, "MediaTek MT"); (se_exynos, ve_samsung, "Samsung Exynos ");
  (se_k3v, ve_hisilicon, "HiSilicon K3V"); (se_hi, ve_hisilicon, "HiSilicon Hi"); (se_kirin, ve_hisilicon, "HiSilicon Kirin ");
  (se_atm, ve_actions, "Actions ATM"); (se_a, ve_allwinner, "Allwinner A"); (se_aml, ve_amlogic, "Amlogic AML"); (se_s, ve_amlogic, "Amlogic S");
  (se_bcm, ve_broadcom, "Broadcom BCM"); (se_nuclun, ve_lg, "LG Nuclun "); (se_lc, ve_leadcore, "Leadcore LC"); (se_pxa, ve_marvell, "Marvell PXA");
  (se_6a, ve_mstar, "MStar 6A"); (se_u, ve_novathor, "NovaThor U"); (se_tegra_t, ve_nvidia, "Nvidia Tegra T"); (se_tegra_ap, ve_nvidia, "Nvidia Tegra AP");
  (se_tegra_sl, ve_nvidia, "Nvidia Tegra SL"); (se_surge_s, ve_pinecone, "Pinecone Surge S"); (se_mp, ve_renesas, "Renesas MP");
  (se_rk, ve_rockchip, "Rockchip RK"); (se_sc, ve_spreadtrum, "Spreadtrum SC"); (se_tcc, ve_telechips, "Telechips TCC");
  (se_omap, ve_texas_instruments, "Texas Instruments OMAP"); (se_unisoc_t, ve_unisoc, "Unisoc T"); (se_unisoc_ums, ve_unisoc, "Unisoc UMS");
  (se_wm, ve_wondermedia, "WonderMedia WM")
]%string.

(** Characters of suffixes, and an array of eight characters with one. *)
Definition suffix_character (c : N) : Prop := 65 <= c <= 90 \/ c = 45 \/ c = 47.
Definition holds_suffix (array suffix : list N) : Prop :=
  Forall suffix_character suffix /\ (length suffix <= 8)%nat /\ array = suffix ++ repeat 0 (8 - length suffix).
(** A chip of a known model, and its name. *)
Definition named (c : chip) (name : list N) : Prop :=
  exists vs ds suffix, In (chp_series c, chp_vendor c, vs) series_names /\ numeral (chp_model c) ds /\ chp_model c <> 0 /\ chp_model c < two32 /\
    holds_suffix (chp_suffix c) suffix /\ name = text vs ++ ds ++ suffix.
(** A chip of a known series, but not a known model. *)
Definition of_series (c : chip) (name : list N) : Prop :=
  exists vs suffix, In (chp_series c, chp_vendor c, vs) series_names /\ chp_model c = 0 /\ holds_suffix (chp_suffix c) suffix /\ name = text vs.
(** The chip that a name means. *)
Definition called (c : chip) (name : list N) : Prop := named c name \/ of_series c name \/ c = unknown_chip /\ name = text "Unknown".

(** A table tells the names of the chips that texts stand for. *)
Definition listed (arm32 : bool) (devices : list device) : reading := fun s c =>
  exists d, In d devices /\ for_build arm32 (dv_only32 d) /\ s = text (dv_text d) /\ named c (text (dv_name d)).

(** ** What every source of a text says *)

Definition hardware (arm32 : bool) (cores frequency : N) : reading :=
  unless (first_word (any word_signatures))
    (unless (any (hardware_signatures arm32 cores frequency)) (unless (listed arm32 hardware_devices) unrecognized)).
(** The Hardware line of Android devices with a chip of Nvidia. *)
Definition tegra_hardware (arm32 : bool) : reading := unless (listed arm32 tegra_devices) unrecognized.
Definition board (arm32 : bool) (cores frequency : N) : reading :=
  unless (any (board_signatures arm32 cores frequency)) (unless (listed arm32 board_devices) unrecognized).
Definition platform (arm32 : bool) (cores frequency : N) : reading :=
  unless (any (platform_signatures arm32 cores frequency)) (unless (listed arm32 (amlogic_devices ++ platform_devices)) unrecognized).
Definition mediatek : reading := unless mt_start unrecognized.
Definition arch : reading := unless exynos unrecognized.
Definition chipname (arm32 : bool) : reading := unless (any (chipname_signatures arm32)) unrecognized.
