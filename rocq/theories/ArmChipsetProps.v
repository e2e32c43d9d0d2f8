(** Names of chips on ARM Linux and Android: C65-C68. *)
From Verif Require Import Base Text LinuxTextSpec ArmClusterMidrModel ArmCpuinfoModel ArmChipsetModel ArmChipsetSpec ArmChipsetNameSpec ArmChipsetFixupSpec ArmChipsetAndroidSpec
  ArmChipsetExclusiveProofs ArmChipsetNameProofs ArmChipsetLinuxProofs ArmChipsetAndroidResultProofs ArmChipsetResultProofs ArmChipsetSample ArmChipsetCaseProofs.
Open Scope N_scope.

(** ** C65: the chip that the Hardware and Revision lines of /proc/cpuinfo mean *)

(** For all contents of the two buffers: the chip that is decoded is the one that they mean. *)
Theorem arm_linux_chip_exact : forall arm32 cores frequency hw revision c, written hw -> written revision ->
  linux_chip arm32 cores frequency hw revision = Ok c <-> linux_means arm32 cores frequency hw revision c.
Proof. exact linux_chip_iff. Qed.
Print Assumptions arm_linux_chip_exact.

(** They never mean two chips. *)
Theorem arm_linux_chip_unique : forall arm32 cores frequency hw revision c c',
  linux_means arm32 cores frequency hw revision c -> linux_means arm32 cores frequency hw revision c' -> c = c'.
Proof. exact linux_means_unique. Qed.
Print Assumptions arm_linux_chip_unique.

(** With texts in both buffers there is a chip, and a name for it of at most 47 characters. *)
Theorem arm_linux_chip_total : forall arm32 cores frequency hw revision s r, holds_text 64 hw s -> holds_text 9 revision r ->
  exists c name, linux_chip arm32 cores frequency hw revision = Ok c /\ called c name /\ chip_name c = Ok name /\ (length name <= 47)%nat.
Proof. exact linux_chip_total. Qed.
Print Assumptions arm_linux_chip_total.

Example arm_linux_chip_case :
  holds_text 64 (buffered 64 "Qualcomm Technologies, Inc MSM8998") (text "Qualcomm Technologies, Inc MSM8998") /\ holds_text 9 (buffered 9 "a02082") (text "a02082") /\
  on_linux false 8 0 "Qualcomm Technologies, Inc MSM8998" "" = Ok (text "Qualcomm MSM8998") /\
  on_linux false 4 0 "BCM2835" "a02082" = Ok (text "Broadcom BCM2837") /\
  on_linux true 4 0 "BCM2708" "000e" = Ok (text "Broadcom BCM2835") /\
  on_linux false 8 0 "Hisilicon Kirin970" "" = Ok (text "HiSilicon Kirin 970") /\
  on_linux false 4 0 "Samsung Exynos 7580" "" = Ok (text "Samsung Exynos 7578") /\
  on_linux false 4 0 "Some board" "" = Ok (text "Unknown").
Proof. exact linux_cases. Qed.
Print Assumptions arm_linux_chip_case.

(** One would expect a chip for every Hardware line.  But for chips of Broadcom the buffer for
    the revision is read, and without a Revision line nothing was written there. *)
Theorem arm_linux_broadcom_unwritten : forall arm32 cores frequency hw revision s c,
  holds_text 64 hw s -> hardware arm32 cores frequency s c -> chp_vendor c = ve_broadcom -> linux_chip arm32 cores frequency hw (None :: revision) = UB.
Proof. exact linux_chip_unwritten. Qed.
Print Assumptions arm_linux_broadcom_unwritten.
Theorem arm_linux_chip_without_revision_refuted :
  ~ (forall arm32 cores frequency hw s, holds_text 64 hw s -> exists c, linux_chip arm32 cores frequency hw nothing_written = Ok c).
Proof. exact without_revision_refuted. Qed.
Print Assumptions arm_linux_chip_without_revision_refuted.

(** ** C66: names of chips *)

(** A name with a model means one chip. *)
Theorem arm_chip_names_unambiguous : forall c c' name, named c name -> named c' name -> c = c'.
Proof. exact named_unique. Qed.
Print Assumptions arm_chip_names_unambiguous.

(** Devices get the documented name, whatever else is known about them. *)
Theorem arm_linux_devices : forall arm32 cores frequency hw revision d, In d hardware_devices -> for_build arm32 (dv_only32 d) -> holds_text 64 hw (text (dv_text d)) ->
  exists c, linux_chip arm32 cores frequency hw revision = Ok c /\ chip_name c = Ok (text (dv_name d)).
Proof. exact linux_devices. Qed.
Print Assumptions arm_linux_devices.
Theorem arm_android_devices : forall arm32 cores frequency d c, for_build arm32 (dv_only32 d) ->
  (In d tegra_devices -> tegra_hardware arm32 (text (dv_text d)) c -> named c (text (dv_name d))) /\
  (In d board_devices -> board arm32 cores frequency (text (dv_text d)) c -> named c (text (dv_name d))) /\
  (In d (amlogic_devices ++ platform_devices) -> platform arm32 cores frequency (text (dv_text d)) c -> named c (text (dv_name d))).
Proof. exact devices_say. Qed.
Print Assumptions arm_android_devices.

Example arm_chip_names_case : In (Device false "hi6250" "HiSilicon Kirin 650") hardware_devices /\ on_linux false 8 0 "hi6250" "" = Ok (text "HiSilicon Kirin 650") /\
  named (chip_of ve_hisilicon se_kirin 650 []) (text "HiSilicon Kirin 650") /\ named (chip_of ve_qualcomm se_msm 8996 (text "PRO")) (text "Qualcomm MSM8996PRO").
Proof. exact name_cases. Qed.
Print Assumptions arm_chip_names_case.

(** Every recognized text should tell a model; that of a Kirin 9000 does not, and the name ends
    with a space. *)
Theorem arm_chip_model_known_refuted :
  ~ (forall arm32 cores frequency hw revision c, linux_means arm32 cores frequency hw revision c -> recognized c -> chp_model c <> 0).
Proof. exact model_known_refuted. Qed.
Print Assumptions arm_chip_model_known_refuted.
(** Different models should give different chips; one more digit makes no difference here. *)
Theorem arm_chip_digits_refuted :
  ~ (forall hw hw' s ds ds' c, holds_text 64 hw (s ++ ds) -> holds_text 64 hw' (s ++ ds') -> is_decimal ds -> is_decimal ds' -> ds <> ds' ->
       linux_means false 8 0 hw nothing_written c -> linux_means false 8 0 hw' nothing_written c -> c = unknown_chip).
Proof. exact digits_refuted. Qed.
Print Assumptions arm_chip_digits_refuted.
(** Letters after the model should be part of the name; those of Leadcore chips are lost. *)
Theorem arm_chip_letter_refuted :
  ~ (forall s x c name, board true 4 0 (s ++ [x]) c -> is_letter x -> (exists c0, board true 4 0 s c0 /\ recognized c0) -> called c name -> recognized c -> exists n, name = n ++ [capital x]).
Proof. exact letter_refuted. Qed.
Print Assumptions arm_chip_letter_refuted.

(** ** C67: corrections *)

Theorem arm_chip_corrections : forall arm32 cores frequency c x, holds_suffix (chp_suffix c) x ->
  exists c', fixup arm32 cores frequency c = Ok c' /\ forall c'', corrected arm32 cores frequency c c'' <-> c'' = c'.
Proof. exact fixup_exact. Qed.
Print Assumptions arm_chip_corrections.
Example arm_chip_corrections_case :
  fixup false 8 0 (chip_of ve_qualcomm se_msm 8916 []) = Ok (chip_of ve_qualcomm se_msm 8939 []) /\
  fixup false 4 0 (chip_of ve_qualcomm se_msm 8960 []) = Ok (chip_of ve_qualcomm se_apq 8064 []) /\
  fixup false 5 0 (chip_of ve_rockchip se_rk 3288 []) = Ok (chip_of ve_rockchip se_rk 0 []) /\
  fixup false 10 0 (chip_of ve_mediatek se_mt 6797 (text "TURBO")) = Ok (chip_of ve_mediatek se_mt 6797 (text "T")) /\
  holds_suffix (chp_suffix (chip_of ve_mediatek se_mt 6797 (text "TURBO"))) (text "TURBO").
Proof. exact correction_cases. Qed.
Print Assumptions arm_chip_corrections_case.
(** A corrected chip should need no correction; MSM8216 becomes MSM8916, whose number of cores
    is not checked any more. *)
Theorem arm_chip_corrections_stable_refuted :
  ~ (forall arm32 cores frequency c c', corrected arm32 cores frequency c c' -> corrected arm32 cores frequency c' c').
Proof. exact stable_refuted. Qed.
Print Assumptions arm_chip_corrections_stable_refuted.
(** The chip should be the one meant with the highest frequency of the processors; detection
    passes 0. *)
Theorem arm_linux_chip_frequency_refuted :
  ~ (forall arm32 cores frequency hw revision c, linux_means arm32 (N.of_nat cores) frequency hw revision c -> linux_chipset arm32 hw revision cores = Ok (seen c)).
Proof. exact frequency_refuted. Qed.
Print Assumptions arm_linux_chip_frequency_refuted.

(** ** C68: the chip of an Android device *)

(** Whatever the properties are: there is a chip with a name, and unless it is unknown, its
    vendor, series and model are what one of the sources means. *)
Theorem arm_android_chip_total : forall arm32 cores frequency p, plain_properties p ->
  exists c r name, meaning arm32 cores frequency p c /\ android_chip arm32 cores frequency p = Ok r /\ called r name /\ chip_name r = Ok name /\ (length name <= 47)%nat /\
    (r = unknown_chip \/ exists x, recognized (c x) /\ same_model r (c x)).
Proof. exact android_total. Qed.
Print Assumptions arm_android_chip_total.
Theorem arm_android_meaning_unique : forall arm32 cores frequency p c c', plain_properties p ->
  meaning arm32 cores frequency p c -> meaning arm32 cores frequency p c' -> forall x, c x = c' x.
Proof. exact meaning_unique. Qed.
Print Assumptions arm_android_meaning_unique.
(** Nothing recognized. *)
Theorem arm_android_nothing : forall arm32 cores frequency p c, plain_properties p -> meaning arm32 cores frequency p c -> (forall x, ~ recognized (c x)) ->
  android_chip arm32 cores frequency p = Ok unknown_chip.
Proof. exact android_none. Qed.
Print Assumptions arm_android_nothing.
(** Two vendors. *)
Theorem arm_android_vendors : forall arm32 cores frequency p c x y, plain_properties p -> meaning arm32 cores frequency p c ->
  recognized (c x) -> recognized (c y) -> chp_vendor (c x) <> chp_vendor (c y) -> android_chip arm32 cores frequency p = Ok unknown_chip.
Proof. exact android_vendors. Qed.
Print Assumptions arm_android_vendors.
(** One model: the chip is the one with the longest suffix. *)
Theorem arm_android_agreement : forall arm32 cores frequency p c whole, plain_properties p -> meaning arm32 cores frequency p c -> agreement c whole ->
  android_chip arm32 cores frequency p = Ok whole.
Proof. exact android_agreement. Qed.
Print Assumptions arm_android_agreement.
(** Several models of one vendor: the first source in the order of the vendor counts; if there
    is none, the chip is unknown. *)
Theorem arm_android_disagreement : forall arm32 cores frequency p c v x y, plain_properties p -> meaning arm32 cores frequency p c ->
  (forall x, recognized (c x) -> chp_vendor (c x) = v) -> recognized (c x) -> recognized (c y) -> ~ same_model (c x) (c y) ->
  (forall order z, In (v, order) believed -> first_known c order z -> exists r, android_chip arm32 cores frequency p = Ok r /\ same_model r (c z)) /\
  (forall order, In (v, order) believed -> (forall z, In z order -> ~ recognized (c z)) -> android_chip arm32 cores frequency p = Ok unknown_chip) /\
  ((forall order, ~ In (v, order) believed) -> android_chip arm32 cores frequency p = Ok unknown_chip).
Proof. exact android_disagreement. Qed.
Print Assumptions arm_android_disagreement.

Example arm_android_chip_case :
  on_android false 4 0 (properties_of "Qualcomm MSM8996PRO" "MSM8996" "msm8996" "" "" "" "") = Ok (text "Qualcomm MSM8996PRO-AB") /\
  on_android true 4 0 (properties_of "cardhu" "" "tegra" "" "" "" "") = Ok (text "Nvidia Tegra T30") /\
  on_android false 8 0 (properties_of "hi3660" "VTR-L29" "hi3660" "" "" "" "") = Ok (text "HiSilicon Kirin 960") /\
  on_android true 4 0 (properties_of "MT6752" "" "" "" "exynos7420" "" "") = Ok (text "Unknown") /\
  on_android false 8 0 (properties_of "MT6752" "MT6755" "" "" "" "" "") = Ok (text "MediaTek MT6752").
Proof. exact android_cases. Qed.
Print Assumptions arm_android_chip_case.
(** The hypotheses are met: a device whose sources agree, and one whose sources do not. *)
Example arm_android_agreement_case : exists c whole, plain_properties (properties_of "Qualcomm MSM8996PRO" "MSM8996" "msm8996" "" "" "" "") /\
  meaning false 4 0 (properties_of "Qualcomm MSM8996PRO" "MSM8996" "msm8996" "" "" "" "") c /\ agreement c whole /\ named whole (text "Qualcomm MSM8996PRO-AB").
Proof. exact agreement_case. Qed.
Print Assumptions arm_android_agreement_case.
Example arm_android_disagreement_case : exists c, plain_properties (properties_of "MT6752" "MT6755" "" "" "" "" "") /\
  meaning false 8 0 (properties_of "MT6752" "MT6755" "" "" "" "" "") c /\ (forall x, recognized (c x) -> chp_vendor (c x) = ve_mediatek) /\
  recognized (c Hardware) /\ recognized (c Board) /\ ~ same_model (c Hardware) (c Board) /\
  first_known c [Chipname; Hardware; Board; Platform; Mediatek] Hardware.
Proof. exact disagreement_case. Qed.
Print Assumptions arm_android_disagreement_case.

(** The suffix should be one that a source means for its model; but suffixes are copied between
    models, and over one another. *)
Theorem arm_android_suffix_refuted : ~ (forall arm32 cores frequency p c r, plain_properties p -> meaning arm32 cores frequency p c ->
  android_chip arm32 cores frequency p = Ok r -> r = unknown_chip \/ exists x, r = c x).
Proof. exact suffix_refuted. Qed.
Print Assumptions arm_android_suffix_refuted.
Theorem arm_android_suffix_mixed_refuted : ~ (forall arm32 cores frequency p c r, plain_properties p -> meaning arm32 cores frequency p c ->
  android_chip arm32 cores frequency p = Ok r -> recognized r -> exists x, recognized (c x) /\ chp_suffix r = chp_suffix (c x)).
Proof. exact suffix_mixed_refuted. Qed.
Print Assumptions arm_android_suffix_mixed_refuted.
