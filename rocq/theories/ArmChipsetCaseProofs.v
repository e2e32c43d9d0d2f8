(** Examples and counterexamples. *)
From Verif Require Import Base BaseProofs Text LinuxTextSpec X86CpuinfoModel ArmClusterMidrModel ArmCpuinfoModel ArmChipsetModel ArmChipsetSpec ArmChipsetNameSpec ArmChipsetFixupSpec ArmChipsetAndroidSpec
  ArmChipsetFitProofs ArmChipsetMatchProofs ArmChipsetReadProofs ArmChipsetOtherProofs ArmChipsetDeviceProofs ArmChipsetSourceProofs ArmChipsetExclusiveProofs ArmChipsetNameProofs
  ArmChipsetFixupProofs ArmChipsetGoodProofs ArmChipsetLinuxProofs ArmChipsetAndroidProofs ArmChipsetAndroidResultProofs ArmChipsetResultProofs ArmChipsetSample.
Open Scope N_scope.

Lemma buffered_holds size s : plain_check (text s) = true -> (length (text s) <? size)%nat = true -> holds_text size (buffered size s) (text s).
Proof.
  intros P L. apply Nat.ltb_lt in L. split; [now apply plain_check_ok|]. unfold buffered. eexists. split; [reflexivity|]. left. split; [exact L|]. eexists. reflexivity.
Qed.
Definition written_check (buffer : chars) : bool := forallb (fun c => match c with Some x => x <? 256 | None => true end) buffer.
Lemma written_check_ok buffer : written_check buffer = true -> written buffer.
Proof. unfold written_check. rewrite forallb_forall. intros H. apply Forall_forall. intros [x|] I; [|constructor]. specialize (H _ I). now apply N.ltb_lt in H. Qed.
Ltac held := apply buffered_holds; vm_compute; reflexivity.
Lemma linux_cases :
  holds_text 64 (buffered 64 "Qualcomm Technologies, Inc MSM8998") (text "Qualcomm Technologies, Inc MSM8998") /\ holds_text 9 (buffered 9 "a02082") (text "a02082") /\
  on_linux false 8 0 "Qualcomm Technologies, Inc MSM8998" "" = Ok (text "Qualcomm MSM8998") /\
  on_linux false 4 0 "BCM2835" "a02082" = Ok (text "Broadcom BCM2837") /\
  on_linux true 4 0 "BCM2708" "000e" = Ok (text "Broadcom BCM2835") /\
  on_linux false 8 0 "Hisilicon Kirin970" "" = Ok (text "HiSilicon Kirin 970") /\
  on_linux false 4 0 "Samsung Exynos 7580" "" = Ok (text "Samsung Exynos 7578") /\
  on_linux false 4 0 "Some board" "" = Ok (text "Unknown").
Proof. split; [held|]. split; [held|]. repeat split; vm_compute; reflexivity. Qed.
Lemma without_revision_refuted : ~ (forall arm32 cores frequency hw s, holds_text 64 hw s -> exists c, linux_chip arm32 cores frequency hw nothing_written = Ok c).
Proof.
  intros H. destruct (H false 4 0 (buffered 64 "BCM2835") (text "BCM2835")) as (c & E); [held|]. vm_compute in E. discriminate.
Qed.
Lemma checked c name : named_check c (text name) = true -> named c (text name). Proof. apply named_check_ok. Qed.
Lemma name_cases : In (Device false "hi6250" "HiSilicon Kirin 650") hardware_devices /\ on_linux false 8 0 "hi6250" "" = Ok (text "HiSilicon Kirin 650") /\
  named (chip_of ve_hisilicon se_kirin 650 []) (text "HiSilicon Kirin 650") /\ named (chip_of ve_qualcomm se_msm 8996 (text "PRO")) (text "Qualcomm MSM8996PRO").
Proof. split; [unfold hardware_devices; cbn [In]; tauto|]. split; [vm_compute; reflexivity|]. split; apply checked; vm_compute; reflexivity. Qed.
Ltac meant := apply linux_chip_iff; [apply written_check_ok; vm_compute; reflexivity|apply written_check_ok; vm_compute; reflexivity|vm_compute; reflexivity].
Lemma model_known_refuted : ~ (forall arm32 cores frequency hw revision c, linux_means arm32 cores frequency hw revision c -> recognized c -> chp_model c <> 0).
Proof.
  intros H. apply (H false 8 0 (buffered 64 "Kirin9000") nothing_written (chip_of ve_hisilicon se_kirin 0 [])); [meant|intros E; discriminate|reflexivity].
Qed.
Lemma digits_refuted : ~ (forall hw hw' s ds ds' c, holds_text 64 hw (s ++ ds) -> holds_text 64 hw' (s ++ ds') -> is_decimal ds -> is_decimal ds' -> ds <> ds' ->
  linux_means false 8 0 hw nothing_written c -> linux_means false 8 0 hw' nothing_written c -> c = unknown_chip).
Proof.
  intros H. assert (D : forall l, forallb (fun c => (48 <=? c) && (c <=? 57)) l = true -> Forall is_digit l).
  { intros l E. rewrite forallb_forall in E. apply Forall_forall. intros c I. specialize (E c I). rewrite Bool.andb_true_iff, !N.leb_le in E. exact E. }
  assert (E : chip_of ve_samsung se_exynos 9810 [] = unknown_chip); [|discriminate].
  apply (H (buffered 64 "Samsung Exynos9810") (buffered 64 "Samsung Exynos98105") (text "Samsung Exynos") (text "9810") (text "98105")).
  - held.
  - held.
  - split; [discriminate|]. apply D. vm_compute. reflexivity.
  - split; [discriminate|]. apply D. vm_compute. reflexivity.
  - discriminate.
  - meant.
  - meant.
Qed.
Lemma board_is arm32 cores frequency s c : plain_check (text s) = true -> from_board arm32 cores frequency (text s) = Ok c -> board arm32 cores frequency (text s) c.
Proof. intros P E. destruct (from_board_gives arm32 cores frequency (text s) (plain_check_ok _ P)) as (c' & E' & R). rewrite E in E'. injection E' as <-. exact R. Qed.
Lemma letter_refuted : ~ (forall s x c name, board true 4 0 (s ++ [x]) c -> is_letter x -> (exists c0, board true 4 0 s c0 /\ recognized c0) -> called c name -> recognized c ->
  exists n, name = n ++ [capital x]).
Proof.
  intros H. destruct (H (text "lc1860") 99 (chip_of ve_leadcore se_lc 1860 []) (text "Leadcore LC1860")) as (n & E).
  - apply (board_is true 4 0 "lc1860c"); vm_compute; reflexivity.
  - right. lia.
  - exists (chip_of ve_leadcore se_lc 1860 []). split; [apply (board_is true 4 0 "lc1860"); vm_compute; reflexivity|intros E; discriminate].
  - left. apply checked. vm_compute. reflexivity.
  - intros E. discriminate.
  - apply (f_equal (fun l => last l 0)) in E. rewrite last_last in E. vm_compute in E. discriminate.
Qed.
Lemma correction_cases :
  fixup false 8 0 (chip_of ve_qualcomm se_msm 8916 []) = Ok (chip_of ve_qualcomm se_msm 8939 []) /\
  fixup false 4 0 (chip_of ve_qualcomm se_msm 8960 []) = Ok (chip_of ve_qualcomm se_apq 8064 []) /\
  fixup false 5 0 (chip_of ve_rockchip se_rk 3288 []) = Ok (chip_of ve_rockchip se_rk 0 []) /\
  fixup false 10 0 (chip_of ve_mediatek se_mt 6797 (text "TURBO")) = Ok (chip_of ve_mediatek se_mt 6797 (text "T")) /\
  holds_suffix (chp_suffix (chip_of ve_mediatek se_mt 6797 (text "TURBO"))) (text "TURBO").
Proof.
  repeat (split; [vm_compute; reflexivity|]). destruct (suffix_ok_iff (text "TURBO")) as [F L]; [vm_compute; reflexivity|]. split; [exact F|]. split; [exact L|reflexivity].
Qed.
Lemma corrected_is arm32 cores frequency c c' x : chp_suffix c = x ++ repeat 0 (8 - length x) -> suffix_ok x = true -> fixup arm32 cores frequency c = Ok c' -> corrected arm32 cores frequency c c'.
Proof.
  intros Ex S0 E. apply suffix_ok_iff in S0. destruct S0 as [F L]. destruct (fixup_exact arm32 cores frequency c x) as (c1 & E1 & Q); [now split|]. apply Q. congruence.
Qed.
Lemma stable_refuted : ~ (forall arm32 cores frequency c c', corrected arm32 cores frequency c c' -> corrected arm32 cores frequency c' c').
Proof.
  intros H. specialize (H false 8 0 (chip_of ve_qualcomm se_msm 8216 []) (chip_of ve_qualcomm se_msm 8916 [])).
  assert (C : corrected false 8 0 (chip_of ve_qualcomm se_msm 8216 []) (chip_of ve_qualcomm se_msm 8916 [])) by (apply corrected_is with (x := []); vm_compute; reflexivity).
  assert (C' : corrected false 8 0 (chip_of ve_qualcomm se_msm 8916 []) (chip_of ve_qualcomm se_msm 8939 [])) by (apply corrected_is with (x := []); vm_compute; reflexivity).
  pose proof (corrected_unique _ _ _ _ _ _ (H C) C') as E. discriminate.
Qed.
Lemma frequency_refuted : ~ (forall arm32 cores frequency hw revision c, linux_means arm32 (N.of_nat cores) frequency hw revision c -> linux_chipset arm32 hw revision cores = Ok (seen c)).
Proof.
  intros H. specialize (H true 1%nat 1200000 (buffered 64 "WMT") nothing_written (chip_of ve_wondermedia se_wm 8850 [])).
  assert (E : linux_chipset true (buffered 64 "WMT") nothing_written 1 = Ok (seen (chip_of ve_wondermedia se_wm 8850 []))) by (apply H; meant). vm_compute in E. discriminate.
Qed.
Lemma android_cases :
  on_android false 4 0 (properties_of "Qualcomm MSM8996PRO" "MSM8996" "msm8996" "" "" "" "") = Ok (text "Qualcomm MSM8996PRO-AB") /\
  on_android true 4 0 (properties_of "cardhu" "" "tegra" "" "" "" "") = Ok (text "Nvidia Tegra T30") /\
  on_android false 8 0 (properties_of "hi3660" "VTR-L29" "hi3660" "" "" "" "") = Ok (text "HiSilicon Kirin 960") /\
  on_android true 4 0 (properties_of "MT6752" "" "" "" "exynos7420" "" "") = Ok (text "Unknown") /\
  on_android false 8 0 (properties_of "MT6752" "MT6755" "" "" "" "" "") = Ok (text "MediaTek MT6752").
Proof. repeat split; vm_compute; reflexivity. Qed.

(** What the sources of a device mean, computed. *)
Definition plain_properties_check (p : android_properties) : bool :=
  plain_check (an_hardware p) && plain_check (an_board p) && plain_check (an_platform p) && plain_check (an_mediatek p) && plain_check (an_arch p) && plain_check (an_chipname p) &&
  plain_check (an_hardware_chipname p).
Lemma plain_properties_ok p : plain_properties_check p = true -> plain_properties p.
Proof. unfold plain_properties_check. rewrite !Bool.andb_true_iff. intros [[[[[[H1 H2] H3] H4] H5] H6] H7]. repeat (split; [now apply plain_check_ok|]). now apply plain_check_ok. Qed.
Definition computed (arm32 : bool) (cores frequency : N) (p : android_properties) (x : source) : chip :=
  match
    (do c <- match x with
       | Hardware => do tegra <- is_tegra (an_platform p); from_hardware arm32 cores frequency tegra (an_hardware p)
       | Board => from_board arm32 cores frequency (an_board p)
       | Platform => from_platform arm32 cores frequency (an_platform p)
       | Mediatek => from_mediatek (an_mediatek p)
       | Arch => from_arch (an_arch p)
       | Chipname => from_chipname arm32 (an_chipname p)
       | Hardware_chipname => from_chipname arm32 (an_hardware_chipname p)
       end; fixup arm32 cores frequency c)
  with Ok c => c | _ => unknown_chip end.
Lemma computed_meaning arm32 cores frequency p : plain_properties_check p = true -> meaning arm32 cores frequency p (computed arm32 cores frequency p).
Proof.
  intros P. apply plain_properties_ok in P. destruct (saying_exists arm32 cores frequency p P) as (d & S0 & tegra & E & E1 & E2 & E3 & E4 & E5 & E6 & E7). exists d. split; [exact S0|].
  intros x. destruct (good_corrected arm32 cores frequency (d x)) as (c' & C); [eapply saying_good; apply S0|].
  destruct (corrected_good arm32 cores frequency (d x) c') as (F & _); [eapply saying_good; apply S0|exact C|].
  assert (Q : computed arm32 cores frequency p x = c'); [|now rewrite Q]. unfold computed.
  destruct x; [rewrite E; cbn [bind]; rewrite E1|rewrite E2|rewrite E3|rewrite E4|rewrite E5|rewrite E6|rewrite E7]; cbn [bind]; now rewrite F.
Qed.
Lemma prefix_ok c w v : holds_suffix (chp_suffix c) v -> firstn (length v) w = v -> exists v rest, holds_suffix (chp_suffix c) v /\ w = v ++ rest.
Proof. intros H E. exists v, (skipn (length v) w). split; [exact H|]. rewrite <- E at 1. now rewrite firstn_skipn. Qed.
Lemma agreement_case : exists c whole, plain_properties (properties_of "Qualcomm MSM8996PRO" "MSM8996" "msm8996" "" "" "" "") /\
  meaning false 4 0 (properties_of "Qualcomm MSM8996PRO" "MSM8996" "msm8996" "" "" "" "") c /\ agreement c whole /\ named whole (text "Qualcomm MSM8996PRO-AB").
Proof.
  set (p := properties_of "Qualcomm MSM8996PRO" "MSM8996" "msm8996" "" "" "" ""). exists (computed false 4 0 p), (chip_of ve_qualcomm se_msm 8996 (text "PRO-AB")).
  split; [apply plain_properties_ok; vm_compute; reflexivity|]. split; [apply computed_meaning; vm_compute; reflexivity|]. split; [|apply checked; vm_compute; reflexivity].
  assert (K : forall x, computed false 4 0 p x = match x with Hardware => chip_of ve_qualcomm se_msm 8996 (text "PRO-AB") | Board | Platform => chip_of ve_qualcomm se_msm 8996 [] | _ => unknown_chip end)
    by (intros x; destruct x; vm_compute; reflexivity).
  destruct (suffix_ok_iff (text "PRO-AB")) as [F L]; [vm_compute; reflexivity|].
  assert (H1 : holds_suffix (chp_suffix (chip_of ve_qualcomm se_msm 8996 (text "PRO-AB"))) (text "PRO-AB")) by (split; [exact F|split; [exact L|reflexivity]]).
  assert (H2 : holds_suffix (chp_suffix (chip_of ve_qualcomm se_msm 8996 [])) []) by (split; [constructor|split; [cbn; lia|reflexivity]]).
  exists (text "PRO-AB"). split; [exact H1|]. split; [exists Hardware; now rewrite K|]. split; [intros E; discriminate|]. intros x. rewrite K. intros R.
  destruct x; try (now destruct R); (split; [split; [|split]; reflexivity|]).
  - apply (prefix_ok _ _ _ H1). reflexivity.
  - apply (prefix_ok _ _ _ H2). reflexivity.
  - apply (prefix_ok _ _ _ H2). reflexivity.
Qed.
Lemma disagreement_case : exists c, plain_properties (properties_of "MT6752" "MT6755" "" "" "" "" "") /\
  meaning false 8 0 (properties_of "MT6752" "MT6755" "" "" "" "" "") c /\ (forall x, recognized (c x) -> chp_vendor (c x) = ve_mediatek) /\
  recognized (c Hardware) /\ recognized (c Board) /\ ~ same_model (c Hardware) (c Board) /\
  first_known c [Chipname; Hardware; Board; Platform; Mediatek] Hardware.
Proof.
  set (p := properties_of "MT6752" "MT6755" "" "" "" "" ""). exists (computed false 8 0 p).
  split; [apply plain_properties_ok; vm_compute; reflexivity|]. split; [apply computed_meaning; vm_compute; reflexivity|].
  assert (K : forall x, computed false 8 0 p x = match x with Hardware => chip_of ve_mediatek se_mt 6752 [] | Board => chip_of ve_mediatek se_mt 6755 [] | _ => unknown_chip end)
    by (intros x; destruct x; vm_compute; reflexivity).
  split; [intros x; rewrite K; destruct x; intros R; try reflexivity; now destruct R|]. rewrite !K. split; [intros E; discriminate|]. split; [intros E; discriminate|].
  split; [intros (_ & _ & E); discriminate|]. exists [Chipname], [Board; Platform; Mediatek]. split; [reflexivity|]. rewrite K. split; [intros E; discriminate|].
  intros x [<-|[]]. rewrite K. intros R. now apply R.
Qed.
Lemma suffix_refuted : ~ (forall arm32 cores frequency p c r, plain_properties p -> meaning arm32 cores frequency p c ->
  android_chip arm32 cores frequency p = Ok r -> r = unknown_chip \/ exists x, r = c x).
Proof.
  intros H. set (p := properties_of "MSM8994" "MSM8996PRO" "" "" "" "" "").
  destruct (H false 4 0 p (computed false 4 0 p) (chip_of ve_qualcomm se_msm 8994 (text "PRO-AB"))) as [E|(x & E)].
  - apply plain_properties_ok. vm_compute. reflexivity.
  - apply computed_meaning. vm_compute. reflexivity.
  - vm_compute. reflexivity.
  - discriminate.
  - destruct x; vm_compute in E; discriminate.
Qed.
Lemma suffix_mixed_refuted : ~ (forall arm32 cores frequency p c r, plain_properties p -> meaning arm32 cores frequency p c ->
  android_chip arm32 cores frequency p = Ok r -> recognized r -> exists x, recognized (c x) /\ chp_suffix r = chp_suffix (c x)).
Proof.
  intros H. set (p := properties_of "MSM8996PRO" "MSM8996X" "" "" "" "" "MSM8996").
  destruct (H false 4 0 p (computed false 4 0 p) (chip_of ve_qualcomm se_msm 8996 (text "XRO-AB"))) as (x & _ & E).
  - apply plain_properties_ok. vm_compute. reflexivity.
  - apply computed_meaning. vm_compute. reflexivity.
  - vm_compute. reflexivity.
  - intros E. discriminate.
  - destruct x; vm_compute in E; discriminate.
Qed.
