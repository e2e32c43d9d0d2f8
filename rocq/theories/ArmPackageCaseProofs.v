(** The package on GNU/Linux and Android, and the sample machines. *)
From Verif Require Import Base Sorting Text LinuxTextModel LinuxTextSpec TopologySpec X86LinuxSpec RiscvSample ArmClustersModel ArmClusterMidrModel
  ArmCpuinfoModel ArmCpuinfoSpec ArmCpuinfoSample ArmLinuxModel ArmLinuxSpec ArmOrderProofs ArmUarchModel ArmCacheModel ArmDecodersModel ArmLibraryProofs
  ArmClustersSample ArmLinuxSample.
From Verif Require Import ArmChipsetModel ArmChipsetSpec ArmChipsetNameSpec ArmChipsetFixupSpec ArmChipsetAndroidSpec ArmPackageModel ArmPackageSpec ArmPackageProofs
  ArmPackageSample.
Open Scope nat_scope.

Lemma linux_package sg b garbage default sorter calloc_ok fs max po pr ms version :
  arm_files_say (b_arm32 b) default fs max po pr ms -> all_online (arm_usable max po pr) ms version ->
  sorts (cmp_arm_linux_processor (b_arm32 b)) sorter -> plain_lines ms -> revision_if_needed (b_arm32 b) ms -> forall o t,
  arm_linux_init sg (b_arm32 b) (b_android b) garbage default sorter calloc_ok (library_decoders b (chipset_by (linux_decoder (b_arm32 b)))) fs = Ok o ->
  ao_published o = Some t ->
  exists c name, arm_package_name sg (b_arm32 b) default calloc_ok (linux_decoder (b_arm32 b)) fs = Ok (Some name) /\
    linux_tells (b_arm32 b) (N.of_nat (length (at_processors t))) ms c /\ called c name /\ length name <= 47.
Proof.
  intros FS ON SO P R o t E PU.
  refine (package_named sg b garbage default sorter calloc_ok fs max po pr ms version _ (fun n c => linux_tells (b_arm32 b) n ms c) FS ON SO _ o t E PU).
  intros hw rev n B. now apply linux_decoder_tells.
Qed.
Lemma linux_used b ms n chip : plain_lines ms -> revision_if_needed (b_arm32 b) ms ->
  decoders_answer (library_decoders b (chipset_by (linux_decoder (b_arm32 b)))) ms /\
  (chipset_from (library_decoders b (chipset_by (linux_decoder (b_arm32 b)))) ms n chip ->
   exists c, linux_tells (b_arm32 b) (N.of_nat n) ms c /\ chip = seen c).
Proof.
  intros P R. assert (D : forall hw rev n, board_texts ms hw rev -> exists c name, linux_decoder (b_arm32 b) hw rev n = Ok c /\
    linux_tells (b_arm32 b) (N.of_nat n) ms c /\ called c name /\ chip_name c = Ok name /\ length name <= 47)
    by (intros hw rev k B; now apply linux_decoder_tells).
  split; [exact (chip_answers b ms _ (fun n c => linux_tells (b_arm32 b) n ms c) D)|exact (chip_used b ms _ (fun n c => linux_tells (b_arm32 b) n ms c) D n chip)].
Qed.
Lemma android_package sg b garbage default sorter calloc_ok get fs max po pr ms version :
  arm_files_say (b_arm32 b) default fs max po pr ms -> all_online (arm_usable max po pr) ms version ->
  sorts (cmp_arm_linux_processor (b_arm32 b)) sorter -> plain_device get ms -> forall o t,
  arm_linux_init sg (b_arm32 b) (b_android b) garbage default sorter calloc_ok (library_decoders b (chipset_by (android_decoder (b_arm32 b) get))) fs = Ok o ->
  ao_published o = Some t ->
  exists c name, arm_package_name sg (b_arm32 b) default calloc_ok (android_decoder (b_arm32 b) get) fs = Ok (Some name) /\
    android_tells (b_arm32 b) (N.of_nat (length (at_processors t))) get ms c /\ called c name /\ length name <= 47.
Proof.
  intros FS ON SO P o t E PU.
  refine (package_named sg b garbage default sorter calloc_ok fs max po pr ms version _ (fun n c => android_tells (b_arm32 b) n get ms c) FS ON SO _ o t E PU).
  intros hw rev n B. now apply android_decoder_tells.
Qed.
Lemma android_used b get ms n chip : plain_device get ms ->
  decoders_answer (library_decoders b (chipset_by (android_decoder (b_arm32 b) get))) ms /\
  (chipset_from (library_decoders b (chipset_by (android_decoder (b_arm32 b) get))) ms n chip ->
   exists c, android_tells (b_arm32 b) (N.of_nat n) get ms c /\ chip = seen c).
Proof.
  intros P. assert (D : forall hw rev n, board_texts ms hw rev -> exists c name, android_decoder (b_arm32 b) get hw rev n = Ok c /\
    android_tells (b_arm32 b) (N.of_nat n) get ms c /\ called c name /\ chip_name c = Ok name /\ length name <= 47)
    by (intros hw rev k B; now apply android_decoder_tells).
  split; [exact (chip_answers b ms _ (fun n c => android_tells (b_arm32 b) n get ms c) D)|exact (chip_used b ms _ (fun n c => android_tells (b_arm32 b) n get ms c) D n chip)].
Qed.

(** ** The samples *)

Ltac chars_plain := repeat (constructor; [split; reflexivity|]); constructor.
Lemma pi3_case :
  arm_files_say false 64 (with_lines pi3 pi3_lines) 64 (Some (singles (m_cpus pi3))) (Some (singles (m_cpus pi3))) (meanings pi3 ++ pi3_meanings) /\
  all_online (machine_usable pi3) (meanings pi3 ++ pi3_meanings) 8 /\ plain_lines (meanings pi3 ++ pi3_meanings) /\
  revision_if_needed false (meanings pi3 ++ pi3_meanings) /\
  (exists o t, arm_linux_init true false false junk 64 (arm_sort false) (fun _ => true)
      (library_decoders gnu64 (chipset_by (linux_decoder false))) (with_lines pi3 pi3_lines) = Ok o /\ ao_published o = Some t) /\
  arm_package_name true false 64 (fun _ => true) (linux_decoder false) (with_lines pi3 pi3_lines) = Ok (Some (text "Broadcom BCM2837")).
Proof.
  split; [apply pi3_says|]. split; [apply lines_all_online; [apply pi3_ok|vm_compute; reflexivity]|].
  split; [split; intros v E; cbv in E; injection E as <-; chars_plain|].
  split; [intros E; vm_compute in E; discriminate E|].
  split; [do 2 eexists; split; [vm_compute; reflexivity|reflexivity]|]. vm_compute. reflexivity.
Qed.

Lemma no_revision_refuted :
  ~ (forall char_signed b garbage default sorter calloc_ok fs max possible present ms version group,
       arm_files_say (b_arm32 b) default fs max possible present ms -> all_online (arm_usable max possible present) ms version ->
       sorts (cmp_arm_linux_processor (b_arm32 b)) sorter -> plain_lines ms -> groups_say (arm_usable max possible present) fs group ->
       exists o, arm_linux_init char_signed (b_arm32 b) (b_android b) garbage default sorter calloc_ok
         (library_decoders b (chipset_by (linux_decoder (b_arm32 b)))) fs = Ok o).
Proof.
  intros H.
  destruct (H true gnu64 junk 64%N (arm_sort false) (fun _ => true) (with_lines pi3 (hardware_line "BCM2835")) 64%N (Some (singles (m_cpus pi3)))
    (Some (singles (m_cpus pi3))) (meanings pi3 ++ hardware_means "BCM2835") 8%N (m_group pi3)) as (o & E).
  - apply pi3_old_says.
  - apply lines_all_online; [apply pi3_ok|vm_compute; reflexivity].
  - apply arm_sort_sorts.
  - split; intros v E; cbv in E; [injection E as <-; chars_plain|discriminate E].
  - destruct (machine_groups pi3 pi3_ok) as [G1 G2]; [|split; assumption].
    intros c Hc. cbn in Hc. repeat (destruct Hc as [<-|Hc]; [reflexivity|]). destruct Hc.
  - vm_compute in E. discriminate E.
Qed.

Lemma device_case :
  arm_files_say false 64 (with_lines big_little device_lines) 64 (Some (singles (m_cpus big_little))) (Some (singles (m_cpus big_little)))
    (meanings big_little ++ device_meanings) /\
  all_online (machine_usable big_little) (meanings big_little ++ device_meanings) 8 /\ plain_device device_get (meanings big_little ++ device_meanings) /\
  (exists o t, arm_linux_init true false true junk 64 (arm_sort false) (fun _ => true)
      (library_decoders android64 (chipset_by (android_decoder false device_get))) (with_lines big_little device_lines) = Ok o /\ ao_published o = Some t) /\
  arm_package_name true false 64 (fun _ => true) (android_decoder false device_get) (with_lines big_little device_lines) =
    Ok (Some (text "Qualcomm Snapdragon 710")).
Proof.
  split; [apply device_lines_say|]. split; [apply lines_all_online; [apply big_little_ok|vm_compute; reflexivity]|].
  split.
  { split; [intros v E; cbv in E; injection E as <-; chars_plain|]. intros [] X; unfold device_get; destruct (list_eq_dec _ _ _); chars_plain. }
  split; [do 2 eexists; split; [vm_compute; reflexivity|reflexivity]|]. vm_compute. reflexivity.
Qed.
