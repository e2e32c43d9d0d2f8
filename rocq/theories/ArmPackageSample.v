(** Sample machines whose /proc/cpuinfo names the board. *)
From Verif Require Import Base Sorting Text LinuxTextModel LinuxTextSpec CpuinfoLineModel CpuinfoLineSpec TopologySpec X86LinuxSpec RiscvSample
  ArmMidrModel ArmClustersModel ArmClusterMidrModel ArmCpuinfoModel ArmCpuinfoSpec ArmCpuinfoResultProofs ArmCpuinfoSample ArmLinuxModel ArmLinuxSpec
  ArmOrderProofs ArmUarchModel ArmCacheModel ArmDecodersModel ArmClustersSample ArmLinuxSample.
From Verif Require Import ArmChipsetModel ArmChipsetSpec ArmChipsetNameSpec ArmChipsetFixupSpec ArmChipsetAndroidSpec ArmPackageModel ArmPackageSpec.
Open Scope nat_scope.

(** A machine, and the lines at the end of /proc/cpuinfo. *)
Definition with_lines (m : machine) (lines : list (list N)) : arm_files :=
  let fs := arm_machine_files m in
  ArmFiles (amf_kernel_max fs) (amf_possible_max fs) (amf_present_max fs) (amf_possible fs) (amf_present fs)
    (File (Some (join 10 (flat_map block (m_online m) ++ lines))) []) (amf_cpu fs).
Definition hardware_line (hw : string) : list (list N) := [field_line "Hardware" hw].
Definition revision_line (rev : string) : list (list N) := [field_line "Revision" rev].
Definition hardware_means (hw : string) : list arm_meaning := [ArmCpuinfoSpec.Board (text hw)].
Definition revision_means (rev : string) : list arm_meaning := [BoardRevision (text rev)].

Lemma lines_say arm32 m lines ms : machine_ok m -> Forall (fun l => ~ In 10%N l /\ length l < 1000) lines -> Forall2 (arm_line_means arm32) lines ms ->
  arm_files_say arm32 64 (with_lines m lines) 64 (Some (singles (m_cpus m))) (Some (singles (m_cpus m))) (meanings m ++ ms).
Proof.
  intros OK HL HM. destruct (machine_files_say arm32 m OK) as [S1 S2 S3 S4 S5 S6]. destruct OK as (H1 & H2 & H3 & H4).
  split; auto. split; [constructor|]. exists (flat_map block (m_online m) ++ lines). split; [reflexivity|].
  assert (A : forall l, In l (flat_map block (m_online m) ++ lines) -> ~ In 10%N l /\ length l < 1000).
  { intros l Hl. apply in_app_iff in Hl. destruct Hl as [Hl|Hl]; [|rewrite Forall_forall in HL; now apply HL].
    apply in_flat_map in Hl. destruct Hl as (s & Hs & Hl). rewrite Forall_forall in H4. apply (block_line_fits s); auto. }
  split; [destruct (m_online m); [congruence|discriminate]|].
  split; [apply Forall_forall; intros l Hl; now apply A|].
  split; [apply lines_fit, Forall_forall; intros l Hl; now apply A|]. apply Forall2_app; [now apply blocks_say|exact HM].
Qed.

(** A Raspberry Pi 3. *)
Definition pi3 : machine :=
  Machine [0; 1; 2; 3] [Scpu 0 0x41 0xD03 8; Scpu 1 0x41 0xD03 8; Scpu 2 0x41 0xD03 8; Scpu 3 0x41 0xD03 8] (fun _ => 0) (fun _ => "1200000"%string).
Definition pi3_lines : list (list N) := hardware_line "BCM2835" ++ revision_line "a02082".
Definition pi3_meanings : list arm_meaning := hardware_means "BCM2835" ++ revision_means "a02082".
Lemma pi3_ok : machine_ok pi3. Proof. machine_is_ok. Qed.

Lemma hardware_line_means arm32 hw : split_line (field_line "Hardware" hw) = Ok (Some (text "Hardware", text hw)) -> length (text hw) <> 64 ->
  Forall2 (arm_line_means arm32) (hardware_line hw) (hardware_means hw).
Proof. intros E L. constructor; [|constructor]. apply means_board; [now apply computed_key_value|exact L]. Qed.
Lemma revision_line_means arm32 rev : split_line (field_line "Revision" rev) = Ok (Some (text "Revision", text rev)) -> length (text rev) <> 9 ->
  Forall2 (arm_line_means arm32) (revision_line rev) (revision_means rev).
Proof. intros E L. constructor; [|constructor]. apply means_board_revision; [now apply computed_key_value|exact L]. Qed.

Ltac plain_lines_fit := repeat (constructor; [split; [intros X; cbn in X; repeat (destruct X as [X|X]; [discriminate X|]); exact X|cbn; lia]|]); constructor.
Lemma pi3_says arm32 : arm_files_say arm32 64 (with_lines pi3 pi3_lines) 64 (Some (singles (m_cpus pi3))) (Some (singles (m_cpus pi3))) (meanings pi3 ++ pi3_meanings).
Proof.
  apply lines_say; [apply pi3_ok|plain_lines_fit|]. apply Forall2_app.
  - apply hardware_line_means; [vm_compute; reflexivity|discriminate].
  - apply revision_line_means; [vm_compute; reflexivity|discriminate].
Qed.
(** The same without a Revision line. *)
Lemma pi3_old_says arm32 : arm_files_say arm32 64 (with_lines pi3 (hardware_line "BCM2835")) 64 (Some (singles (m_cpus pi3))) (Some (singles (m_cpus pi3)))
  (meanings pi3 ++ hardware_means "BCM2835").
Proof. apply lines_say; [apply pi3_ok|plain_lines_fit|]. apply hardware_line_means; [vm_compute; reflexivity|discriminate]. Qed.

(** All CPUs online, all of one version; computed. *)
Lemma lines_all_online m ms version : machine_ok m ->
  forallb (fun c => match about (meanings m ++ ms) c with [] => false | _ => true end && (version_of (meanings m ++ ms) c =? version)%N) (m_cpus m) = true ->
  all_online (machine_usable m) (meanings m ++ ms) version.
Proof.
  intros (H1 & H2 & H3 & H4) H. rewrite forallb_forall in H.
  assert (U : forall c, machine_usable m c -> online (meanings m ++ ms) c /\ version_of (meanings m ++ ms) c = version).
  { intros c Hc. apply (machine_usable_iff _ _ H2) in Hc. specialize (H _ Hc). apply andb_true_iff in H. rewrite N.eqb_eq in H. split; [|tauto].
    unfold online. destruct (about _ _); [destruct H; discriminate|discriminate]. }
  split.
  - destruct (m_cpus m) as [|c l] eqn:E; [congruence|]. exists c. apply machine_usable_iff; [now rewrite E|rewrite E; now left].
  - intros c Hc. now destruct (U c Hc).
  - intros c Hc. now destruct (U c Hc).
Qed.

(** An Android device: four Cortex-A55 and two Cortex-A75. *)
Definition device_lines : list (list N) := hardware_line "Qualcomm Technologies, Inc SDM710".
Definition device_meanings : list arm_meaning := hardware_means "Qualcomm Technologies, Inc SDM710".
Lemma device_lines_say arm32 : arm_files_say arm32 64 (with_lines big_little device_lines) 64 (Some (singles (m_cpus big_little)))
  (Some (singles (m_cpus big_little))) (meanings big_little ++ device_meanings).
Proof. apply lines_say; [apply big_little_ok|plain_lines_fit|]. apply hardware_line_means; [vm_compute; reflexivity|discriminate]. Qed.
Definition device_get (name : list N) : list N :=
  if list_eq_dec N.eq_dec name (text "ro.board.platform") then text "sdm710" else [].
Definition android64 : build := Build false false true true.
