(** Property theorems about ARM Linux machines with offline CPUs: C85. *)
From Verif Require Import Base Sorting Text LinuxTextModel TopologySpec ArmMidrModel ArmClustersModel ArmClusterMidrModel ArmCpuinfoModel ArmCpuinfoSpec
  ArmLinuxModel ArmLinuxSpec ArmDetectProofs ArmUarchModel ArmCacheModel ArmDecodersModel ArmLibraryProofs ArmClustersSample ArmCpuinfoSample ArmLinuxSample
  ArmOfflineSpec ArmVersionProofs ArmOfflineProofs ArmOfflineSample ArmMidrSpec.
Open Scope nat_scope.

(** The tables of a machine of which some CPUs are offline. *)
Theorem arm_linux_some_offline : forall char_signed arm32 android garbage default sorter calloc_ok d fs max possible present ms,
  arm_files_say arm32 default fs max possible present ms ->
  some_online d (arm_usable max possible present) ms ->
  decoders_answer d ms -> sorts (cmp_arm_linux_processor arm32) sorter -> forall o,
  arm_linux_init char_signed arm32 android garbage default sorter calloc_ok d fs = Ok o ->
  match ao_published o with
  | Some t => arm_offline_reports (arm_usable max possible present) ms t
  | None => ao_live o = [] /\ exists b, calloc_ok b = false
  end.
Proof. exact offline_reports. Qed.
Print Assumptions arm_linux_some_offline.

(** There is no undefined behaviour if no list of siblings has an over-long entry and the number of online CPUs is none
    for which the clusters are guessed. *)
Theorem arm_linux_some_offline_terminates : forall char_signed arm32 android garbage default sorter calloc_ok d fs max possible present ms,
  arm_files_say arm32 default fs max possible present ms ->
  some_online d (arm_usable max possible present) ms ->
  decoders_answer d ms -> sorts (cmp_arm_linux_processor arm32) sorter -> sibling_commas fs ->
  (forall n, number_online (arm_usable max possible present) ms n -> ~ In n [5; 6; 8; 10]) ->
  exists o, arm_linux_init char_signed arm32 android garbage default sorter calloc_ok d fs = Ok o.
Proof. exact offline_total. Qed.
Print Assumptions arm_linux_some_offline_terminates.

(** Nor if the kernel gives the packages and siblings of the online CPUs.  Then the clusters are the groups of the online
    CPUs, an offline CPU is alone, and the cores of online CPUs have their registers. *)
Theorem arm_linux_offline_groups : forall char_signed arm32 android garbage default sorter calloc_ok d fs max possible present ms,
  arm_files_say arm32 default fs max possible present ms ->
  some_online d (arm_usable max possible present) ms ->
  decoders_answer d ms -> sorts (cmp_arm_linux_processor arm32) sorter -> forall group,
  groups_online (arm_usable max possible present) ms fs group ->
  exists o, arm_linux_init char_signed arm32 android garbage default sorter calloc_ok d fs = Ok o /\ forall t, ao_published o = Some t ->
    clusters_online ms group t /\
    (2 <= length (at_processors t) -> forall midr, midrs_online (arm_usable max possible present) ms group midr -> cores_online ms midr t).
Proof. exact offline_groups. Qed.
Print Assumptions arm_linux_offline_groups.

(** The designs to which the theorems apply. *)
Theorem arm_own_sizes_version_free : forall build chipset_of midr, has_own_sizes midr -> version_free (library_decoders build chipset_of) midr.
Proof. exact library_version_free. Qed.
Print Assumptions arm_own_sizes_version_free.

Example arm_linux_offline_case :
  arm_files_say false 64 (arm_machine_files one_offline) 64 (Some (singles (m_cpus one_offline))) (Some (singles (m_cpus one_offline)))
    (meanings one_offline) /\
  some_online (library64 unknown_chip) (machine_usable one_offline) (meanings one_offline) /\
  decoders_answer (library64 unknown_chip) (meanings one_offline) /\ sorts (cmp_arm_linux_processor false) (arm_sort false) /\
  groups_online (machine_usable one_offline) (meanings one_offline) (arm_machine_files one_offline) (m_group one_offline) /\
  midrs_online (machine_usable one_offline) (meanings one_offline) (m_group one_offline) two_designs /\
  (forall n, number_online (machine_usable one_offline) (meanings one_offline) n -> ~ In n [5; 6; 8; 10]) /\
  has_own_sizes 0x411FD030 /\
  exists o t, detect one_offline unknown_chip = Ok o /\ ao_published o = Some t /\
    map p_linux_id (at_processors t) = [4; 5; 6; 7; 0; 1; 2]%N /\ map p_cluster (at_processors t) = map Some [0; 0; 0; 1; 2; 2; 2] /\
    map (fun c => (cl_processor_start c, cl_processor_count c)) (at_clusters t) = [(0, 3); (3, 1); (4, 4)].
Proof.
  split; [apply machine_files_say, one_offline_ok|]. split; [exact one_offline_on|].
  split; [apply library_answers; intros h r n _; now exists unknown_chip|]. split; [apply arm_sort_sorts|].
  split; [apply machine_groups_online; [apply one_offline_ok|reflexivity]|]. split; [exact one_offline_midrs|].
  split; [intros n H; rewrite (seven_online n H); cbn [In]; lia|].
  split; [eexists; split; [vm_compute; now left|vm_compute; tauto]|].
  do 2 eexists. split; [vm_compute; reflexivity|]. split; [reflexivity|]. repeat split; vm_compute; reflexivity.
Qed.

(** The first CPU is offline and the kernel does not tell the siblings: it is put into the cluster of the others, without
    their architecture version, and the caches of the cluster are counted wrongly: undefined behaviour. *)
Theorem arm_linux_offline_leader_refuted : exists m,
  arm_files_say false 64 (no_groups (arm_machine_files m)) 64 (Some (singles (m_cpus m))) (Some (singles (m_cpus m))) (meanings m) /\
  (forall c, machine_usable m c -> (online (meanings m) c <-> c <> 0)) /\
  (forall c, machine_usable m c -> online (meanings m) c -> gives_midr (meanings m) c 0x411FD410) /\
  decoders_answer (library64 unknown_chip) (meanings m) /\ sorts (cmp_arm_linux_processor false) (arm_sort false) /\
  arm_linux_init true false false junk 64 (arm_sort false) (fun _ => true) (library64 unknown_chip) (no_groups (arm_machine_files m)) = UB.
Proof.
  exists first_offline. split; [apply no_groups_say, first_offline_ok|].
  assert (C : forall c, machine_usable first_offline c -> In c [0; 1; 2; 3]) by (intros c; apply machine_usable_iff; apply first_offline_ok).
  split.
  { intros c Hc. rewrite (machine_online _ first_offline_ok eq_refl c Hc). apply C in Hc.
    repeat (destruct Hc as [<-|Hc]; [vm_compute; split; congruence|]). destruct Hc. }
  split.
  { intros c Hc Oc. apply (machine_online _ first_offline_ok eq_refl c Hc) in Oc. apply C in Hc.
    repeat (destruct Hc as [<-|Hc]; [first [discriminate Oc|its_midr]|]). destruct Hc. }
  split; [apply library_answers; intros h r n _; now exists unknown_chip|]. split; [apply arm_sort_sorts|]. vm_compute. reflexivity.
Qed.
Print Assumptions arm_linux_offline_leader_refuted.

(** Six of eight CPUs are online and the kernel does not tell the siblings: two clusters are guessed, of four and of two,
    but the offline CPUs are in neither; the size of the third one is read, which has not been set. *)
Theorem arm_linux_offline_guess_refuted : exists m,
  arm_files_say false 64 (no_groups (arm_machine_files m)) 64 (Some (singles (m_cpus m))) (Some (singles (m_cpus m))) (meanings m) /\
  some_online (library64 unknown_chip) (machine_usable m) (meanings m) /\
  decoders_answer (library64 unknown_chip) (meanings m) /\ sorts (cmp_arm_linux_processor false) (arm_sort false) /\
  arm_linux_init true false false junk 64 (arm_sort false) (fun _ => true) (library64 unknown_chip) (no_groups (arm_machine_files m)) = UB.
Proof.
  exists six_online. split; [apply no_groups_say, six_online_ok|]. split; [exact six_online_on|].
  split; [apply library_answers; intros h r n _; now exists unknown_chip|]. split; [apply arm_sort_sorts|]. vm_compute. reflexivity.
Qed.
Print Assumptions arm_linux_offline_guess_refuted.

(** The same happens although the kernel tells packages and siblings, if its lists name the offline CPUs too: more CPUs are
    in clusters than are listed in /proc/cpuinfo, so that the clusters are guessed.  Lists of recorded devices do so. *)
Theorem arm_linux_offline_siblings_refuted : exists m fs,
  arm_files_say false 64 fs 64 (Some (singles (m_cpus m))) (Some (singles (m_cpus m))) (meanings m) /\
  some_online (library64 unknown_chip) (machine_usable m) (meanings m) /\
  (forall i, machine_usable m i -> online (meanings m) i -> id_file (ac_package_id (amf_cpu fs i)) /\
     exists ranges, X86LinuxSpec.list_says (sf_core_siblings (ac_siblings (amf_cpu fs i))) (Some ranges) /\
       forall j, machine_usable m j -> (LinuxTextSpec.listed ranges (N.of_nat j) <-> m_group m j = m_group m i)) /\
  decoders_answer (library64 unknown_chip) (meanings m) /\ sorts (cmp_arm_linux_processor false) (arm_sort false) /\
  arm_linux_init true false false junk 64 (arm_sort false) (fun _ => true) (library64 unknown_chip) fs = UB.
Proof.
  exists two_of_eight_offline, (naming_offline two_of_eight_offline (arm_machine_files two_of_eight_offline)).
  split; [apply naming_offline_say, two_of_eight_offline_ok|]. split; [exact two_of_eight_offline_on|].
  split; [exact (naming_offline_siblings _ two_of_eight_offline_ok eq_refl)|].
  split; [apply library_answers; intros h r n _; now exists unknown_chip|]. split; [apply arm_sort_sorts|]. vm_compute. reflexivity.
Qed.
Print Assumptions arm_linux_offline_siblings_refuted.
