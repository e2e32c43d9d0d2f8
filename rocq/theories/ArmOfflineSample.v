(** ARM Linux machines with offline CPUs. *)
From Verif Require Import Base Sorting Text LinuxTextModel LinuxTextSpec LinuxTextProps TopologySpec X86LinuxSpec RiscvSample ArmMidrModel ArmClustersModel
  ArmClusterMidrModel ArmCpuinfoModel ArmCpuinfoSpec ArmCpuinfoSample ArmLinuxModel ArmLinuxSpec ArmDecodersModel ArmClustersSample ArmLinuxSample
  ArmOfflineSpec ArmVersionProofs ArmMidrSpec.
Open Scope nat_scope.

(** Which CPUs are online; computed. *)
Definition online_exact (m : machine) : bool := forallb (fun c => Bool.eqb (fst (about_version m c)) (is_online m c)) (m_cpus m).
Lemma machine_online m : machine_ok m -> online_exact m = true -> forall c, machine_usable m c -> (online (meanings m) c <-> is_online m c = true).
Proof.
  intros (H1 & H2 & H3 & H4) H c Hc. apply (machine_usable_iff _ _ H2) in Hc. unfold online_exact in H. rewrite forallb_forall in H. specialize (H _ Hc).
  apply Bool.eqb_prop in H. rewrite <- H. unfold online, about_version. cbn [fst]. destruct (about _ _); [split; [intros X; now destruct X|discriminate]|]. split; [reflexivity|discriminate].
Qed.

(** The register in the blocks: variant 1, revision 0. *)
Definition machine_midr (m : machine) (c : nat) : N :=
  match find (fun s => s_id s =? c) (m_online m) with
  | Some s => N.lor (N.shiftl (s_implementer s) 24) (N.lor 0x1F0000 (N.shiftl (s_part s) 4))
  | None => 0%N
  end.

Lemma machine_groups_online m : machine_ok m -> online_exact m = true -> groups_online (machine_usable m) (meanings m) (arm_machine_files m) (m_group m).
Proof.
  intros OK EX. pose proof (machine_online m OK EX) as ON. destruct OK as (H1 & H2 & H3 & H4).
  assert (F : forall i, machine_usable m i -> ~ online (meanings m) i -> is_online m i = false).
  { intros i Hi X. rewrite (ON i Hi) in X. now destruct (is_online m i). }
  split.
  - intros i Hi Oi. apply (ON i Hi) in Oi. unfold arm_machine_files. cbn [amf_cpu]. rewrite Oi. cbn [ac_package_id].
    exists (text "0"), [10%N]. split; [reflexivity|]. split; [constructor|]. split; [chars|]. split; [chars|].
    split; [apply (text_number "0"); chars|]. split; [cbn; lia|reflexivity].
  - intros i Hi Oi. apply (F i Hi) in Oi. unfold arm_machine_files. cbn [amf_cpu]. rewrite Oi. reflexivity.
  - left. intros i Hi Oi. apply (ON i Hi) in Oi. pose proof Hi as Ci. apply (machine_usable_iff _ _ H2) in Ci.
    unfold arm_machine_files. cbn [amf_cpu]. rewrite Oi. cbn [ac_siblings sf_cluster_cpus].
    exists (singles (mates m i)). split.
    + apply list_file_says.
      * intros E. assert (X : In i (mates m i)) by (apply filter_In; split; [exact Ci|now rewrite Oi, Nat.eqb_refl]). rewrite E in X. destruct X.
      * apply Forall_forall. intros c Hc. apply filter_In in Hc. rewrite Forall_forall in H2. now apply H2.
    + intros j Hj. rewrite (ON j Hj). apply (machine_usable_iff _ _ H2) in Hj. unfold singles. rewrite singles_listed. unfold mates.
      rewrite filter_In, andb_true_iff, Nat.eqb_eq. tauto.
Qed.

(** The same files without packages and siblings. *)
Definition no_groups (fs : arm_files) : arm_files :=
  ArmFiles (amf_kernel_max fs) (amf_possible_max fs) (amf_present_max fs) (amf_possible fs) (amf_present fs) (amf_cpuinfo fs)
    (fun c => let f := amf_cpu fs c in ACpuFiles (ac_max_frequency f) (ac_min_frequency f) no_file (SiblingFiles no_file no_file)).
Lemma no_groups_say arm32 m : machine_ok m ->
  arm_files_say arm32 64 (no_groups (arm_machine_files m)) 64 (Some (singles (m_cpus m))) (Some (singles (m_cpus m))) (meanings m).
Proof. intros H. now destruct (machine_files_say arm32 m H) as [F1 F2 F3 F4 F5 F6]. Qed.
Definition detect_alone (m : machine) : res aoutcome :=
  arm_linux_init true false false junk 64 (arm_sort false) (fun _ => true) (library64 unknown_chip) (no_groups (arm_machine_files m)).

(** Four Cortex-A78, of which the first is offline. *)
Definition first_offline : machine :=
  Machine [0; 1; 2; 3] (map (fun c => Scpu c 0x41 0xD41 8) [1; 2; 3]) (fun _ => 0) (fun _ => "2200000"%string).
Lemma first_offline_ok : machine_ok first_offline. Proof. machine_is_ok. Qed.
(** Eight Cortex-A53, of which two are offline. *)
Definition six_online : machine :=
  Machine [0; 1; 2; 3; 4; 5; 6; 7] (map (fun c => Scpu c 0x41 0xD03 8) [0; 1; 2; 3; 4; 5]) (fun _ => 0) (fun _ => "2200000"%string).
Lemma six_online_ok : machine_ok six_online. Proof. machine_is_ok. Qed.

(** The designs of the machines, computed. *)
Ltac its_midr := split; [exists 8%N, []; vm_compute; tauto|];
  intros [] F; try congruence; (split; [eexists; vm_compute; eauto 12|vm_compute; reflexivity]).
Ltac its_size := apply library_version_free; eexists; split; [vm_compute; now left|vm_compute; tauto].
Lemma one_offline_on : some_online (library64 unknown_chip) (machine_usable one_offline) (meanings one_offline).
Proof.
  assert (W : forall c, In c (m_cpus one_offline) -> machine_usable one_offline c) by (intros c; apply machine_usable_iff; apply one_offline_ok).
  split.
  - exists 0. split; [apply W; now left|vm_compute; discriminate].
  - intros c Hc Oc. pose proof Hc as Hi. apply machine_usable_iff in Hi; [|apply one_offline_ok].
    apply (machine_online _ one_offline_ok eq_refl c Hc) in Oc. exists (machine_midr one_offline c).
    unfold one_offline, m_cpus in Hi. repeat (destruct Hi as [<-|Hi]; [first [discriminate Oc|split; [its_midr|its_size]]|]). destruct Hi.
Qed.
Lemma six_online_on : some_online (library64 unknown_chip) (machine_usable six_online) (meanings six_online).
Proof.
  assert (W : forall c, In c (m_cpus six_online) -> machine_usable six_online c) by (intros c; apply machine_usable_iff; apply six_online_ok).
  split.
  - exists 0. split; [apply W; now left|vm_compute; discriminate].
  - intros c Hc Oc. pose proof Hc as Hi. apply machine_usable_iff in Hi; [|apply six_online_ok].
    apply (machine_online _ six_online_ok eq_refl c Hc) in Oc. exists (machine_midr six_online c).
    unfold six_online, m_cpus in Hi. repeat (destruct Hi as [<-|Hi]; [first [discriminate Oc|split; [its_midr|its_size]]|]). destruct Hi.
Qed.
Definition two_designs (c : nat) : N := if c <? 4 then 0x411FD030 else 0x411FD070.
Lemma one_offline_midrs : midrs_online (machine_usable one_offline) (meanings one_offline) (m_group one_offline) two_designs.
Proof.
  split.
  - intros c Hc Oc. pose proof Hc as Hi. apply machine_usable_iff in Hi; [|apply one_offline_ok].
    apply (machine_online _ one_offline_ok eq_refl c Hc) in Oc.
    unfold one_offline, m_cpus in Hi. repeat (destruct Hi as [<-|Hi]; [try discriminate Oc; its_midr|]). destruct Hi.
  - intros i j Hi Hj E f _. apply machine_usable_iff in Hi; [|apply one_offline_ok]. apply machine_usable_iff in Hj; [|apply one_offline_ok].
    unfold one_offline, m_cpus in Hi, Hj.
    repeat (destruct Hi as [<-|Hi]; [repeat (destruct Hj as [<-|Hj]; [try discriminate E; reflexivity|]); destruct Hj|]). destruct Hi.
Qed.
Lemma seven_online n : number_online (machine_usable one_offline) (meanings one_offline) n -> n = 7.
Proof.
  intros (l & ND & L & <-). change 7 with (length [0; 1; 2; 3; 4; 5; 6]).
  assert (X : forall c, In c l <-> In c [0; 1; 2; 3; 4; 5; 6]).
  { intros c. rewrite L. split.
    - intros (Hc & Oc). apply (machine_online _ one_offline_ok eq_refl c Hc) in Oc. apply machine_usable_iff in Hc; [|apply one_offline_ok].
      unfold one_offline, m_cpus in Hc. repeat (destruct Hc as [<-|Hc]; [try discriminate Oc; cbn [In]; tauto|]). destruct Hc.
    - intros Hc. assert (Uc : machine_usable one_offline c) by (apply machine_usable_iff; [apply one_offline_ok|]; cbn [In one_offline m_cpus] in *; tauto).
      split; [exact Uc|]. apply (machine_online _ one_offline_ok eq_refl c Uc). repeat (destruct Hc as [<-|Hc]; [reflexivity|]). destruct Hc. }
  apply Nat.le_antisymm; apply NoDup_incl_length; auto; try (intros c; apply X).
  repeat constructor; cbn [In]; lia.
Qed.

(** Four Cortex-A53 and four Cortex-A57, of which two are offline; the lists of siblings name these, as the recorded
    files of a Galaxy S7 do (test/mock/galaxy-s7-global.h). *)
Definition two_of_eight_offline : machine :=
  Machine [0; 1; 2; 3; 4; 5; 6; 7] (map (fun c => Scpu c 0x41 0xD03 8) [0; 1; 2; 3] ++ map (fun c => Scpu c 0x41 0xD07 8) [4; 5])
    (fun c => c / 4) (fun _ => "2200000"%string).
Lemma two_of_eight_offline_ok : machine_ok two_of_eight_offline. Proof. machine_is_ok. Qed.
Definition all_mates (m : machine) (c : nat) : list nat := filter (fun j => m_group m j =? m_group m c) (m_cpus m).
Definition naming_offline (m : machine) (fs : arm_files) : arm_files :=
  ArmFiles (amf_kernel_max fs) (amf_possible_max fs) (amf_present_max fs) (amf_possible fs) (amf_present fs) (amf_cpuinfo fs)
    (fun c => let f := amf_cpu fs c in ACpuFiles (ac_max_frequency f) (ac_min_frequency f) (ac_package_id f)
       (SiblingFiles no_file (if is_online m c then list_file (all_mates m c) else no_file))).
Lemma naming_offline_say arm32 m : machine_ok m ->
  arm_files_say arm32 64 (naming_offline m (arm_machine_files m)) 64 (Some (singles (m_cpus m))) (Some (singles (m_cpus m))) (meanings m).
Proof. intros H. now destruct (machine_files_say arm32 m H) as [F1 F2 F3 F4 F5 F6]. Qed.
Lemma two_of_eight_offline_on : some_online (library64 unknown_chip) (machine_usable two_of_eight_offline) (meanings two_of_eight_offline).
Proof.
  assert (W : forall c, In c (m_cpus two_of_eight_offline) -> machine_usable two_of_eight_offline c)
    by (intros c; apply machine_usable_iff; apply two_of_eight_offline_ok).
  split.
  - exists 0. split; [apply W; now left|vm_compute; discriminate].
  - intros c Hc Oc. pose proof Hc as Hi. apply machine_usable_iff in Hi; [|apply two_of_eight_offline_ok].
    apply (machine_online _ two_of_eight_offline_ok eq_refl c Hc) in Oc. exists (machine_midr two_of_eight_offline c).
    unfold two_of_eight_offline, m_cpus in Hi. repeat (destruct Hi as [<-|Hi]; [first [discriminate Oc|split; [its_midr|its_size]]|]). destruct Hi.
Qed.
Lemma naming_offline_siblings m : machine_ok m -> online_exact m = true -> forall i, machine_usable m i -> online (meanings m) i ->
  id_file (ac_package_id (amf_cpu (naming_offline m (arm_machine_files m)) i)) /\
  exists ranges, list_says (sf_core_siblings (ac_siblings (amf_cpu (naming_offline m (arm_machine_files m)) i))) (Some ranges) /\
    forall j, machine_usable m j -> (listed ranges (N.of_nat j) <-> m_group m j = m_group m i).
Proof.
  intros OK EX i Hi Oi. pose proof (machine_groups_online m OK EX) as [G _ _]. split; [now apply G|].
  apply (machine_online m OK EX i Hi) in Oi. destruct OK as (H1 & H2 & H3 & H4).
  unfold naming_offline. cbn [amf_cpu ac_siblings sf_core_siblings]. rewrite Oi. exists (singles (all_mates m i)).
  pose proof Hi as Ci. apply (machine_usable_iff _ _ H2) in Ci. split.
  - apply list_file_says.
    + intros E. assert (X : In i (all_mates m i)) by (apply filter_In; split; [exact Ci|apply Nat.eqb_refl]). rewrite E in X. destruct X.
    + apply Forall_forall. intros c Hc. apply filter_In in Hc. rewrite Forall_forall in H2. now apply H2.
  - intros j Hj. apply (machine_usable_iff _ _ H2) in Hj. unfold singles. rewrite singles_listed. unfold all_mates.
    rewrite filter_In, Nat.eqb_eq. tauto.
Qed.
