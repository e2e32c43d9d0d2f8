(** The sample machines once more, with files that are read byte by byte. *)
From Coq Require Import NArith String List Lia.
From Verif Require Import Base Text LinuxTextModel LinuxTextSpec X86LinuxModel X86Sample RiscvLinuxModel RiscvSample
  ArmClustersModel ArmClustersSample ArmLinuxModel ArmLinuxSample ArmOfflineSample ArmPackageSample X86LinuxProps SameAnswerSpec SameAnswerTextProofs.
Import ListNotations.
Open Scope nat_scope.

(** The same file, read byte by byte. *)
Definition slow (f : file) : file :=
  File (f_contents f) (match f_contents f with Some c => repeat (Some 1) (length c) | None => [] end).

Definition plain (f : file) : Prop := (forall c, f_contents f = Some c -> bytes c) /\ no_io_error (f_reads f).
Lemma slow_same f : plain f -> same_file f (slow f).
Proof.
  intros (B & R). split; [reflexivity|exact B|]. split; [exact R|]. cbn [slow f_reads]. destruct (f_contents f); [|constructor].
  apply Forall_forall. intros w H. apply repeat_spec in H. subst. discriminate.
Qed.
Lemma text_bytes s : bytes (text s).
Proof.
  unfold text. apply Forall_forall. intros c H. apply in_map_iff in H. destruct H as (a & <- & _). unfold Ascii.N_of_ascii.
  destruct a as [[] [] [] [] [] [] [] []]; vm_compute; reflexivity.
Qed.
Lemma join_bytes sep pieces : (sep < 256)%N -> Forall bytes pieces -> bytes (join sep pieces).
Proof.
  intros H. induction 1 as [|p l Hp Hl IH]; [constructor|]. destruct l as [|q l]; [exact Hp|].
  change (join sep (p :: q :: l)) with (p ++ sep :: join sep (q :: l)). apply bytes_app. split; [exact Hp|]. constructor; [exact H|exact IH].
Qed.
Lemma no_file_plain : plain no_file.
Proof. split; [discriminate|constructor]. Qed.
Lemma text_file_plain s : plain (text_file s).
Proof. split; [|constructor]. intros c E. injection E as <-. apply bytes_app. split; [apply text_bytes|repeat constructor]. Qed.
Lemma list_file_plain cpus : Forall (fun c => c < 10) cpus -> plain (list_file cpus).
Proof.
  intros H. split; [|constructor]. intros c E. injection E as <-. apply join_bytes; [reflexivity|].
  induction H as [|a l Ha Hl IH]; [constructor|]. destruct l as [|b l]; [repeat constructor; lia|].
  change (entries (a :: b :: l)) with ([48 + N.of_nat a]%N :: entries (b :: l)). constructor; [repeat constructor; lia|exact IH].
Qed.

(** x86: a line that is not ASCII. *)
Definition accented_lines : list (list N) :=
  sample_lines ++ [text "processor : 2"; text "apicid : 7" ++ [0xC2; 0xB0]%N; text "model name : " ++ [0xC3; 0x89; 0x80; 0xFF]%N].
Definition accented_files : linux_files :=
  LinuxFiles (lf_kernel_max sample_files) (lf_possible_max sample_files) (lf_present_max sample_files)
    (lf_possible sample_files) (lf_present sample_files) (File (Some (join 10 accented_lines)) []).
Definition slow_linux (fs : linux_files) : linux_files :=
  LinuxFiles (slow (lf_kernel_max fs)) (slow (lf_possible_max fs)) (slow (lf_present_max fs)) (slow (lf_possible fs)) (slow (lf_present fs))
    (slow (lf_cpuinfo fs)).
Lemma accented_same : same_linux_files accented_files (slow_linux accented_files).
Proof.
  assert (P : forall s r, no_io_error r -> plain (File (Some (text s ++ [10%N])) r)).
  { intros s r H. split; [|exact H]. intros c E. injection E as <-. apply bytes_app. split; [apply text_bytes|repeat constructor]. }
  split; apply slow_same; try (apply P; repeat constructor; discriminate).
  split; [|constructor]. intros c E. injection E as <-. apply Forall_forall.
  assert (X : forallb (fun c => (c <? 256)%N) (join 10 accented_lines) = true) by (vm_compute; reflexivity).
  rewrite forallb_forall in X. intros c Hc. now apply N.ltb_lt, X.
Qed.

(** ARM: nothing about groups, so that the layout is guessed. *)
Definition slow_arm (fs : arm_files) : arm_files :=
  ArmFiles (slow (amf_kernel_max fs)) (slow (amf_possible_max fs)) (slow (amf_present_max fs)) (slow (amf_possible fs)) (slow (amf_present fs))
    (slow (amf_cpuinfo fs))
    (fun i => let f := amf_cpu fs i in ACpuFiles (slow (ac_max_frequency f)) (slow (ac_min_frequency f)) (slow (ac_package_id f))
       (SiblingFiles (slow (sf_cluster_cpus (ac_siblings f))) (slow (sf_core_siblings (ac_siblings f))))).
Lemma field_bytes k v : bytes (ArmCpuinfoSample.field_line k v).
Proof. unfold ArmCpuinfoSample.field_line. repeat (apply bytes_app; split); try apply text_bytes; repeat constructor. Qed.
Lemma block_bytes s : Forall bytes (block s).
Proof. unfold block. repeat (constructor; [first [apply field_bytes|apply bytes_app; split; apply text_bytes|constructor]|]). constructor. Qed.
Lemma arm_cpuinfo_plain m lines : Forall bytes lines -> plain (amf_cpuinfo (with_lines m lines)).
Proof.
  intros H. split; [|constructor]. intros c E. injection E as <-. apply join_bytes; [reflexivity|]. apply Forall_app. split; [|exact H].
  apply Forall_forall. intros l Hl. apply in_flat_map in Hl. destruct Hl as (s & _ & Hl). revert l Hl. apply Forall_forall, block_bytes.
Qed.
Lemma mates_small m c : Forall (fun c => c < 10) (m_cpus m) -> Forall (fun c => c < 10) (mates m c).
Proof. intros H. rewrite Forall_forall in *. intros x Hx. apply filter_In in Hx. apply H, Hx. Qed.
Lemma arm_same_reads m lines : Forall (fun c => c < 10) (m_cpus m) -> Forall bytes lines ->
  same_arm_files (with_lines m lines) (slow_arm (with_lines m lines)).
Proof.
  intros H B. split; try (apply slow_same, list_file_plain, H); try apply slow_same, text_file_plain.
  - apply slow_same, arm_cpuinfo_plain, B.
  - intros i. cbn [slow_arm amf_cpu with_lines arm_machine_files]. destruct (is_online m i); split; cbn [ac_max_frequency ac_min_frequency ac_package_id ac_siblings sf_cluster_cpus sf_core_siblings];
      apply slow_same; solve [apply no_file_plain | apply text_file_plain | now apply list_file_plain, mates_small].
Qed.
Lemma arm_alone_reads m : Forall (fun c => c < 10) (m_cpus m) ->
  same_arm_files (no_groups (arm_machine_files m)) (slow_arm (no_groups (arm_machine_files m))).
Proof.
  intros H. split; try (apply slow_same, list_file_plain, H); try apply slow_same, text_file_plain.
  - apply slow_same. destruct (arm_cpuinfo_plain m [] ltac:(constructor)) as (P & _). split; [|constructor].
    intros c E. apply P. cbn [with_lines amf_cpuinfo f_contents]. rewrite app_nil_r. exact E.
  - intros i. cbn [slow_arm amf_cpu no_groups arm_machine_files]. destruct (is_online m i); split; cbn [ac_max_frequency ac_min_frequency ac_package_id ac_siblings sf_cluster_cpus sf_core_siblings];
      apply slow_same; solve [apply no_file_plain | apply text_file_plain].
Qed.

(** RISC-V. *)
Definition slow_riscv (fs : riscv_files) : riscv_files :=
  RiscvFiles (slow (rf_kernel_max fs)) (slow (rf_present_max fs)) (slow (rf_present fs))
    (fun i => let f := rf_cpu fs i in RCpuFiles (slow (rc_core_cpus f)) (slow (rc_core_id f)) (slow (rc_frequency f)) (slow (rc_cluster_cpus f))
       (slow (rc_package_cpus f)) (rc_hwprobe f)) (rf_hwcap fs).
(** The files of the CPUs that do not exist are missing. *)
Definition only_first (n : nat) (fs : riscv_files) : riscv_files :=
  RiscvFiles (rf_kernel_max fs) (rf_present_max fs) (rf_present fs)
    (fun i => if i <? n then rf_cpu fs i else RCpuFiles no_file no_file no_file no_file no_file None) (rf_hwcap fs).
Lemma riscv_same_reads cpus group hwcap : Forall (fun c => c < 10) cpus ->
  same_riscv_files (only_first 10 (machine_files cpus group hwcap)) (slow_riscv (only_first 10 (machine_files cpus group hwcap))).
Proof.
  intros H. assert (M : forall v c, Forall (fun c => c < 10) (RiscvLinuxSpec.members cpus group v c)).
  { intros v c. rewrite Forall_forall in *. intros x Hx. apply filter_In in Hx. apply H, Hx. }
  split; try (apply slow_same, list_file_plain, H); try reflexivity; [apply slow_same, (text_file_plain "63")|].
  intros i. cbn [slow_riscv rf_cpu only_first machine_files]. destruct (Nat.ltb_spec i 10) as [L|L]; (split; [..|reflexivity]);
    cbn [rc_core_cpus rc_core_id rc_frequency rc_cluster_cpus rc_package_cpus]; apply slow_same;
    try apply no_file_plain; try apply list_file_plain, M.
  - split; [|constructor]. intros c E. injection E as <-. repeat constructor; lia.
  - unfold clock_file. destruct (i <? 5); [apply (text_file_plain "1500000")|apply no_file_plain].
Qed.

(** A sort that puts x86 processors with the same APIC id in the opposite order. *)
Definition other_sort (l : list X86CpuinfoModel.xproc) : list X86CpuinfoModel.xproc := sample_sort (rev l).
Lemma other_sort_sorts : qsort_contract other_sort.
Proof.
  intros l. destruct (proj2 (proj2 X86LinuxProps.x86_linux_comparator_case) (rev l)) as (P & S). split; [|exact S].
  exact (Permutation.perm_trans (Permutation.Permutation_rev l) P).
Qed.
