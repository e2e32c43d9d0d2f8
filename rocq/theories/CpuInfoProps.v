(** C76: what cpu-info prints. *)
From Verif Require Import Base Text TopologySpec ToolsModel CpuInfoModel CpuInfoSpec CpuInfoProofs CpuInfoRangeProofs CpuInfoNamesProofs X86Sample.
From Verif Require X86DescriptorModel X86LinuxModel X86DecodeModel X86CountsModel X86CountsProps X86WindowsModel X86WindowsProps ArmUarchModel ArmMachModel RiscvLinuxModel.
Import X86DescriptorModel(build, Build, b_x86_32).
Open Scope N_scope.

(** Whatever is published, the text can be read back: the names of the packages, the number of
    cores of each microarchitecture, the ranges and kinds of cores and clusters, and the
    numbers of the processors. *)
Theorem cpu_info_report : forall g v, printable (v_names v) (v_uarchs v) (v_cores v) (v_clusters v) (v_processors v) ->
  (on_android g = true -> v_names v <> []) ->
  exists s, cpu_info g v = Ok s /\ read_cpu_info (on_android g) (on_linux g) (on_x86 g) s =
    Some (Report (if on_android g then [(0, nth 0 (v_names v) [])] else numbered pair (v_names v))
                 (map (fun u => (N.of_nat (snd u), fst u)) (v_uarchs v)) (numbered core_line (v_cores v)) (numbered cluster_line (v_clusters v))
                 (numbered (processor_line (on_linux g) (on_x86 g)) (v_processors v))).
Proof. exact report_read. Qed.
Print Assumptions cpu_info_report.

Definition sample_view : view :=
  View [text "Intel Core i5-6300U"] [(0x10020A, 2%nat)] [Core 0 2 0 (Some 0%nat) (Some 0%nat) 1 0x10020A 0x406E3; Core 2 2 1 (Some 0%nat) (Some 0%nat) 1 0x10020A 0x406E3]
       [Cluster 0 4 0 2 0 (Some 0%nat) 1 0x10020A 0x406E3]
       [Processor 0 (Some 0%nat) (Some 0%nat) (Some 0%nat) 0 0; Processor 1 (Some 0%nat) (Some 0%nat) (Some 0%nat) 2 1;
        Processor 0 (Some 1%nat) (Some 0%nat) (Some 0%nat) 1 2; Processor 1 (Some 1%nat) (Some 0%nat) (Some 0%nat) 3 3].
Definition tabbed (s : list N) : list N := [9] ++ s ++ [10].
Example cpu_info_report_case : printable (v_names sample_view) (v_uarchs sample_view) (v_cores sample_view) (v_clusters sample_view) (v_processors sample_view) /\
  cpu_info (Target false true true) sample_view = Ok (
    text "Packages:" ++ [10] ++ tabbed (text "0: Intel Core i5-6300U") ++
    text "Microarchitectures:" ++ [10] ++ tabbed (text "2x Sky Lake") ++
    text "Cores:" ++ [10] ++ tabbed (text "0: 2 processors (0-1), Intel Sky Lake") ++ tabbed (text "1: 2 processors (2-3), Intel Sky Lake") ++
    text "Clusters:" ++ [10] ++ tabbed (text "0: 4 processors (0-3)," ++ [9] ++ text "0: 2 cores (0-1), Intel Sky Lake") ++
    text "Logical processors (System ID):" ++ [10] ++ tabbed (text "0 (0): APIC ID 0x00000000") ++ tabbed (text "1 (2): APIC ID 0x00000001") ++
    tabbed (text "2 (1): APIC ID 0x00000002") ++ tabbed (text "3 (3): APIC ID 0x00000003")).
Proof.
  split; [|vm_compute; reflexivity]. split.
  - split; [|vm_compute; discriminate]. constructor; [|constructor]. vm_compute. intuition discriminate.
  - constructor; [|constructor]. split; [reflexivity|]. apply (proj1 (proj2 (uarch_names_documented 0x10020A))). vm_compute. discriminate.
  - split; [|vm_compute; discriminate]. repeat apply Forall_cons; [| |constructor]; (split; [split; [cbn; lia|vm_compute; discriminate]|repeat split]).
  - split; [|vm_compute; discriminate]. repeat apply Forall_cons; [|constructor].
    split; [split; [cbn; lia|vm_compute; discriminate]|]. split; [reflexivity|]. split; [split; [cbn; lia|vm_compute; discriminate]|]. repeat split.
  - split; [|vm_compute; discriminate]. repeat apply Forall_cons; [| | | |constructor]; split; reflexivity.
Qed.

(** If the tables describe one machine, each processor is in the range of its core and of its
    cluster and in no other, and each core in that of its cluster. *)
Theorem cpu_info_ranges : forall g names uarchs ps cs ls ks, consistent ps cs ls ks -> N.of_nat (length ps) < two32 ->
  Forall (fun name => ~ In 10 name) names /\ N.of_nat (length names) <= two32 /\ names <> [] ->
  Forall (fun u => N.of_nat (snd u) < two32 /\ (exists id, In (id, fst u) uarch_constants) /\ ~ without_name uarch_constants unnamed_uarchs (fst u)) uarchs ->
  small_kinds cs ls ps ->
  exists s r, cpu_info g (View names uarchs cs ls ps) = Ok s /\ read_cpu_info (on_android g) (on_linux g) (on_x86 g) s = Some r /\
    ranges_right (map p_core ps) (map fst (rp_cores r)) /\
    ranges_right (map p_cluster ps) (map (fun l => fst (fst l)) (rp_clusters r)) /\
    ranges_right (map c_cluster cs) (map (fun l => snd (fst l)) (rp_clusters r)) /\
    map snd (rp_cores r) = map (fun c => (c_vendor c, c_uarch c)) cs /\ map snd (rp_clusters r) = map (fun c => (cl_vendor c, cl_uarch c)) ls.
Proof. exact consistent_report. Qed.
Print Assumptions cpu_info_ranges.

Example cpu_info_ranges_case : exists o t, X86CountsModel.x86_mach_init (fun _ => true) sample_info X86CountsProps.mach_sample = Ok o /\
  X86CountsModel.o_published o = Some t /\ consistent (t_processors t) (t_cores t) (t_clusters t) (t_packages t) /\
  small_kinds (t_cores t) (t_clusters t) (t_processors t) /\ length (t_processors t) = 16%nat.
Proof.
  eexists. eexists. split; [vm_compute; reflexivity|]. split; [reflexivity|]. split.
  - eapply (X86CountsProps.x86_mach_consistent_iff (fun _ => true) sample_info X86CountsProps.mach_sample); [vm_compute; reflexivity|reflexivity|reflexivity|].
    split; [exists 4%nat; reflexivity|exists 2%nat; reflexivity].
  - split; [|reflexivity]. split; [|split]; repeat (apply Forall_cons; [split; reflexivity|]); constructor.
Qed.

(** The names are those of the constants, and say which constant is meant.  All constants have
    one except for those listed. *)
Theorem cpu_info_uarch_names : forall u,
  (forall s, uarch_to_string u = Some s -> meaning uarch_constants s = Some u) /\
  (uarch_to_string u <> None <-> (exists id, In (id, u) uarch_constants) /\ ~ without_name uarch_constants unnamed_uarchs u).
Proof. exact uarch_names_documented. Qed.
Print Assumptions cpu_info_uarch_names.

Theorem cpu_info_vendor_names : forall v,
  (forall s, vendor_to_string v = Some s -> meaning vendor_constants s = Some v) /\
  (vendor_to_string v <> None <-> (exists id, In (id, v) vendor_constants) /\ ~ without_name vendor_constants unnamed_vendors v).
Proof. exact vendor_names_documented. Qed.
Print Assumptions cpu_info_vendor_names.

Example cpu_info_names_case : meaning uarch_constants (text "Cortex-A55r0") = Some 0x300354 /\ meaning vendor_constants (text "Applied Micro") = Some 14 /\
  uarch_to_string 0x300504 = None.
Proof. vm_compute. repeat split. Qed.

(** Every vendor and microarchitecture that the library detects on 64-bit x86 processors, on
    64-bit ARM processors and on Apple's is printed by name. *)
Theorem cpu_info_x86_names : forall b ebx ecx edx mi, b_x86_32 b = false ->
  let v := X86DecodeModel.decode_vendor b ebx ecx edx in let u := X86DecodeModel.decode_uarch b v mi in in_words v u (print_kind v u).
Proof. exact x86_words. Qed.
Print Assumptions cpu_info_x86_names.

Theorem cpu_info_arm_names : forall arm32 midr vfpv4, let '(v, u) := ArmUarchModel.decode_vendor_uarch arm32 midr vfpv4 in
  (exists us, uarch_to_string u = Some us) /\ (~ (arm32 = true /\ v = ArmUarchModel.v_marvell) -> in_words v u (print_kind v u)).
Proof. exact arm_words. Qed.
Print Assumptions cpu_info_arm_names.

Theorem cpu_info_apple_names : forall family i cores,
  in_words 5 (ArmMachModel.decode_uarch family i cores) (print_kind 5 (ArmMachModel.decode_uarch family i cores)).
Proof. exact apple_words. Qed.
Print Assumptions cpu_info_apple_names.

Example cpu_info_detected_case :
  (let v := X86DecodeModel.decode_vendor (Build false false) 0x68747541 0x444D4163 0x69746E65 in
   print_kind v (X86DecodeModel.decode_uarch (Build false false) v (X86DecodeModel.decode_model_info 0x00870F10))) = text ", AMD Zen 2" /\
  (let '(v, u) := ArmUarchModel.decode_vendor_uarch false 0x410FD0B0 false in print_kind v u) = text ", ARM Cortex-A76".
Proof. vm_compute. split; reflexivity. Qed.

(** On 32-bit ARM it is not so for Marvell, on 32-bit x86 for Transmeta and others, and on
    RISC-V for SiFive: these vendors have no name. *)
Theorem cpu_info_vendor_refuted :
  (let '(v, u) := ArmUarchModel.decode_vendor_uarch true 0x560F5810 false in uarch_to_string u = Some (text "PJ4") /\
     print_kind v u = text ", vendor 0x0000001f uarch 0x00900100") /\
  (let v := X86DecodeModel.decode_vendor (Build true false) 0x756E6547 0x3638784D 0x54656E69 in print_kind v 0 = text ", vendor 0x00000032 uarch 0x00000000") /\
  print_kind (RiscvLinuxModel.riscv_vendor 0x489) 0 = text ", vendor 0x00000011 uarch 0x00000000".
Proof. vm_compute. repeat split. Qed.
Print Assumptions cpu_info_vendor_refuted.

(** A microarchitecture without a name is printed with an open parenthesis. *)
Theorem cpu_info_unknown_refuted : exists u n, (exists id, In (id, u) uarch_constants) /\ print_uarch 0 (u, n) = text "4x Unknown (0x00300504" /\
  read_count (print_uarch 0 (u, n)) = None.
Proof. exists 0x300504, 4%nat. split; [apply (meaning_constant _ (text "Cortex-X4")); vm_compute; reflexivity|]. vm_compute. split; reflexivity. Qed.
Print Assumptions cpu_info_unknown_refuted.

(** On x86 Windows the second package's cluster is empty, and its range is printed as all
    numbers. *)
Theorem cpu_info_empty_refuted : exists o t c,
  X86WindowsModel.x86_windows_init (fun _ => true) sample_info X86WindowsProps.windows_sample = Ok o /\ X86WindowsModel.o_published o = Some t /\
  nth_error (t_clusters (X86WindowsModel.wt_tables t)) 1 = Some c /\
  exists kind, print_cluster 1 c = text "1: 0 processors (0-4294967295)," ++ [9] ++ text "1: 0 cores (0-4294967295)" ++ kind.
Proof. do 3 eexists. split; [vm_compute; reflexivity|]. split; [reflexivity|]. split; [reflexivity|]. eexists. vm_compute. reflexivity. Qed.
Print Assumptions cpu_info_empty_refuted.
