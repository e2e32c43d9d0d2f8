(** Property C77: what isa-info prints. *)
From Verif Require Import Base Text ReportSpec IsaInfoModel IsaInfoSpec IsaInfoProofs.
From Verif Require X86DescriptorModel X86DecodeModel X86IsaModel X86IsaSpec X86IsaSample ArmClusterMidrModel ArmIsaModel ArmIsaSpec RiscvLinuxModel RiscvLinuxSpec.
Import X86DescriptorModel(Build) X86DecodeModel(eax, cpuid, ecx, ebx) X86IsaModel(has_x86, init_isa).
Import X86IsaSpec(by_build, documented_on, Entry, Place, announces, os_enabled, coherent, amx_getter, vaes_getter).
Import ArmIsaModel(has_arm, arm_linux_isa, Getauxval) ArmIsaSpec(kernel_bits64, bit).
Import RiscvLinuxModel(has_riscv, decode_hwcap) RiscvLinuxSpec(kernel_names).
Open Scope N_scope.

(** A label calls one getter at most. *)
Theorem isa_info_labels :
  (forall g g' label, called (x86_names g) label -> called (x86_names g') label -> g = g') /\
  (forall g g' label, called (arm_names g) label -> called (arm_names g') label -> g = g') /\
  (forall g g' label, called (riscv_names g) label -> called (riscv_names g') label -> g = g').
Proof. exact labels_unique. Qed.
Print Assumptions isa_info_labels.

Example isa_info_labels_case :
  called (x86_names X86IsaModel.Has_mmx_plus) (text "MMX+") /\ ~ called (x86_names X86IsaModel.Has_mmx) (text "MMX+").
Proof.
  split.
  - exists (text "mmx_plus"). split; [now left|reflexivity].
  - intros (n & [<-|[]] & E). discriminate E.
Qed.

(** x86: every line answers for the getter that its label calls, and only what the target
    guarantees has no line. *)
Theorem isa_info_x86_report : forall b isa, exists said, read_isa_info (isa_info_x86 b isa) = Some said /\
  Tells x86_names (has_x86 b isa) [] said /\ forall g, by_build b g <> Some true -> told x86_names (has_x86 b isa) said g.
Proof. exact x86_report. Qed.
Print Assumptions isa_info_x86_report.

(** So two reports of one build differ if any getter does. *)
Theorem isa_info_x86_complete : forall b isa isa', isa_info_x86 b isa = isa_info_x86 b isa' -> forall g, has_x86 b isa g = has_x86 b isa' g.
Proof. exact x86_tells_all. Qed.
Print Assumptions isa_info_x86_complete.

(** With what C24 says about the getters: a line says "yes" exactly if the processor announces
    the instructions and the operating system has enabled their registers. *)
Theorem isa_info_x86_usable : forall b m said label a g places state,
  1 <= eax (cpuid m 0) -> coherent m -> by_build b g = None -> documented_on b m g = Some (Entry places state) ->
  ~ amx_getter g -> ~ vaes_getter g ->
  read_isa_info (isa_info_x86 b (init_isa b m)) = Some said -> called (x86_names g) label -> In (label, a) said ->
  (a = Yes <-> (exists p, In p places /\ announces m p) /\ os_enabled m state) /\ (a = Yes \/ a = No).
Proof. exact x86_documented. Qed.
Print Assumptions isa_info_x86_usable.

Definition answer_for (label : list N) (s : list N) : option answer :=
  match read_isa_info s with
  | Some said => option_map snd (find (fun x => CpuInfoSpec.same label (fst x)) said)
  | None => None
  end.
Example isa_info_x86_case :
  let machine x := isa_info_x86 (Build false false) (init_isa (Build false false) (X86IsaSample.vector_cpu x)) in
  answer_for (text "AVX512F") (machine 0xE7) = Some Yes /\ answer_for (text "AVX512F") (machine 0x7) = Some No /\
  answer_for (text "AVX2") (machine 0x7) = Some Yes /\ answer_for (text "RDTSC") (machine 0x7) = None /\
  by_build (Build false false) X86IsaModel.Has_avx512f = None /\
  documented_on (Build false false) (X86IsaSample.vector_cpu 0xE7) X86IsaModel.Has_avx512f =
    Some (Entry [Place 7 0 ebx 16] X86IsaSpec.avx512_state).
Proof. vm_compute. repeat split. Qed.

(** ARM: the same, and 64-bit ARM tells the longest vectors of SVE. *)
Theorem isa_info_arm_report : forall arm32 isa svelen, svelen < 2 ^ 16 -> exists said,
  read_isa_info (isa_info_arm arm32 isa svelen) = Some said /\ Tells arm_names (has_arm arm32 isa) (arm_sizes arm32 svelen) said.
Proof. exact arm_said. Qed.
Print Assumptions isa_info_arm_report.

(** What has no line follows from the other lines, or from the architecture: on 64-bit ARM
    except for five extensions of SME, on 32-bit ARM for what Linux lets the library detect. *)
Theorem isa_info_arm64_complete : forall isa isa' svelen svelen', svelen < 2 ^ 16 -> svelen' < 2 ^ 16 ->
  isa_info_arm false isa svelen = isa_info_arm false isa' svelen' ->
  svelen = svelen' /\ forall g, ~ In g sme_extensions -> has_arm false isa g = has_arm false isa' g.
Proof. exact arm64_tells. Qed.
Print Assumptions isa_info_arm64_complete.
Theorem isa_info_arm32_complete : forall c t chip ps c' t' chip' ps' svelen svelen', svelen < 2 ^ 16 -> svelen' < 2 ^ 16 ->
  let isa := arm_linux_isa true c t chip ps in let isa' := arm_linux_isa true c' t' chip' ps' in
  isa_info_arm true isa svelen = isa_info_arm true isa' svelen' -> forall g, has_arm true isa g = has_arm true isa' g.
Proof. exact arm32_tells. Qed.
Print Assumptions isa_info_arm32_complete.

(** Those five have no line: machines with and without one of them give the same report. *)
Theorem isa_info_sme_refuted : forall g, In g sme_extensions -> exists hwcap2 hwcap2', forall hwcap t chip ps svelen,
  let isa := arm_linux_isa false (Getauxval hwcap hwcap2) t chip ps in
  let isa' := arm_linux_isa false (Getauxval hwcap hwcap2') t chip ps in
  isa_info_arm false isa svelen = isa_info_arm false isa' svelen /\
  has_arm false isa g = true /\ has_arm false isa' g = false /\
  has_arm false isa ArmIsaModel.Has_sme2 = true /\ has_arm false isa' ArmIsaModel.Has_sme2 = true.
Proof. exact sme_hidden. Qed.
Print Assumptions isa_info_sme_refuted.

(** With what C53 says about the getters: the lines repeat the kernel's bits. *)
Theorem isa_info_arm64_kernel : forall hwcap hwcap2 t chip ps svelen said label a g w n, svelen < 2 ^ 16 -> In (g, (w, n)) kernel_bits64 ->
  read_isa_info (isa_info_arm false (arm_linux_isa false (Getauxval hwcap hwcap2) t chip ps) svelen) = Some said ->
  called (arm_names g) label -> In (label, a) said -> a = yes_or_no (bit hwcap hwcap2 w n).
Proof. exact arm64_documented. Qed.
Print Assumptions isa_info_arm64_kernel.

Example isa_info_arm_case :
  let isa := arm_linux_isa false (Getauxval 0x400188 2) (ArmIsaModel.Target true true 0 0) (ArmClusterMidrModel.Chipset 0 0 0) [] in
  answer_for (text "ARM SVE 2") (isa_info_arm false isa 16) = Some Yes /\ answer_for (text "ARM SME") (isa_info_arm false isa 16) = Some No /\
  answer_for (text "SVE max length") (isa_info_arm false isa 16) = Some (Size 128) /\
  answer_for (text "Thumb") (isa_info_arm false isa 16) = None.
Proof. vm_compute. repeat split. Qed.

(** RISC-V. *)
Theorem isa_info_riscv_report : forall rv32 isa, exists said, read_isa_info (isa_info_riscv rv32 isa) = Some said /\
  Tells riscv_names (has_riscv rv32 isa) [] said.
Proof. exact riscv_said. Qed.
Print Assumptions isa_info_riscv_report.
Theorem isa_info_riscv_complete : forall rv32 hwcap hwcap', let isa := decode_hwcap hwcap in let isa' := decode_hwcap hwcap' in
  isa_info_riscv rv32 isa = isa_info_riscv rv32 isa' -> forall g, has_riscv rv32 isa g = has_riscv rv32 isa' g.
Proof. exact riscv_tells. Qed.
Print Assumptions isa_info_riscv_complete.
Theorem isa_info_riscv_kernel : forall rv32 hwcap said label a g letter, In (g, letter) riscv_letters ->
  read_isa_info (isa_info_riscv rv32 (decode_hwcap hwcap)) = Some said -> called (riscv_names g) label -> In (label, a) said ->
  (a = Yes <-> kernel_names hwcap letter) /\ (a = Yes \/ a = No).
Proof. exact riscv_documented. Qed.
Print Assumptions isa_info_riscv_kernel.

Example isa_info_riscv_case :
  answer_for (text "Compressed") (isa_info_riscv false (decode_hwcap 0x112D)) = Some Yes /\
  answer_for (text "Vector") (isa_info_riscv false (decode_hwcap 0x112D)) = Some No.
Proof. vm_compute. repeat split. Qed.
