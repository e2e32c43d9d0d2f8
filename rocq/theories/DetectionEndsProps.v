(** Property C107: detection on x86 ends, with one answer, exactly if the lists in CPUID do. *)
From Verif Require Import Base TopologySpec X86LinuxModel X86DescriptorModel X86DecodeModel X86DecodeSpec X86IsaSpec X86DecodeSample DetectionEndsSpec DetectionEndsProofs.
From Coq Require Import List Lia. Import ListNotations.
Open Scope N_scope.

(** It ends exactly if those of the three lists that there is a reason to read have an end. *)
Theorem x86_detection_ends : forall b m, (exists fuel x, init_processor b m fuel = Ok x) <->
  (caches_in_leaf4 b m -> has_end d_type (cpuidex m 4)) /\ (caches_in_leaf1d m -> has_end d_type (cpuidex m 0x8000001D)) /\
  (levels_in_leafB m -> has_end level_kind (cpuidex m 0xB)).
Proof. exact processor_ends. Qed.
Print Assumptions x86_detection_ends.

(** The answer is the same however long the lists may be. *)
Theorem x86_detection_answer : forall b m fuel x, init_processor b m fuel = Ok x ->
  forall fuel', (fuel <= fuel')%nat -> init_processor b m fuel' = Ok x.
Proof. exact processor_more. Qed.
Print Assumptions x86_detection_answer.

(** Nothing is undefined, whatever CPUID answers. *)
Theorem x86_detection_defined : forall b m fuel, init_processor b m fuel <> UB.
Proof. exact processor_defined. Qed.
Print Assumptions x86_detection_defined.

(** It does not always end: a processor that answers all subleaves of leaf 4 alike. *)
Theorem x86_detection_ends_refuted : exists m, (forall l i, regs_ok (cpuidex m l i)) /\ forall b fuel, init_processor b m fuel = Hang.
Proof. exact same_answer_hangs. Qed.
Print Assumptions x86_detection_ends_refuted.

Example x86_detection_ends_case :
  let b := Build false false in let m := x2apic_cpu 1 2 in
  caches_in_leaf4 b m /\ has_end d_type (cpuidex m 4) /\ levels_in_leafB m /\ has_end level_kind (cpuidex m 0xB) /\
  caches_in_leaf1d (amd_cpu true) /\ has_end d_type (cpuidex (amd_cpu true) 0x8000001D) /\
  init_processor b m 4 = Hang /\ exists x, init_processor b m 5 = Ok x.
Proof.
  cbv zeta. split; [repeat split; vm_compute; discriminate|]. split; [exists 4; split; reflexivity|]. split; [split; [vm_compute; discriminate|reflexivity]|].
  split; [exists 2; split; reflexivity|]. split; [repeat split; vm_compute; discriminate|]. split; [exists 4; split; reflexivity|].
  split; [reflexivity|]. eexists. vm_compute. reflexivity.
Qed.
