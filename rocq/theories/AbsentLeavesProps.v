(** Property C105: what CPUID answers to leaves that the processor does not have is not used. *)
From Verif Require Import Base TopologySpec X86LinuxModel X86DescriptorModel X86DecodeModel X86IsaModel X86IsaSpec X86PackageModel X86DecodeSample X86IsaSample AbsentLeavesSpec AbsentLeavesProofs.
From Coq Require Import List Lia. Import ListNotations.
Open Scope N_scope.

(** Vendor, microarchitecture, caches and topology. *)
Theorem x86_absent_leaves_processor : forall b m m', same_leaves (vendor_of b m = vendor_via) m m' ->
  forall fuel, init_processor b m' fuel = init_processor b m fuel.
Proof. exact absent_processor. Qed.
Print Assumptions x86_absent_leaves_processor.

(** The name of the package. *)
Theorem x86_absent_leaves_name : forall b m m', same_leaves (vendor_of b m = vendor_via) m m' ->
  forall stack, detect_package_name b m' stack = detect_package_name b m stack.
Proof. exact absent_name. Qed.
Print Assumptions x86_absent_leaves_name.

(** The getters for instruction sets; that for AVX10.2 if leaf 0x24 exists or leaf 7 does not announce AVX10. *)
Theorem x86_absent_leaves_getters : forall b m m', same_leaves (vendor_of b m = vendor_via) m m' ->
  forall g, g <> Has_avx10_2 \/ 0x24 <= eax (cpuid m 0) \/ N.testbit (edx (cpuidex m 7 1)) 19 = false -> (reports b m' g <-> reports b m g).
Proof. exact absent_getter. Qed.
Print Assumptions x86_absent_leaves_getters.

(** Leaf 0x24 is read also if the highest leaf is below: on a processor that answers with its highest leaf, as Intel's do, AVX10.2 is
    reported although the leaf for its version does not exist. *)
Theorem x86_absent_leaves_avx10_2_refuted : exists m m', answers_as_highest m /\ ~ leaf_exists m 0x24 /\
  same_leaves (vendor_of (Build false false) m = vendor_via) m m' /\
  reports (Build false false) m Has_avx10_2 /\ ~ reports (Build false false) m' Has_avx10_2.
Proof. exact cut_refutes. Qed.
Print Assumptions x86_absent_leaves_avx10_2_refuted.

(** Two processors that differ in leaf 0x24, which neither has. *)
Example x86_absent_leaves_case :
  let b := Build false false in
  same_leaves (vendor_of b (cut_cpu false) = vendor_via) (cut_cpu false) (cut_cpu true) /\
  cpuidex (cut_cpu false) 0x24 0 <> cpuidex (cut_cpu true) 0x24 0 /\ reports b (cut_cpu true) Has_avx10_1 /\ reports b (cut_cpu false) Has_avx512f /\
  exists x, init_processor b (cut_cpu true) 10 = Ok x.
Proof.
  cbv zeta. split; [apply cut_same; vm_compute; discriminate|]. split; [vm_compute; discriminate|].
  split; [vm_compute; reflexivity|]. split; [vm_compute; reflexivity|]. eexists. vm_compute. reflexivity.
Qed.
