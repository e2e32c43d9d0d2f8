(** Property theorems about x86 extensions and what they build on: C98. *)
From Verif Require Import Base X86DescriptorModel X86DecodeModel X86DecodeSample X86IsaModel X86IsaSpec X86IsaSample X86IsaBaseSpec X86IsaBaseProofs.
Open Scope N_scope.

(** A program that asks for one extension may use all that it builds on, whatever the operating system has enabled. *)
Theorem x86_isa_builds_on : forall b m a c, announces_completely b m -> needs a c -> reports b m a -> reports b m c.
Proof. exact all_needs. Qed.
Print Assumptions x86_isa_builds_on.

(** AVX-512 is announced and the operating system has enabled it; then only AVX; then neither. *)
Example x86_isa_builds_on_case :
  (forall x, announces_completely (Build false false) (vector_cpu x)) /\ needs Has_avx512fp16 Has_sse2 /\
  reports (Build false false) (vector_cpu 0xE7) Has_avx512fp16 /\
  ~ reports (Build false false) (vector_cpu 7) Has_avx512fp16 /\ reports (Build false false) (vector_cpu 7) Has_avx2 /\
  ~ reports (Build false false) (vector_cpu 3) Has_avx2 /\ reports (Build false false) (vector_cpu 3) Has_sse4_2.
Proof.
  split; [intros x; apply completely_by_run; vm_compute; reflexivity|]. split.
  { eapply needs_step with (c := Has_avx512bw); [vm_compute; tauto|]. eapply needs_step with (c := Has_avx512f); [vm_compute; tauto|].
    eapply needs_step with (c := Has_avx2); [vm_compute; tauto|]. eapply needs_step with (c := Has_avx); [vm_compute; tauto|].
    eapply needs_step with (c := Has_sse4_2); [vm_compute; tauto|]. eapply needs_step with (c := Has_sse4_1); [vm_compute; tauto|].
    eapply needs_step with (c := Has_ssse3); [vm_compute; tauto|]. eapply needs_step with (c := Has_sse3); [vm_compute; tauto|].
    eapply needs_step with (c := Has_sse2); [vm_compute; tauto|]. apply needs_self. }
  unfold reports. vm_compute. repeat split; discriminate.
Qed.

(** A hypervisor that hides AVX in leaf 1, but not what builds on it in leaf 7, as [masked_cpu]: the library believes every bit by itself, whereas the
    manuals ask to test AVX before AVX2 and AVX-512. *)
Definition masked_cpu : cpu :=
  Cpu (fun l s => if l =? 1 then Regs 0x000806F8 0x00100800 0x6FFEFBBF 0xBFEBFBFF else cpuidex (vector_cpu 0xE7) l s) (fun _ => regs0) 0xE7 0xFFFF.
Theorem x86_isa_masked_refuted : exists m, needs Has_avx2 Has_avx /\ reports (Build false false) m Has_avx2 /\ reports (Build false false) m Has_avx512f /\
  ~ reports (Build false false) m Has_avx.
Proof.
  exists masked_cpu. split; [eapply needs_step; [|apply needs_self]; vm_compute; tauto|]. unfold reports. vm_compute. repeat split; discriminate.
Qed.
Print Assumptions x86_isa_masked_refuted.
