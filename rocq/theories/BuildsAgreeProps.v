(** Property C101: a 32-bit and a 64-bit build describe the same processor alike. *)
From Verif Require Import Base X86DescriptorModel X86DecodeModel X86DecodeSpec X86DecodeSample X86IsaModel X86IsaSpec X86IsaSample X86PackageModel X86NameModel.
From Verif Require ArmCacheModel ArmClusterMidrModel.
From Verif Require Import ArmUarchModel BuildsAgreeSpec BuildsAgreeProofs.
From Coq Require Import List. Import ListNotations.
Open Scope N_scope.

(** If an x86-64 build knows the vendor and the microarchitecture, any other build, 32-bit or 64-bit, for Android or not, finds the same
    vendor, microarchitecture, caches, TLBs and places for the parts of the APIC ID. *)
Theorem x86_builds_same_processor : forall b b' m fuel,
  b_x86_32 b = false ->
  decode_vendor b (ebx (cpuid m 0)) (ecx (cpuid m 0)) (edx (cpuid m 0)) <> vendor_unknown ->
  decode_uarch b (decode_vendor b (ebx (cpuid m 0)) (ecx (cpuid m 0)) (edx (cpuid m 0))) (decode_model_info (eax (cpuid m 1))) <> uarch_unknown ->
  init_processor b' m fuel = init_processor b m fuel.
Proof. exact processor_agree. Qed.
Print Assumptions x86_builds_same_processor.

Example x86_builds_same_processor_case :
  let m := Cpu (fun l s => if l =? 0 then intel_leaf0 0x16 else if l =? 1 then Regs 0x000506E3 0x00100800 0x7FFAFBBF 0xBFEBFBFF else regs0)
    (fun _ => regs0) 7 0xFFFF in
  let v := decode_vendor (Build false false) (ebx (cpuid m 0)) (ecx (cpuid m 0)) (edx (cpuid m 0)) in
  v = vendor_intel /\ decode_uarch (Build false false) v (decode_model_info (eax (cpuid m 1))) <> uarch_unknown.
Proof. vm_compute. split; [reflexivity|discriminate]. Qed.

(** The name of the processor does not depend on the build either. *)
Theorem x86_builds_same_name : forall b b' m stack,
  b_x86_32 b = false ->
  decode_vendor b (ebx (cpuid m 0)) (ecx (cpuid m 0)) (edx (cpuid m 0)) <> vendor_unknown ->
  detect_package_name b' m stack = detect_package_name b m stack.
Proof. exact name_agree. Qed.
Print Assumptions x86_builds_same_name.

Example x86_builds_same_name_case :
  let m := vector_cpu 0x602E7 in
  decode_vendor (Build false true) (ebx (cpuid m 0)) (ecx (cpuid m 0)) (edx (cpuid m 0)) = vendor_intel /\
  exists p, detect_package_name (Build true false) m (repeat 0 48) = Ok p.
Proof. cbv zeta. split; [vm_compute; reflexivity|]. eexists. vm_compute. reflexivity. Qed.

(** On a processor that x86-64 (for Android: Android's ABI) allows, the builds answer every question about instruction sets alike, except
    for CMPXCHG16B, LAHF/SAHF and the Geode's instructions. *)
Theorem x86_builds_same_getters : forall android m g,
  decode_vendor (Build false android) (ebx (cpuid m 0)) (ecx (cpuid m 0)) (edx (cpuid m 0)) <> vendor_unknown ->
  x86_64_processor m -> (android = true -> android_processor m) -> ~ depends_on_mode g ->
  (reports (Build true android) m g <-> reports (Build false android) m g).
Proof. exact getters_agree. Qed.
Print Assumptions x86_builds_same_getters.

Example x86_builds_same_getters_case :
  let m := vector_cpu 0x602E7 in
  x86_64_processor m /\ android_processor m /\ reports (Build true false) m Has_avx512f /\
  reports (Build false false) m Has_cmpxchg16b /\ ~ reports (Build true false) m Has_cmpxchg16b.
Proof.
  cbv zeta. split; [|split; [|split; [|split]]].
  - split; [|reflexivity]. intros k H. cbn [In] in H. repeat (destruct H as [<-|H]; [vm_compute; repeat split; discriminate|]). destruct H.
  - intros k H. cbn [In] in H. repeat (destruct H as [<-|H]; [vm_compute; repeat split; discriminate|]). destruct H.
  - vm_compute. reflexivity.
  - vm_compute. reflexivity.
  - unfold reports. vm_compute. discriminate.
Qed.

(** Without any assumption about the features: apart from LAHF/SAHF and the Geode's instructions, a 32-bit build reports nothing that a
    64-bit build would not. *)
Theorem x86_32_bit_reports_no_more : forall android m,
  decode_vendor (Build false android) (ebx (cpuid m 0)) (ecx (cpuid m 0)) (edx (cpuid m 0)) <> vendor_unknown ->
  forall g, g <> Has_lahf_sahf -> g <> Has_3dnow_geode -> reports (Build true android) m g -> reports (Build false android) m g.
Proof. exact never_more. Qed.
Print Assumptions x86_32_bit_reports_no_more.

Example x86_32_bit_reports_no_more_case :
  let m := p4_cpu 0xFFFF in
  decode_vendor (Build false false) (ebx (cpuid m 0)) (ecx (cpuid m 0)) (edx (cpuid m 0)) = vendor_intel /\ reports (Build true false) m Has_sse2.
Proof. vm_compute. split; reflexivity. Qed.

(** On ARM a core known to 64-bit builds is the same vendor's same design to 32-bit builds, or one of seven server designs that these
    call unknown; whether the 32-bit build finds a VFPv4 makes no difference. *)
Theorem arm_builds_same_design : forall midr vfp vfp',
  snd (decode_vendor_uarch false midr vfp) <> u_unknown ->
  decode_vendor_uarch true midr vfp' = decode_vendor_uarch false midr vfp \/
  In (snd (decode_vendor_uarch false midr vfp)) known_to_64_only /\ snd (decode_vendor_uarch true midr vfp') = u_unknown.
Proof. exact arm_agree. Qed.
Print Assumptions arm_builds_same_design.

Example arm_builds_same_design_case :
  decode_vendor_uarch true 0x410FD034 false = decode_vendor_uarch false 0x410FD034 false /\
  snd (decode_vendor_uarch false 0x410FD034 false) = u_cortex_a53 /\
  snd (decode_vendor_uarch false 0x431F0AF1 false) = u_thunderx2 /\ snd (decode_vendor_uarch true 0x431F0AF1 true) = u_unknown.
Proof. vm_compute. repeat split. Qed.

(** A core known to both has the same caches in every build. *)
Theorem arm_builds_same_caches : forall b b' midr vfp vfp' cores chip cluster version,
  let u := snd (decode_vendor_uarch true midr vfp) in
  u <> u_unknown -> snd (decode_vendor_uarch false midr vfp') <> u_unknown ->
  ArmCacheModel.decode_cache b u cores midr chip cluster version = ArmCacheModel.decode_cache b' u cores midr chip cluster version.
Proof. exact arm_caches_agree. Qed.
Print Assumptions arm_builds_same_caches.

Example arm_builds_same_caches_case :
  snd (decode_vendor_uarch true 0x410FD034 true) = u_cortex_a53 /\
  exists g, ArmCacheModel.decode_cache (ArmCacheModel.Build true true false true) u_cortex_a53 4 0x410FD034 (ArmClusterMidrModel.Chipset 0 0 0) 0 8 = Ok g.
Proof. split; [vm_compute; reflexivity|]. eexists. vm_compute. reflexivity. Qed.
