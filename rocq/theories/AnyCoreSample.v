(** Samples for the examples about which processor runs the detection. *)
From Verif Require Import Base TopologySpec X86LinuxModel X86DescriptorModel X86DecodeModel X86DecodeSample AnyCoreSpec.
From Coq Require Import List Lia. Import ListNotations.
Open Scope N_scope.

(** The processor of X86DecodeSample with APIC id [k]. *)
Definition core_with_id (k : N) : cpu :=
  Cpu (fun l i => let r := cpuidex (x2apic_cpu 1 2) l i in
    if l =? 1 then Regs (eax r) (ebx r + 2 ^ 24 * k) (ecx r) (edx r) else if l =? 0xB then Regs (eax r) (ebx r) (ecx r) k
    else if (l =? 0x1F) || (l =? 0x8000001E) then Regs k 0 0 k else r)
    (cpuid2 (x2apic_cpu 1 2)) 7 0xFFFF.
Lemma cores_alike k k' : alike (core_with_id k) (core_with_id k').
Proof.
  split; try reflexivity; try (split; reflexivity).
  - change ((0x00100800 + 2 ^ 24 * k') mod 2 ^ 24 = (0x00100800 + 2 ^ 24 * k) mod 2 ^ 24).
    rewrite !(N.mul_comm (2 ^ 24)), !N.mod_add by discriminate. reflexivity.
  - intros l i A B C D. unfold core_with_id. cbn [cpuidex]. now rewrite !(proj2 (N.eqb_neq l _)) by assumption.
Qed.

(** Alder Lake: a performance core (48 KB of data in the first level) and an efficient core (32 KB). *)
Definition alder_lake (efficient : bool) : cpu :=
  Cpu (fun l i =>
    if l =? 0 then intel_leaf0 0x20
    else if l =? 1 then Regs 0x000906A3 0x00800800 0x7FFAFBBF 0xBFEBFBFF
    else if l =? 4 then
      if i =? 0 then if efficient then Regs 0xFC004121 0x01C0003F 63 0 else Regs 0xFC004121 0x02C0003F 63 0
      else if i =? 1 then if efficient then Regs 0xFC004122 0x01C0003F 127 0 else Regs 0xFC004122 0x01C0003F 63 0
      else if i =? 2 then if efficient then Regs 0xFC01C143 0x03C0003F 2047 0 else Regs 0xFC01C143 0x0240003F 2047 0
      else Regs 0 0 0 0
    else if l =? 0x1A then if efficient then Regs 0x20000001 0 0 0 else Regs 0x40000001 0 0 0
    else if l =? 0x80000000 then Regs 0x80000008 0 0 0
    else regs0) (fun _ => Regs 0x00FEFF01 0x000000F0 0 0) 7 0xFFFF.
Lemma hybrid_alike : hybrid_pair (alder_lake false) (alder_lake true).
Proof. intros l i A B C D E. unfold alder_lake. cbn [cpuidex]. now rewrite (proj2 (N.eqb_neq l 4) B), (proj2 (N.eqb_neq l 0x1A) D). Qed.
Lemma hybrid_refutes : exists m m' x x', hybrid_pair m m' /\ cpuid m' 1 = cpuid m 1 /\ cpuid2 m' = cpuid2 m /\
  init_processor (Build false false) m 10 = Ok x /\ init_processor (Build false false) m' 10 = Ok x' /\
  g_size (xc_geometry (xi_l1d x)) = 48 * 1024 /\ g_size (xc_geometry (xi_l1d x')) = 32 * 1024 /\ xi_uarch x = xi_uarch x'.
Proof.
  exists (alder_lake false), (alder_lake true). eexists. eexists. split; [exact hybrid_alike|]. split; [reflexivity|]. split; [reflexivity|].
  split; [vm_compute; reflexivity|]. split; [vm_compute; reflexivity|]. repeat split; reflexivity.
Qed.
