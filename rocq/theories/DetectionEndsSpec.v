(** When the lists in CPUID end; independent of the detection code. *)
From Verif Require Import Base X86LinuxModel X86DescriptorModel X86DecodeModel X86DecodeSpec X86IsaSpec.
Open Scope N_scope.

(** Some subleaf of a leaf has no type. *)
Definition has_end (type : regs -> N) (leaf : N -> regs) : Prop := exists i, i < two32 /\ type (leaf i) = 0.
Definition level_kind (r : regs) : N := (ecx r / 256) mod 256.

(** The leaves that a library has a reason to read: caches in leaf 4, but not by AMD or Hygon; caches by AMD, where announced; levels in leaf
    0xB, where there is x2APIC. *)
Definition caches_in_leaf4 (b : build) (m : cpu) : Prop := 4 <= eax (cpuid m 0) /\ vendor_of b m <> vendor_amd /\ vendor_of b m <> vendor_hygon.
Definition caches_in_leaf1d (m : cpu) : Prop :=
  1 <= eax (cpuid m 0) /\ 0x8000001D <= eax (cpuid m 0x80000000) /\ N.testbit (ecx (cpuid m 0x80000001)) 22 = true.
Definition levels_in_leafB (m : cpu) : Prop := 0xB <= eax (cpuid m 0) /\ N.testbit (ecx (cpuid m 1)) 21 = true.
