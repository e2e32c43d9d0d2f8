(** Processors of one machine; independent of the detection code. *)
From Verif Require Import Base X86LinuxModel X86DescriptorModel X86DecodeModel.
Open Scope N_scope.

(** Two processors of a machine answer alike but for their APIC ids: bits 24 to 31 of EBX in leaf 1, EDX in leaf 0xB, and all of leaves
    0x1F and 0x8000001E. *)
Record alike (m m' : cpu) : Prop := {
  alike_signature : eax (cpuid m' 1) = eax (cpuid m 1);
  alike_counts : ebx (cpuid m' 1) mod 2 ^ 24 = ebx (cpuid m 1) mod 2 ^ 24;
  alike_features : ecx (cpuid m' 1) = ecx (cpuid m 1) /\ edx (cpuid m' 1) = edx (cpuid m 1);
  alike_levels : forall i, eax (cpuidex m' 0xB i) = eax (cpuidex m 0xB i) /\ ecx (cpuidex m' 0xB i) = ecx (cpuidex m 0xB i);
  alike_else : forall l i, l <> 1 -> l <> 0xB -> l <> 0x1F -> l <> 0x8000001E -> cpuidex m' l i = cpuidex m l i;
  alike_leaf2 : forall i, cpuid2 m' i = cpuid2 m i;
  alike_state : xcr0 m' = xcr0 m;
  alike_mask : mxcsr_mask m' = mxcsr_mask m
}.

(** Processors of a hybrid machine differ also in leaf 4 and in leaf 0x1A, which tells the kind of core. *)
Definition hybrid_pair (m m' : cpu) : Prop :=
  forall l i, l <> 1 -> l <> 4 -> l <> 0xB -> l <> 0x1A -> l <> 0x1F -> cpuidex m' l i = cpuidex m l i.
