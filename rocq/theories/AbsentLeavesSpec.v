(** Leaves that a processor has; independent of the detection code. *)
From Verif Require Import Base X86LinuxModel X86DescriptorModel X86DecodeModel.
Open Scope N_scope.

(** Leaves up to the highest basic and extended one; leaf 0xC0000000 and those up to its answer only on processors by VIA. *)
Definition has_leaf (m : cpu) (via : Prop) (l : N) : Prop :=
  l <= eax (cpuid m 0) \/ l = 0x80000000 \/ 0x80000000 <= l <= eax (cpuid m 0x80000000) \/
  via /\ (l = 0xC0000000 \/ 0xC0000000 <= l <= eax (cpuid m 0xC0000000)).

(** Two processors that differ only in what they answer to leaves which they do not have. *)
Record same_leaves (via : Prop) (m m' : cpu) : Prop := {
  same_answers : forall l i, has_leaf m via l -> cpuidex m' l i = cpuidex m l i;
  same_leaf2 : 2 <= eax (cpuid m 0) -> forall i, cpuid2 m' i = cpuid2 m i;
  same_state : xcr0 m' = xcr0 m;
  same_mask : mxcsr_mask m' = mxcsr_mask m
}.

(** Leaves behind the highest basic one answer as the highest does. *)
Definition answers_as_highest (m : cpu) : Prop :=
  forall l i, eax (cpuid m 0) < l -> l < 0x80000000 -> cpuidex m l i = cpuidex m (eax (cpuid m 0)) i.
