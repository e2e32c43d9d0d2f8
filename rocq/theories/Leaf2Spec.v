(** What CPUID's leaf 2 names, as the manual says; independent of the detection code. *)
From Verif Require Import Base X86LinuxModel X86DescriptorModel X86DecodeModel X86DecodeSpec.
Open Scope N_scope.

Definition byte (w : N) (k : N) : N := w / 2 ^ (8 * k) mod 2 ^ 8.
(** Leaf 2 is to be read as often as the lowest byte of EAX says. *)
Definition readings (m : cpu) : nat := N.to_nat (byte (eax (cpuid2 m 0)) 0).
(** A descriptor is a byte other than zero of one of the registers of a reading, the lowest of EAX excepted. *)
Definition names (m : cpu) (d : N) : Prop :=
  d <> 0 /\ exists i, (i < readings m)%nat /\
    ((exists k, 1 <= k < 4 /\ d = byte (eax (cpuid2 m i)) k) \/
     (exists w k, In w [ebx (cpuid2 m i); ecx (cpuid2 m i); edx (cpuid2 m i)] /\ k < 4 /\ d = byte w k)).

(** The caches of a description by level. *)
Definition found (x : xinfo) (s : slot) : xcache :=
  match s with L1I => xi_l1i x | L1D => xi_l1d x | L2 => xi_l2 x | L3 => xi_l3 x | L4 => xi_l4 x end.

(** The manual's table gives a descriptor for a cache. *)
Definition describes_cache (family model d : N) (s : slot) : Prop := exists kilobytes ways line, intel_cache family model d = Some (s, kilobytes, ways, line).

(** The same processor with other answers to leaf 2. *)
Definition with_leaf2 (m : cpu) (answers : nat -> regs) : cpu := Cpu (cpuidex m) answers (xcr0 m) (mxcsr_mask m).

(** A descriptor says nothing about a cache if decoding it never changes that. *)
Definition silent_about (b : build) (m : cpu) (d : N) (s : slot) : Prop := forall cs,
  cs_cache (decode_cache_descriptor b (decode_vendor b (ebx (cpuid m 0)) (ecx (cpuid m 0)) (edx (cpuid m 0)))
    (mi_family (decode_model_info (eax (cpuid m 1)))) (mi_model (decode_model_info (eax (cpuid m 1)))) d cs) s = cs_cache cs s.
