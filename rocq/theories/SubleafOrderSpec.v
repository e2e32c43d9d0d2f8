(** Lists of caches in CPUID's leaves 4 and 0x8000001D; independent of the detection code. *)
From Verif Require Import Base X86DescriptorModel X86DecodeModel X86DecodeSpec.
Open Scope N_scope.

(** The subleaves of a leaf are those of the list, followed by one without a type. *)
Definition lists (leaf : N -> regs) (l : list regs) : Prop :=
  N.of_nat (length l) < two32 /\ d_type (leaf (N.of_nat (length l))) = 0 /\
  forall i r, nth_error l i = Some r -> leaf (N.of_nat i) = r /\ d_type r <> 0.

(** No two subleaves describe the same cache. *)
Definition one_per_cache (levels : N) (l : list regs) : Prop :=
  forall r r' s, In r l -> In r' l -> describes levels r s -> describes levels r' s -> r = r'.
(** All subleaves give the same number of cores. *)
Definition same_cores (l : list regs) : Prop := forall r r', In r l -> In r' l -> d_package_cores r = d_package_cores r'.

(** The same processor with other answers to a leaf. *)
Definition with_leaf (m : cpu) (leaf : N) (answers : N -> regs) : cpu :=
  Cpu (fun l i => if l =? leaf then answers i else cpuidex m l i) (cpuid2 m) (xcr0 m) (mxcsr_mask m).
