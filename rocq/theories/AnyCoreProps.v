(** Property C106: which processor of a machine runs the detection does not matter, unless the machine is hybrid. *)
From Verif Require Import Base TopologySpec X86LinuxModel X86DescriptorModel X86DecodeModel X86IsaModel X86IsaSpec X86PackageModel X86DecodeSample AnyCoreSpec AnyCoreProofs AnyCoreSample.
From Coq Require Import List Lia. Import ListNotations.
Open Scope N_scope.

(** Vendor, microarchitecture, caches and topology. *)
Theorem x86_any_core_processor : forall m m', alike m m' -> forall b fuel, init_processor b m' fuel = init_processor b m fuel.
Proof. exact any_core_processor. Qed.
Print Assumptions x86_any_core_processor.

(** The name of the package. *)
Theorem x86_any_core_name : forall m m', alike m m' -> forall b stack, detect_package_name b m' stack = detect_package_name b m stack.
Proof. exact any_core_name. Qed.
Print Assumptions x86_any_core_name.

(** The getters for instruction sets. *)
Theorem x86_any_core_getters : forall m m', alike m m' -> forall b g, reports b m' g <-> reports b m g.
Proof. exact any_core_getter. Qed.
Print Assumptions x86_any_core_getters.

(** On a hybrid machine the caches of all cores are those of the core that happens to run the detection. *)
Theorem x86_any_core_hybrid_refuted : exists m m' x x', hybrid_pair m m' /\ cpuid m' 1 = cpuid m 1 /\ cpuid2 m' = cpuid2 m /\
  init_processor (Build false false) m 10 = Ok x /\ init_processor (Build false false) m' 10 = Ok x' /\
  g_size (xc_geometry (xi_l1d x)) = 48 * 1024 /\ g_size (xc_geometry (xi_l1d x')) = 32 * 1024 /\ xi_uarch x = xi_uarch x'.
Proof. exact hybrid_refutes. Qed.
Print Assumptions x86_any_core_hybrid_refuted.

Example x86_any_core_case : alike (core_with_id 2) (core_with_id 7) /\ cpuid (core_with_id 2) 1 <> cpuid (core_with_id 7) 1 /\
  reports (Build false false) (core_with_id 7) Has_sse4_2 /\
  exists x, init_processor (Build false false) (core_with_id 7) 10 = Ok x /\ g_size (xc_geometry (xi_l3 x)) = 8 * 1024 * 1024.
Proof.
  split; [apply cores_alike|]. split; [vm_compute; discriminate|]. split; [vm_compute; reflexivity|]. eexists. split; vm_compute; reflexivity.
Qed.
