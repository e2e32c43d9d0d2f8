(** Property C104: the order in which CPUID's leaves 4 and 0x8000001D list caches does not matter. *)
From Verif Require Import Base TopologySpec X86LinuxModel X86DescriptorModel X86DecodeModel X86DecodeSpec X86DecodeSample SubleafOrderSpec SubleafOrderProofs SubleafOrderSample.
From Coq Require Import List Lia. Import ListNotations.
Open Scope N_scope.

(** Leaf 4: another order, or a cache listed repeatedly, gives the same description of the processor, if no two subleaves are for the same
    cache and all give the same number of cores. *)
Theorem x86_leaf4_order : forall b m answers l l' fuel,
  lists (cpuidex m 4) l -> lists answers l' -> (length l < fuel)%nat -> (length l' < fuel)%nat ->
  (forall r, In r l' <-> In r l) -> (forall r, In r l -> regs_ok r) -> one_per_cache 4 l -> same_cores l ->
  init_processor b (with_leaf m 4 answers) fuel = init_processor b m fuel.
Proof. exact order_leaf4. Qed.
Print Assumptions x86_leaf4_order.

(** AMD's leaf 0x8000001D, which has no number of cores. *)
Theorem x86_leaf1d_order : forall b m answers l l' fuel,
  lists (cpuidex m 0x8000001D) l -> lists answers l' -> (length l < fuel)%nat -> (length l' < fuel)%nat ->
  (forall r, In r l' <-> In r l) -> (forall r, In r l -> regs_ok r) -> one_per_cache 3 l ->
  init_processor b (with_leaf m 0x8000001D answers) fuel = init_processor b m fuel.
Proof. exact order_leaf1d. Qed.
Print Assumptions x86_leaf1d_order.

Example x86_leaf4_order_case :
  let m := x2apic_cpu 1 2 in
  lists (cpuidex m 4) (in_order 8) /\ lists (shuffled_leaf 8) (shuffled_order 8) /\
  (forall r, In r (shuffled_order 8) <-> In r (in_order 8)) /\ (forall r, In r (in_order 8) -> regs_ok r) /\
  one_per_cache 4 (in_order 8) /\ same_cores (in_order 8) /\
  exists x, init_processor (Build true false) (with_leaf m 4 (shuffled_leaf 8)) 10 = Ok x /\ g_size (xc_geometry (xi_l3 x)) = 8 * 1024 * 1024.
Proof.
  cbv zeta. split; [apply (lists_in_order 8); now left|]. split; [apply lists_shuffled; now left|]. split; [apply same_caches|].
  split; [intros r; apply in_order_ok; lia|]. split; [apply in_order_distinct; now left|]. split; [apply in_order_cores; now left|].
  eexists. split; vm_compute; reflexivity.
Qed.

Example x86_leaf1d_order_case :
  let m := amd_cpu true in
  lists (cpuidex m 0x8000001D) (in_order 1) /\ lists (shuffled_leaf 1) (shuffled_order 1) /\
  (forall r, In r (shuffled_order 1) <-> In r (in_order 1)) /\ (forall r, In r (in_order 1) -> regs_ok r) /\ one_per_cache 3 (in_order 1) /\
  exists x, init_processor (Build true false) (with_leaf m 0x8000001D (shuffled_leaf 1)) 10 = Ok x /\ g_size (xc_geometry (xi_l3 x)) = 8 * 1024 * 1024.
Proof.
  cbv zeta. split; [apply (lists_in_order 1); now right|]. split; [apply lists_shuffled; now right|]. split; [apply same_caches|].
  split; [intros r; apply in_order_ok; lia|]. split; [apply in_order_distinct; now right|].
  eexists. split; vm_compute; reflexivity.
Qed.
