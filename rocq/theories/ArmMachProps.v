(** Property theorems about Apple processors: C56 to C59. *)
From Verif Require Import Base Text LinuxTextSpec TopologySpec ApiModel ApiProofs ArmIsaModel X86CountsModel.
From Verif Require Import ArmMachModel ArmMachSpec ArmMachFinal ArmMachIsaProofs ArmMachNameProofs.
From Verif Require ArmLinuxModel.
Import ArmLinuxModel(au_cores).
Open Scope nat_scope.

Definition known (v : N) : sys_answer := SysAnswer (Some 4%N) (Some v).
Definition unknown : sys_answer := SysAnswer None None.
Lemma known_tells v : tells (known v) v.
Proof. now left. Qed.
Lemma unknown_tells : tells unknown 0.
Proof. right. split; [now left|reflexivity]. Qed.

(** [physical] cores and [logical] processors of the family of M1. *)
Definition m1_like (physical logical packages : Z) (line : sys_answer) : apple_answers :=
  AppleAnswers (MachAnswers (Some physical) (Some logical) (Some packages) None) (known 0x1B588BB3) (fun _ => unknown)
    line (known 65536) (known 131072) (known 4194304) unknown (Some (text "Apple M1" ++ [0%N])) None.

(** ** C56: the tables *)

(** A machine of one package with one thread for each core is described: its cores, their
    kinds, and the clusters and microarchitectures they form. *)
Theorem apple_describes_machine : forall calloc_ok a n family line l1i l1d l2 l3, 0 < n -> one_each (aa_topology a) n -> tells (aa_family a) family ->
  tells (aa_line a) line -> tells (aa_l1i a) l1i -> tells (aa_l1d a) l1d -> tells (aa_l2 a) l2 -> tells (aa_l3 a) l3 ->
  (0 < line < 2 ^ 28)%N -> strings_defined (aa_brand a) (aa_machine a) -> (forall b, calloc_ok b = true) ->
  exists o p, arm_mach_init calloc_ok a = Ok o /\ mo_published o = Some p /\
    apple_described family n p /\ apple_caches line l1i l1d l2 l3 n (at_tables p).
Proof. exact mach_describes. Qed.
Print Assumptions apple_describes_machine.

Example apple_describes_case :
  one_each (aa_topology (m1_like 8 8 1 (known 128))) 8 /\ strings_defined (aa_brand (m1_like 8 8 1 (known 128))) None /\
  exists o p, arm_mach_init (fun _ => true) (m1_like 8 8 1 (known 128)) = Ok o /\ mo_published o = Some p /\
    map (fun l => (cl_core_start l, cl_core_count l, cl_uarch l)) (t_clusters (at_tables p)) = [(0, 4, 0x70010B%N); (4, 4, 0x70010C%N)] /\
    map au_cores (at_uarchs p) = [4; 4] /\ length (t_l1d (at_tables p)) = 8 /\ map ca_processor_count (t_l2 (at_tables p)) = [8].
Proof.
  split; [split; [reflexivity|split; [reflexivity|now left]]|]. split.
  - exists (text "Apple M1"). split; [cbn; intuition discriminate|now exists []].
  - do 2 eexists. split; [vm_compute; reflexivity|]. split; [reflexivity|]. vm_compute. repeat split.
Qed.

(** Whatever the system says: what is published is consistent exactly for one package with as
    many processors as cores. *)
Theorem apple_consistent_exactly : forall calloc_ok a o p, arm_mach_init calloc_ok a = Ok o -> mo_published o = Some p ->
  (consistent (t_processors (at_tables p)) (t_cores (at_tables p)) (t_clusters (at_tables p)) (t_packages (at_tables p)) <->
   t_packages_count (at_tables p) = 1 /\ t_processors_count (at_tables p) = t_cores_count (at_tables p)).
Proof. exact mach_consistent_iff. Qed.
Print Assumptions apple_consistent_exactly.

(** Two threads for each core: a cluster says it has half of its processors. *)
Theorem apple_threads_refuted : exists o p, arm_mach_init (fun _ => true) (m1_like 4 8 1 (known 128)) = Ok o /\ mo_published o = Some p /\
  t_processors_count (at_tables p) = 8 /\ map cl_processor_count (t_clusters (at_tables p)) = [4] /\ map ca_processor_count (t_l2 (at_tables p)) = [4].
Proof. do 2 eexists. split; [vm_compute; reflexivity|]. split; [reflexivity|]. vm_compute. repeat split. Qed.
Print Assumptions apple_threads_refuted.

(** Two packages: each claims both clusters. *)
Theorem apple_packages_refuted : exists o p, arm_mach_init (fun _ => true) (m1_like 16 16 2 (known 128)) = Ok o /\ mo_published o = Some p /\
  map (fun k => (pk_cluster_start k, pk_cluster_count k)) (t_packages (at_tables p)) = [(0, 2); (0, 2)] /\
  map (fun l => (cl_core_start l, cl_core_count l, cl_package l)) (t_clusters (at_tables p)) = [(0, 12, Some 0); (12, 4, Some 1)].
Proof. do 2 eexists. split; [vm_compute; reflexivity|]. split; [reflexivity|]. vm_compute. repeat split. Qed.
Print Assumptions apple_packages_refuted.

(** Every core has the same number of processors, and every package has a core, in what is
    published. *)
Theorem apple_counts_whole : forall calloc_ok a o p, arm_mach_init calloc_ok a = Ok o -> mo_published o = Some p ->
  Nat.divide (t_cores_count (at_tables p)) (t_processors_count (at_tables p)) /\ t_packages_count (at_tables p) <= t_cores_count (at_tables p) /\
  0 < t_packages_count (at_tables p).
Proof. exact mach_whole. Qed.
Print Assumptions apple_counts_whole.

(** Fewer processors than cores, or fewer cores than packages: nothing is published, because
    the code divides by zero. *)
Theorem apple_division_refuted : arm_mach_init (fun _ => true) (m1_like 8 4 1 (known 128)) = UB /\
  arm_mach_init (fun _ => true) (m1_like 1 1 2 (known 128)) = UB /\ arm_mach_init (fun _ => true) (m1_like 4 6 1 (known 128)) = UB.
Proof. vm_compute. repeat split. Qed.
Print Assumptions apple_division_refuted.

(** The kinds of the cores, whatever is published. *)
Theorem apple_core_kinds : forall calloc_ok a o p family, arm_mach_init calloc_ok a = Ok o -> mo_published o = Some p -> tells (aa_family a) family ->
  core_kinds family (t_cores_count (at_tables p)) (map c_uarch (t_cores (at_tables p))).
Proof. exact mach_kinds. Qed.
Print Assumptions apple_core_kinds.

(** The kinds of performance and efficiency cores are right exactly with four of the latter. *)
Theorem apple_efficiency_cores : forall calloc_ok a o p family big little performance efficiency,
  arm_mach_init calloc_ok a = Ok o -> mo_published o = Some p -> tells (aa_family a) family -> In (family, (big, little)) paired ->
  0 < performance -> t_cores_count (at_tables p) = performance + efficiency ->
  (map c_uarch (t_cores (at_tables p)) = repeat big performance ++ repeat little efficiency <-> efficiency = 4).
Proof. exact mach_efficiency. Qed.
Print Assumptions apple_efficiency_cores.

(** M1 Pro has eight performance and two efficiency cores; six and four are reported. *)
Theorem apple_efficiency_refuted : exists o p, arm_mach_init (fun _ => true) (m1_like 10 10 1 (known 128)) = Ok o /\ mo_published o = Some p /\
  map c_uarch (t_cores (at_tables p)) = repeat 0x70010B%N 6 ++ repeat 0x70010C%N 4 /\
  map c_uarch (t_cores (at_tables p)) <> repeat 0x70010B%N 8 ++ repeat 0x70010C%N 2.
Proof. do 2 eexists. split; [vm_compute; reflexivity|]. split; [reflexivity|]. split; vm_compute; [reflexivity|discriminate]. Qed.
Print Assumptions apple_efficiency_refuted.

(** ** C57: caches, memory and getters *)

(** A line size of zero with a cache: the code divides by zero. *)
Theorem apple_line_refuted : arm_mach_init (fun _ => true) (m1_like 8 8 1 (SysAnswer (Some 8%N) (Some 128%N))) = UB /\
  arm_mach_init (fun _ => true) (m1_like 8 8 1 unknown) = UB.
Proof. vm_compute. now split. Qed.
Print Assumptions apple_line_refuted.

(** Either nothing is published and no memory is kept, or exactly the published tables are. *)
Theorem apple_memory : forall calloc_ok a o, arm_mach_init calloc_ok a = Ok o ->
  match mo_published o with
  | None => mo_live o = []
  | Some _ => NoDup (mo_live o) /\ forall l1i l1d l2 l3, tells (aa_l1i a) l1i -> tells (aa_l1d a) l1d -> tells (aa_l2 a) l2 -> tells (aa_l3 a) l3 ->
                forall b, In b (mo_live o) <-> apple_block l1i l1d l2 l3 b
  end.
Proof. exact mach_memory. Qed.
Print Assumptions apple_memory.

Example apple_memory_case : arm_mach_init (fun b => match b with M_l2 => false | _ => true end) (m1_like 8 8 1 (known 128)) = Ok (MachOutcome None true []) /\
  exists o, arm_mach_init (fun _ => true) (m1_like 8 8 1 (known 128)) = Ok o /\ length (mo_live o) = 8.
Proof. split; [vm_compute; reflexivity|]. eexists. split; vm_compute; reflexivity. Qed.

(** Getters: an element for every index below the count, and NULL for others.  For first-level
    caches, if both kinds exist or none does. *)
Theorem apple_getters : forall calloc_ok a o p l1i l1d cpu tb i, arm_mach_init calloc_ok a = Ok o -> mo_published o = Some p ->
  tells (aa_l1i a) l1i -> tells (aa_l1d a) l1d -> (l1i = 0%N <-> l1d = 0%N) \/ ~ In tb [Caches L1i; Caches L1d] ->
  exists n, ask arm_mach (final (arm_mach_routine o)) cpu (Get_count tb) = Number n /\
    ask arm_mach (final (arm_mach_routine o)) cpu (Get_element tb i) = if (i <? n)%N then Pointer tb (N.to_nat i) else Null.
Proof. exact mach_getters. Qed.
Print Assumptions apple_getters.

Example apple_getters_case : exists o, arm_mach_init (fun _ => true) (m1_like 8 8 1 (known 128)) = Ok o /\
  ask arm_mach (final (arm_mach_routine o)) None (Get_element Uarchs 1) = Pointer Uarchs 1 /\
  ask arm_mach (final (arm_mach_routine o)) None (Get_element Uarchs 2) = Null /\
  ask arm_mach (final (arm_mach_routine o)) None (Get_count (Caches L1i)) = Number 8.
Proof. eexists. split; [vm_compute; reflexivity|]. vm_compute. repeat split. Qed.

(** With an instruction cache only, there are eight data caches at NULL. *)
Theorem apple_l1_refuted : exists o,
  arm_mach_init (fun _ => true) (AppleAnswers (MachAnswers (Some 8%Z) (Some 8%Z) (Some 1%Z) None) (known 0x1B588BB3) (fun _ => unknown)
    (known 128) unknown (known 131072) unknown unknown None None) = Ok o /\
  ask arm_mach (final (arm_mach_routine o)) None (Get_count (Caches L1d)) = Number 8 /\
  ask arm_mach (final (arm_mach_routine o)) None (Get_table (Caches L1d)) = Null.
Proof. eexists. split; [vm_compute; reflexivity|]. vm_compute. now split. Qed.
Print Assumptions apple_l1_refuted.

(** ** C58: instruction sets *)

(** An extension is reported exactly if the system says it is there, or the family is an older
    one known to have it. *)
Theorem apple_isa_extensions : forall a family g features families, tells (aa_family a) family -> In (g, (features, families)) apple_extensions ->
  (has_arm false (arm_mach_isa a) g = true <-> (exists f v, In f features /\ tells (aa_feature a f) v /\ v <> 0%N) \/ In family families).
Proof. exact mach_isa_extensions. Qed.
Print Assumptions apple_isa_extensions.

Theorem apple_isa_always : forall a g, In g apple_always -> has_arm false (arm_mach_isa a) g = true.
Proof. exact mach_isa_always. Qed.
Print Assumptions apple_isa_always.

Theorem apple_isa_never : forall a g, In g apple_never -> has_arm false (arm_mach_isa a) g = false.
Proof. exact mach_isa_never. Qed.
Print Assumptions apple_isa_never.

(** Other answers do not depend on the processor. *)
Theorem apple_isa_rest : forall a g, ~ In g apple_always -> ~ In g apple_never -> ~ In g (map fst apple_extensions) ->
  forall i, has_arm false (arm_mach_isa a) g = has_arm false i g.
Proof. exact mach_isa_rest. Qed.
Print Assumptions apple_isa_rest.

Example apple_isa_case : In (Has_neon_dot, ([DotProd], a13_to_a14)) apple_extensions /\
  has_arm false (arm_mach_isa (m1_like 8 8 1 (known 128))) Has_neon_dot = true /\
  has_arm false (arm_mach_isa (m1_like 8 8 1 (known 128))) Has_i8mm = false /\
  has_arm false (arm_mach_isa (m1_like 8 8 1 (known 128))) Has_neon = true.
Proof. split; [cbn; tauto|]. vm_compute. repeat split. Qed.

(** "A newer core has what its predecessor has" fails for systems that do not answer: then A15 lacks
    what A14 has. *)
Definition silent (family : N) : apple_answers :=
  AppleAnswers (MachAnswers (Some 6%Z) (Some 6%Z) None None) (known family) (fun _ => unknown) (known 64) unknown unknown unknown unknown None None.
Theorem apple_isa_newer_refuted :
  map (has_arm false (arm_mach_isa (silent 0x1B588BB3))) [Has_atomics; Has_neon_rdm; Has_fp16_arith; Has_fhm; Has_neon_dot] = [true; true; true; true; true] /\
  map (has_arm false (arm_mach_isa (silent 0xDA33D83D))) [Has_atomics; Has_neon_rdm; Has_fp16_arith; Has_fhm; Has_neon_dot] = [false; false; false; false; false].
Proof. vm_compute. now split. Qed.
Print Assumptions apple_isa_newer_refuted.

(** ** C59: names *)

(** The name of every package is what the following theorems say about [package_name]. *)
Theorem apple_name_published : forall calloc_ok a o p, arm_mach_init calloc_ok a = Ok o -> mo_published o = Some p -> package_name a = Ok (at_name p).
Proof. exact mach_name. Qed.
Print Assumptions apple_name_published.

(** It fits the 48 bytes for it, with its terminator. *)
Theorem apple_name_fits : forall a name, package_name a = Ok name -> length name <= 47 /\ ~ In 0%N name.
Proof. exact name_clean. Qed.
Print Assumptions apple_name_fits.

(** Strings with terminators and small numbers are read safely. *)
Theorem apple_name_defined : forall a, strings_defined (aa_brand a) (aa_machine a) -> exists name, package_name a = Ok name.
Proof. exact name_defined. Qed.
Print Assumptions apple_name_defined.

(** The brand string, cut to 47 characters. *)
Theorem apple_name_brand : forall a buffer s, aa_brand a = Some buffer -> holds buffer s -> package_name a = Ok (firstn 47 s).
Proof. exact name_brand. Qed.
Print Assumptions apple_name_brand.

(** iPhones: the number of the chip is one more than that of the device. *)
Theorem apple_name_iphone : forall a buffer major ds es r, aa_brand a = None -> aa_machine a = Some buffer ->
  holds buffer (text "iPhone" ++ ds ++ 44%N :: es ++ r) -> is_decimal ds -> dec_value ds = major -> (major + 1 < two32)%N ->
  is_decimal es -> (dec_value es < two32)%N -> ~ starts_with_digit r ->
  exists digits, numeral (major + 1) digits /\ package_name a = Ok (text "Apple A" ++ digits).
Proof. exact name_iphone. Qed.
Print Assumptions apple_name_iphone.

(** iPads and iPods of the table. *)
Theorem apple_name_devices : forall a buffer name major first last chip ds es r, In (name, major, (first, last), chip) apple_devices ->
  aa_brand a = None -> aa_machine a = Some buffer -> holds buffer (name ++ ds ++ 44%N :: es ++ r) ->
  is_decimal ds -> dec_value ds = major -> is_decimal es -> (first <= dec_value es <= last)%N -> ~ starts_with_digit r ->
  package_name a = Ok chip.
Proof. exact name_devices. Qed.
Print Assumptions apple_name_devices.

(** Other devices, and devices that cannot be asked for, have no name. *)
Theorem apple_name_others : forall a buffer name ds es r, ~ In name [text "iPhone"; text "iPad"; text "iPod"] ->
  aa_brand a = None -> aa_machine a = Some buffer -> holds buffer (name ++ ds ++ 44%N :: es ++ r) -> device_name name ->
  is_decimal ds -> (dec_value ds < two32)%N -> is_decimal es -> (dec_value es < two32)%N -> ~ starts_with_digit r -> package_name a = Ok [].
Proof. exact name_others. Qed.
Print Assumptions apple_name_others.
Theorem apple_name_unknown : forall a, aa_brand a = None -> aa_machine a = None -> package_name a = Ok [].
Proof. exact name_unknown. Qed.
Print Assumptions apple_name_unknown.

Definition device (machine : list N) : apple_answers :=
  AppleAnswers (MachAnswers (Some 6%Z) (Some 6%Z) None None) (known 0x1B588BB3) (fun _ => unknown) (known 64) unknown unknown unknown unknown None
    (Some (machine ++ [0%N])).
Example apple_name_case : package_name (device (text "iPhone13,2")) = Ok (text "Apple A14") /\ package_name (device (text "iPad6,8")) = Ok (text "Apple A9X") /\
  package_name (device (text "Watch6,1")) = Ok [] /\ numeral 14 (text "14") /\
  holds (text "iPad6,8" ++ [0%N]) (text "iPad" ++ text "6" ++ 44%N :: text "8" ++ []).
Proof.
  split; [vm_compute; reflexivity|]. split; [vm_compute; reflexivity|]. split; [vm_compute; reflexivity|]. split.
  - split; [split; [discriminate|]|split; [reflexivity|intros r E; discriminate]]. apply Forall_forall. intros c I. cbn in I. unfold is_digit. lia.
  - split; [cbn; intuition discriminate|]. exists []. reflexivity.
Qed.

(** iPads since the eighth number, and large numbers: no name, and undefined behaviour. *)
Theorem apple_name_refuted : package_name (device (text "iPad8,1")) = Ok [] /\ package_name (device (text "iPad13,4")) = Ok [] /\
  package_name (device (text "iPhone4294967296,1")) = UB.
Proof. vm_compute. repeat split. Qed.
Print Assumptions apple_name_refuted.
