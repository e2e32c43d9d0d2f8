(** Property theorems about x86 on Mach and FreeBSD: C36. *)
From Verif Require Import Base Text TopologySpec ApiModel ApiProofs X86CountsModel X86CountsSpec X86CountsInit X86CountsFinal X86CountsWrap.
From Verif Require Import X86Sample.
From Verif Require X86LinuxModel.
Import X86LinuxModel(xinfo, XInfo, xi_l1i).
Open Scope nat_scope.

(** Mach: if the kernel's numbers divide each other, the tables describe the machine of equal
    packages, its caches, and its APIC ids. *)
Theorem x86_mach_describes_machine : forall calloc_ok x a packages cpp tpc, 0 < packages -> 0 < cpp -> 0 < tpc ->
  mach_says (ma_physicalcpu_max a) (ma_logicalcpu_max a) (ma_packages a) packages (packages * cpp) (packages * cpp * tpc) ->
  widths_divide packages cpp tpc (config_says (ma_cacheconfig a)) ->
  (N.of_nat (packages * cpp * tpc) < two32)%N -> fields_defined x -> (forall b, calloc_ok b = true) ->
  exists o t, x86_mach_init calloc_ok x a = Ok o /\ o_published o = Some t /\
    describes packages cpp tpc x t /\ caches_described packages cpp tpc (config_says (ma_cacheconfig a)) x t /\
    (fields_suffice packages cpp tpc x -> apic_described cpp x t).
Proof. exact mach_describes. Qed.
Print Assumptions x86_mach_describes_machine.

Definition mach_sample : mach_answers := MachAnswers (Some 8%Z) (Some 16%Z) (Some 2%Z) (Some [16; 2; 2; 8; 0]%N).
Example x86_mach_case :
  mach_says (ma_physicalcpu_max mach_sample) (ma_logicalcpu_max mach_sample) (ma_packages mach_sample) 2 (2 * 4) (2 * 4 * 2) /\
  widths_divide 2 4 2 (config_says (ma_cacheconfig mach_sample)) /\ fields_defined sample_info /\ fields_suffice 2 4 2 sample_info /\
  exists o t, x86_mach_init (fun _ => true) sample_info mach_sample = Ok o /\ o_published o = Some t /\
    map ca_processor_count (t_l3 t) = [8; 8] /\ map p_apic_id (t_processors t) = map N.of_nat (seq 0 16).
Proof.
  split; [now repeat split|]. split.
  - intros l L Z. assert (l = 1 \/ l = 2 \/ l = 3 \/ l = 4) as [E|[E|[E|E]]] by lia; subst l; cbn; [now exists 8|now exists 8|now exists 2|].
    now destruct Z.
  - split; [reflexivity|]. split; [repeat split; try (left; vm_compute; discriminate); vm_compute; discriminate|].
    do 2 eexists. split; [vm_compute; reflexivity|]. split; [reflexivity|]. vm_compute. now split.
Qed.

(** FreeBSD: likewise, with the number of packages counted in the kernel's text. *)
Theorem x86_freebsd_describes_machine : forall calloc_ok x a packages cpp tpc spec, 0 < packages -> 0 < cpp -> 0 < tpc ->
  fa_spec a = Some spec -> package_groups spec packages ->
  fa_cores a = Some (Z.of_nat (packages * cpp)) -> fa_threads_per_core a = Some (Z.of_nat tpc) ->
  (N.of_nat (packages * cpp * tpc) < two32)%N -> fields_defined x -> (forall b, calloc_ok b = true) ->
  exists o t, x86_freebsd_init calloc_ok x a = Ok o /\ o_published o = Some t /\
    describes packages cpp tpc x t /\ caches_described packages cpp tpc (fun _ => 0) x t /\
    (fields_suffice packages cpp tpc x -> apic_described cpp x t).
Proof. exact freebsd_describes. Qed.
Print Assumptions x86_freebsd_describes_machine.

(** The numbers of groups of both kinds decide the number of packages, whatever else the text
    contains. *)
Theorem x86_freebsd_packages : forall spec, exists n2 n1,
  occurrences (text "<group level=""2"" cache-level=""0"">") spec n2 /\ occurrences (text "<group level=""1"" ") spec n1 /\
  count_packages spec = Ok (if n2 =? 0 then n1 else n2).
Proof. exact count_packages_ok. Qed.
Print Assumptions x86_freebsd_packages.

Definition freebsd_sample (cores : Z) : freebsd_answers :=
  FreebsdAnswers (Some (text "<groups><group level=""1"" cache-level=""0""><children><group level=""2"" cache-level=""0""></group>" ++
                        text "<group level=""2"" cache-level=""0""></group></children></group></groups>")) (Some cores) (Some 2%Z).
Example x86_freebsd_case : exists o t, x86_freebsd_init (fun _ => true) sample_info (freebsd_sample 8) = Ok o /\ o_published o = Some t /\
  length (t_packages t) = 2 /\ map ca_processor_count (t_l3 t) = [8; 8] /\ length (t_l2 t) = 8.
Proof. do 2 eexists. split; [vm_compute; reflexivity|]. split; [reflexivity|]. vm_compute. repeat split. Qed.

(** A number of threads that wraps to zero ends initialisation, and leaves nothing behind. *)
Theorem x86_freebsd_wrapped : forall calloc_ok x a packages cpp tpc spec, 0 < packages -> 0 < cpp -> 0 < tpc ->
  fa_spec a = Some spec -> package_groups spec packages ->
  fa_cores a = Some (Z.of_nat (packages * cpp)) -> fa_threads_per_core a = Some (Z.of_nat tpc) ->
  u32 (N.of_nat (packages * cpp * tpc)) = 0%N ->
  (exists c, In c [xi_l1i x; X86LinuxModel.xi_l1d x; X86LinuxModel.xi_l2 x; X86LinuxModel.xi_l3 x; X86LinuxModel.xi_l4 x] /\
     (0 < g_size (X86LinuxModel.xc_geometry c))%N) ->
  x86_freebsd_init calloc_ok x a = Ok (Outcome None []).
Proof. exact freebsd_wrapped. Qed.
Print Assumptions x86_freebsd_wrapped.

Example x86_freebsd_wrapped_case : let cpp := N.to_nat 65536 in let tpc := N.to_nat 65536 in
  0 < cpp /\ 0 < tpc /\ u32 (N.of_nat (1 * cpp * tpc)) = 0%N /\ (0 < g_size (X86LinuxModel.xc_geometry (X86LinuxModel.xi_l3 sample_info)))%N.
Proof.
  cbv zeta. split; [|split; [|split]]; try (apply Nat.neq_0_lt_0; intros E; apply (f_equal N.of_nat) in E; rewrite N2Nat.id in E; discriminate); [|reflexivity].
  rewrite Nat2N.inj_mul, Nat2N.inj_mul, !N2Nat.id. reflexivity.
Qed.

(** Whatever the kernel says: what is published is consistent exactly if the numbers divide
    each other. *)
Theorem x86_mach_consistent_iff : forall calloc_ok x a o t, x86_mach_init calloc_ok x a = Ok o -> o_published o = Some t ->
  (N.of_nat (t_processors_count t) < two32)%N ->
  (consistent (t_processors t) (t_cores t) (t_clusters t) (t_packages t) <->
   Nat.divide (t_packages_count t) (t_cores_count t) /\ Nat.divide (t_cores_count t) (t_processors_count t)).
Proof. exact mach_consistent. Qed.
Print Assumptions x86_mach_consistent_iff.

Theorem x86_freebsd_consistent_iff : forall calloc_ok x a o t tpc, x86_freebsd_init calloc_ok x a = Ok o -> o_published o = Some t ->
  fa_threads_per_core a = Some (Z.of_nat tpc) -> (N.of_nat (t_cores_count t * tpc) < two32)%N ->
  (consistent (t_processors t) (t_cores t) (t_clusters t) (t_packages t) <-> Nat.divide (t_packages_count t) (t_cores_count t)).
Proof. exact freebsd_consistent. Qed.
Print Assumptions x86_freebsd_consistent_iff.

(** The same for the caches on Mach and the numbers of threads that share them. *)
Theorem x86_mach_caches_iff : forall calloc_ok x a o t, x86_mach_init calloc_ok x a = Ok o -> o_published o = Some t ->
  let says := config_says (ma_cacheconfig a) in let n := t_processors_count t in
  let core := n / t_cores_count t in let package := n / t_packages_count t in
  exact_level (xi_l1i x) n (says 1) core (t_l1i_of t) (t_l1i t) /\
  exact_level (X86LinuxModel.xi_l1d x) n (says 1) core (t_l1d_of t) (t_l1d t) /\
  exact_level (X86LinuxModel.xi_l2 x) n (says 2) (if (g_size (X86LinuxModel.xc_geometry (X86LinuxModel.xi_l3 x)) =? 0)%N then package else core)
    (t_l2_of t) (t_l2 t) /\
  exact_level (X86LinuxModel.xi_l3 x) n (says 3) package (t_l3_of t) (t_l3 t) /\
  exact_level (X86LinuxModel.xi_l4 x) n (says 4) n (t_l4_of t) (t_l4 t).
Proof. exact mach_levels. Qed.
Print Assumptions x86_mach_caches_iff.

(** Five cores in two packages: the last core points behind the packages, on both systems.
    Eight cores in five packages: undefined. *)
Theorem x86_counts_undivided_refuted :
  (exists o t c, x86_mach_init (fun _ => true) sample_info (MachAnswers (Some 5%Z) (Some 10%Z) (Some 2%Z) None) = Ok o /\ o_published o = Some t /\
     nth_error (t_cores t) 4 = Some c /\ c_package c = Some 2 /\ length (t_packages t) = 2) /\
  (exists o t c, x86_freebsd_init (fun _ => true) sample_info (freebsd_sample 5) = Ok o /\ o_published o = Some t /\
     nth_error (t_cores t) 4 = Some c /\ c_package c = Some 2 /\ length (t_packages t) = 2) /\
  x86_mach_init (fun _ => true) sample_info (MachAnswers (Some 8%Z) (Some 8%Z) (Some 5%Z) None) = UB.
Proof.
  split; [|split; [|vm_compute; reflexivity]]; do 3 eexists; (split; [vm_compute; reflexivity|]); (split; [reflexivity|]);
    (split; [reflexivity|]); vm_compute; now split.
Qed.
Print Assumptions x86_counts_undivided_refuted.

(** If only the number of logical processors cannot be read it is taken to be one, not the
    number of cores: then the threads per core are zero, and used as a divisor. *)
Theorem x86_mach_logical_failure_refuted :
  x86_mach_init (fun _ => true) sample_info (MachAnswers (Some 4%Z) None (Some 1%Z) None) = UB.
Proof. vm_compute. reflexivity. Qed.
Print Assumptions x86_mach_logical_failure_refuted.

(** A number of sharing threads that does not divide the number of threads: the last
    processors point behind the caches. *)
Theorem x86_mach_cacheconfig_refuted : exists o t,
  x86_mach_init (fun _ => true) sample_info (MachAnswers (Some 6%Z) (Some 6%Z) (Some 1%Z) (Some [6; 1; 1; 4]%N)) = Ok o /\
  o_published o = Some t /\ length (t_l3 t) = 1 /\ nth_error (t_l3_of t) 5 = Some (Some 1).
Proof. do 2 eexists. split; [vm_compute; reflexivity|]. split; [reflexivity|]. vm_compute. now split. Qed.
Print Assumptions x86_mach_cacheconfig_refuted.

(** Every index below a count gives an element and every other index NULL, provided that the
    processor has first-level caches of both kinds or of none. *)
Theorem x86_mach_indexed_getters : forall calloc_ok x a o t cpu tb i,
  x86_mach_init calloc_ok x a = Ok o -> o_published o = Some t ->
  both_or_neither x \/ ~ In tb [Caches L1i; Caches L1d] ->
  exists n, ask x86_counts (final (x86_counts_routine o)) cpu (Get_count tb) = Number n /\
    ask x86_counts (final (x86_counts_routine o)) cpu (Get_element tb i) = if (i <? n)%N then Pointer tb (N.to_nat i) else Null.
Proof. exact mach_elements. Qed.
Print Assumptions x86_mach_indexed_getters.

Theorem x86_freebsd_indexed_getters : forall calloc_ok x a o t cpu tb i,
  x86_freebsd_init calloc_ok x a = Ok o -> o_published o = Some t ->
  both_or_neither x \/ ~ In tb [Caches L1i; Caches L1d] ->
  exists n, ask x86_counts (final (x86_counts_routine o)) cpu (Get_count tb) = Number n /\
    ask x86_counts (final (x86_counts_routine o)) cpu (Get_element tb i) = if (i <? n)%N then Pointer tb (N.to_nat i) else Null.
Proof. exact freebsd_elements. Qed.
Print Assumptions x86_freebsd_indexed_getters.

(** With a data cache only, there are as many instruction caches as data caches, at NULL. *)
Theorem x86_counts_l1_refuted :
  let x := XInfo 1 2 3 0 1 1 2 (sample_cache 0 0) (sample_cache 32768 1) (sample_cache 262144 1) (sample_cache 8388608 3) (sample_cache 0 0) in
  (exists o, x86_mach_init (fun _ => true) x mach_sample = Ok o /\
     ask x86_counts (final (x86_counts_routine o)) None (Get_count (Caches L1i)) = Number 8 /\
     ask x86_counts (final (x86_counts_routine o)) None (Get_element (Caches L1i) 0) = Undefined) /\
  (exists o, x86_freebsd_init (fun _ => true) x (freebsd_sample 8) = Ok o /\
     ask x86_counts (final (x86_counts_routine o)) None (Get_count (Caches L1i)) = Number 8 /\
     ask x86_counts (final (x86_counts_routine o)) None (Get_element (Caches L1i) 0) = Undefined).
Proof. intros x. split; eexists; (split; [vm_compute; reflexivity|]); vm_compute; now split. Qed.
Print Assumptions x86_counts_l1_refuted.

(** The core field of APIC ids is not the position in the package if the cores of a package
    do not fill the field: two packages of six cores. *)
Theorem x86_mach_apic_core_field_refuted : exists o t p,
  let x := XInfo 1 2 3 0 1 1 3 (sample_cache 32768 1) (sample_cache 32768 1) (sample_cache 262144 1) (sample_cache 0 0) (sample_cache 0 0) in
  x86_mach_init (fun _ => true) x (MachAnswers (Some 12%Z) (Some 24%Z) (Some 2%Z) None) = Ok o /\ o_published o = Some t /\
  nth_error (t_processors t) 12 = Some p /\ p_core p = Some 6 /\ option_map c_core_id (nth_error (t_cores t) 6) = Some 0 /\
  field (p_apic_id p) 1 3 = 6%N.
Proof. do 3 eexists. intros x. split; [vm_compute; reflexivity|]. split; [reflexivity|]. split; [reflexivity|]. vm_compute. repeat split. Qed.
Print Assumptions x86_mach_apic_core_field_refuted.

(** What stays allocated: exactly what is published, or nothing.  On Mach memory is kept if
    an array of caches cannot be allocated. *)
Theorem x86_freebsd_memory : forall calloc_ok x a o, x86_freebsd_init calloc_ok x a = Ok o ->
  match o_published o with
  | None => o_live o = []
  | Some t => forall b, In b (o_live o) <-> published_block x t b
  end.
Proof. exact freebsd_memory. Qed.
Print Assumptions x86_freebsd_memory.

Theorem x86_mach_memory : forall calloc_ok x a o, x86_mach_init calloc_ok x a = Ok o ->
  match o_published o with
  | None => o_live o = [] \/ exists b, calloc_ok b = false /\ ~ In b objects_blocks
  | Some t => forall b, In b (o_live o) <-> published_block x t b
  end.
Proof. exact mach_memory. Qed.
Print Assumptions x86_mach_memory.

Theorem x86_mach_leak_refuted :
  x86_mach_init (fun b => negb (block_eqb b B_l2)) sample_info mach_sample =
  Ok (Outcome None [B_processors; B_cores; B_clusters; B_packages; B_l1i; B_l1d]).
Proof. vm_compute. reflexivity. Qed.
Print Assumptions x86_mach_leak_refuted.

Example x86_freebsd_memory_case :
  x86_freebsd_init (fun b => negb (block_eqb b B_l2)) sample_info (freebsd_sample 8) = Ok (Outcome None []).
Proof. vm_compute. reflexivity. Qed.
