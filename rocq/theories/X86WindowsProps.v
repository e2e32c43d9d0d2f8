(** C37: what cpuinfo says on x86 Windows. *)
From Verif Require Import Base BaseProofs TopologySpec ApiModel ApiProofs X86WindowsModel X86WindowsSpec X86CountsSpec X86WindowsFinal X86Sample.
From Verif Require X86LinuxModel X86CountsModel.
Import X86LinuxModel(xinfo, XInfo, xi_thread_offset, xi_thread_length, xi_core_offset, xi_core_length).
Import X86CountsModel(x86_counts).
Import X86WindowsModel X86WindowsSpec.
Open Scope nat_scope.

(** A machine of two packages with two cores of two threads, in two groups, and what Windows
    says about it.  Answers of another kind are mixed in. *)
Definition windows_sample : windows_answers :=
  WindowsAnswers false 2 (fun _ => 4) true
    (Some [WInfo true [(0, 15%N)]; WInfo false [(9, 1%N)]; WInfo true [(1, 15%N)]])
    (Some [WInfo true [(0, 3%N)]; WInfo true [(0, 12%N)]; WInfo true [(1, 3%N)]; WInfo true [(1, 12%N)]]).
Definition machine_sample : machine := [[[0; 1]; [2; 3]]; [[4; 5]; [6; 7]]].

Lemma mask_valid_15 sizes g : g < length sizes -> nth g sizes 0 = 4 -> forall m, (m < 16)%N -> mask_valid sizes (g, m).
Proof.
  intros L E m H. split; [exact L|]. cbn [fst snd]. rewrite E. intros b Hb. destruct (N.lt_ge_cases b (N.of_nat 4)) as [Q|Q]; [exact Q|].
  exfalso. destruct (N.eq_dec m 0) as [->|Z]; [now rewrite N.bits_0 in Hb|].
  rewrite N.bits_above_log2 in Hb; [discriminate|]. eapply N.lt_le_trans; [|exact Q]. change 16%N with (2 ^ 4)%N in H. apply N.log2_lt_pow2; [lia|exact H].
Qed.

Example windows_sample_says : windows_says windows_sample [4; 4] machine_sample.
Proof.
  constructor; try reflexivity.
  - constructor; [reflexivity| |]; repeat constructor; discriminate.
  - cbn. lia.
  - eexists. split; [reflexivity|]. split; [|reflexivity]. intros i e Hi Ht He. cbn in Hi.
    destruct Hi as [<-|[<-|[<-|[]]]]; try discriminate Ht; cbn in He; destruct He as [<-|[]]; apply mask_valid_15; cbn; lia.
  - eexists. split; [reflexivity|]. split; [|reflexivity]. intros i e Hi Ht He. cbn in Hi.
    destruct Hi as [<-|[<-|[<-|[<-|[]]]]]; cbn in He; destruct He as [<-|[]]; apply mask_valid_15; cbn; lia.
Qed.

(** Cores, packages and processors agree with the machine and with each other, the numbers
    Windows uses are kept, and if the fields are wide enough APIC ids and caches are right. *)
Theorem x86_windows_describes : forall heap_ok x a sizes m,
  windows_says a sizes m -> fields_defined x -> caches_defined x ->
  exists o, x86_windows_init heap_ok x a = Ok o /\
    (forall t, o_published o = Some t -> windows_described x sizes m t) /\
    ((forall b, heap_ok b = true) -> o_published o <> None).
Proof. exact windows_describes. Qed.
Print Assumptions x86_windows_describes.

Example sample_fields : fields_defined sample_info /\ caches_defined sample_info /\ fields_fit sample_info machine_sample.
Proof.
  split; [reflexivity|]. split.
  - intros c H _. cbn in H. repeat destruct H as [<-|H]; try reflexivity. destruct H.
  - constructor; [cbn; lia| | |cbn; discriminate]; repeat constructor; cbn; discriminate.
Qed.

Example x86_windows_describes_case : exists o t, x86_windows_init (fun _ => true) sample_info windows_sample = Ok o /\ o_published o = Some t /\
  map p_apic_id (t_processors (wt_tables t)) = [0; 1; 2; 3; 8; 9; 10; 11]%N /\
  map p_core (t_processors (wt_tables t)) = map Some [0; 0; 1; 1; 2; 2; 3; 3] /\
  map p_package (t_processors (wt_tables t)) = map Some [0; 0; 0; 0; 1; 1; 1; 1] /\
  map c_core_id (t_cores (wt_tables t)) = [0; 1; 0; 1] /\
  wt_ids t = [(0, 0); (0, 1); (0, 2); (0, 3); (1, 0); (1, 1); (1, 2); (1, 3)] /\
  t_l3_of (wt_tables t) = map Some [0; 0; 0; 0; 1; 1; 1; 1].
Proof. do 2 eexists. split; [vm_compute; reflexivity|]. split; [reflexivity|]. vm_compute. repeat split. Qed.

(** Clusters are right with one package only. *)
Theorem x86_windows_consistent_iff : forall heap_ok x a sizes m o t,
  windows_says a sizes m -> fields_defined x -> caches_defined x ->
  x86_windows_init heap_ok x a = Ok o -> o_published o = Some t ->
  (consistent (t_processors (wt_tables t)) (t_cores (wt_tables t)) (t_clusters (wt_tables t)) (t_packages (wt_tables t)) <-> length m = 1).
Proof. exact windows_consistent_iff. Qed.
Print Assumptions x86_windows_consistent_iff.

(** With two packages, processor 4 of package 1 points to cluster 0, which belongs to package 0
    and covers all processors; cluster 1 of package 1 is empty. *)
Theorem x86_windows_clusters_refuted : exists o t p c0 c1,
  x86_windows_init (fun _ => true) sample_info windows_sample = Ok o /\ o_published o = Some t /\
  nth_error (t_processors (wt_tables t)) 4 = Some p /\ p_package p = Some 1 /\ p_cluster p = Some 0 /\
  nth_error (t_clusters (wt_tables t)) 0 = Some c0 /\ cl_package c0 = Some 0 /\ cluster_processors c0 = (0, 8) /\
  nth_error (t_clusters (wt_tables t)) 1 = Some c1 /\ cl_package c1 = Some 1 /\ cluster_processors c1 = (0, 0) /\ cluster_cores c1 = (0, 0).
Proof. do 5 eexists. split; [vm_compute; reflexivity|]. split; [reflexivity|]. split; [reflexivity|]. vm_compute. repeat split. Qed.
Print Assumptions x86_windows_clusters_refuted.

(** GetMaximumProcessorCount counts processors that are not active, which no mask names: with two
    active processors of four, a core each, core 0 gets three processors. *)
Theorem x86_windows_inactive_refuted : exists o t,
  x86_windows_init (fun _ => true) sample_info
    (WindowsAnswers false 1 (fun _ => 4) true (Some [WInfo true [(0, 3%N)]]) (Some [WInfo true [(0, 1%N)]; WInfo true [(0, 2%N)]])) = Ok o /\
  o_published o = Some t /\ t_processors_count (wt_tables t) = 4 /\
  map core_processors (t_cores (wt_tables t)) = [(0, 3); (1, 1)].
Proof. do 2 eexists. split; [vm_compute; reflexivity|]. split; [reflexivity|]. vm_compute. repeat split. Qed.
Print Assumptions x86_windows_inactive_refuted.

(** Without information about packages, initialisation writes outside the arrays. *)
Theorem x86_windows_no_package_refuted :
  x86_windows_init (fun _ => true) sample_info
    (WindowsAnswers false 1 (fun _ => 1) true (Some []) (Some [WInfo true [(0, 1%N)]])) = UB.
Proof. vm_compute. reflexivity. Qed.
Print Assumptions x86_windows_no_package_refuted.

(** What stays allocated: what is published and the buffer of answers, which is never freed. *)
Theorem x86_windows_memory : forall heap_ok x a o, x86_windows_init heap_ok x a = Ok o ->
  match o_published o with
  | None => o_live o = [] \/ o_live o = [B_infos]
  | Some t => NoDup (o_live o) /\ forall b, In b (o_live o) <-> published_block (wt_tables t) b \/ b = B_infos
  end.
Proof. exact init_memory. Qed.
Print Assumptions x86_windows_memory.

Theorem x86_windows_leak_refuted :
  (exists o t, x86_windows_init (fun _ => true) sample_info windows_sample = Ok o /\ o_published o = Some t /\ In B_infos (o_live o)) /\
  x86_windows_init (fun b => negb (block_eqb b B_l2)) sample_info windows_sample = Ok (Outcome None [B_infos]).
Proof. split; [|vm_compute; reflexivity]. do 2 eexists. split; [vm_compute; reflexivity|]. split; [reflexivity|]. cbn. auto. Qed.
Print Assumptions x86_windows_leak_refuted.

(** Indexed getters. *)
Theorem x86_windows_indexed_getters : forall heap_ok x a o t cpu tb i sizes m,
  windows_says a sizes m -> fields_defined x -> caches_defined x ->
  x86_windows_init heap_ok x a = Ok o -> o_published o = Some t ->
  exists k, ask x86_counts (final (x86_windows_routine o)) cpu (Get_count tb) = Number k /\
    ask x86_counts (final (x86_windows_routine o)) cpu (Get_element tb i) = if (i <? k)%N then Pointer tb (N.to_nat i) else Null.
Proof. exact init_elements. Qed.
Print Assumptions x86_windows_indexed_getters.

Example x86_windows_indexed_getters_case : exists o, x86_windows_init (fun _ => true) sample_info windows_sample = Ok o /\
  ask x86_counts (final (x86_windows_routine o)) None (Get_count (Caches L3)) = Number 2 /\
  ask x86_counts (final (x86_windows_routine o)) None (Get_element (Caches L3) 1) = Pointer (Caches L3) 1 /\
  ask x86_counts (final (x86_windows_routine o)) None (Get_element Cores 4) = Null.
Proof. eexists. split; [vm_compute; reflexivity|]. vm_compute. repeat split. Qed.
