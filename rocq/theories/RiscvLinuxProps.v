(** Property theorems about RISC-V Linux detection: C34, C46, C60, C82, and the parts of
    C02, C05, C06, C07 and C42 that concern it. *)
From Verif Require Import Base Sorting Text LinuxTextModel LinuxTextSpec LinuxTextProofs TopologySpec X86LinuxSpec X86DetectProofs
  ApiModel OnceModel ApiProofs RiscvLinuxModel RiscvLinuxSpec RiscvApiModel RiscvInitProofs RiscvVendorProofs RiscvDetailProofs RiscvApiProofs RiscvSample.
Open Scope nat_scope.

(** ** C34 *)

(** If the kernel's lists describe a machine whose groups are nested and have
    consecutive CPU numbers, and the sort leaves a sorted table alone, then the
    tables describe that machine. *)
Theorem riscv_linux_describes_machine : forall char_signed default sorter fs cpus group,
  riscv_files_say default fs cpus group -> nested cpus group -> contiguous cpus group -> order_keeping sorter ->
  exists t o, riscv_linux_init char_signed default sorter (fun _ => true) fs = Ok o /\ ro_published o = Some t /\
    riscv_reports cpus group t /\ riscv_maps t /\
    length (rt_processors t) = length cpus /\ length (rt_cores t) = distinct_groups group RCore cpus /\
    length (rt_clusters t) = distinct_groups group RCluster cpus /\
    length (rt_packages t) = distinct_groups group RPackage cpus /\
    rt_uarchs t = (if length cpus =? 0 then [] else [UarchInfo 0 (length cpus) (length (rt_cores t))]) /\
    (forall u, In u (rt_uarch_index_map t) -> u = 0).
Proof. exact init_reports. Qed.
Print Assumptions riscv_linux_describes_machine.

(** A machine with two threads per core, two clusters and a gap in the numbers. *)
Example riscv_linux_machine_case :
  riscv_files_say 64 (machine_files smt_cpus smt_group 0) smt_cpus smt_group /\
  nested smt_cpus smt_group /\ contiguous smt_cpus smt_group /\ order_keeping stable_sort /\
  exists o t, riscv_linux_init true 64 stable_sort (fun _ => true) (machine_files smt_cpus smt_group 0) = Ok o /\
    ro_published o = Some t /\
    map p_core (rt_processors t) = map (fun c => Some c) [0; 0; 1; 1; 2; 2; 3; 3] /\
    map p_cluster (rt_processors t) = map (fun c => Some c) [0; 0; 0; 0; 1; 1; 1; 1] /\
    length (rt_cores t) = 4 /\ length (rt_clusters t) = 2 /\ length (rt_packages t) = 1 /\
    rt_processor_map t = [Some 0; Some 1; Some 2; Some 3; None; Some 4; Some 5; Some 6; Some 7].
Proof.
  split; [apply machine_says; [discriminate|repeat constructor|repeat constructor]|].
  split; [intros p q Hp Hq; cbn in Hp, Hq; repeat destruct Hp as [<-|Hp]; try destruct Hp;
    repeat destruct Hq as [<-|Hq]; try destruct Hq; cbn; (split; [discriminate || auto|auto])|].
  split.
  { intros v a b c Ha Hb Hc. cbn in Ha, Hb, Hc.
    destruct v; repeat destruct Ha as [<-|Ha]; try destruct Ha; repeat destruct Hc as [<-|Hc]; try destruct Hc;
      try (intros _ X; discriminate X); repeat destruct Hb as [<-|Hb]; try destruct Hb; intros (X & Y) Z; cbn in *; lia || reflexivity. }
  split; [exact stable_sort_sorts|].
  do 2 eexists. split; [vm_compute; reflexivity|]. split; [reflexivity|]. repeat split.
Qed.

(** Without gaps in the CPU numbers, [processor_start] and [processor_count]
    delimit the processors of the core, cluster or package. *)
Theorem riscv_linux_dense_ranges : forall n group t, contiguous (seq 0 n) group -> riscv_reports (seq 0 n) group t ->
  range_is t p_core (rt_cores t) c_processor_start c_processor_count /\
  range_is t p_cluster (rt_clusters t) cl_processor_start cl_processor_count /\
  range_is t p_package (rt_packages t) pk_processor_start pk_processor_count.
Proof. exact dense_ranges. Qed.
Print Assumptions riscv_linux_dense_ranges.

(** With any grouping, and any allocation failing: no undefined behaviour, and
    the processors are the present ones, each once. *)
Theorem riscv_linux_lists_present_cpus : forall char_signed default sorter calloc_ok fs cpus group,
  riscv_files_say default fs cpus group -> order_keeping sorter ->
  exists o, riscv_linux_init char_signed default sorter calloc_ok fs = Ok o /\
    ((forall b, calloc_ok b = true) -> ro_published o <> None) /\
    forall t, ro_published o = Some t -> riscv_maps t /\ NoDup (map p_linux_id (rt_processors t)) /\
      forall c, In (N.of_nat c) (map p_linux_id (rt_processors t)) <-> In c cpus.
Proof. exact init_lists_machine. Qed.
Print Assumptions riscv_linux_lists_present_cpus.

(** Whatever the files and whatever the sort. *)
Theorem riscv_linux_maps : forall char_signed default sorter calloc_ok fs o t, riscv_sorter sorter ->
  riscv_linux_init char_signed default sorter calloc_ok fs = Ok o -> ro_published o = Some t ->
  riscv_maps t /\ NoDup (map p_linux_id (rt_processors t)) /\
  Forall (fun p => p_linux_id p < rt_linux_cpu_max t)%N (rt_processors t) /\
  (rt_processors t <> [] -> Forall (fun u => u < length (rt_uarchs t)) (rt_uarch_index_map t)).
Proof. exact init_maps. Qed.
Print Assumptions riscv_linux_maps.

(** Reading the lists stays inside the table, whatever the lists say. *)
Theorem riscv_linux_detection_in_bounds : forall char_signed max fs, commas (f_contents (rf_present fs)) ->
  (forall v c, commas (f_contents (level_file v (rf_cpu fs c)))) -> exists r, detect_riscv char_signed max fs = Ok r.
Proof. exact detect_riscv_total. Qed.
Print Assumptions riscv_linux_detection_in_bounds.

(** An unstable sort: the first processor may not be a leader, and the index -1
    is used.  Every microarchitecture is "unknown", so all entries compare equal. *)
Theorem riscv_linux_unstable_sort_refuted : exists fs cpus group,
  riscv_files_say 64 fs cpus group /\ nested cpus group /\ contiguous cpus group /\ riscv_sorter unstable_sort /\
  riscv_linux_init true 64 unstable_sort (fun _ => true) fs = UB.
Proof.
  exists (machine_files [0; 1] plain_group 0), [0; 1], plain_group.
  split; [apply machine_says; [discriminate|repeat constructor|repeat constructor]|].
  split; [intros p q Hp Hq; now split|].
  split.
  { intros v a b c Ha Hb Hc. cbn in Ha, Hb, Hc.
    destruct v; cbn; intros; lia. }
  split; [exact unstable_sort_sorts|]. vm_compute. reflexivity.
Qed.
Print Assumptions riscv_linux_unstable_sort_refuted.

(** Cores {0,2} and {1,3}: processor 2 points to the core of CPU 1. *)
Theorem riscv_linux_interleaved_refuted : exists fs cpus group o t p q,
  riscv_files_say 64 fs cpus group /\ nested cpus group /\ order_keeping stable_sort /\
  riscv_linux_init true 64 stable_sort (fun _ => true) fs = Ok o /\ ro_published o = Some t /\
  In p (rt_processors t) /\ In q (rt_processors t) /\ p_core p = p_core q /\
  group RCore (N.to_nat (p_linux_id p)) <> group RCore (N.to_nat (p_linux_id q)).
Proof.
  exists (machine_files [0; 1; 2; 3] interleaved_group 0), [0; 1; 2; 3], interleaved_group.
  do 2 eexists. exists (Processor 0 (Some 1) (Some 0) (Some 0) 1 0), (Processor 0 (Some 1) (Some 0) (Some 0) 2 0).
  split; [apply machine_says; [discriminate|repeat constructor|repeat constructor]|].
  split; [intros p q Hp Hq; now split|]. split; [exact stable_sort_sorts|].
  split; [vm_compute; reflexivity|]. split; [reflexivity|].
  split; [right; now left|]. split; [right; right; now left|]. split; [reflexivity|]. cbn. discriminate.
Qed.
Print Assumptions riscv_linux_interleaved_refuted.

(** CPUs 2 and 3 only: [processor_start] of the first core is 2, which is no
    index into the table of processors. *)
Theorem riscv_linux_start_is_not_an_index_refuted : exists fs cpus group o t,
  riscv_files_say 64 fs cpus group /\ nested cpus group /\ contiguous cpus group /\ order_keeping stable_sort /\
  riscv_linux_init true 64 stable_sort (fun _ => true) fs = Ok o /\ ro_published o = Some t /\
  ~ range_is t p_core (rt_cores t) c_processor_start c_processor_count.
Proof.
  exists (machine_files [2; 3] plain_group 0), [2; 3], plain_group. do 2 eexists.
  split; [apply machine_says; [discriminate|repeat constructor|repeat constructor]|].
  split; [intros p q Hp Hq; now split|].
  split.
  { intros v a b c Ha Hb Hc. destruct v; cbn; intros; lia. }
  split; [exact stable_sort_sorts|].
  split; [vm_compute; reflexivity|]. split; [reflexivity|].
  intros H. specialize (H 0 _ 0 _ eq_refl eq_refl). cbn in H. destruct H as (H & _). specialize (H eq_refl). lia.
Qed.
Print Assumptions riscv_linux_start_is_not_an_index_refuted.

(** Two threads per core: [core_start] of the second cluster is 2 although the
    table has two cores, with indexes 0 and 1. *)
Theorem riscv_linux_core_start_refuted : exists fs cpus group o t l,
  riscv_files_say 64 fs cpus group /\ nested cpus group /\ contiguous cpus group /\ order_keeping stable_sort /\
  riscv_linux_init true 64 stable_sort (fun _ => true) fs = Ok o /\ ro_published o = Some t /\
  nth_error (rt_clusters t) 1 = Some l /\ cl_core_count l = 1 /\ length (rt_cores t) <= cl_core_start l.
Proof.
  exists (machine_files [0; 1; 2; 3] (fun v c => match v with RPackage => 0 | _ => c / 2 end) 0), [0; 1; 2; 3],
    (fun v c => match v with RPackage => 0 | _ => c / 2 end).
  do 3 eexists. split; [apply machine_says; [discriminate|repeat constructor|repeat constructor]|].
  split; [intros p q Hp Hq; cbn; now split|].
  split.
  { intros v a b c Ha Hb Hc. cbn in Ha, Hb, Hc.
    destruct v; try reflexivity; repeat destruct Ha as [<-|Ha]; try destruct Ha; repeat destruct Hc as [<-|Hc]; try destruct Hc;
      try (intros _ X; discriminate X); repeat destruct Hb as [<-|Hb]; try destruct Hb; intros (X & Y) Z; cbn in *; lia || reflexivity. }
  split; [exact stable_sort_sorts|].
  split; [vm_compute; reflexivity|]. split; [reflexivity|]. split; [reflexivity|]. split; [reflexivity|]. cbn. lia.
Qed.
Print Assumptions riscv_linux_core_start_refuted.

(** One present CPU is offline, so that it has no topology files: nothing is
    reported about the others. *)
Theorem riscv_linux_offline_cpu_refuted : exists fs online o,
  (forall c, f_contents (rc_core_cpus (rf_cpu fs c)) <> None <-> In c online) /\ online <> [] /\
  list_says (rf_present fs) (Some [(0, 0); (1, 1)]%N) /\
  riscv_linux_init true 64 stable_sort (fun _ => true) fs = Ok o /\ ro_published o = None.
Proof.
  set (m := machine_files [0; 1] plain_group 0).
  exists (RiscvFiles (rf_kernel_max m) (rf_present_max m) (rf_present m)
            (fun c => if c =? 0 then rf_cpu m 0 else RCpuFiles (File None []) (File None []) (File None []) (File None []) (File None []) None) 0).
  exists [0]. eexists. split.
  { intros c. cbn. destruct (Nat.eqb_spec c 0) as [->|H]; cbn; split; intros X; auto; try discriminate; try congruence.
    destruct X as [X|[]]. congruence. }
  split; [discriminate|]. split; [apply (list_file_says [0; 1]); [discriminate|repeat constructor]|].
  split; [vm_compute; reflexivity|reflexivity].
Qed.
Print Assumptions riscv_linux_offline_cpu_refuted.

(** ** C02, C05, C06, C07 *)

Theorem riscv_linux_indexed_getters : forall t table index cpu, exists n,
  ask riscv_linux (riscv_globals t) cpu (Get_count table) = Number n /\
  ask riscv_linux (riscv_globals t) cpu (Get_element table index)
  = if (index <? n)%N then Pointer table (N.to_nat index) else Null.
Proof. exact riscv_elements. Qed.
Print Assumptions riscv_linux_indexed_getters.

Theorem riscv_linux_all_or_nothing : forall o events1 i getter a events2 s,
  run riscv_linux (riscv_linux_routine o) system0 (events1 ++ Getter_ends i getter a :: events2) s ->
  a = Fatal \/ exists t cpu, ro_published o = Some t /\ a = ask riscv_linux (riscv_globals t) cpu getter.
Proof. exact riscv_any_schedule. Qed.
Print Assumptions riscv_linux_all_or_nothing.

Theorem riscv_linux_flag_raised_last : forall o,
  flag_last (riscv_linux_routine o) /\ (publishes (riscv_linux_routine o) <-> ro_published o <> None).
Proof. exact (fun o => conj (riscv_linux_flag_last o) (riscv_linux_publishes o)). Qed.
Print Assumptions riscv_linux_flag_raised_last.

(** Every block is published or freed, whichever allocation fails. *)
Theorem riscv_linux_memory : forall char_signed default sorter calloc_ok fs o,
  riscv_linux_init char_signed default sorter calloc_ok fs = Ok o ->
  match ro_published o with None => ro_live o = [] | Some _ => ro_live o = riscv_published_blocks end.
Proof. exact init_memory. Qed.
Print Assumptions riscv_linux_memory.

Example riscv_linux_memory_case : exists o,
  riscv_linux_init true 64 stable_sort (fun b => negb (rblock_eqb b R_core_map)) (machine_files smt_cpus smt_group 0) = Ok o /\
  ro_published o = None /\ ro_live o = [] /\ ro_isa o <> None.
Proof. eexists. split; [vm_compute; reflexivity|]. repeat split. discriminate. Qed.

Theorem riscv_linux_current_lookups : forall char_signed default sorter calloc_ok fs o t, riscv_sorter sorter ->
  riscv_linux_init char_signed default sorter calloc_ok fs = Ok o -> ro_published o = Some t -> forall cpu,
  ((forall i p, nth_error (rt_processors t) i = Some p -> cpu = Some (p_linux_id p) ->
      ask riscv_linux (riscv_globals t) cpu Get_current_processor = Pointer Processors i) /\
   ((forall p, In p (rt_processors t) -> cpu <> Some (p_linux_id p)) ->
      ask riscv_linux (riscv_globals t) cpu Get_current_processor = Null)) /\
  ((forall i p j, nth_error (rt_processors t) i = Some p -> cpu = Some (p_linux_id p) -> p_core p = Some j ->
      ask riscv_linux (riscv_globals t) cpu Get_current_core = Pointer Cores j) /\
   ((forall p, In p (rt_processors t) -> cpu <> Some (p_linux_id p)) ->
      ask riscv_linux (riscv_globals t) cpu Get_current_core = Null)).
Proof. exact riscv_current. Qed.
Print Assumptions riscv_linux_current_lookups.

Theorem riscv_linux_current_uarch : forall char_signed default sorter calloc_ok fs o t, riscv_sorter sorter ->
  riscv_linux_init char_signed default sorter calloc_ok fs = Ok o -> ro_published o = Some t -> forall cpu d,
  rt_processors t <> [] -> exists n u v,
  ask riscv_linux (riscv_globals t) cpu (Get_count Uarchs) = Number n /\
  ask riscv_linux (riscv_globals t) cpu Get_current_uarch_index = Number u /\ (u < n)%N /\
  ask riscv_linux (riscv_globals t) cpu (Get_current_uarch_index_with_default d) = Number v /\
  if match cpu with Some c => (c <? rt_linux_cpu_max t)%N | None => false end then (v < n)%N else v = d.
Proof. exact riscv_current_uarch. Qed.
Print Assumptions riscv_linux_current_uarch.

Example riscv_linux_answers_case : exists o t,
  riscv_linux_init true 64 stable_sort (fun _ => true) (machine_files smt_cpus smt_group 0) = Ok o /\
  ro_published o = Some t /\ riscv_sorter stable_sort /\
  ask riscv_linux (riscv_globals t) (Some 6%N) Get_current_processor = Pointer Processors 5 /\
  ask riscv_linux (riscv_globals t) (Some 6%N) Get_current_core = Pointer Cores 2 /\
  ask riscv_linux (riscv_globals t) (Some 4%N) Get_current_processor = Null /\
  ask riscv_linux (riscv_globals t) (Some 9%N) Get_current_core = Null /\
  ask riscv_linux (riscv_globals t) (Some 9%N) (Get_current_uarch_index_with_default 7) = Number 7 /\
  ask riscv_linux (riscv_globals t) (Some 6%N) (Get_current_uarch_index_with_default 7) = Number 0 /\
  ask riscv_linux (riscv_globals t) None (Get_element Cores 3) = Pointer Cores 3 /\
  ask riscv_linux (riscv_globals t) None (Get_element Cores 4) = Null /\
  ask riscv_linux (riscv_globals t) None (Get_element (Caches L2) 0) = Null.
Proof. do 2 eexists. split; [vm_compute; reflexivity|]. split; [reflexivity|]. split; [exact (proj1 stable_sort_sorts)|]. repeat split. Qed.

(** ** C60 *)

(** Whatever the files say, each published core and cluster has a processor in
    it for which the kernel tells its vendor; its microarchitecture is unknown. *)
Theorem riscv_linux_vendors : forall char_signed default sorter calloc_ok fs o t, riscv_sorter sorter ->
  riscv_linux_init char_signed default sorter calloc_ok fs = Ok o -> ro_published o = Some t ->
  (forall j c, nth_error (rt_cores t) j = Some c -> exists p, In p (rt_processors t) /\ p_core p = Some j /\
     riscv_vendor_told (rc_hwprobe (rf_cpu fs (N.to_nat (p_linux_id p)))) (c_vendor c) /\ c_uarch c = 0%N) /\
  (forall j l, nth_error (rt_clusters t) j = Some l -> exists p, In p (rt_processors t) /\ p_cluster p = Some j /\
     riscv_vendor_told (rc_hwprobe (rf_cpu fs (N.to_nat (p_linux_id p)))) (cl_vendor l) /\ cl_uarch l = 0%N).
Proof. exact riscv_vendors. Qed.
Print Assumptions riscv_linux_vendors.

Example riscv_linux_vendors_case : exists o t,
  riscv_linux_init true 64 stable_sort (fun _ => true) (machine_files smt_cpus smt_group 0) = Ok o /\ ro_published o = Some t /\
  map c_vendor (rt_cores t) = repeat 17%N 4 /\ map cl_vendor (rt_clusters t) = repeat 17%N 2 /\
  riscv_vendor_told (Some (0x489, 0x8000000000000007, 0)%N) 17 /\ riscv_vendor_told (Some (0x5b7, 0, 0)%N) 0.
Proof.
  do 2 eexists. split; [vm_compute; reflexivity|]. split; [reflexivity|]. split; [reflexivity|]. split; [reflexivity|].
  repeat split; intros X; try reflexivity; try discriminate X; now destruct X.
Qed.

(** ** C82 *)

(** On the machines of C34, the core and the cluster of each processor have the
    core id, vendor and clock that the kernel tells for their first CPU; a
    cluster's id is the number of its first CPU. *)
Theorem riscv_linux_core_details : forall char_signed default sorter fs cpus group core_id khz,
  riscv_files_say default fs cpus group -> nested cpus group -> contiguous cpus group -> order_keeping sorter ->
  riscv_numbers_say fs cpus core_id khz ->
  exists t o, riscv_linux_init char_signed default sorter (fun _ => true) fs = Ok o /\ ro_published o = Some t /\
    riscv_reports cpus group t /\ details_of_first fs cpus group core_id khz t.
Proof. exact core_details. Qed.
Print Assumptions riscv_linux_core_details.

(** The field is documented to be in Hz; it never is, unless it is 0. *)
Theorem riscv_linux_frequency_hz_refuted : forall char_signed default sorter fs cpus group core_id khz,
  riscv_files_say default fs cpus group -> nested cpus group -> contiguous cpus group -> order_keeping sorter ->
  riscv_numbers_say fs cpus core_id khz ->
  exists t o, riscv_linux_init char_signed default sorter (fun _ => true) fs = Ok o /\ ro_published o = Some t /\
    forall p c k, In p (rt_processors t) -> its_core t p c ->
      khz (hd 0 (members cpus group RCore (N.to_nat (p_linux_id p)))) = Some k -> k <> 0%N -> riscv_core_frequency c <> (k * 1000)%N.
Proof. exact frequency_not_hz. Qed.
Print Assumptions riscv_linux_frequency_hz_refuted.

(** The machine of C34's case; the clock of CPUs from 5 on is not told. *)
Example riscv_linux_core_details_case : exists o t,
  riscv_numbers_say (machine_files smt_cpus smt_group 0) smt_cpus (fun c => Some (N.of_nat c)) smt_khz /\
  riscv_linux_init true 64 stable_sort (fun _ => true) (machine_files smt_cpus smt_group 0) = Ok o /\ ro_published o = Some t /\
  map c_core_id (rt_cores t) = [0; 2; 5; 7] /\ map riscv_core_frequency (rt_cores t) = [1500000; 1500000; 0; 0]%N /\
  map cl_cluster_id (rt_clusters t) = [0; 5] /\ map riscv_cluster_frequency (rt_clusters t) = [1500000; 0]%N.
Proof.
  do 2 eexists. split; [exact smt_numbers|]. split; [vm_compute; reflexivity|]. split; [reflexivity|]. repeat split.
Qed.

(** ** C42: the comparator, on values of the enumeration *)
Theorem riscv_linux_comparator_order : let ok := enum_uarch in
  (forall a b, ok a -> ok b -> (cmp_riscv_linux_processors a b < 0 <-> cmp_riscv_linux_processors b a > 0)%Z) /\
  (forall a b c, ok a -> ok b -> ok c -> (cmp_riscv_linux_processors a b <= 0)%Z ->
     (cmp_riscv_linux_processors b c <= 0)%Z -> (cmp_riscv_linux_processors a c <= 0)%Z) /\
  (forall a b, ok a -> ok b -> (cmp_riscv_linux_processors a b = 0%Z <-> r_uarch a = r_uarch b)).
Proof. exact riscv_cmp_order. Qed.
Print Assumptions riscv_linux_comparator_order.

Example riscv_linux_comparator_case :
  let p u := RProc 0 0 0 0 u 0 rgroup0 rgroup0 rgroup0 in
  enum_uarch (p 0%N) /\ enum_uarch (p 0x00300108%N) /\ cmp_riscv_linux_processors (p 0%N) (p 0x00300108%N) = (-3145992)%Z.
Proof. repeat split. Qed.

(** ** C46 *)
Theorem riscv_linux_isa : forall rv32 hwcap, let has := has_riscv rv32 (decode_hwcap hwcap) in
  (has Has_i = true <-> kernel_names hwcap 73) /\ (has Has_m = true <-> kernel_names hwcap 77) /\
  (has Has_a = true <-> kernel_names hwcap 65) /\ (has Has_f = true <-> kernel_names hwcap 70) /\
  (has Has_d = true <-> kernel_names hwcap 68) /\ (has Has_c = true <-> kernel_names hwcap 67) /\
  (has Has_v = true <-> kernel_names hwcap 86) /\
  (has Has_g = true <-> kernel_names hwcap 73 /\ kernel_names hwcap 77 /\ kernel_names hwcap 65 /\
                        kernel_names hwcap 70 /\ kernel_names hwcap 68).
Proof. exact riscv_isa_exact. Qed.
Print Assumptions riscv_linux_isa.

Example riscv_linux_isa_case :
  map (has_riscv false (decode_hwcap 0x112D)) [Has_i; Has_e; Has_m; Has_a; Has_f; Has_d; Has_g; Has_c; Has_v] =
  [true; false; true; true; true; true; true; true; false].
Proof. reflexivity. Qed.

(** The E base is never reported, even if the kernel names it. *)
Theorem riscv_linux_isa_e_refuted : forall rv32 hwcap, has_riscv rv32 (decode_hwcap hwcap) Has_e = false.
Proof. intros []; reflexivity. Qed.
Print Assumptions riscv_linux_isa_e_refuted.

Example riscv_linux_isa_e_case : kernel_names 0x10 69.
Proof. reflexivity. Qed.
