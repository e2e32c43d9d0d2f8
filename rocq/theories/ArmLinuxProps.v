(** Property theorems about ARM Linux detection: C29, C30, C31, and the parts of C02, C05,
    C06, C07, C27, C39, C42 and C51 that concern it. *)
From Verif Require Import Base Sorting Text LinuxTextModel LinuxTextSpec TopologySpec X86LinuxSpec RiscvSample ApiModel OnceModel ApiProofs
  ArmMidrModel ArmClustersModel ArmClusterMidrModel ArmCpuinfoModel ArmCpuinfoSpec ArmLinuxModel ArmLinuxSpec ArmOrderProofs ArmDetectProofs
  ArmInitProofs ArmClockProofs ArmApiModel ArmApiProofs ArmUarchModel ArmCacheModel ArmCacheSpec ArmDecodersModel ArmLibraryProofs
  ArmClustersSample ArmCpuinfoSample ArmLinuxSample ArmMidrSpec.
Open Scope nat_scope.

(** ** C29: the tables *)

(** If all usable CPUs are online and of one architecture version, then, whatever the
    sort does with equal elements and whichever allocation fails, either the tables
    describe the machine ([arm_reports]) or nothing is left behind. *)
Theorem arm_linux_describes_machine : forall char_signed arm32 android garbage default sorter calloc_ok d fs max possible present ms version,
  arm_files_say arm32 default fs max possible present ms ->
  all_online (arm_usable max possible present) ms version ->
  decoders_answer d ms -> sorts (cmp_arm_linux_processor arm32) sorter -> forall o,
  arm_linux_init char_signed arm32 android garbage default sorter calloc_ok d fs = Ok o ->
  match ao_published o with
  | Some t => arm_reports arm32 d (arm_usable max possible present) ms version t
  | None => ao_live o = [] /\ exists b, calloc_ok b = false
  end.
Proof. exact init_reports. Qed.
Print Assumptions arm_linux_describes_machine.

(** There is no undefined behaviour if no list of siblings has an over-long entry. *)
Theorem arm_linux_terminates : forall char_signed arm32 android garbage default sorter calloc_ok d fs max possible present ms version,
  arm_files_say arm32 default fs max possible present ms ->
  all_online (arm_usable max possible present) ms version ->
  decoders_answer d ms -> sorts (cmp_arm_linux_processor arm32) sorter -> sibling_commas fs ->
  exists o, arm_linux_init char_signed arm32 android garbage default sorter calloc_ok d fs = Ok o.
Proof. exact init_total. Qed.
Print Assumptions arm_linux_terminates.

(** The decoders of the library always answer if that of the chip does, so the theorems apply to
    them; ArmPackageProps is about the decoders of the chip. *)
Theorem arm_linux_decoders_answer : forall b chipset_of ms, chipset_answers chipset_of ms -> decoders_answer (library_decoders b chipset_of) ms.
Proof. exact library_answers. Qed.
Print Assumptions arm_linux_decoders_answer.

Example arm_linux_machine_case :
  arm_files_say false 64 (arm_machine_files big_little) 64 (Some (singles (m_cpus big_little))) (Some (singles (m_cpus big_little)))
    (meanings big_little) /\
  all_online (machine_usable big_little) (meanings big_little) 8 /\ decoders_answer (library64 unknown_chip) (meanings big_little) /\
  sorts (cmp_arm_linux_processor false) (arm_sort false) /\
  groups_say (machine_usable big_little) (arm_machine_files big_little) (m_group big_little) /\
  exists o t, detect big_little unknown_chip = Ok o /\ ao_published o = Some t /\
    map p_linux_id (at_processors t) = [4; 5; 0; 1; 2; 3]%N /\ map p_cluster (at_processors t) = map Some [0; 0; 1; 1; 1; 1] /\
    map c_uarch (at_cores t) = [u_cortex_a75; u_cortex_a75; u_cortex_a55; u_cortex_a55; u_cortex_a55; u_cortex_a55] /\
    map (fun c => (cl_processor_start c, cl_processor_count c)) (at_clusters t) = [(0, 2); (2, 4)] /\
    map (fun u => (au_uarch u, au_processors u)) (at_uarchs t) = [(u_cortex_a75, 2); (u_cortex_a55, 4)] /\
    at_l2_of t = map Some [0; 1; 2; 3; 4; 5] /\ at_l3_of t = repeat (Some 0) 6 /\
    at_processor_map t = map Some [2; 3; 4; 5; 0; 1] /\ at_uarch_map t = Some [1; 1; 1; 1; 0; 0].
Proof.
  split; [apply machine_files_say, big_little_ok|]. split; [apply machine_all_online; [apply big_little_ok|vm_compute; reflexivity]|].
  split; [apply library_answers; intros h r n _; now exists unknown_chip|]. split; [apply arm_sort_sorts|].
  split.
  { apply machine_groups; [apply big_little_ok|]. intros c Hc. cbn in Hc. repeat (destruct Hc as [<-|Hc]; [reflexivity|]). destruct Hc. }
  do 2 eexists. split; [vm_compute; reflexivity|]. split; [reflexivity|]. repeat split; vm_compute; reflexivity.
Qed.

(** One CPU of eight is offline: it is reported nevertheless, instead of an online one,
    for which the lookups then give nothing or a wrong answer; a cluster and a cache
    have ranges outside the table. *)
Theorem arm_linux_offline_cpu_refuted : exists m o t,
  arm_files_say false 64 (arm_machine_files m) 64 (Some (singles (m_cpus m))) (Some (singles (m_cpus m))) (meanings m) /\
  detect m unknown_chip = Ok o /\ ao_published o = Some t /\
  ~ online (meanings m) 7 /\ In 7%N (map p_linux_id (at_processors t)) /\
  machine_usable m 3 /\ online (meanings m) 3 /\ ~ In 3%N (map p_linux_id (at_processors t)) /\
  ask arm_linux (arm_globals t) (Some 3%N) Get_current_processor = Null /\
  (* CPU 3 is a Cortex-A53 *)
  ask arm_linux (arm_globals t) (Some 3%N) Get_current_uarch_index = Number 0 /\
  option_map au_uarch (nth_error (at_uarchs t) 0) = Some u_cortex_a57 /\
  (exists c, In c (at_l2 t) /\ length (at_processors t) < ca_processor_start c + ca_processor_count c) /\
  (exists c, In c (at_clusters t) /\ length (at_processors t) < cl_processor_start c + cl_processor_count c).
Proof.
  exists one_offline. do 2 eexists. split; [apply machine_files_say, one_offline_ok|].
  split; [vm_compute; reflexivity|]. split; [reflexivity|].
  split; [intros X; apply X; reflexivity|]. split; [cbn; tauto|].
  split; [apply machine_usable_iff; [repeat constructor|cbn; tauto]|]. split; [discriminate|].
  split; [cbn; intros X; repeat (destruct X as [X|X]; [discriminate X|]); exact X|].
  split; [reflexivity|]. split; [reflexivity|]. split; [reflexivity|].
  split; eexists.
  - split; [right; left; reflexivity|cbn; lia].
  - split; [right; right; left; reflexivity|cbn; lia].
Qed.
Print Assumptions arm_linux_offline_cpu_refuted.

(** No CPU in /proc/cpuinfo although some are usable: the first processor is read from an
    empty table. *)
Theorem arm_linux_no_cpu_listed_refuted : exists fs ms,
  arm_files_say false 64 fs 64 (Some (singles [0])) (Some (singles [0])) ms /\
  arm_usable 64 (Some (singles [0])) (Some (singles [0])) 0 /\
  arm_linux_init true false false junk 64 (arm_sort false) (fun _ => true) (library64 unknown_chip) fs = UB.
Proof.
  exists (arm_machine_files (Machine [0] [] (fun _ => 0) (fun _ => "0"%string))), [Nothing].
  split; [|split; [apply (machine_usable_iff (Machine [0] [] (fun _ => 0) (fun _ => "0"%string))); [repeat constructor|now left]|vm_compute; reflexivity]].
  destruct (machine_files_say false thunderx thunderx_ok) as [F1 F2 F3 F4 F5 _]. split; auto.
  split; [constructor|]. exists [[]]. split; [reflexivity|]. split; [discriminate|]. split; [repeat constructor; intros []|].
  split; [cbn; lia|]. constructor; [|constructor]. apply ArmCpuinfoSample.blank_nothing.
Qed.
Print Assumptions arm_linux_no_cpu_listed_refuted.

(** Different architecture versions in a cluster: a pointer far outside the array is made. *)
Theorem arm_linux_versions_differ_refuted :
  arm_files_say false 64 (arm_machine_files two_versions) 64 (Some (singles [0; 1])) (Some (singles [0; 1])) (meanings two_versions) /\
  (forall c, machine_usable two_versions c -> online (meanings two_versions) c) /\
  detect two_versions unknown_chip = UB.
Proof.
  split; [apply (machine_files_say false two_versions), two_versions_ok|]. split; [|vm_compute; reflexivity].
  intros c Hc. apply machine_usable_iff in Hc; [|repeat constructor]. cbn in Hc. destruct Hc as [<-|[<-|[]]]; discriminate.
Qed.
Print Assumptions arm_linux_versions_differ_refuted.

(** ** C29, C30, C31: clusters and main id registers as the kernel gives them *)

Theorem arm_linux_follows_kernel : forall char_signed arm32 android garbage default sorter calloc_ok d fs max possible present ms version,
  arm_files_say arm32 default fs max possible present ms ->
  all_online (arm_usable max possible present) ms version ->
  decoders_answer d ms -> sorts (cmp_arm_linux_processor arm32) sorter -> forall group,
  groups_say (arm_usable max possible present) fs group ->
  (exists o, arm_linux_init char_signed arm32 android garbage default sorter calloc_ok d fs = Ok o) /\
  forall o t, arm_linux_init char_signed arm32 android garbage default sorter calloc_ok d fs = Ok o -> ao_published o = Some t ->
    clusters_follow t group /\ forall midr, midrs_given (arm_usable max possible present) ms group midr -> midrs_follow t midr.
Proof.
  exact (fun sg a an g de so ca d fs ma po pr ms ve FS ON DA SO gr G =>
    conj (init_total_groups sg a an g de so ca d fs ma po pr ms ve FS ON DA SO gr G)
         (fun o t => init_groups sg a an g de so ca d fs ma po pr ms ve FS ON DA SO gr o t G)).
Qed.
Print Assumptions arm_linux_follows_kernel.

(** The kernel gives a processor as a sibling of processors of another design: it is reported as one of theirs, although
    /proc/cpuinfo tells its own. *)
Theorem arm_linux_siblings_of_two_designs_refuted : exists m o t i p c,
  arm_files_say false 64 (arm_machine_files m) 64 (Some (singles (m_cpus m))) (Some (singles (m_cpus m))) (meanings m) /\
  all_online (machine_usable m) (meanings m) 8 /\ groups_say (machine_usable m) (arm_machine_files m) (m_group m) /\
  detect m unknown_chip = Ok o /\ ao_published o = Some t /\
  nth_error (at_processors t) i = Some p /\ nth_error (at_cores t) i = Some c /\
  gives_midr (meanings m) (N.to_nat (p_linux_id p)) 0x411FD0A0 /\
  design (c_cpuid c) = (0x41, 0xD05)%N /\ c_uarch c = u_cortex_a55.
Proof.
  exists one_group. do 2 eexists. exists 4. do 2 eexists. split; [apply machine_files_say, one_group_ok|].
  split; [apply machine_all_online; [apply one_group_ok|vm_compute; reflexivity]|].
  split; [apply machine_groups; [apply one_group_ok|intros c Hc; cbn in Hc; repeat (destruct Hc as [<-|Hc]; [reflexivity|]); destruct Hc]|].
  split; [vm_compute; reflexivity|]. split; [reflexivity|]. split; [reflexivity|]. split; [reflexivity|]. split; [|split; reflexivity].
  split; [exists 8%N, []; vm_compute; tauto|]. intros [] F; try congruence; (split; [eexists; vm_compute; eauto 12|vm_compute; reflexivity]).
Qed.
Print Assumptions arm_linux_siblings_of_two_designs_refuted.

(** ** C83: the order *)

Theorem arm_linux_order : forall char_signed arm32 android garbage default calloc_ok d fs max possible present ms version,
  arm_files_say arm32 default fs max possible present ms ->
  all_online (arm_usable max possible present) ms version -> decoders_answer d ms -> forall sorter group khz o t,
  sorts (cmp_arm_linux_processor arm32) sorter ->
  groups_say (arm_usable max possible present) fs group -> clocks_say (arm_usable max possible present) fs khz ->
  arm_linux_init char_signed arm32 android garbage default sorter calloc_ok d fs = Ok o -> ao_published o = Some t ->
  ordered_by_clock (arm_usable max possible present) group khz t.
Proof. exact init_ordered. Qed.
Print Assumptions arm_linux_order.

(** The tables do not depend on what the C library's qsort does. *)
Theorem arm_linux_any_sort : forall char_signed arm32 android garbage default calloc_ok d fs max possible present ms version,
  arm_files_say arm32 default fs max possible present ms ->
  all_online (arm_usable max possible present) ms version -> decoders_answer d ms -> forall sorter sorter',
  sorts (cmp_arm_linux_processor arm32) sorter -> sorts (cmp_arm_linux_processor arm32) sorter' ->
  arm_linux_init char_signed arm32 android garbage default sorter calloc_ok d fs =
  arm_linux_init char_signed arm32 android garbage default sorter' calloc_ok d fs.
Proof. exact any_sort. Qed.
Print Assumptions arm_linux_any_sort.

(** The slow pair last, the pair with the highest numbers first. *)
Example arm_linux_order_case :
  let khz c := Some (dec_value (text (m_khz three_pairs c))) in
  arm_files_say false 64 (arm_machine_files three_pairs) 64 (Some (singles (m_cpus three_pairs))) (Some (singles (m_cpus three_pairs)))
    (meanings three_pairs) /\
  all_online (machine_usable three_pairs) (meanings three_pairs) 8 /\
  groups_say (machine_usable three_pairs) (arm_machine_files three_pairs) (m_group three_pairs) /\
  clocks_say (machine_usable three_pairs) (arm_machine_files three_pairs) khz /\
  group_clock (machine_usable three_pairs) (m_group three_pairs) khz 1 2200000 /\
  group_clock (machine_usable three_pairs) (m_group three_pairs) khz 5 2800000 /\
  first_of_group (machine_usable three_pairs) (m_group three_pairs) 5 4 /\
  exists o t, detect three_pairs unknown_chip = Ok o /\ ao_published o = Some t /\
    map p_linux_id (at_processors t) = [4; 5; 2; 3; 0; 1]%N /\ map (fun c => design (c_cpuid c)) (at_cores t) = repeat (0x41, 0xD0B)%N 6.
Proof.
  intros khz.
  assert (ONL : forall c, In c (m_cpus three_pairs) -> is_online three_pairs c = true)
    by (intros c Hc; cbn in Hc; repeat (destruct Hc as [<-|Hc]; [reflexivity|]); destruct Hc).
  assert (U : forall c, In c (m_cpus three_pairs) -> machine_usable three_pairs c)
    by (intros c Hc; apply machine_usable_iff; [apply three_pairs_ok|exact Hc]).
  split; [apply machine_files_say, three_pairs_ok|]. split; [apply machine_all_online; [apply three_pairs_ok|vm_compute; reflexivity]|].
  split; [apply machine_groups; [apply three_pairs_ok|exact ONL]|]. split.
  { apply machine_clocks; [apply three_pairs_ok|exact ONL|]. intros c Hc. cbn in Hc.
    repeat (destruct Hc as [<-|Hc]; [split; [digits|split; [reflexivity|vm_compute; lia]]|]). destruct Hc. }
  split.
  { apply (clock_told _ _ khz 1 0); [apply U; cbn; tauto|reflexivity|discriminate|lia]. }
  split.
  { apply (clock_told _ _ khz 5 4); [apply U; cbn; tauto|reflexivity|discriminate|].
    intros k Hk _ G. do 4 (destruct k as [|k]; [discriminate G|]). lia. }
  split.
  { split; [apply U; cbn; tauto|]. split; [reflexivity|]. intros k _ G. do 4 (destruct k as [|k]; [discriminate G|]). lia. }
  do 2 eexists. split; [vm_compute; reflexivity|]. split; [reflexivity|]. split; reflexivity.
Qed.

(** Each microarchitecture is listed once, as one would expect of cpuinfo_get_uarchs:
    not if cores of the same kind have frequencies above and below others. *)
Theorem arm_linux_uarchs_once_refuted : exists o t,
  all_online (machine_usable alternating) (meanings alternating) 8 /\
  detect alternating unknown_chip = Ok o /\ ao_published o = Some t /\ map au_uarch (at_uarchs t) = [u_cortex_a76; u_cortex_a77; u_cortex_a76].
Proof.
  do 2 eexists. split; [apply machine_all_online; [apply alternating_ok|vm_compute; reflexivity]|].
  split; [vm_compute; reflexivity|]. split; reflexivity.
Qed.
Print Assumptions arm_linux_uarchs_once_refuted.

(** ** C39: the caches in the tables *)

Theorem arm_linux_caches_sound : forall b chipset_of usable ms version t,
  arm_reports false (library_decoders b chipset_of) usable ms version t ->
  Forall (fun c => sound_cache (ca_geometry c)) (at_l1i t) /\ Forall (fun c => sound_cache (ca_geometry c)) (at_l1d t) /\
  Forall (fun c => sound_cache (ca_geometry c)) (at_l2 t).
Proof. exact library_sound. Qed.
Print Assumptions arm_linux_caches_sound.

(** Three clusters with third-level caches of 1 MB, 1 MB and none: the second one's is
    lost. *)
Theorem arm_linux_l3_lost_refuted : exists o t i d l2 l3,
  all_online (machine_usable exynos) (meanings exynos) 8 /\
  detect exynos exynos_chip = Ok o /\ ao_published o = Some t /\
  decoded (library64 exynos_chip) exynos_chip 8 t 1 i d l2 l3 /\ g_size l3 = (1024 * 1024)%N /\ nth_error (at_l3_of t) 1 = Some None.
Proof.
  do 6 eexists. split; [apply machine_all_online; [apply exynos_ok|vm_compute; reflexivity]|].
  split; [vm_compute; reflexivity|]. split; [reflexivity|]. split.
  { do 3 eexists. split; [reflexivity|]. split; [reflexivity|]. split; [reflexivity|]. vm_compute. reflexivity. }
  split; reflexivity.
Qed.
Print Assumptions arm_linux_l3_lost_refuted.

(** A 32-bit kernel that prints the first-level caches: these are then reported as used by
    no processor. *)
Theorem arm_linux_printed_l1_refuted : exists o t c,
  arm_files_say true 64 old_kernel_files 64 (Some (singles [0])) (Some (singles [0])) old_kernel_meanings /\
  arm_linux_init true true false junk 64 (arm_sort true) (fun _ => true) (library_decoders gnu32 (fun _ _ _ => Ok unknown_chip)) old_kernel_files = Ok o /\
  ao_published o = Some t /\ at_l1i t = [c] /\ g_size (ca_geometry c) = 16384%N /\ ca_processor_count c = 0.
Proof.
  do 3 eexists. split; [exact old_kernel_says|]. split; [vm_compute; reflexivity|]. split; [reflexivity|]. split; [reflexivity|]. split; reflexivity.
Qed.
Print Assumptions arm_linux_printed_l1_refuted.

(** ** C27 and C51: the maximum cache size *)

Theorem arm_linux_max_cache_size : forall arm32 d usable ms version t cpu,
  arm_reports arm32 d usable ms version t -> max_size_rule d t /\
  ask arm_linux (arm_globals t) cpu Get_max_cache_size = Number (at_max_cache_size t).
Proof. exact (fun a d u ms v t cpu R => conj (rp_max a d u ms v t R) eq_refl). Qed.
Print Assumptions arm_linux_max_cache_size.

Theorem arm_linux_max_cache_size_refuted : exists o t c n,
  all_online (machine_usable thunderx) (meanings thunderx) 8 /\
  detect thunderx unknown_chip = Ok o /\ ao_published o = Some t /\ In c (at_l2 t) /\
  ask arm_linux (arm_globals t) None Get_max_cache_size = Number n /\ (n < g_size (ca_geometry c))%N.
Proof.
  do 4 eexists. split; [apply machine_all_online; [apply thunderx_ok|vm_compute; reflexivity]|].
  split; [vm_compute; reflexivity|]. split; [reflexivity|]. split; [now left|]. split; [reflexivity|]. vm_compute. reflexivity.
Qed.
Print Assumptions arm_linux_max_cache_size_refuted.

(** ** C42: the comparator *)

Theorem arm_linux_comparator_order : forall arm32, total_preorder (cmp_arm_linux_processor arm32) /\
  forall a b, cmp_arm_linux_processor arm32 a b = 0%Z -> a_id a = a_id b.
Proof. exact (fun arm32 => conj (cmp_arm_preorder arm32) (cmp_arm_distinct arm32)). Qed.
Print Assumptions arm_linux_comparator_order.

(** A Cortex-A53 and a Cortex-A57; equal cores by the number of the CPU. *)
Example arm_linux_comparator_case :
  let p id midr := AProc af_valid midr 0 0 0 0 id 0 0 0 areport0 in
  (cmp_arm_linux_processor false (p 0 0x410FD034%N) (p 4 0x411FD071%N), cmp_arm_linux_processor false (p 4 0x411FD071%N) (p 0 0x410FD034%N),
   cmp_arm_linux_processor false (p 1 0x410FD034%N) (p 2 0x410FD034%N)) = (1, -1, -1)%Z.
Proof. vm_compute. reflexivity. Qed.

(** ** C02, C05, C06, C07 *)

Theorem arm_linux_indexed_getters : forall char_signed arm32 android garbage default sorter calloc_ok d fs o t,
  arm_linux_init char_signed arm32 android garbage default sorter calloc_ok d fs = Ok o -> ao_published o = Some t -> forall table index cpu, exists n,
  ask arm_linux (arm_globals t) cpu (Get_count table) = Number n /\
  ask arm_linux (arm_globals t) cpu (Get_element table index) = if (index <? n)%N then Pointer table (N.to_nat index) else Null.
Proof. exact arm_elements. Qed.
Print Assumptions arm_linux_indexed_getters.

Theorem arm_linux_all_or_nothing : forall o events1 i getter a events2 s,
  run arm_linux (arm_linux_routine o) system0 (events1 ++ Getter_ends i getter a :: events2) s ->
  a = Fatal \/ exists t cpu, ao_published o = Some t /\ a = ask arm_linux (arm_globals t) cpu getter.
Proof. exact arm_any_schedule. Qed.
Print Assumptions arm_linux_all_or_nothing.

Theorem arm_linux_flag_raised_last : forall o,
  flag_last (arm_linux_routine o) /\ (publishes (arm_linux_routine o) <-> ao_published o <> None).
Proof. exact (fun o => conj (arm_linux_flag_last o) (arm_linux_publishes o)). Qed.
Print Assumptions arm_linux_flag_raised_last.

(** If /proc/cpuinfo can be read, the blocks that stay allocated are exactly those that a
    published variable points to, whichever allocation fails. *)
Theorem arm_linux_memory : forall char_signed arm32 android garbage default sorter calloc_ok d fs o,
  arm_linux_init char_signed arm32 android garbage default sorter calloc_ok d fs = Ok o ->
  match ao_published o with
  | None => (exists ms, arm_cpuinfo_says arm32 (amf_cpuinfo fs) ms) -> ao_live o = []
  | Some t => NoDup (ao_live o) /\ forall b, In b (ao_live o) <-> arm_points_to t b
  end.
Proof. exact init_memory. Qed.
Print Assumptions arm_linux_memory.

Example arm_linux_memory_case : exists o,
  arm_linux_init true false false junk 64 (arm_sort false) (fun b => negb (ablock_eqb b A_l3)) (library64 unknown_chip) (arm_machine_files big_little) = Ok o /\
  ao_published o = None /\ ao_live o = [] /\ ao_isa o = true.
Proof. eexists. split; [vm_compute; reflexivity|]. repeat split. Qed.

Theorem arm_linux_leak_refuted : exists fs o,
  arm_linux_init true false false junk 64 (arm_sort false) (fun _ => true) (library64 unknown_chip) fs = Ok o /\
  ao_published o = None /\ ao_live o = [A_linux_processors].
Proof.
  set (m := arm_machine_files thunderx).
  exists (ArmFiles (amf_kernel_max m) (amf_possible_max m) (amf_present_max m) (amf_possible m) (amf_present m) no_file (amf_cpu m)).
  eexists. split; [vm_compute; reflexivity|]. split; reflexivity.
Qed.
Print Assumptions arm_linux_leak_refuted.

Theorem arm_linux_current_lookups : forall arm32 d usable ms version t cpu,
  arm_reports arm32 d usable ms version t -> current_says t cpu.
Proof. exact (fun a d u ms v t cpu R => arm_current t cpu (rp_maps a d u ms v t R)). Qed.
Print Assumptions arm_linux_current_lookups.

Theorem arm_linux_current_uarch : forall arm32 d usable ms version t cpu default,
  arm_reports arm32 d usable ms version t -> current_uarch_says t cpu default.
Proof.
  exact (fun a d u ms v t cpu default R => match rp_kinds a d u ms v t R with
    ex_intro _ kind K => arm_current_uarch t kind cpu default (rp_maps a d u ms v t R) K end).
Qed.
Print Assumptions arm_linux_current_uarch.

Example arm_linux_answers_case : exists o t, detect big_little unknown_chip = Ok o /\ ao_published o = Some t /\
  ask arm_linux (arm_globals t) (Some 4%N) Get_current_processor = Pointer Processors 0 /\
  ask arm_linux (arm_globals t) (Some 1%N) Get_current_core = Pointer Cores 3 /\
  ask arm_linux (arm_globals t) (Some 6%N) Get_current_processor = Null /\
  ask arm_linux (arm_globals t) (Some 1%N) Get_current_uarch_index = Number 1 /\
  ask arm_linux (arm_globals t) (Some 6%N) (Get_current_uarch_index_with_default 7) = Number 7 /\
  ask arm_linux (arm_globals t) None (Get_element (Caches L3) 0) = Pointer (Caches L3) 0 /\
  ask arm_linux (arm_globals t) None (Get_element Clusters 2) = Null.
Proof. do 2 eexists. split; [vm_compute; reflexivity|]. split; [reflexivity|]. repeat split. Qed.
