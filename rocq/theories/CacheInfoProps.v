(** Properties of what cache-info prints (C75). *)
From Verif Require Import Base Sorting Text LinuxTextModel TopologySpec X86CpuinfoModel X86CpuinfoSpec X86LinuxModel X86LinuxSpec
  X86FinalProofs X86Sample ReportSpec CacheInfoModel CacheInfoSpec CacheInfoProofs CacheInfoX86Proofs CacheInfoSample.
From Verif Require ArmLinuxModel ArmLinuxSample.
Open Scope N_scope.

(** Whatever caches there are, the tool prints a text from which a reader gets the largest
    size, one description of the first cache of each level that has caches, and its
    number of caches. *)
Theorem cache_info_report : forall r, re_max r < two32 ->
  good (re_l1i r) -> good (re_l1d r) -> good (re_l2 r) -> good (re_l3 r) -> good (re_l4 r) ->
  exists s d1i d1d d2 d3 d4, cache_info r = Ok s /\ read_report s = Some (re_max r, d1i ++ d1d ++ d2 ++ d3 ++ d4) /\
    level_told 1 Instruction (re_l1i r) d1i /\ level_told 1 Data (re_l1d r) d1d /\ level_told 2 Data (re_l2 r) d2 /\
    level_told 3 Data (re_l3 r) d3 /\ level_told 4 Data (re_l4 r) d4.
Proof. exact report_told. Qed.
Print Assumptions cache_info_report.

Example cache_info_report_case : good (2%nat, [sample_l1]) /\ good (1%nat, [sample_l3]) /\ good (0%nat, []) /\
  cache_info (Reported 8388608 (2%nat, [sample_l1]) (0%nat, []) (0%nat, []) (1%nat, [sample_l3]) (0%nat, [])) = Ok (
    text "Max cache size (upper bound): 8388608 bytes" ++ [10] ++
    text "L1 instruction cache: 2 x 32 KB, 8-way set associative (64 sets), 64 byte lines, shared by 2 processors" ++ [10] ++
    text "L3 unified cache: 8 MB (inclusive), 16-way set associative (8192 sets, complex indexing), 64 byte lines, shared by 8 processors" ++ [10]).
Proof.
  split; [|split; [|split; [left; reflexivity|vm_compute; reflexivity]]];
    (right; split; [reflexivity|]; eexists; eexists; split; [reflexivity|]; split; [repeat split; reflexivity|split; [reflexivity|split; reflexivity]]).
Qed.

(** A description fits no two caches of different shape. *)
Theorem cache_info_unambiguous : forall level k g h d, well_formed g -> well_formed h -> fits level k g d -> fits level k h d -> same_shape g h.
Proof. exact fits_same. Qed.
Print Assumptions cache_info_unambiguous.

Example cache_info_unambiguous_case : let g := Geometry 4096 64 1 1 64 0 in
  well_formed g /\ fits 2 Data g (Description 2 Data 1 4096 (Some false) None 1 1 false 64 0).
Proof. split; [split; [reflexivity|split; reflexivity]|]. constructor; try reflexivity. split; reflexivity. Qed.

(** On x86 Linux the description of a level fits all its caches. *)
Theorem x86_linux_cache_info : forall char_signed default sorter calloc_ok x files o t,
  qsort_contract sorter -> x86_linux_init char_signed default sorter calloc_ok x files = Ok o -> o_published o = Some t ->
  (forall c, In c [xi_l1i x; xi_l1d x; xi_l2 x; xi_l3 x; xi_l4 x] -> sound (xc_geometry c)) -> N.of_nat (length (t_processors t)) < two32 ->
  exists s d1i d1d d2 d3 d4, cache_info (of_tables t) = Ok s /\ read_report s = Some (last_level_size x, d1i ++ d1d ++ d2 ++ d3 ++ d4) /\
    all_told 1 Instruction (t_l1i t) d1i /\ all_told 1 Data (t_l1d t) d1d /\ all_told 2 Data (t_l2 t) d2 /\ all_told 3 Data (t_l3 t) d3 /\ all_told 4 Data (t_l4 t) d4.
Proof. exact x86_report_all. Qed.
Print Assumptions x86_linux_cache_info.

Example x86_linux_cache_info_case : qsort_contract sample_sort /\
  (forall c, In c [xi_l1i sound_info; xi_l1d sound_info; xi_l2 sound_info; xi_l3 sound_info; xi_l4 sound_info] -> sound (xc_geometry c)) /\
  exists o t, x86_linux_init true 32 sample_sort (fun _ => true) sound_info sample_files = Ok o /\ o_published o = Some t /\
    N.of_nat (length (t_processors t)) < two32 /\ length (t_l3 t) = 1%nat.
Proof.
  split; [exact (isort_sorts _ _ cmp_x86_preorder)|]. split.
  { intros c H. cbn in H. destruct H as [<-|[<-|[<-|[<-|[<-|[]]]]]]; [right|right|right|right|left; reflexivity];
      (split; [split; [reflexivity|split; reflexivity]|repeat split; reflexivity]). }
  eexists. eexists. split; [vm_compute; reflexivity|]. split; [reflexivity|]. split; vm_compute; reflexivity.
Qed.

(** On ARM Linux it does not: with Cortex-A55 and Cortex-A75 cores the one line about the
    first-level data caches claims that all six are as large as the first. *)
Theorem cache_info_big_little_refuted : exists o t s n ds d c,
  ArmLinuxSample.detect ArmLinuxSample.big_little ArmLinuxSample.unknown_chip = Ok o /\ ArmLinuxModel.ao_published o = Some t /\
  cache_info (of_arm_tables t) = Ok s /\ read_report s = Some (n, ds) /\
  In d ds /\ de_level d = 1 /\ de_kind d = Data /\ de_count d = N.of_nat (length (ArmLinuxModel.at_l1d t)) /\
  In c (ArmLinuxModel.at_l1d t) /\ g_size (ca_geometry c) <> de_size d.
Proof.
  eexists. eexists. eexists. eexists. eexists. eexists. eexists. split; [vm_compute; reflexivity|]. split; [reflexivity|].
  split; [vm_compute; reflexivity|]. split; [vm_compute; reflexivity|]. split; [right; left; reflexivity|]. split; [reflexivity|].
  split; [reflexivity|]. split; [reflexivity|]. split; [do 5 right; left; reflexivity|]. vm_compute. discriminate.
Qed.
Print Assumptions cache_info_big_little_refuted.

(** Without the number of sets the text runs on: "set associative64 byte lines". *)
Theorem cache_info_no_sets_refuted : exists c s, narrow c /\ 0 < g_size (ca_geometry c) /\
  cache_info (Reported 32768 (0%nat, []) (1%nat, [c]) (0%nat, []) (0%nat, []) (0%nat, [])) = Ok s /\ read_report s = None.
Proof. exists without_sets. eexists. split; [repeat split; reflexivity|]. split; [reflexivity|]. split; vm_compute; reflexivity. Qed.
Print Assumptions cache_info_no_sets_refuted.
