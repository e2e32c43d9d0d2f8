(** Windows for ARM: C61-C64. *)
From Verif Require Import Base Text TopologySpec ApiModel ApiProofs ArmIsaModel ArmUarchModel ArmWindowsModel ArmWindowsSpec ArmWindowsChip ArmWindowsSample.
From Verif Require X86WindowsSpec X86WindowsModel ArmLinuxModel.
Import X86WindowsSpec(mask_processors, mask_valid, says).
Import X86WindowsModel(winfo, WInfo, wi_expected, wi_groups).
Import ArmLinuxModel(au_uarch, au_processors, au_cores).
Open Scope nat_scope.

(** ** C61: the tables of processors, cores, clusters and packages *)

(** For whatever sets of processors Windows names as cores and packages: each is published with
    its first processor and number of processors, and all pointers lead to the sets that contain
    a processor.  Each core is a cluster. *)
Theorem arm_windows_describes : forall arm32 before heap_ok r a name midr mhz sizes cores packages infos,
  registry_says r name midr mhz -> Forall (fun c => c < 128)%N name -> arm_windows_says a sizes cores packages -> caches_say a sizes infos ->
  (forall b, heap_ok b = true) ->
  exists o t, arm_windows_init arm32 before heap_ok r a = Ok o /\ wo_published o = Some t /\
    placed sizes cores packages t /\
    uniform (list_sum sizes) (length cores) (length packages) (fst (core_info_from_midr arm32 before midr)) (snd (core_info_from_midr arm32 before midr))
      (mhz * 1000000) (firstn 47 name) t /\
    (forall k, level_described sizes infos k t) /\ awt_max_cache_size t = last_level t.
Proof. exact windows_ascii. Qed.
Print Assumptions arm_windows_describes.

(** If processors are numbered in order, the objects are consistent. *)
Theorem arm_windows_consistent : forall a sizes cores packages t, arm_windows_says a sizes cores packages -> placed sizes cores packages t ->
  concat cores = seq 0 (list_sum sizes) -> concat packages = seq 0 (list_sum sizes) ->
  consistent (awt_processors t) (awt_cores t) (awt_clusters t) (awt_packages t).
Proof. exact windows_consistent. Qed.
Print Assumptions arm_windows_consistent.

Example arm_windows_describes_case : registry_says (chip_registry (text "Kryo") cortex_a76) (text "Kryo") cortex_a76 2400 /\
  arm_windows_says four_answers [4] [[0]; [1]; [2]; [3]] [[0; 1; 2; 3]] /\ caches_say four_answers [4] four_caches /\
  concat [[0]; [1]; [2]; [3]] = seq 0 4 /\
  exists o t, run (text "Kryo") cortex_a76 four_answers = Ok o /\ wo_published o = Some t /\
    map cluster_cores (awt_clusters t) = [(0, 1); (1, 1); (2, 1); (3, 1)] /\ map package_cores (awt_packages t) = [(0, 4)] /\ awt_names t = [text "Kryo"] /\
    map c_uarch (awt_cores t) = repeat u_cortex_a76 4 /\ map au_cores (awt_uarchs t) = [4] /\ awt_cache_of t K2 = [Some 0; Some 0; Some 1; Some 1] /\
    map wc_start (awt_caches t K2) = [Some 0; Some 2] /\ awt_max_cache_size t = 4194304%N.
Proof.
  split; [exact kryo_registry|]. split; [exact four_says|]. split; [exact four_caches_say|]. split; [reflexivity|].
  do 2 eexists. split; [vm_compute; reflexivity|]. split; [reflexivity|]. vm_compute. repeat split.
Qed.

(** Two groups, whose processors are numbered after each other, and sets that are not ranges. *)
Example arm_windows_groups_case : exists o t, run (text "Kryo") cortex_a76 odd_answers = Ok o /\ wo_published o = Some t /\
  map p_core (awt_processors t) = [Some 0; Some 1; Some 0; Some 2; Some 3] /\ map p_package (awt_processors t) = [Some 1; Some 1; Some 1; Some 0; Some 0] /\
  awt_ids t = [(0, 0); (0, 1); (0, 2); (1, 0); (1, 1)] /\ map core_processors (awt_cores t) = [(0, 2); (1, 1); (3, 1); (4, 1)] /\
  map package_cores (awt_packages t) = [(2, 2); (0, 2)] /\ map wc_count (awt_caches t K2) = [5].
Proof. do 2 eexists. split; [vm_compute; reflexivity|]. split; [reflexivity|]. vm_compute. repeat split. Qed.

(** Processors that are not active belong to no core: the code follows a NULL pointer. *)
Theorem arm_windows_inactive_refuted : run (text "Kryo") cortex_a76 (four 5 four_cores four_caches) = UB.
Proof. vm_compute. reflexivity. Qed.
Print Assumptions arm_windows_inactive_refuted.

(** A core that gets no processors, or more cores in the second answer: memory that does not
    belong to a table is written. *)
Theorem arm_windows_cores_refuted :
  run (text "Kryo") cortex_a76 (four 4 (WInfo true [(0, 0%N)] :: four_cores) four_caches) = UB /\
  run (text "Kryo") cortex_a76 (ArmWindowsAnswers 1 (fun _ => 4) (Some [WInfo true [(0, 15%N)]]) (Some (firstn 3 four_cores)) (Some four_cores)
    (Some four_caches) (Some four_caches)) = UB.
Proof. vm_compute. now split. Qed.
Print Assumptions arm_windows_cores_refuted.

(** Two threads of a core have the same id, and all clusters have. *)
Theorem arm_windows_ids_refuted : exists o t, run (text "Kryo") cortex_a76 threads_answers = Ok o /\ wo_published o = Some t /\
  ~ ids_are_offsets (awt_processors t) (awt_cores t) (awt_clusters t) (awt_packages t) /\
  map p_smt_id (awt_processors t) = [0; 0; 0; 0] /\ map cl_cluster_id (awt_clusters t) = [0; 0].
Proof. exact windows_ids_counterexample. Qed.
Print Assumptions arm_windows_ids_refuted.

(** ** C62: caches *)

(** The caches of each kind as told ([level_described], part of [arm_windows_describes]), whatever
    the name is. *)
Theorem arm_windows_caches : forall arm32 before heap_ok r a name midr mhz sizes cores packages infos,
  registry_says r name midr mhz -> arm_windows_says a sizes cores packages -> caches_say a sizes infos -> (forall b, heap_ok b = true) ->
  forall o t, arm_windows_init arm32 before heap_ok r a = Ok o -> wo_published o = Some t ->
  (forall k, level_described sizes infos k t) /\ awt_max_cache_size t = last_level t.
Proof. exact windows_caches_published. Qed.
Print Assumptions arm_windows_caches.

(** Five answers that Windows may give, for which the code divides by zero or uses memory that
    does not belong to a table: no line size, no number of ways, another level, a unified cache of
    level 1, and processors that do not exist. *)
Theorem arm_windows_cache_answers_refuted :
  run (text "Kryo") cortex_a76 (four 4 four_cores [CInfo true 2 0 8 0 524288 [(0, 15%N)]]) = UB /\
  run (text "Kryo") cortex_a76 (four 4 four_cores [CInfo true 2 0 0 64 524288 [(0, 15%N)]]) = UB /\
  run (text "Kryo") cortex_a76 (four 4 four_cores (four_caches ++ [per 4 0 16 8388608 15])) = UB /\
  run (text "Kryo") cortex_a76 (four 4 four_cores [per 1 0 16 65536 15]) = UB /\
  run (text "Kryo") cortex_a76 (four 4 four_cores [per 2 0 8 524288 16]) = UB.
Proof. vm_compute. repeat split. Qed.
Print Assumptions arm_windows_cache_answers_refuted.

(** Without caches nothing is published. *)
Theorem arm_windows_no_caches_refuted : run (text "Kryo") cortex_a76 (four 4 four_cores []) = Ok (WindowsOutcome None [H_text; H_chip; H_name]).
Proof. vm_compute. reflexivity. Qed.
Print Assumptions arm_windows_no_caches_refuted.

(** A fully associative cache (0xFF ways) of 64 lines gets 255 ways and no set; a cache without
    groups starts at UINT32_MAX. *)
Theorem arm_windows_associativity_refuted : exists o t, run (text "Kryo") cortex_a76 (four 4 four_cores [per 1 2 0xFF 4096 15; CInfo true 2 0 8 64 524288 []]) = Ok o /\
  wo_published o = Some t /\ map (fun c => (g_associativity (wc_geometry c), g_sets (wc_geometry c))) (awt_caches t K1d) = [(255, 0)]%N /\
  map wc_start (awt_caches t K2) = [None].
Proof. do 2 eexists. split; [vm_compute; reflexivity|]. split; [reflexivity|]. vm_compute. repeat split. Qed.
Print Assumptions arm_windows_associativity_refuted.

(** ** C63: the chip, memory and getters *)

(** The first 47 characters of the name are published, in UTF-8, exactly if they take at most 47
    bytes; otherwise nothing is published at all. *)
Theorem arm_windows_named : forall arm32 before heap_ok r a name midr mhz sizes cores packages infos,
  registry_says r name midr mhz -> arm_windows_says a sizes cores packages -> caches_say a sizes infos -> (forall b, heap_ok b = true) ->
  exists o, arm_windows_init arm32 before heap_ok r a = Ok o /\
    match utf16_characters (firstn 47 name) with
    | Some cs =>
        if utf8_size cs <=? 47 then
          exists t published, wo_published o = Some t /\ utf8_characters published = Some cs /\
            placed sizes cores packages t /\
            uniform (list_sum sizes) (length cores) (length packages) (fst (core_info_from_midr arm32 before midr)) (snd (core_info_from_midr arm32 before midr))
              (mhz * 1000000) published t /\
            (forall k, level_described sizes infos k t) /\ awt_max_cache_size t = last_level t
        else wo_published o = None
    | None => wo_published o = None
    end.
Proof. exact windows_published_iff. Qed.
Print Assumptions arm_windows_named.

Example arm_windows_named_case : registry_says (chip_registry accents cortex_a76) accents cortex_a76 2400 /\ utf16_characters accents = Some [0xE9; 0x20AC; 0x1F600]%N /\
  exists o t, run accents cortex_a76 four_answers = Ok o /\ wo_published o = Some t /\ awt_names t = [[0xC3; 0xA9; 0xE2; 0x82; 0xAC; 0xF0; 0x9F; 0x98; 0x80]%N].
Proof.
  split; [|split; [reflexivity|]].
  - exact accents_registry.
  - do 2 eexists. split; [vm_compute; reflexivity|]. split; [reflexivity|]. vm_compute. reflexivity.
Qed.

(** Thus a name of 47 characters fails with one trade mark sign, and so does one whose 47th is
    half of a character. *)
Theorem arm_windows_name_refuted :
  run (repeat 65%N 46 ++ [0x2122%N]) cortex_a76 four_answers = Ok (WindowsOutcome None [H_text; H_chip; H_name]) /\
  run (repeat 65%N 46 ++ [0xD83D; 0xDE00]%N) cortex_a76 four_answers = Ok (WindowsOutcome None [H_text; H_chip; H_name]).
Proof. vm_compute. now split. Qed.
Print Assumptions arm_windows_name_refuted.

(** Vendor and microarchitecture are those that the decoder knows (C52). *)
Theorem arm_windows_chip : forall arm32 before midr vendor uarch, decode_vendor_uarch arm32 midr false = (vendor, uarch) -> vendor <> 0%N -> uarch <> 0%N ->
  core_info_from_midr arm32 before midr = (vendor, uarch).
Proof. exact windows_midr. Qed.
Print Assumptions arm_windows_chip.
Example arm_windows_chip_case : decode_vendor_uarch false cortex_a76 false = (v_arm, u_cortex_a76) /\ core_info_from_midr false (7, 7)%N cortex_a76 = (v_arm, u_cortex_a76).
Proof. vm_compute. now split. Qed.

(** For another one they are what two variables that have not been initialized happen to hold;
    Cortex-A720 is an example, and an unknown implementer another. *)
Theorem arm_windows_chip_refuted : forall before, core_info_from_midr false before 0x410FD811 = (v_arm, snd before) /\
  core_info_from_midr false before 0x7A0F0001 = before.
Proof. exact windows_unknown_midr. Qed.
Print Assumptions arm_windows_chip_refuted.

(** A registry without the name, the register or the frequency: these are unknown. *)
Theorem arm_windows_unknown_chip : forall arm32 before heap_ok r a sizes cores packages infos,
  ((forall size, rg_name_size r = Some size -> size = 0%N) \/ rg_name r = None \/ (forall value, rg_midr r = Some (8%N, value) -> (value mod two32 = 0)%N) \/
   (forall value, rg_mhz r = Some (4%N, value) -> value = 0%N)) ->
  arm_windows_says a sizes cores packages -> caches_say a sizes infos -> (forall b, heap_ok b = true) ->
  exists o t, arm_windows_init arm32 before heap_ok r a = Ok o /\ wo_published o = Some t /\
    placed sizes cores packages t /\ uniform (list_sum sizes) (length cores) (length packages) 0 0 0 (text "Unknown") t.
Proof. exact windows_unknown_chip. Qed.
Print Assumptions arm_windows_unknown_chip.
Example arm_windows_unknown_case : exists o t,
  arm_windows_init false (7, 7)%N everything (Registry (Some 64%N) (Some (text "Kryo" ++ [0%N])) (Some (4%N, cortex_a76)) (Some (4%N, 2400%N))) four_answers = Ok o /\
  wo_published o = Some t /\ awt_names t = [text "Unknown"] /\ awt_uarchs t = [] /\ wo_live o = H_text :: kept_blocks.
Proof. do 2 eexists. split; [vm_compute; reflexivity|]. split; [reflexivity|]. vm_compute. repeat split. Qed.

(** Whatever happens: besides the published tables, at most three blocks stay allocated. *)
Theorem arm_windows_memory : forall arm32 before heap_ok r a o, arm_windows_init arm32 before heap_ok r a = Ok o ->
  exists kept, Forall leaked kept /\ wo_live o = kept ++ match wo_published o with None => [] | Some _ => kept_blocks end.
Proof. exact windows_memory. Qed.
Print Assumptions arm_windows_memory.
Example arm_windows_memory_case :
  arm_windows_init false (7, 7)%N (fun b => match b with H_caches => false | _ => true end) (chip_registry (text "Kryo") cortex_a76) four_answers =
    Ok (WindowsOutcome None [H_text; H_chip; H_name]) /\
  arm_windows_init false (7, 7)%N (fun b => match b with H_groups => false | _ => true end) (Registry None None None None) four_answers = Ok (WindowsOutcome None []).
Proof. vm_compute. now split. Qed.

(** These three do stay. *)
Theorem arm_windows_leak_refuted : exists o, run (text "Kryo") cortex_a76 four_answers = Ok o /\ wo_live o = [H_text; H_chip; H_name] ++ kept_blocks.
Proof. eexists. split; vm_compute; reflexivity. Qed.
Print Assumptions arm_windows_leak_refuted.

(** Counts are those of the tables; an element for every index below the count, NULL for others. *)
Theorem arm_windows_getters : forall arm32 before heap_ok r a o t cpu tb i, arm_windows_init arm32 before heap_ok r a = Ok o -> wo_published o = Some t ->
  let n := N.of_nat match tb with
     | Processors => length (awt_processors t) | Cores => length (awt_cores t) | Clusters => length (awt_clusters t) | Packages => length (awt_packages t)
     | Uarchs => length (awt_uarchs t)
     | Caches L1i => length (awt_caches t K1i) | Caches L1d => length (awt_caches t K1d) | Caches L2 => length (awt_caches t K2) | Caches L3 => length (awt_caches t K3)
     | Caches L4 => 0 end in
  ask arm_windows (final (arm_windows_routine o)) cpu (Get_count tb) = Number n /\
  ask arm_windows (final (arm_windows_routine o)) cpu (Get_element tb i) = if (i <? n)%N then Pointer tb (N.to_nat i) else Null.
Proof. exact windows_getters. Qed.
Print Assumptions arm_windows_getters.
Example arm_windows_getters_case : exists o, run (text "Kryo") cortex_a76 four_answers = Ok o /\
  ask arm_windows (final (arm_windows_routine o)) None (Get_element (Caches L2) 1) = Pointer (Caches L2) 1 /\
  ask arm_windows (final (arm_windows_routine o)) None (Get_element (Caches L2) 2) = Null.
Proof. eexists. split; [vm_compute; reflexivity|]. vm_compute. now split. Qed.

(** "A table without elements is NULL" fails: there is no cache of level 4, but a table of them. *)
Theorem arm_windows_l4_refuted : exists o, run (text "Kryo") cortex_a76 four_answers = Ok o /\
  ask arm_windows (final (arm_windows_routine o)) None (Get_count (Caches L4)) = Number 0 /\
  ask arm_windows (final (arm_windows_routine o)) None (Get_table (Caches L4)) <> Null.
Proof. eexists. split; [vm_compute; reflexivity|]. split; vm_compute; [reflexivity|discriminate]. Qed.
Print Assumptions arm_windows_l4_refuted.

(** ** C64: instruction sets *)

Theorem arm_windows_isa : forall present,
  (forall g f, In (g, f) windows_extensions -> has_arm false (windows_isa present no_isa) g = present f) /\
  (forall g, In g windows_always -> has_arm false (windows_isa present no_isa) g = true) /\
  (forall g, ~ In g (map fst windows_extensions) -> ~ In g windows_assumed -> ~ In g windows_always -> has_arm false (windows_isa present no_isa) g = false).
Proof. exact windows_isa_all. Qed.
Print Assumptions arm_windows_isa.
Example arm_windows_isa_case : In (Has_crc32, PF_crc32) windows_extensions /\
  has_arm false (windows_isa (fun f => match f with PF_crc32 => true | _ => false end) no_isa) Has_crc32 = true /\
  has_arm false (windows_isa (fun f => match f with PF_crc32 => true | _ => false end) no_isa) Has_aes = false /\ ~ In Has_sve windows_always.
Proof. split; [cbn; tauto|]. split; [reflexivity|]. split; [reflexivity|]. cbn. intuition discriminate. Qed.

(** Half-precision arithmetic and RDM are not asked for: they are reported exactly with the dot
    product. *)
Theorem arm_windows_isa_assumed : forall present g, In g windows_assumed -> has_arm false (windows_isa present no_isa) g = present PF_dot.
Proof. exact windows_isa_assumed. Qed.
Print Assumptions arm_windows_isa_assumed.

(** On 32-bit ARM, what every processor that runs Windows has is never reported. *)
Theorem arm_windows_isa_32_refuted : forall present, Forall (fun g => has_arm true (windows_isa present no_isa) g = false) windows_always.
Proof. exact windows_isa_32. Qed.
Print Assumptions arm_windows_isa_32_refuted.
