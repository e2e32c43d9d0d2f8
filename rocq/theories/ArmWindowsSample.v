(** Samples for Windows on ARM. *)
From Verif Require Import Base Text TopologySpec ApiModel ApiProofs ArmIsaModel ArmUarchModel ArmWindowsModel ArmWindowsSpec ArmWindowsChip.
From Verif Require X86WindowsSpec X86WindowsModel.
Import X86WindowsSpec(mask_processors, mask_valid, says).
Import X86WindowsModel(winfo, WInfo, wi_expected, wi_groups).
Open Scope nat_scope.

(** A computer with one group of four processors, whose second-level caches are shared by two. *)
Definition per (level type ways : N) (size : N) (mask : N) : cinfo := CInfo true level type ways 64 size [(0, mask)].
Definition four_caches : list cinfo :=
  map (per 1 1 4 65536) [1; 2; 4; 8]%N ++ map (per 1 2 4 65536) [1; 2; 4; 8]%N ++ map (per 2 0 8 524288) [3; 12]%N ++ [per 3 0 16 4194304 15].
Definition four (processors : nat) (cores : list winfo) (caches : list cinfo) : arm_windows_answers :=
  ArmWindowsAnswers 1 (fun _ => processors) (Some [WInfo true [(0, 15%N)]]) (Some cores) (Some cores) (Some caches) (Some caches).
Definition four_cores : list winfo := map (fun m => WInfo true [(0, m)]) [1; 2; 4; 8]%N.
Definition chip_registry (name : list N) (midr : N) : registry := Registry (Some 64%N) (Some (name ++ [0%N])) (Some (8%N, midr)) (Some (4%N, 2400%N)).
Definition cortex_a76 : N := 0x413FD0B1.
Definition everything (b : hblock) : bool := true.
Definition four_answers := four 4 four_cores four_caches.
Definition run (name : list N) (midr : N) (a : arm_windows_answers) : res windows_outcome := arm_windows_init false (7, 7)%N everything (chip_registry name midr) a.

(** Two groups, whose processors are numbered after each other, and sets that are not ranges. *)
Definition odd_answers : arm_windows_answers :=
  let cores := map (fun g => WInfo true [g]) [(0, 5%N); (0, 2%N); (1, 1%N); (1, 2%N)] in
  let packages := [WInfo true [(1, 3%N)]; WInfo true [(0, 7%N)]] in
  ArmWindowsAnswers 2 (fun g => if g =? 0 then 3 else 2) (Some packages) (Some cores) (Some cores)
    (Some [CInfo true 2 0 8 64 524288 [(0, 7%N); (1, 3%N)]]) (Some [CInfo true 2 0 8 64 524288 [(0, 7%N); (1, 3%N)]]).
Definition threads_answers : arm_windows_answers := four 4 (map (fun m => WInfo true [(0, m)]) [3; 12]%N) four_caches.
Definition accents : list N := [0xE9; 0x20AC; 0xD83D; 0xDE00]%N.

Lemma registry_of name midr : Forall (fun c => 0 < c < 65536)%N name -> (midr < two32)%N -> midr <> 0%N -> registry_says (chip_registry name midr) name midr 2400.
Proof.
  intros U L Z. split; [exists 64%N; now split|exists []; reflexivity|exact U| |split; [reflexivity|discriminate]].
  exists midr. split; [reflexivity|]. split; [symmetry; now apply N.mod_small|exact Z].
Qed.
Lemma kryo_registry : registry_says (chip_registry (text "Kryo") cortex_a76) (text "Kryo") cortex_a76 2400.
Proof. apply registry_of; [repeat (apply Forall_cons; [split; reflexivity|]); apply Forall_nil|reflexivity|discriminate]. Qed.
Lemma accents_registry : registry_says (chip_registry accents cortex_a76) accents cortex_a76 2400.
Proof. apply registry_of; [repeat (apply Forall_cons; [split; reflexivity|]); apply Forall_nil|reflexivity|discriminate]. Qed.

Lemma below_4 m : (N.log2 m < 4)%N -> mask_valid [4] (0, m).
Proof.
  intros L. split; [cbn; lia|]. cbn [fst snd nth]. intros b T. destruct (N.lt_ge_cases b (N.of_nat 4)) as [A|A]; [exact A|].
  rewrite N.bits_above_log2 in T by lia. discriminate.
Qed.
Lemma four_cores_say : says [4] four_cores [[0]; [1]; [2]; [3]].
Proof.
  split; [|reflexivity]. intros i e I _ J. cbn in I. repeat (destruct I as [<-|I]; [cbn in J; destruct J as [<-|[]]; apply below_4; reflexivity|]). destruct I.
Qed.
Lemma four_says : arm_windows_says four_answers [4] [[0]; [1]; [2]; [3]] [[0; 1; 2; 3]].
Proof.
  split.
  - reflexivity.
  - cbn. lia.
  - exists [WInfo true [(0, 15%N)]]. split; [reflexivity|]. split; [|reflexivity]. intros i e [<-|[]] _ [<-|[]]. apply below_4. reflexivity.
  - exists four_cores. split; [reflexivity|exact four_cores_say].
  - exists four_cores. split; [reflexivity|exact four_cores_say].
  - split; [reflexivity|]. repeat constructor; discriminate.
  - split; [reflexivity|]. repeat constructor; discriminate.
  - intros c I. exists [0; 1; 2; 3]. split; [now left|]. intros i J. cbn in I.
    repeat (destruct I as [<-|I]; [cbn in J; destruct J as [<-|[]]; cbn; tauto|]). destruct I.
Qed.
Lemma four_caches_say : caches_say four_answers [4] four_caches.
Proof.
  split; [exists four_caches; now split|exists four_caches; now split|discriminate| | |]; rewrite Forall_forall; intros i I; cbn in I.
  - repeat (destruct I as [<-|I]; [first [exists K1i; split; reflexivity|exists K1d; split; reflexivity|exists K2; reflexivity|exists K3; reflexivity]|]). destruct I.
  - repeat (destruct I as [<-|I]; [apply Forall_cons; [apply below_4; reflexivity|apply Forall_nil]|]). destruct I.
  - repeat (destruct I as [<-|I]; [split; discriminate|]). destruct I.
Qed.

Lemma windows_ids_counterexample : exists o t, run (text "Kryo") cortex_a76 threads_answers = Ok o /\ wo_published o = Some t /\
  ~ ids_are_offsets (awt_processors t) (awt_cores t) (awt_clusters t) (awt_packages t) /\
  map p_smt_id (awt_processors t) = [0; 0; 0; 0] /\ map cl_cluster_id (awt_clusters t) = [0; 0].
Proof.
  do 2 eexists. split; [vm_compute; reflexivity|]. split; [reflexivity|]. split; [|vm_compute; now split].
  intros [S _ _]. destruct (S 1 _ _ _ eq_refl eq_refl eq_refl) as [E _]. vm_compute in E. discriminate.
Qed.
