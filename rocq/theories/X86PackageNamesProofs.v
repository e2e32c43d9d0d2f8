(** Every package gets the name. *)
From Coq Require Import NArith List Lia Bool Arith Sorting.Permutation.
From Verif Require Import Base BaseProofs Text Fill TopologySpec X86DescriptorModel X86DecodeModel X86NameModel X86NameSpec X86PackageModel
  X86PackageNamesModel X86PackageNamesSpec.
From Verif Require X86PackageProofs X86CpuinfoModel X86LinuxModel X86LinuxSpec X86DetectProofs X86InitProofs X86FinalProofs X86CountsModel X86CountsFinal
  X86CountsSpec X86WindowsModel X86WindowsSpec X86WindowsFinal EmscriptenModel Sorting.
Import X86CpuinfoModel(xproc, x_apic_id, x_flags, flag_valid).
Import X86LinuxModel(xinfo, llc_apic_bits, apic_masks, bitmask_all, count_keys, count_objects, detect_linux_processors, linux_files, is_valid).
Import ListNotations.
Open Scope nat_scope.

Definition index_of (n : nat) : option nat := match n with O => None | S k => Some k end.

Lemma count_keys_ge mask key : forall l last n, n <= count_keys mask key l last n.
Proof.
  induction l as [|p l IH]; intros last n; cbn [count_keys]; [lia|]. destruct (bitmask_all _ _); [|apply IH].
  destruct (_ =? _)%N; [apply IH|]. specialize (IH (key (x_apic_id p)) (S n)). lia.
Qed.

Lemma named_all mask pm name : forall l last n, (forall p, In p l -> bitmask_all (x_flags p) mask = bitmask_all (x_flags p) flag_valid) ->
  let total := count_keys mask (fun a => N.land a pm) l last n in
  name_packages pm name l last (index_of n) (repeat name n ++ repeat no_name (total - n)) = Ok (repeat name total).
Proof.
  induction l as [|p l IH]; intros last n H; cbn [count_keys name_packages].
  - now rewrite Nat.sub_diag, app_nil_r.
  - rewrite <- H by now left. destruct (bitmask_all (x_flags p) mask); [|apply IH; intros q Hq; apply H; now right].
    destruct (_ =? _)%N eqn:E; cbn [negb]; [apply IH; intros q Hq; apply H; now right|].
    specialize (IH (N.land (x_apic_id p) pm) (S n)). cbv zeta in IH. set (total := count_keys _ _ _ _ _) in *.
    assert (L : S n <= total) by apply count_keys_ge.
    assert (I : incr_index (index_of n) = Some n) by (destruct n; reflexivity).
    rewrite I. cbn [wr_at]. rewrite wr_ok by (rewrite app_length, !repeat_length; lia). cbn [bind].
    change (Some n) with (index_of (S n)). rewrite <- IH by (intros q Hq; apply H; now right). f_equal.
    replace (total - n) with (S (total - S n)) by lia. cbn [repeat]. pose proof (@upd_app (list N) (repeat name n) (repeat no_name (total - S n)) name no_name) as U.
    rewrite repeat_length in U. rewrite U. replace (name :: repeat name n) with (repeat name n ++ [name]); [now rewrite <- app_assoc|].
    clear. induction n; cbn; [reflexivity|]. now rewrite IHn.
Qed.

Lemma vendor_of b m fuel x : init_processor b m fuel = Ok x ->
  X86LinuxModel.xi_vendor x = decode_vendor b (ebx (cpuid m 0)) (ecx (cpuid m 0)) (edx (cpuid m 0)).
Proof.
  unfold init_processor. destruct (_ <=? _)%N.
  - cbv zeta. destruct (detect_cache _ _ _ _ _ _ _ _ _ _) as [(cs & cl)| |]; cbn [bind]; try discriminate.
    destruct (detect_topology _ _ _ _ _ _); cbn [bind]; try discriminate. intros E. now injection E as <-.
  - intros E. now injection E as <-.
Qed.

Lemma name_detected b m fuel x stack : init_processor b m fuel = Ok x -> length stack = 48 ->
  exists p, detect_package_name b m stack = Ok p /\ length p = 48 /\ holds_string p (processor_name x m).
Proof.
  intros E L. destruct (X86PackageProofs.detect_package_exact b m stack L) as (p & P & LP & H). exists p. split; [exact P|]. split; [exact LP|].
  unfold processor_name. now rewrite (vendor_of _ _ _ _ E).
Qed.

Lemma repeat_named n p name : length p = 48 /\ holds_string p name -> all_named n name (repeat p n).
Proof. intros H. split; [apply repeat_length|]. apply Forall_forall. intros s Hs. apply repeat_spec in Hs. now subst s. Qed.

Lemma linux_named b m fuel x stack char_signed default sorter calloc_ok files o t :
  init_processor b m fuel = Ok x -> length stack = 48 -> X86LinuxModel.qsort_contract sorter ->
  X86LinuxModel.x86_linux_init char_signed default sorter calloc_ok x files = Ok o -> X86LinuxModel.o_published o = Some t ->
  exists names, x86_linux_package_names char_signed default sorter b m x stack files = Ok (Some names) /\
    all_named (length (t_packages t)) (processor_name x m) names.
Proof.
  intros EX L Q E PU. destruct (name_detected b m fuel x stack EX L) as (p & P & H).
  destruct (X86FinalProofs.published_good _ _ _ _ _ _ _ _ Q E PU) as (procs & mask & ED & G).
  unfold X86LinuxModel.x86_linux_init in E. destruct (calloc_ok X86LinuxModel.B_linux_processors); cbn [negb] in E; [|injection E as <-; discriminate].
  unfold x86_linux_package_names. rewrite ED in *. cbn [bind] in *.
  destruct (calloc_ok X86LinuxModel.B_processors); cbn [negb] in E; [|injection E as <-; discriminate].
  rewrite P. cbn [bind]. destruct (apic_masks x (llc_apic_bits x)) as [((cm, pm), lm)| |] eqn:EM; cbn [bind] in *; try discriminate.
  assert (TC : t_packages_count t = count_objects mask pm (sorter procs)).
  { do 5 (match type of E with bind ?y _ = _ => destruct y; cbn [bind] in E; try discriminate end).
    destruct (X86LinuxModel.allocate _ _ _) as ([|], live); [|injection E as <-; discriminate].
    destruct (X86LinuxModel.build_tables x mask (sorter procs) (X86LinuxModel.count_valid procs)) as [u| |] eqn:ET; cbn [bind] in E; try discriminate.
    injection E as <-. cbn in PU. injection PU as <-. unfold X86LinuxModel.build_tables in ET. rewrite EM in ET. cbn [bind] in ET.
    do 5 (match type of ET with bind ?y _ = _ => destruct y; cbn [bind] in ET; try discriminate end).
    do 2 (match type of ET with bind ?y _ = _ => destruct y; cbn [bind] in ET; try discriminate end).
    injection ET as <-. reflexivity. }
  assert (TL : t_packages_count t = length (t_packages t)) by apply (X86FinalProofs.gt_lists _ _ _ G).
  pose proof (named_all mask pm p (sorter procs) u32max 0) as NA. cbv zeta in NA. fold (count_objects mask pm (sorter procs)) in NA.
  rewrite Nat.sub_0_r in NA. cbn [repeat app index_of] in NA. rewrite NA.
  - cbn [bind]. eexists. split; [reflexivity|]. rewrite <- TC, TL. now apply repeat_named.
  - intros q Hq. apply (X86DetectProofs.det_valid _ _ (proj1 (X86DetectProofs.detect_shape _ _ _) _ _ ED)).
    apply (Permutation_in _ (Permutation_sym (proj1 (Q procs)))). exact Hq.
Qed.

Lemma each_named b m fuel x stack n : init_processor b m fuel = Ok x -> length stack = 48 ->
  exists names, name_each b m stack n = Ok names /\ all_named n (processor_name x m) names.
Proof.
  intros EX L. destruct (name_detected b m fuel x stack EX L) as (p & P & H). unfold name_each. rewrite P. cbn [bind].
  rewrite (fill_all _ (fun _ => p)) by reflexivity. eexists. split; [reflexivity|]. split; [now rewrite map_length, seq_length|].
  apply Forall_forall. intros s Hs. apply in_map_iff in Hs. destruct Hs as (i & <- & _). exact H.
Qed.

Lemma mach_named b m fuel x stack calloc_ok a o t : init_processor b m fuel = Ok x -> length stack = 48 ->
  X86CountsModel.x86_mach_init calloc_ok x a = Ok o -> X86CountsModel.o_published o = Some t ->
  exists names, x86_mach_package_names b m stack a = Ok names /\ all_named (length (t_packages t)) (processor_name x m) names.
Proof.
  intros EX L E PU. destruct (X86CountsFinal.mach_cases _ _ _ _ E) as [(F & _)|(ob & w & u & EO & _ & ET & PU' & _)]; [congruence|].
  assert (u = t) by congruence. subst u. apply X86CountsFinal.build_tables_inv in ET. apply X86CountsFinal.build_objects_lengths in EO.
  unfold x86_mach_package_names. replace (length (t_packages t)) with (X86CountsModel.mt_packages (X86CountsModel.mach_detect_topology a)).
  - now apply (each_named b m fuel).
  - destruct ET. intuition congruence.
Qed.

Lemma freebsd_named b m fuel x stack calloc_ok a o t : init_processor b m fuel = Ok x -> length stack = 48 ->
  X86CountsModel.x86_freebsd_init calloc_ok x a = Ok o -> X86CountsModel.o_published o = Some t ->
  exists names, x86_freebsd_package_names b m stack a = Ok (Some names) /\ all_named (length (t_packages t)) (processor_name x m) names.
Proof.
  intros EX L E PU. destruct (X86CountsFinal.freebsd_cases _ _ _ _ E) as [(F & _)|(P & cores & threads & tpc & ob & w & u & ED & EO & _ & ET & PU' & _)]; [congruence|].
  assert (u = t) by congruence. subst u. apply X86CountsFinal.build_tables_inv in ET. apply X86CountsFinal.build_objects_lengths in EO.
  unfold x86_freebsd_package_names. rewrite ED. cbn [bind]. destruct (each_named b m fuel x stack P EX L) as (names & -> & A). cbn [bind].
  exists names. split; [reflexivity|]. replace (length (t_packages t)) with P; [exact A|]. destruct ET. intuition congruence.
Qed.

Lemma windows_named b m fuel x stack heap_ok a sizes machine o t : init_processor b m fuel = Ok x -> length stack = 48 ->
  X86WindowsSpec.windows_says a sizes machine -> X86CountsSpec.fields_defined x -> X86WindowsSpec.caches_defined x ->
  X86WindowsModel.x86_windows_init heap_ok x a = Ok o -> X86WindowsModel.o_published o = Some t ->
  exists names, x86_windows_package_names b m stack a = Ok (Some names) /\
    all_named (length (t_packages (X86WindowsModel.wt_tables t))) (processor_name x m) names.
Proof.
  intros EX L S F C E PU. destruct (X86WindowsFinal.windows_describes heap_ok x a sizes machine S F C) as (o' & E' & D & _).
  assert (o' = o) by congruence. subst o'. specialize (D t PU).
  destruct (X86WindowsSpec.ws_packages _ _ _ S) as (infos & EI & (_ & SI)). unfold x86_windows_package_names. rewrite EI.
  destruct (each_named b m fuel x stack (length (filter X86WindowsModel.wi_expected infos)) EX L) as (names & -> & A). cbn [bind].
  exists names. split; [reflexivity|]. replace (length (t_packages (X86WindowsModel.wt_tables t))) with (length (filter X86WindowsModel.wi_expected infos)); [exact A|].
  apply (f_equal (@length _)) in SI. rewrite map_length in SI. rewrite SI. pose proof (X86WindowsSpec.de_packages _ _ _ _ (proj1 D)) as DP.
  apply (f_equal (@length _)) in DP. now rewrite map_length in DP.
Qed.

Lemma emscripten_named is_x86 logical calloc_ok o t :
  EmscriptenModel.emscripten_init is_x86 logical calloc_ok = Ok o -> EmscriptenModel.o_published o = Some t ->
  exists name, emscripten_package_name is_x86 = Ok name /\ all_named (length (t_packages t)) (text (if is_x86 then "x86 vCPU" else "ARM vCPU")) [name].
Proof.
  intros E PU. unfold EmscriptenModel.emscripten_init in E. destruct (EmscriptenModel.allocate _ _ _) as ([|] & live); [|injection E as <-; discriminate].
  destruct (EmscriptenModel.emscripten_tables _) as [u| |] eqn:ET; cbn [bind] in E; try discriminate.
  injection E as <-. cbn in PU. injection PU as <-.
  assert (PK : length (t_packages u) = 1).
  { unfold EmscriptenModel.emscripten_tables in ET. cbv zeta in ET.
    match type of ET with bind ?y _ = _ => destruct y; cbn [bind] in ET; try discriminate end.
    match type of ET with bind ?y _ = _ => destruct y as [(cl & l2)| |]; cbn [bind] in ET; try discriminate end.
    injection ET as <-. reflexivity. }
  destruct is_x86.
  - eexists. split; [vm_compute; reflexivity|]. split; [symmetry; exact PK|]. constructor; [|constructor]. split; [reflexivity|]. eexists. split; [vm_compute; reflexivity|]. vm_compute. intuition discriminate.
  - eexists. split; [vm_compute; reflexivity|]. split; [symmetry; exact PK|]. constructor; [|constructor]. split; [reflexivity|]. eexists. split; [vm_compute; reflexivity|]. vm_compute. intuition discriminate.
Qed.
