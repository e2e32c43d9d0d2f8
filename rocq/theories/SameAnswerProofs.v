(** Initialization on Linux gives the same result in all runs on the same machine. *)
From Coq Require Import NArith List Lia Bool Arith.
From Verif Require Import Base BaseProofs Loops LinuxTextModel LinuxTextSpec CpuinfoLineModel X86CpuinfoModel X86LinuxModel.
From Verif Require Import ArmCpuinfoModel ArmClustersModel ArmScanProofs ArmLinuxModel ArmChipsetModel ArmPackageModel RiscvLinuxModel.
From Verif Require Import SameAnswerSpec SameAnswerTextProofs.
Import ListNotations.
Open Scope nat_scope.

(** ** The pieces of all systems *)
Lemma max_count_agree default f g : same_file f g ->
  get_max_processors_count default (f_contents f) (f_reads f) = get_max_processors_count default (f_contents g) (f_reads g).
Proof. intros H. unfold get_max_processors_count. now rewrite (small_agree false false f g H). Qed.
Lemma frequency_agree f g : same_file f g ->
  get_processor_frequency (f_contents f) (f_reads f) = get_processor_frequency (f_contents g) (f_reads g).
Proof. intros H. unfold get_processor_frequency. now rewrite (small_agree false false f g H). Qed.
Lemma id_agree f g : same_file f g ->
  get_processor_id_file (f_contents f) (f_reads f) = get_processor_id_file (f_contents g) (f_reads g).
Proof. intros H. unfold get_processor_id_file. now rewrite (small_agree false false f g H). Qed.
Lemma max_listed_agree sg sg' max f g : same_file f g ->
  get_max_listed_processor sg max (f_contents f) (f_reads f) = get_max_listed_processor sg' max (f_contents g) (f_reads g).
Proof. intros H. unfold get_max_listed_processor. now rewrite (cpulist_agree _ sg sg' f g _ H). Qed.
Lemma listed_agree sg sg' max flag f g flags : same_file f g ->
  detect_listed_processors sg max flag (f_contents f) (f_reads f) flags = detect_listed_processors sg' max flag (f_contents g) (f_reads g) flags.
Proof. intros H. unfold detect_listed_processors. now rewrite (cpulist_agree _ sg sg' f g _ H). Qed.
Lemma siblings_agree {S} sg sg' max (cb : S -> N -> N -> bool * S) f g ctx : same_file f g ->
  detect_siblings sg max cb (f_contents f) (f_reads f) ctx = detect_siblings sg' max cb (f_contents g) (f_reads g) ctx.
Proof. intros H. unfold detect_siblings. apply (cpulist_agree _ sg sg' f g _ H). Qed.

Lemma split_line_bytes line k v : split_line line = Ok (Some (k, v)) -> bytes line -> bytes v.
Proof.
  intros E B. unfold split_line in E.
  repeat match type of E with
         | (if ?b then _ else _) = _ => destruct b; [discriminate|]
         | bind ?x _ = _ => destruct x; cbn [bind] in E; try discriminate
         end.
  injection E as _ <-. now apply bytes_slice.
Qed.

(** ** x86 Linux *)
Lemma x86_line_agree sg sg' max ctx line : bytes line -> x86_line_callback sg max ctx line = x86_line_callback sg' max ctx line.
Proof.
  intros B. unfold x86_line_callback. f_equal. destruct ctx as [st| |]; cbn [bind]; auto.
  unfold x86_parse_line. destruct (split_line line) as [[(k, v)|]| |] eqn:E; cbn [bind]; auto.
  apply split_line_bytes in E; [|exact B]. unfold parse_processor_number.
  rewrite (processor_number_agree sg), (processor_number_agree sg') by exact E.
  replace (parse_apic_id sg v) with (parse_apic_id sg' v); [reflexivity|].
  unfold parse_apic_id, parse_all_digits. now rewrite (all_digits_agree sg), (all_digits_agree sg') by exact E.
Qed.
Lemma x86_cpuinfo_agree sg sg' max f g procs : same_file f g ->
  x86_parse_proc_cpuinfo sg max (f_contents f) (f_reads f) procs = x86_parse_proc_cpuinfo sg' max (f_contents g) (f_reads g) procs.
Proof.
  intros H. unfold x86_parse_proc_cpuinfo. rewrite (multiline_agree (x86_line_callback sg max) (x86_line_callback sg' max) proc_cpuinfo_buffer_size f g); auto.
  - unfold proc_cpuinfo_buffer_size. lia.
  - intros ctx l B. now apply x86_line_agree.
Qed.
Lemma x86_detect_agree sg sg' default fs gs : same_linux_files fs gs ->
  detect_linux_processors sg default fs = detect_linux_processors sg' default gs.
Proof.
  intros [H1 H2 H3 H4 H5 H6]. unfold detect_linux_processors.
  rewrite (max_count_agree default _ _ H1). destruct (get_max_processors_count _ _ _) as [max| |]; cbn [bind]; auto.
  rewrite (max_listed_agree sg sg' max _ _ H2). destruct (get_max_listed_processor _ _ _ _) as [mpo| |]; cbn [bind]; auto.
  rewrite (max_listed_agree sg sg' max _ _ H3). destruct (get_max_listed_processor _ _ _ _) as [mpr| |]; cbn [bind]; auto.
  destruct (x86_limits _ _ _) as (count, mask). cbv zeta.
  rewrite (listed_agree sg sg' count flag_possible _ _ _ H4).
  match goal with |- bind ?x _ = bind ?x _ => destruct x as [fl1| |]; cbn [bind]; auto end.
  rewrite (listed_agree sg sg' count flag_present _ _ _ H5).
  match goal with |- bind ?x _ = bind ?x _ => destruct x as [fl2| |]; cbn [bind]; auto end.
  now rewrite (x86_cpuinfo_agree sg sg' count _ _ _ H6).
Qed.
Lemma x86_same_answer sg sg' default sorter calloc_ok x fs gs : same_linux_files fs gs ->
  x86_linux_init sg default sorter calloc_ok x fs = x86_linux_init sg' default sorter calloc_ok x gs.
Proof. intros H. unfold x86_linux_init. now rewrite (x86_detect_agree sg sg' default fs gs H). Qed.

(** ** RISC-V Linux *)
Lemma group_agree sg sg' max v i f g procs : same_file f g -> detect_group sg max v i f procs = detect_group sg' max v i g procs.
Proof. intros H. unfold detect_group. now rewrite (siblings_agree sg sg' max _ f g _ H). Qed.
Lemma level_agree sg sg' max files files' v : (forall i, same_riscv_cpu (files i) (files' i)) -> forall todo procs,
  detect_level sg max files v todo procs = detect_level sg' max files' v todo procs.
Proof.
  intros H. induction todo as [|i todo IH]; intros procs; cbn [detect_level]; [reflexivity|].
  destruct (rd procs i); cbn [bind]; auto. destruct (negb _); [apply IH|].
  destruct (H i) as [K1 K2 K3 K4 K5 K6].
  rewrite (group_agree sg sg' max v i (level_file v (files i)) (level_file v (files' i))) by (destruct v; assumption).
  destruct (detect_group _ _ _ _ _ _) as [(ok, procs1)| |]; cbn [bind]; auto. destruct (negb ok); [reflexivity|].
  replace (fill_core i (files i) procs1) with (fill_core i (files' i) procs1).
  - match goal with |- bind ?x _ = bind ?x _ => destruct x; cbn [bind]; auto end.
  - unfold fill_core. now rewrite (id_agree _ _ K2), (frequency_agree _ _ K3), K6.
Qed.
Lemma riscv_detect_agree sg sg' max fs gs : same_riscv_files fs gs -> detect_riscv sg max fs = detect_riscv sg' max gs.
Proof.
  intros [H1 H2 H3 H4 H5]. unfold detect_riscv. rewrite (listed_agree sg sg' max _ _ _ _ H3).
  destruct (detect_listed_processors _ _ _ _ _ _) as [(ok, flags)| |]; cbn [bind]; auto. destruct (negb ok); [reflexivity|]. cbv zeta.
  rewrite (level_agree sg sg' max _ _ RCore H4). destruct (detect_level _ _ _ _ _ _) as [[p1|]| |]; cbn [bind]; auto.
  rewrite (level_agree sg sg' max _ _ RCluster H4). destruct (detect_level _ _ _ _ _ _) as [[p2|]| |]; cbn [bind]; auto.
  apply (level_agree sg sg' max _ _ RPackage H4).
Qed.
Lemma riscv_same_answer sg sg' default sorter calloc_ok fs gs : same_riscv_files fs gs ->
  riscv_linux_init sg default sorter calloc_ok fs = riscv_linux_init sg' default sorter calloc_ok gs.
Proof.
  intros H. destruct H as [H1 H2 H3 H4 H5] eqn:EH. unfold riscv_linux_init.
  rewrite (max_count_agree default _ _ H1). destruct (get_max_processors_count _ _ _) as [max| |]; cbn [bind]; auto.
  rewrite (max_listed_agree sg sg' max _ _ H2). destruct (get_max_listed_processor _ _ _ _) as [last| |]; cbn [bind]; auto.
  cbv zeta. rewrite (riscv_detect_agree sg sg' _ fs gs H). now rewrite H5.
Qed.

(** ** ARM Linux *)
Lemma processor_line_agree arm32 sg sg' k v p : bytes v -> processor_line arm32 sg k v p = processor_line arm32 sg' k v p.
Proof.
  intros B. unfold processor_line.
  assert (C : forall data which mask, parse_cache_number sg data which mask v p = parse_cache_number sg' data which mask v p).
  { intros. unfold parse_cache_number, parse_all_digits. now rewrite (all_digits_agree sg), (all_digits_agree sg') by exact B. }
  assert (R : parse_cpu_revision sg v p = parse_cpu_revision sg' v p).
  { unfold parse_cpu_revision, parse_all_digits. now rewrite (all_digits_agree sg), (all_digits_agree sg') by exact B. }
  assert (A : parse_cpu_architecture arm32 sg v p = parse_cpu_architecture arm32 sg' v p).
  { unfold parse_cpu_architecture. now rewrite (leading_agree sg), (leading_agree sg') by exact B. }
  now rewrite R, A, !C.
Qed.
Lemma arm_line_agree arm32 sg sg' max ctx line : bytes line -> arm_line_callback arm32 sg max ctx line = arm_line_callback arm32 sg' max ctx line.
Proof.
  intros B. unfold arm_line_callback. apply (f_equal (pair true)). destruct ctx as [st| |]; cbn [bind]; [|reflexivity|reflexivity].
  unfold arm_parse_line. destruct (split_line line) as [[(k, v)|]| |] eqn:E; cbn [bind]; [|reflexivity|reflexivity|reflexivity].
  apply split_line_bytes in E; [|exact B]. unfold parse_processor_number.
  rewrite (processor_number_agree sg), (processor_number_agree sg') by exact E.
  destruct (bytes_eqb _ _); [reflexivity|]. destruct (bytes_eqb _ _); [reflexivity|]. destruct (bytes_eqb _ _); [reflexivity|].
  destruct (_ <? _)%N.
  - destruct (rd _ _); cbn [bind]; [|reflexivity|reflexivity]. rewrite (processor_line_agree arm32 sg sg') by exact E. reflexivity.
  - rewrite (processor_line_agree arm32 sg sg') by exact E. reflexivity.
Qed.
Lemma arm_cpuinfo_agree arm32 sg sg' max f g hardware revision procs : same_file f g ->
  arm_parse_proc_cpuinfo arm32 sg max (f_contents f) (f_reads f) hardware revision procs
  = arm_parse_proc_cpuinfo arm32 sg' max (f_contents g) (f_reads g) hardware revision procs.
Proof.
  intros H. unfold arm_parse_proc_cpuinfo. destruct (wr hardware 0 _); cbn [bind]; [|reflexivity|reflexivity].
  assert (P : 0 < arm_cpuinfo_buffer_size) by (unfold arm_cpuinfo_buffer_size; lia).
  assert (L : forall ctx l, bytes l -> arm_line_callback arm32 sg max ctx l = arm_line_callback arm32 sg' max ctx l)
    by (intros ctx l B; exact (arm_line_agree arm32 sg sg' max ctx l B)).
  rewrite (multiline_agree (arm_line_callback arm32 sg max) (arm_line_callback arm32 sg' max) arm_cpuinfo_buffer_size f g _ P H L). reflexivity.
Qed.
Lemma board_agree arm32 sg sg' mask fs gs flags : same_arm_files fs gs -> read_board sg arm32 mask fs flags = read_board sg' arm32 mask gs flags.
Proof. intros H. unfold read_board. cbv zeta. now rewrite (arm_cpuinfo_agree arm32 sg sg' _ _ _ _ _ _ (sa_cpuinfo _ _ H)). Qed.
Lemma frequencies_agree files files' ps : (forall i, same_arm_cpu (files i) (files' i)) -> detect_frequencies files ps = detect_frequencies files' ps.
Proof.
  intros H. unfold detect_frequencies. apply for_each_ext. intros i s _. destruct (H i) as [K1 K2 K3 K4 K5]. unfold frequency_step.
  now rewrite (frequency_agree _ _ K1), (frequency_agree _ _ K2), (id_agree _ _ K3).
Qed.
Lemma cluster_list_agree sg sg' max i f g ps : same_file f g -> detect_cluster_list sg max i f ps = detect_cluster_list sg' max i g ps.
Proof. intros H. unfold detect_cluster_list. now rewrite (siblings_agree sg sg' max _ f g _ H). Qed.

(** The heuristic starts each cluster afresh, unless it takes it over from the kernel. *)
Definition same_hscan (s t : option hscan) : Prop :=
  match s, t with
  | None, None => True
  | Some h, Some h' => h_cluster h = h_cluster h' /\ h_expected h = h_expected h' /\ h_exists h = h_exists h' /\ h_start h = h_start h' /\
      (h_expected h <> 0 -> h_exists h = false -> same_known (h_known h) (h_known h'))
  | _, _ => False
  end.
Lemma heuristic_ignores_old_values android32 g g' usable ps : clusters_by_heuristic android32 g usable ps = clusters_by_heuristic android32 g' usable ps.
Proof.
  unfold clusters_by_heuristic. destruct (cluster_layout _ _) as [layout|]; [|reflexivity]. cbv zeta.
  pose proof (for_each_related same_hscan (heuristic_check_step layout ps) (heuristic_check_step layout ps)) as H.
  assert (ST : forall i s t, same_hscan s t ->
    match heuristic_check_step layout ps i s, heuristic_check_step layout ps i t with
    | Ok s', Ok t' => same_hscan s' t' | UB, UB => True | Hang, Hang => True | _, _ => False end).
  { intros i [h|] [h'|] S; cbn [same_hscan] in S; try contradiction; [|exact I]. destruct S as (S1 & S2 & S3 & S4 & S5).
    cbn [heuristic_check_step]. rewrite <- S1, <- S2, <- S3, <- S4.
    destruct (rd ps i) as [p| |]; cbn [bind]; auto. destruct (negb (a_valid p)); [cbn [same_hscan]; auto|].
    destruct (Nat.eqb_spec (h_expected h) 0) as [E0|E0].
    - destruct (rd layout (h_cluster h)) as [n| |]; cbn [bind]; auto. destruct (_ && _); [exact I|]. cbv zeta. cbn [same_hscan h_cluster h_expected h_exists h_start h_known].
      repeat (split; [reflexivity|]). intros _ ->. apply same_nothing.
    - destruct (h_exists h) eqn:EX.
      + destruct (negb _); [exact I|]. destruct (negb _); [exact I|]. cbn [same_hscan h_cluster h_expected h_exists h_start h_known].
        repeat (split; [reflexivity|]). discriminate.
      + destruct (clustered p); [exact I|]. specialize (S5 E0 eq_refl). pose proof (same_check p _ _ S5) as C.
        destruct (check_processor p (h_known h)), (check_processor p (h_known h')); try contradiction; [|exact I].
        cbn [same_hscan h_cluster h_expected h_exists h_start h_known]. repeat (split; [reflexivity|]). auto. }
  specialize (H ST (length ps) 0 (Some (HScan 0 0 false 0 g)) (Some (HScan 0 0 false 0 g'))).
  specialize (H ltac:(cbn; repeat (split; [reflexivity|]); congruence)).
  destruct (for_each (heuristic_check_step layout ps) 0 (length ps) (Some (HScan 0 0 false 0 g))) as [[a|]| |],
    (for_each (heuristic_check_step layout ps) 0 (length ps) (Some (HScan 0 0 false 0 g'))) as [[b|]| |]; cbn [bind]; try reflexivity; contradiction.
Qed.
Lemma clusters_agree sg sg' android32 g g' files files' n ps :
  (forall i, same_file (sf_cluster_cpus (files i)) (sf_cluster_cpus (files' i))) ->
  (forall i, same_file (sf_core_siblings (files i)) (sf_core_siblings (files' i))) ->
  detect_clusters sg android32 g files n ps = detect_clusters sg' android32 g' files' n ps.
Proof.
  intros H1 H2. unfold detect_clusters.
  replace (clusters_from_kernel sg files ps) with (clusters_from_kernel sg' files' ps).
  - destruct (clusters_from_kernel sg' files' ps) as [(m, ps1)| |]; cbn [bind]; auto.
    rewrite (heuristic_ignores_old_values android32 g g').
    match goal with |- bind ?x _ = bind ?y _ => assert (E : x = y); [|now rewrite E] end.
    destruct (m =? n); [reflexivity|]. destruct (clusters_by_heuristic _ _ _ _) as [(ok, ps2)| |]; cbn [bind fst snd]; auto.
    destruct ok; [reflexivity|]. apply scan_ignores_old_values.
  - unfold clusters_from_kernel. cbv zeta.
    rewrite (for_each_ext (sibling_lists_step sg' (N.of_nat (length ps)) files') (sibling_lists_step sg (N.of_nat (length ps)) files)); [reflexivity|].
    intros i (source, qs) _. unfold sibling_lists_step. cbv zeta.
    destruct (rd qs i); cbn [bind]; auto. destruct (negb _); [reflexivity|]. destruct (negb _); [reflexivity|].
    destruct source.
    + rewrite (cluster_list_agree sg sg' _ i _ _ qs (H1 i)). destruct (detect_cluster_list _ _ _ _ _) as [(ok, qs')| |]; cbn [bind]; auto.
      destruct ok; [reflexivity|]. now rewrite (cluster_list_agree sg sg' _ i _ _ qs' (H2 i)).
    + now rewrite (cluster_list_agree sg sg' _ i _ _ qs (H2 i)).
    + now rewrite (cluster_list_agree sg sg' _ i _ _ qs (H1 i)).
Qed.
Lemma arm_detect_agree sg sg' arm32 android g g' d mask fs gs flags : same_arm_files fs gs ->
  detect_arm sg arm32 android g d mask fs flags = detect_arm sg' arm32 android g' d mask gs flags.
Proof.
  intros H. unfold detect_arm. rewrite (board_agree arm32 sg sg' mask fs gs flags H).
  destruct (read_board _ _ _ _ _) as [[(((hw, rv), usable), ps)|]| |]; cbn [bind]; auto.
  destruct (ad_chipset _ _ _ _) as [chip| |]; cbn [bind]; auto.
  rewrite (frequencies_agree (amf_cpu fs) (amf_cpu gs)) by apply (sa_cpu _ _ H).
  destruct (detect_frequencies _ _) as [ps1| |]; cbn [bind]; auto.
  now rewrite (clusters_agree sg sg' (android && arm32) g g' (fun i => ac_siblings (amf_cpu fs i)) (fun i => ac_siblings (amf_cpu gs i)))
    by (intros i; apply (sa_cpu _ _ H i)).
Qed.
Lemma lists_agree {A} sg sg' default calloc_ok fs gs (nothing : A) rest rest' : same_arm_files fs gs ->
  (forall mask flags, rest mask flags = rest' mask flags) ->
  with_lists sg default calloc_ok fs nothing rest = with_lists sg' default calloc_ok gs nothing rest'.
Proof.
  intros [H1 H2 H3 H4 H5 H6 H7] R. unfold with_lists.
  rewrite (max_count_agree default _ _ H1). destruct (get_max_processors_count _ _ _) as [max| |]; cbn [bind]; auto.
  rewrite (max_listed_agree sg sg' max _ _ H2). destruct (get_max_listed_processor _ _ _ _) as [mpo| |]; cbn [bind]; auto.
  rewrite (max_listed_agree sg sg' max _ _ H3). destruct (get_max_listed_processor _ _ _ _) as [mpr| |]; cbn [bind]; auto.
  cbv zeta. destruct (negb _); [reflexivity|]. destruct (negb _); [reflexivity|].
  match goal with |- bind ?x _ = bind ?y _ => assert (E : x = y) end.
  { unfold listed_flags. cbv zeta. rewrite (listed_agree sg sg' _ af_possible _ _ _ H4).
    match goal with |- bind ?x _ = bind ?x _ => destruct x as [fl| |]; cbn [bind]; auto end.
    now rewrite (listed_agree sg sg' _ af_present _ _ _ H5). }
  rewrite E. match goal with |- bind ?x _ = bind ?x _ => destruct x as [fl| |]; cbn [bind]; auto end.
Qed.
Lemma arm_same_answer sg sg' arm32 android g g' default sorter calloc_ok d fs gs : same_arm_files fs gs ->
  arm_linux_init sg arm32 android g default sorter calloc_ok d fs = arm_linux_init sg' arm32 android g' default sorter calloc_ok d gs.
Proof.
  intros H. unfold arm_linux_init. apply lists_agree; [exact H|]. intros mask flags. now rewrite (arm_detect_agree sg sg' arm32 android g g' d mask fs gs flags H).
Qed.
Lemma arm_same_name sg sg' arm32 default calloc_ok decode fs gs : same_arm_files fs gs ->
  arm_package_name sg arm32 default calloc_ok decode fs = arm_package_name sg' arm32 default calloc_ok decode gs.
Proof.
  intros H. unfold arm_package_name. apply lists_agree; [exact H|]. intros mask flags. now rewrite (board_agree arm32 sg sg' mask fs gs flags H).
Qed.
