(** Property theorems about ARM /proc/cpuinfo (C33, C49, C50). *)
From Verif Require Import Base BaseProofs Text LinuxTextModel LinuxTextSpec CpuinfoLineModel CpuinfoLineSpec X86CpuinfoModel
  ArmMidrModel ArmClustersModel ArmMidrSpec ArmCpuinfoModel ArmCpuinfoSpec ArmCpuinfoProofs ArmCpuinfoFileProofs
  ArmCpuinfoMeaningProofs ArmCpuinfoResultProofs ArmCpuinfoSample.
Open Scope N_scope.

(** ** C33 *)

(** One line of arbitrary bytes: memory outside the arrays is touched exactly when a
    Hardware value of 64 or a Revision value of 9 characters is stored.  In every other
    case only the current and the newly announced processor can change, and of them
    only what a line can say. *)
Theorem arm_cpuinfo_line_in_bounds : forall arm32 char_signed max st line, well_formed max st ->
  (overruns line /\ arm_parse_line arm32 char_signed max st line = UB) \/
  (~ overruns line /\ exists st', arm_parse_line arm32 char_signed max st line = Ok st' /\ well_formed max st' /\
     all_parsed (cs_procs st) (cs_procs st') /\
     forall cpu, cpu <> N.to_nat (cs_index st) -> cpu <> N.to_nat (cs_index st') ->
       nth_error (cs_procs st') cpu = nth_error (cs_procs st) cpu).
Proof. exact arm_line_total. Qed.
Print Assumptions arm_cpuinfo_line_in_bounds.

(** Arbitrary files without such a line (a line longer than 1024 characters may be cut
    there), read in arbitrary pieces: defined behaviour, table and arrays keep their
    size, and ids, frequencies, cluster data and the flags set by other code are kept. *)
Theorem arm_cpuinfo_arbitrary_contents : forall arm32 char_signed max wants lines hardware revision procs,
  length procs = N.to_nat max -> length hardware = 64%nat -> length revision = 9%nat ->
  Forall (fun l => ~ In 10 l /\ ~ overruns l /\ ~ overruns (firstn 1024 l)) lines ->
  exists ok st, arm_parse_proc_cpuinfo arm32 char_signed max (Some (join 10 lines)) wants hardware revision procs = Ok (ok, st) /\
    well_formed max st /\ all_parsed procs (cs_procs st).
Proof. exact arm_file_safe. Qed.
Print Assumptions arm_cpuinfo_arbitrary_contents.

Theorem arm_cpuinfo_missing_file : forall arm32 char_signed max wants hardware revision procs, length hardware = 64%nat ->
  exists st, arm_parse_proc_cpuinfo arm32 char_signed max None wants hardware revision procs = Ok (false, st) /\ cs_procs st = procs.
Proof. exact arm_file_missing. Qed.
Print Assumptions arm_cpuinfo_missing_file.

Example arm_cpuinfo_bounds_case :
  ~ overruns (long_line "Hardware" 65) /\ ~ overruns (firstn 1024 (long_line "Hardware" 65)) /\
  overruns (long_line "Hardware" 64) /\ overruns (long_line "Revision" 9) /\ ~ overruns (long_line "Serial" 64).
Proof.
  assert (K : forall n key, (n = 64 \/ n = 9 \/ n = 65)%nat -> In key ["Hardware"; "Revision"; "Serial"]%string ->
     key_value (long_line key n) (text key) (repeat 65 n)).
  { intros n key Hn Hk. apply computed_key_value.
    destruct Hk as [<-|[<-|[<-|[]]]]; destruct Hn as [->|[-> | ->]]; vm_compute; reflexivity. }
  assert (H65 := K 65%nat "Hardware"%string ltac:(auto) ltac:(cbn; auto)).
  split; [|split; [|split; [|split]]].
  - rewrite (overruns_hardware _ _ H65). discriminate.
  - replace (firstn 1024 (long_line "Hardware" 65)) with (long_line "Hardware" 65) by reflexivity.
    rewrite (overruns_hardware _ _ H65). discriminate.
  - exists (repeat 65 64). left. split; [apply K; cbn; auto|reflexivity].
  - exists (repeat 65 9). right. split; [apply K; cbn; auto|reflexivity].
  - assert (E : split_line (long_line "Serial" 64) = Ok (Some (text "Serial", repeat 65 64))) by (vm_compute; reflexivity).
    intros (v & [(H & _)|(H & _)]); apply (computed_key _ _ _ _ _ E) in H; discriminate H.
Qed.

(** The claim without that restriction is false: these files make the parser write one
    byte beyond the Hardware or the Revision array. *)
Theorem arm_cpuinfo_buffers_refuted : exists hardware_file revision_file : list N,
  forall arm32 char_signed,
  arm_parse_proc_cpuinfo arm32 char_signed 1 (Some hardware_file) [] (fresh 64) (fresh 9) (blank_procs 1) = UB /\
  arm_parse_proc_cpuinfo arm32 char_signed 1 (Some revision_file) [] (fresh 64) (fresh 9) (blank_procs 1) = UB.
Proof.
  exists (long_line "Hardware" 64 ++ [10]), (long_line "Revision" 9 ++ [10]).
  intros [] []; split; vm_compute; reflexivity.
Qed.
Print Assumptions arm_cpuinfo_buffers_refuted.

(** What the two arrays hold: shorter values are stored as C strings; longer ones are
    cut and not terminated; without a Hardware line the array holds the empty string;
    without a Revision line that array is left as it was. *)
Theorem arm_cpuinfo_strings_exact : forall arm32 char_signed max wants hardware revision procs lines ms,
  no_io_error wants -> lines <> [] -> Forall (fun l => ~ In 10 l) lines -> pieces_fit 1024 lines ->
  Forall2 (arm_line_means arm32) lines ms ->
  length procs = N.to_nat max -> length hardware = 64%nat -> length revision = 9%nat ->
  exists st, arm_parse_proc_cpuinfo arm32 char_signed max (Some (join 10 lines)) wants hardware revision procs = Ok (true, st) /\
    (length (cs_hardware st) = 64%nat /\ length (cs_revision st) = 9%nat) /\
    (last_text board_said ms None = None -> holds_string (cs_hardware st) []) /\
    (forall v, last_text board_said ms None = Some v ->
       ((length v < 64)%nat -> holds_string (cs_hardware st) v) /\
       ((64 < length v)%nat -> cs_hardware st = List.map Some (firstn 64 v))) /\
    (forall v, last_text board_revision_said ms None = Some v ->
       ((length v < 9)%nat -> holds_string (cs_revision st) v) /\
       ((9 < length v)%nat -> cs_revision st = List.map Some (firstn 9 v))) /\
    (last_text board_revision_said ms None = None -> cs_revision st = revision).
Proof. exact arm_file_strings. Qed.
Print Assumptions arm_cpuinfo_strings_exact.

(** So the strings need not be terminated, nor initialised. *)
Theorem arm_cpuinfo_terminated_refuted : exists st,
  arm_parse_proc_cpuinfo false true 1 (Some (long_line "Hardware" 65 ++ [10] ++ long_line "Revision" 10 ++ [10])) []
    (fresh 64) (fresh 9) (blank_procs 1) = Ok (true, st) /\
  ~ In (Some 0) (cs_hardware st) /\ ~ In (Some 0) (cs_revision st).
Proof.
  eexists. split; [vm_compute; reflexivity|]. cbn. split; intros H; repeat destruct H as [H|H]; try discriminate H; exact H.
Qed.
Print Assumptions arm_cpuinfo_terminated_refuted.

Theorem arm_cpuinfo_revision_initialised_refuted : exists st,
  arm_parse_proc_cpuinfo false true 1 (Some (long_line "Hardware" 10 ++ [10])) [] (fresh 64) (fresh 9) (blank_procs 1)
    = Ok (true, st) /\
  cs_revision st = repeat None 9.
Proof. eexists. split; [vm_compute; reflexivity|]. reflexivity. Qed.
Print Assumptions arm_cpuinfo_revision_initialised_refuted.

(** ** C49 *)

(** A file of meaningful lines: each record ends as the lines about that processor say,
    the later line winning, and everything else in it is kept. *)
Theorem arm_cpuinfo_exact : forall arm32 char_signed max wants hardware revision procs lines ms,
  no_io_error wants -> lines <> [] -> Forall (fun l => ~ In 10 l) lines -> pieces_fit 1024 lines ->
  Forall2 (arm_line_means arm32) lines ms ->
  length procs = N.to_nat max -> length hardware = 64%nat -> length revision = 9%nat ->
  exists st, arm_parse_proc_cpuinfo arm32 char_signed max (Some (join 10 lines)) wants hardware revision procs = Ok (true, st) /\
    length (cs_procs st) = length procs /\
    forall cpu p, nth_error procs cpu = Some p -> is_u32 (a_midr p) -> exists p', nth_error (cs_procs st) cpu = Some p' /\
      let said := told ms 0 (N.of_nat cpu) in
      is_u32 (a_midr p') /\
      (forall f, f <> Architecture -> field_of f (a_midr p') = last_said (field_said f) said (field_of f (a_midr p))) /\
      ((forall v ls, ~ In (Arch v ls) said) -> field_of Architecture (a_midr p') = field_of Architecture (a_midr p)) /\
      (forall v ls, In (Arch v ls) said -> field_of Architecture (a_midr p') =
         architecture_code arm32 (ar_architecture_version (a_report p'))
           (N.testbit (ar_architecture_flags (a_report p')) 0) (N.testbit (ar_architecture_flags (a_report p')) 1)
           (N.testbit (ar_architecture_flags (a_report p')) 2)) /\
      ar_architecture_version (a_report p') = last_said version_said said (ar_architecture_version (a_report p)) /\
      (forall b, N.testbit (ar_architecture_flags (a_report p')) b = true <->
         N.testbit (ar_architecture_flags (a_report p)) b = true \/
         (arm32 = true /\ exists v ls c, In (Arch v ls) said /\ In c ls /\
            ((c = 84 /\ b = 0) \/ (c = 69 /\ b = 1) \/ (c = 74 /\ b = 2)))) /\
      (forall b, N.testbit (ar_features (a_report p')) (N.of_nat b) = true <->
         N.testbit (ar_features (a_report p)) (N.of_nat b) = true \/
         exists names w, In (Feats names) said /\ In w names /\ stands_for arm32 false w b) /\
      (forall b, N.testbit (ar_features2 (a_report p')) (N.of_nat b) = true <->
         N.testbit (ar_features2 (a_report p)) (N.of_nat b) = true \/
         exists names w, In (Feats names) said /\ In w names /\ stands_for arm32 true w b) /\
      (forall data which, l1_value data which (a_report p') = last_said (cache_said data which) said (l1_value data which (a_report p))) /\
      (forall b, N.testbit (a_flags p') b = true <-> N.testbit (a_flags p) b = true \/ exists s, In s said /\ records s b) /\
      a_max p' = a_max p /\ a_min p' = a_min p /\ a_leader p' = a_leader p /\ a_count p' = a_count p /\ a_id p' = a_id p.
Proof. exact arm_file_result. Qed.
Print Assumptions arm_cpuinfo_exact.

(** A file with one block per processor, as kernels print it: every listed processor
    ends with exactly the main id register the kernel printed, marked complete, and with
    the features named in its block. *)
Theorem arm_cpuinfo_identifies_processors :
  forall arm32 char_signed max wants hardware revision procs lines ms version blocks,
  no_io_error wants -> lines <> [] -> Forall (fun l => ~ In 10 l) lines -> pieces_fit 1024 lines ->
  Forall2 (arm_line_means arm32) lines ms ->
  length procs = N.to_nat max -> length hardware = 64%nat -> length revision = 9%nat ->
  filter about_processors ms = flat_map (fun b => kernel_block version (fst (fst b)) (snd (fst b)) (snd b)) blocks ->
  NoDup (map (fun b => fst (fst b)) blocks) -> version <> 5 -> version <> 6 ->
  exists st, arm_parse_proc_cpuinfo arm32 char_signed max (Some (join 10 lines)) wants hardware revision procs = Ok (true, st) /\
    forall cpu m names p, In (cpu, m, names) blocks -> is_u32 m -> field_of Architecture m = 15 ->
      nth_error procs (N.to_nat cpu) = Some p -> is_u32 (a_midr p) ->
      exists p', nth_error (cs_procs st) (N.to_nat cpu) = Some p' /\
        a_midr p' = m /\ ar_architecture_version (a_report p') = version /\
        (forall b, 16 <= b <= 22 -> N.testbit (a_flags p') b = true) /\
        (forall b, N.testbit (ar_features (a_report p')) (N.of_nat b) = true <->
           N.testbit (ar_features (a_report p)) (N.of_nat b) = true \/ exists w, In w names /\ stands_for arm32 false w b) /\
        (forall b, N.testbit (ar_features2 (a_report p')) (N.of_nat b) = true <->
           N.testbit (ar_features2 (a_report p)) (N.of_nat b) = true \/ exists w, In w names /\ stands_for arm32 true w b).
Proof. exact arm_blocks_identified. Qed.
Print Assumptions arm_cpuinfo_identifies_processors.

Example arm_cpuinfo_board_case :
  Forall2 (arm_line_means false) board_lines board_meanings /\
  filter about_processors board_meanings =
    flat_map (fun b => kernel_block 8 (fst (fst b)) (snd (fst b)) (snd b)) board_blocks /\
  pieces_fit 1024 board_lines /\
  (exists st, arm_parse_proc_cpuinfo false true 2 (Some (join 10 board_lines)) [Some 5%nat; Some 700%nat] (fresh 64) (fresh 9)
      (blank_procs 2) = Ok (true, st) /\
    map a_midr (cs_procs st) = [0x410FD034; 0x411FD082] /\ map a_flags (cs_procs st) = [0x7F0000; 0x7F0000] /\
    map (fun p => ar_features (a_report p)) (cs_procs st) = [0x8F; 0x3]).
Proof.
  split; [apply board_lines_mean|]. split; [vm_compute; reflexivity|].
  split; [cbn; repeat split; lia|]. eexists. split; [vm_compute; reflexivity|]. repeat split; vm_compute; reflexivity.
Qed.

(** Old 32-bit processors: the letters after the version decide the architecture code. *)
Example arm_cpuinfo_arm5_case : exists st,
  arm_parse_proc_cpuinfo true false 1 (Some (join 10 [field_line "CPU implementer" "0x41"; text "CPU architecture: 5TEJ";
      field_line "CPU variant" "0x0"; field_line "CPU part" "0x926"; field_line "CPU revision" "5";
      field_line "Features" "swp half thumb fastmult edsp java"; field_line "D size" "16384"; field_line "D line length" "32"]))
    [] (fresh 64) (fresh 9) (blank_procs 1) = Ok (true, st) /\
  map a_midr (cs_procs st) = [0x41069265] /\ map (fun p => ar_architecture_flags (a_report p)) (cs_procs st) = [7] /\
  map (fun p => ar_features (a_report p)) (cs_procs st) = [0x197] /\
  map (fun p => lr_size (ar_dcache (a_report p))) (cs_procs st) = [16384].
Proof. eexists. split; [vm_compute; reflexivity|]. repeat split; vm_compute; reflexivity. Qed.

(** Which bits a word of the feature list sets, for every word. *)
Theorem arm_feature_names_exact : forall arm32 second word b,
  N.testbit (pick_bits second (feature_bits arm32 word)) (N.of_nat b) = true <-> stands_for arm32 second word b.
Proof. exact feature_bits_exact. Qed.
Print Assumptions arm_feature_names_exact.

Example arm_feature_names_case : stands_for true false (text "tlsi") 15 /\ stands_for false true (text "i8mm") 13 /\
  ~ stands_for true false (text "i8mm") 13.
Proof.
  rewrite <- !feature_bits_exact. split; [vm_compute; reflexivity|]. split; [vm_compute; reflexivity|]. vm_compute. discriminate.
Qed.

(** Not every name a 64-bit kernel prints is recorded. *)
Theorem arm_feature_names_complete_refuted : exists name b,
  nth_error (kernel_names false false) b = Some name /\ feature_bits false name = (0, 0).
Proof. exists (text "asimddp"), 20%nat. split; vm_compute; reflexivity. Qed.
Print Assumptions arm_feature_names_complete_refuted.

(** ** C50 *)

(** Unusable part numbers, implementers, variants and revisions change nothing. *)
Theorem arm_unusable_values_ignored : forall arm32 char_signed line, arm_line_means arm32 line Nothing ->
  split_line line = Ok None \/
  exists key value, split_line line = Ok (Some (key, value)) /\
    ~ In key [text "Hardware"; text "Revision"; text "processor"] /\
    forall p, processor_line arm32 char_signed key value p = Ok p.
Proof. exact processor_line_nothing. Qed.
Print Assumptions arm_unusable_values_ignored.

Example arm_unusable_values_case : arm_line_means false (field_line "CPU part" "0xd03f") Nothing /\
  arm_line_means false (field_line "CPU revision" "r2") Nothing.
Proof.
  split.
  - eapply means_part_unusable; [apply computed_key_value; vm_compute; reflexivity|].
    intros n (ds & E & _ & L & _). injection E as <-. cbn in L. lia.
  - eapply means_revision_unusable; [apply computed_key_value; vm_compute; reflexivity|repeat constructor|].
    intros H. apply Forall_inv in H. destruct H as (_ & H). now apply H.
Qed.

(** Unusable architectures and cache numbers are reported as ignored in the log, but
    the architecture field is set, and the cache number is stored and marked valid. *)
Theorem arm_unusable_values_ignored_refuted : exists (bad_architecture zero_size bad_line : list N) p,
  (forall n, In n bad_architecture -> ~ is_digit n) /\ dec_value zero_size = 0 /\
  ~ In (dec_value bad_line) [16; 32; 64; 128] /\
  (forall sg, exists p', processor_line false sg (text "CPU architecture") bad_architecture p = Ok p' /\ a_midr p' <> a_midr p) /\
  (forall sg, exists p', processor_line true sg (text "D size") zero_size p = Ok p' /\
     a_flags p' = N.lor (a_flags p) 0x10200000) /\
  (forall sg, exists p', processor_line true sg (text "D line length") bad_line p = Ok p' /\
     lr_line (ar_dcache (a_report p')) = 48 /\ a_flags p' = N.lor (a_flags p) 0x80200000).
Proof.
  exists (text "unknown"), (text "0"), (text "48"), aproc0.
  split. { cbn. unfold is_digit. intros n H. repeat destruct H as [<-|H]; try lia. }
  split; [reflexivity|]. split; [cbn; intros H; repeat destruct H as [H|H]; try discriminate H; exact H|].
  split; [|split]; intros []; eexists; (split; [vm_compute; reflexivity|]); try (vm_compute; discriminate); repeat split.
Qed.
Print Assumptions arm_unusable_values_ignored_refuted.
