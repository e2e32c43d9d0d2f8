(** Properties of CPUID recordings and of their replay (C73, C74). *)
From Verif Require Import Base Text TopologySpec X86LinuxModel X86DescriptorModel X86DecodeModel X86IsaModel X86PackageModel X86DecodeSample
  CpuidDumpModel CpuidDumpSpec CpuidDumpProofs CpuidDumpTextProofs CpuidParseProofs CpuidReplayProofs CpuidDumpSample.
Open Scope N_scope.

(** The recording holds every leaf and subleaf that the processor has, once, in order,
    with the registers that it answered, one line each. *)
Theorem cpuid_dump_complete : forall m f t, sane m -> dump_text m f = Some t ->
  exists rs lines, transcript m rs /\ Forall2 line_of rs lines /\ t = flat_map (fun l => l ++ [10]) lines.
Proof. exact dump_lines. Qed.
Print Assumptions cpuid_dump_complete.

Example cpuid_dump_complete_case : sane small_cpu /\ dump_text small_cpu 10 =
  Some (text "CPUID 00000000: 00000001-756E6547-6C65746E-49656E69 [GenuineIntel]" ++ [10] ++
        text "CPUID 00000001: 00000543-00000000-00000000-000001BF" ++ [10]).
Proof. split; [exact small_sane|vm_compute; reflexivity]. Qed.

(** Recording ends exactly on processors whose lists of subleaves end. *)
Theorem cpuid_dump_ends : forall m, sane m -> ((exists f t, dump_text m f = Some t) <-> finite m).
Proof. exact dump_ends. Qed.
Print Assumptions cpuid_dump_ends.

Example cpuid_dump_ends_case : sane recorded_cpu /\ finite recorded_cpu.
Proof. split; [exact recorded_sane|exact recorded_finite]. Qed.

(** However long it takes, the recording is the same. *)
Theorem cpuid_dump_unique : forall m f f' t t', dump_text m f = Some t -> dump_text m f' = Some t' -> t = t'.
Proof. exact dump_text_same. Qed.
Print Assumptions cpuid_dump_unique.

Example cpuid_dump_unique_case : exists t, dump_text recorded_cpu 30 = Some t /\ dump_text recorded_cpu 40 = Some t /\ dump_text recorded_cpu 20 = None.
Proof. eexists. vm_compute. repeat split. Qed.

(** The script reads back every reading; a subleaf comes back if its two digits are
    decimal, else it becomes 0. *)
Theorem cpuid_dump_parsed : forall m f t, sane m -> ascii_names m -> dump_text m f = Some t ->
  exists rs table, transcript m rs /\ parse t = Some table /\ Forall2 read_back rs table.
Proof. exact parse_dump. Qed.
Print Assumptions cpuid_dump_parsed.

Example cpuid_dump_parsed_case : sane recorded_cpu /\ ascii_names recorded_cpu /\
  exists t table, dump_text recorded_cpu 30 = Some t /\ parse t = Some table /\ length table = 36%nat /\
    In (Entry 4 3 (sample_leaf4 8 3)) table.
Proof.
  split; [exact recorded_sane|]. split; [exact recorded_ascii|]. eexists. eexists. split; [vm_compute; reflexivity|].
  split; [vm_compute; reflexivity|]. split; [vm_compute; reflexivity|]. vm_compute. tauto.
Qed.

(** Where a recording can show all that matters, the library in mock mode detects from
    it the processor that was recorded. *)
Theorem cpuid_replay : forall m f t table, sane m -> ascii_names m -> faithful m -> dump_text m f = Some t -> parse t = Some table ->
  let m' := replayed table (xcr0 m) (mxcsr_mask m) in
  forall b, (forall fuel, init_processor b m' fuel = init_processor b m fuel) /\ (forall x, init_isa b m' x = init_isa b m x) /\
            (forall stack, detect_package_name b m' stack = detect_package_name b m stack).
Proof. exact replay_same. Qed.
Print Assumptions cpuid_replay.

Example cpuid_replay_case : sane recorded_cpu /\ ascii_names recorded_cpu /\ faithful recorded_cpu /\
  (exists t table i, dump_text recorded_cpu 30 = Some t /\ parse t = Some table /\
    init_processor (Build false false) (replayed table 7 0xFFFF) 20 = Ok i /\ g_size (xc_geometry (xi_l3 i)) = 8388608).
Proof.
  split; [exact recorded_sane|]. split; [exact recorded_ascii|]. split; [exact recorded_faithful|].
  eexists. eexists. eexists. split; [vm_compute; reflexivity|]. split; [vm_compute; reflexivity|]. split; [vm_compute; reflexivity|]. reflexivity.
Qed.

(** The recorder takes only subleaf 0 of leaf 0x8000001D: from the recording of an AMD
    processor the library does not find the second-level cache that it finds on it. *)
Theorem cpuid_replay_amd_refuted : exists m f t table i i', sane m /\ finite m /\ ascii_names m /\
  dump_text m f = Some t /\ parse t = Some table /\
  init_processor (Build false false) m 20 = Ok i /\ init_processor (Build false false) (replayed table (xcr0 m) (mxcsr_mask m)) 20 = Ok i' /\
  g_size (xc_geometry (xi_l2 i)) <> 0 /\ g_size (xc_geometry (xi_l2 i')) = 0.
Proof. exact replay_amd_refuted. Qed.
Print Assumptions cpuid_replay_amd_refuted.

(** The recorder does not take the leaves from 0xC0000000: the PadLock units of a VIA
    processor are lost. *)
Theorem cpuid_replay_via_refuted : exists m f t table, sane m /\ finite m /\ ascii_names m /\
  dump_text m f = Some t /\ parse t = Some table /\
  init_isa (Build false false) m F_ace = true /\ init_isa (Build false false) (replayed table (xcr0 m) (mxcsr_mask m)) F_ace = false.
Proof. exact replay_via_refuted. Qed.
Print Assumptions cpuid_replay_via_refuted.

(** The script does not read subleaf 0A: the eleventh cache is lost. *)
Theorem cpuid_replay_subleaf_refuted : exists m f t table i i', sane m /\ finite m /\ ascii_names m /\
  dump_text m f = Some t /\ parse t = Some table /\
  init_processor (Build false false) m 20 = Ok i /\ init_processor (Build false false) (replayed table (xcr0 m) (mxcsr_mask m)) 20 = Ok i' /\
  g_size (xc_geometry (xi_l3 i)) <> 0 /\ g_size (xc_geometry (xi_l3 i')) = 0.
Proof. exact replay_many_refuted. Qed.
Print Assumptions cpuid_replay_subleaf_refuted.
