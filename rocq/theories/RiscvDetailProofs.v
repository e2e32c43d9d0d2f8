(** RISC-V Linux: the ids, vendors and frequencies of cores and clusters are those of their first CPUs. *)
From Verif Require Import Base BaseProofs Sorting Text LinuxTextModel LinuxTextSpec LinuxTextProofs LinuxTextProps TopologySpec X86LinuxSpec
  RiscvLinuxModel RiscvLinuxSpec RiscvGroupProofs RiscvTablesProofs RiscvReportProofs RiscvInitProofs RiscvVendorProofs.
Open Scope nat_scope.

Lemma number_read f o : number_says f o ->
  get_processor_id_file (f_contents f) (f_reads f) = Ok o /\ get_processor_frequency (f_contents f) (f_reads f) = Ok (or_zero o).
Proof.
  intros [g digits tail E H1 H2 H3 H4 H5 H6|g E|g c E H1 H2 H3]; rewrite E.
  - destruct (small_file_number_exact (f_reads g) digits tail H1 H2 H3 H4 H5 H6) as (A & B & _). now split.
  - destruct (small_file_fallback 0%N None (f_reads g) (or_introl eq_refl)) as (A & B & _). now split.
  - destruct (small_file_fallback 0%N (Some c) (f_reads g)) as (A & B & _); [|now split]. right. exists c. auto.
Qed.

Lemma vendor_told_by answer : riscv_vendor_told answer (fst (hwprobe_decode answer)).
Proof.
  unfold hwprobe_decode, riscv_vendor_told, riscv_decode. destruct answer as [[[a b] d]|]; [|reflexivity]. cbn [fst]. unfold riscv_vendor, u32.
  destruct (N.eqb_spec (a mod two32) 1161) as [Q|Q]; split; intros X; try reflexivity; contradiction.
Qed.

Lemma core_details sg default sorter fs cpus group core_id khz :
  riscv_files_say default fs cpus group -> nested cpus group -> contiguous cpus group -> order_keeping sorter ->
  riscv_numbers_say fs cpus core_id khz ->
  exists t o, riscv_linux_init sg default sorter (fun _ => true) fs = Ok o /\ ro_published o = Some t /\
    riscv_reports cpus group t /\ details_of_first fs cpus group core_id khz t.
Proof.
  intros Hf Hn Hc Hs Hk. destruct (init_reports_leaders sg default sorter fs cpus group Hf Hn Hc Hs) as (max & procs & t & o & E & H1 & H2 & H3 & H4 & _).
  exists t, o. do 3 (split; [assumption|]). pose proof (detect_told _ _ _ _ E) as T.
  intros p Hp. cbv zeta. destruct (H3 p Hp) as (I & c & l & pc & pl & C & L & Npc & Vpc & Npl & Vpl & X1 & X2 & X3 & Y1 & _ & Y2 & Y3).
  set (cpu := N.to_nat (p_linux_id p)) in *.
  destruct (head_In cpus group RCore cpu I) as (IC & _). destruct (head_In cpus group RCluster cpu I) as (IL & _).
  unfold head in IC, IL. set (a := hd 0 (members cpus group RCore cpu)) in *. set (b := hd 0 (members cpus group RCluster cpu)) in *.
  pose proof (T a pc (nth_error_some_lt _ _ _ _ Npc) Npc Vpc) as D. pose proof (T b pl (nth_error_some_lt _ _ _ _ Npl) Npl Vpl) as D'.
  destruct (Hk a IC) as (A1 & A2). destruct (Hk b IL) as (B1 & B2). apply number_read in A1, A2, B1, B2.
  unfold details, told_details in D, D'. rewrite (proj1 A1), (proj2 A2) in D. rewrite (proj1 B1), (proj2 B2) in D'.
  injection D as D1 D2 D3. injection D' as D1' D2' D3'.
  exists c, l. split; [exact C|]. split; [exact L|]. split; [rewrite X1, D2; reflexivity|]. split; [congruence|].
  split; [rewrite X2, D1; apply vendor_told_by|]. split; [exact Y1|]. split; [congruence|]. rewrite Y2, D1'. apply vendor_told_by.
Qed.

Lemma frequency_not_hz sg default sorter fs cpus group core_id khz :
  riscv_files_say default fs cpus group -> nested cpus group -> contiguous cpus group -> order_keeping sorter ->
  riscv_numbers_say fs cpus core_id khz ->
  exists t o, riscv_linux_init sg default sorter (fun _ => true) fs = Ok o /\ ro_published o = Some t /\
    forall p c k, In p (rt_processors t) -> its_core t p c ->
      khz (hd 0 (members cpus group RCore (N.to_nat (p_linux_id p)))) = Some k -> k <> 0%N -> riscv_core_frequency c <> (k * 1000)%N.
Proof.
  intros Hf Hn Hc Hs Hk. destruct (core_details sg default sorter fs cpus group core_id khz Hf Hn Hc Hs Hk) as (t & o & H1 & H2 & _ & H3).
  exists t, o. do 2 (split; [assumption|]). intros p c k Hp (i & E & F) K Z. destruct (H3 p Hp) as (c' & l & (i' & E' & F') & _ & _ & X & _).
  assert (c' = c) by congruence. subst c'. rewrite X, K. cbn [or_zero]. lia.
Qed.
