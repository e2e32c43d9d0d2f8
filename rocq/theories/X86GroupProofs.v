(** From CPUID to the published tables. *)
From Verif Require Import Base Sorting TopologySpec X86LinuxModel X86LinuxSpec X86FinalProofs X86DescriptorModel X86DecodeModel
  X86DecodeSpec X86DecodeProofs X86DescriptorProofs X86LevelsProofs.
Open Scope N_scope.

Lemma log2_up_byte n b : n <= 256 -> log2_up n b -> b <= 8.
Proof. intros H (_ & L). apply L. exact H. Qed.

Lemma grouping_from_cpuid_legacy b m fuel j x char_signed default sorter calloc_ok files o t :
  (forall l i, regs_ok (cpuidex m l i)) -> leaves_end m fuel ->
  let vendor := decode_vendor b (ebx (cpuid m 0)) (ecx (cpuid m 0)) (edx (cpuid m 0)) in
  vendor <> vendor_amd -> vendor <> vendor_hygon -> 4 <= eax (cpuid m 0) ->
  (S j < fuel)%nat -> ends_at d_type (cpuidex m 4) (S j) ->
  legacy_used (cpuid m 1) (eax (cpuid m 0)) -> l_htt (cpuid m 1) = true ->
  (eax (cpuid m 0x80000000) < 0x80000001 \/ l_cmp_legacy m = false) ->
  d_package_cores (cpuidex m 4 (N.of_nat j)) <= l_logical (cpuid m 1) ->
  init_processor b m fuel = Ok x -> qsort_contract sorter ->
  x86_linux_init char_signed default sorter calloc_ok x files = Ok o -> o_published o = Some t ->
  exists core_bits package_bits,
    log2_up (d_package_cores (cpuidex m 4 (N.of_nat j))) core_bits /\ log2_up (l_logical (cpuid m 1)) package_bits /\
    grouped_by p_core (package_bits - core_bits) (t_processors t) /\ grouped_by p_package package_bits (t_processors t).
Proof.
  intros HR HE vendor V1 V2 HB HF E4 HG HH HC HL HX HS HI HO.
  destruct (init_processor_legacy b m fuel j HR HE V1 V2 HB HF E4 HG HH HC HL) as (x' & EX & F1 & F2 & F3 & F4).
  rewrite EX in HX. injection HX as ->. exists (xi_core_length x), (xi_thread_length x + xi_core_length x).
  split; [exact F3|]. split; [exact F4|].
  assert (LT : l_logical (cpuid m 1) < 256) by exact (field_lt 16 8 (ebx (cpuid m 1))).
  assert (P0 : 0 < d_package_cores (cpuidex m 4 (N.of_nat j))) by (unfold d_package_cores; lia).
  assert (AF : adjacent_fields x).
  { split; [exact F1|]. split; [exact F2|]. pose proof (log2_up_byte (l_logical (cpuid m 1)) _ ltac:(lia) F4). lia. }
  destruct (published_grouped char_signed default sorter calloc_ok x files o t HS AF HI HO) as (G1 & G2 & _).
  split; [|exact G2]. replace (xi_thread_length x + xi_core_length x - xi_core_length x) with (xi_thread_length x) by lia. exact G1.
Qed.

Lemma grouping_from_cpuid_x2apic b m fuel x char_signed default sorter calloc_ok files o t :
  (forall l i, regs_ok (cpuidex m l i)) -> leaves_end m fuel -> (2 < fuel)%nat ->
  l_x2apic (cpuid m 1) = true -> 0xB <= eax (cpuid m 0) -> two_levels (cpuidex m 0xB) ->
  t_shift (cpuidex m 0xB 0) + t_shift (cpuidex m 0xB 1) <= 32 ->
  init_processor b m fuel = Ok x -> qsort_contract sorter ->
  x86_linux_init char_signed default sorter calloc_ok x files = Ok o -> o_published o = Some t ->
  grouped_by p_core (t_shift (cpuidex m 0xB 0)) (t_processors t) /\
  (t_shift (cpuidex m 0xB 0) = 0 -> grouped_by p_package (t_shift (cpuidex m 0xB 1)) (t_processors t)).
Proof.
  intros HR HE HF HX HB HT HW EI HS HI HO.
  destruct (init_processor_x2apic b m fuel HR HE HF HX HB HT) as (x' & EX & F1 & F2 & F3 & F4).
  rewrite EX in EI. injection EI as ->.
  assert (AF : adjacent_fields x) by (split; [exact F1|]; split; [congruence|]; rewrite F2, F4; exact HW).
  destruct (published_grouped char_signed default sorter calloc_ok x files o t HS AF HI HO) as (G1 & G2 & _).
  rewrite F2 in *. split; [exact G1|]. intros Z. rewrite Z, F4, N.add_0_l in G2. exact G2.
Qed.
