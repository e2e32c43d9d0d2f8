(** Property C24: cpuinfo_has_x86_* answers. *)
From Verif Require Import Base X86DescriptorModel X86DecodeModel X86DecodeSpec X86DecodeSample X86IsaModel X86IsaSpec X86IsaSample X86IsaProofs.
Open Scope N_scope.

(** A getter that the build does not fix reports an instruction set only if one of
    the documented CPUID bits announces it and the operating system has enabled the
    register state it needs.  AMX, VAES and VPCLMULQDQ are treated below. *)
Theorem x86_isa_reported_only_if_usable : forall b m g places state,
  by_build b g = None -> documented_on b m g = Some (Entry places state) -> ~ amx_getter g -> ~ vaes_getter g ->
  reports b m g -> (exists p, In p places /\ announces m p) /\ os_enabled m state.
Proof. exact reported_sound. Qed.
Print Assumptions x86_isa_reported_only_if_usable.

Example x86_isa_reported_case :
  documented_on (Build false false) (vector_cpu 0xE7) Has_avx512f = Some (Entry [Place 7 0 ebx 16] avx512_state) /\
  reports (Build false false) (vector_cpu 0xE7) Has_avx512f /\ ~ reports (Build false false) (vector_cpu 0x7) Has_avx512f /\
  reports (Build false false) (vector_cpu 0x7) Has_avx2.
Proof.
  split; [reflexivity|]. split; [vm_compute; reflexivity|]. split; [|vm_compute; reflexivity]. unfold reports. vm_compute. discriminate.
Qed.

(** Conversely an instruction set that the processor announces and the operating
    system has enabled is reported. *)
Theorem x86_isa_usable_is_reported : forall b m g places state,
  1 <= eax (cpuid m 0) -> coherent m ->
  by_build b g = None -> documented_on b m g = Some (Entry places state) -> ~ amx_getter g ->
  (exists p, In p places /\ announces m p) -> os_enabled m state -> reports b m g.
Proof. exact reported_complete. Qed.
Print Assumptions x86_isa_usable_is_reported.

Example x86_isa_coherent_case : coherent (vector_cpu 0x602E7).
Proof.
  constructor.
  - intros _. split; [discriminate|reflexivity].
  - intros i Hi _ Hx. split; [discriminate|].
    change (N.testbit 0x000602E7 i = true) in Hx. change (N.testbit 0x000602FF i = true).
    assert (Hl : N.lor 0x602E7 0x18 = 0x602FF) by reflexivity. rewrite <- Hl, N.lor_spec, Hx. reflexivity.
  - intros _. vm_compute. discriminate.
Qed.

(** The rest of the getters: constants of the build, AVX10.2, 3DNow! of Geode and
    denormals-are-zero. *)
Theorem x86_isa_fixed_by_build : forall b isa g v, by_build b g = Some v -> has_x86 b isa g = v.
Proof. exact getter_by_build. Qed.
Print Assumptions x86_isa_fixed_by_build.

Example x86_isa_fixed_case : by_build (Build false false) Has_sse2 = Some true /\ by_build (Build true false) Has_sse2 = None.
Proof. split; reflexivity. Qed.

Theorem x86_isa_avx10_2 : forall b m, 1 <= eax (cpuid m 0) -> coherent m ->
  reports b m Has_avx10_2 <->
  leaf_exists m 0x24 /\ 2 <= field 0 8 (ebx (cpuidex m 0x24 0)) /\ announces m (Place 7 1 edx 19) /\ os_enabled m avx512_state.
Proof. exact avx10_2_exact. Qed.
Print Assumptions x86_isa_avx10_2.

Example x86_isa_avx10_2_case :
  reports (Build false false) (vector_cpu 0x602E7) Has_avx10_2 /\ ~ reports (Build false false) (vector_cpu 0x7) Has_avx10_2.
Proof. split; [vm_compute; reflexivity|]. unfold reports. vm_compute. discriminate. Qed.

Theorem x86_isa_3dnow_geode : forall b m, 1 <= eax (cpuid m 0) -> by_build b Has_3dnow_geode = None ->
  reports b m Has_3dnow_geode <->
  announces m (Place 0x80000001 0 edx 30) /\ decode_uarch b (vendor_of b m) (decode_model_info (eax (cpuid m 1))) = uarch_geode.
Proof. exact geode_value. Qed.
Print Assumptions x86_isa_3dnow_geode.

Theorem x86_isa_daz : forall b m, 1 <= eax (cpuid m 0) -> by_build b Has_daz = None ->
  reports b m Has_daz <->
  announces m (Place 1 0 ecx 0) \/
  (announces m (Place 1 0 edx 25) /\ reports b m Has_fxsave /\ N.testbit (mxcsr_mask m) 6 = true).
Proof. exact daz_value. Qed.
Print Assumptions x86_isa_daz.

Example x86_isa_32bit_case :
  by_build (Build true false) Has_daz = None /\
  reports (Build true false) (p4_cpu 0xFFFF) Has_daz /\ ~ reports (Build true false) (p4_cpu 0xFFBF) Has_daz /\
  reports (Build true false) geode_cpu Has_3dnow_geode.
Proof.
  split; [reflexivity|]. split; [vm_compute; reflexivity|]. split; [|vm_compute; reflexivity]. unfold reports. vm_compute. discriminate.
Qed.

(** XCR0 does not influence instruction sets that need no extended state. *)
Theorem x86_isa_independent_of_xcr0 : forall b m x g,
  (exists places, documented_on b m g = Some (Entry places [])) \/ g = Has_3dnow_geode \/ g = Has_daz \/ vaes_getter g ->
  has_x86 b (init_isa b (with_xcr0 m x)) g = has_x86 b (init_isa b m) g.
Proof. exact xcr0_same. Qed.
Print Assumptions x86_isa_independent_of_xcr0.

Example x86_isa_independent_case :
  documented_on (Build false false) (vector_cpu 7) Has_sha = Some (Entry [Place 7 0 ebx 29] []) /\
  reports (Build false false) (with_xcr0 (vector_cpu 7) 0) Has_sha.
Proof. split; vm_compute; reflexivity. Qed.

(** Enabling more state never takes an instruction set away. *)
Theorem x86_isa_monotone_in_xcr0 : forall b m x y g,
  (forall i, N.testbit x i = true -> N.testbit y i = true) ->
  reports b (with_xcr0 m x) g -> reports b (with_xcr0 m y) g.
Proof. exact xcr0_mono. Qed.
Print Assumptions x86_isa_monotone_in_xcr0.

Example x86_isa_monotone_case :
  ~ reports (Build false false) (with_xcr0 (vector_cpu 0) 1) Has_avx /\ reports (Build false false) (with_xcr0 (vector_cpu 0) 7) Has_avx.
Proof. split; [|vm_compute; reflexivity]. unfold reports. vm_compute. discriminate. Qed.

(** AMX is reported whenever the AVX-512 state is enabled, whether or not the tile
    state is; and it is not reported if the tile state is enabled without AVX-512. *)
Theorem x86_isa_amx_gate_partial : forall b m g places state,
  documented_on b m g = Some (Entry places state) -> amx_getter g ->
  reports b m g -> (exists p, In p places /\ announces m p) /\ os_enabled m avx512_state.
Proof. exact amx_gate. Qed.
Print Assumptions x86_isa_amx_gate_partial.

Theorem x86_isa_amx_refuted : exists m places,
  documented_on (Build false false) m Has_amx_tile = Some (Entry places amx_state) /\
  reports (Build false false) m Has_amx_tile /\ ~ os_enabled m amx_state /\
  (exists m', (exists p, In p places /\ announces m' p) /\ os_enabled m' amx_state /\ ~ reports (Build false false) m' Has_amx_tile).
Proof.
  exists (vector_cpu 0xE7), [Place 7 0 edx 24]. split; [reflexivity|]. split; [vm_compute; reflexivity|]. split.
  - intros [H|[_ H]]; [discriminate H|]. specialize (H 17 (or_introl eq_refl)). vm_compute in H. discriminate H.
  - exists (vector_cpu 0x60007). split; [|split].
    + exists (Place 7 0 edx 24). split; [now left|]. split; [discriminate|reflexivity].
    + right. split; [split; [discriminate|reflexivity]|]. intros i [<- |[<- |[]]]; reflexivity.
    + unfold reports. vm_compute. discriminate.
Qed.
Print Assumptions x86_isa_amx_refuted.

(** VAES and VPCLMULQDQ are reported without any check of the AVX state. *)
Theorem x86_isa_vaes_ungated : forall b m g places state,
  documented_on b m g = Some (Entry places state) -> vaes_getter g -> 1 <= eax (cpuid m 0) ->
  reports b m g <-> (exists p, In p places /\ announces m p).
Proof. exact vaes_gate. Qed.
Print Assumptions x86_isa_vaes_ungated.

Theorem x86_isa_vaes_refuted : exists m places,
  documented_on (Build false false) m Has_vaes = Some (Entry places avx_state) /\
  reports (Build false false) m Has_vaes /\ reports (Build false false) m Has_vpclmulqdq /\ ~ os_enabled m avx_state /\
  ~ reports (Build false false) m Has_avx.
Proof.
  exists (vector_cpu 1), [Place 7 0 ecx 9]. split; [reflexivity|]. split; [vm_compute; reflexivity|]. split; [vm_compute; reflexivity|]. split.
  - intros [H|[_ H]]; [discriminate H|]. specialize (H 2 (or_intror (or_introl eq_refl))). vm_compute in H. discriminate H.
  - unfold reports. vm_compute. discriminate.
Qed.
Print Assumptions x86_isa_vaes_refuted.
