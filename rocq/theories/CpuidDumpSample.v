(** Sample processors for the examples about CPUID recordings, and the counterexamples. *)
From Coq Require Import Sorted Lia ZifyBool ZifyNat ZifyN.
From Verif Require Import Base Text TopologySpec X86LinuxModel X86DescriptorModel X86DecodeModel X86DecodeSpec X86DecodeSample X86IsaModel X86NameModel X86PackageModel
  CpuidDumpModel CpuidDumpSpec CpuidDumpProofs CpuidDumpTextProofs CpuidParseProofs CpuidReplayProofs.
Open Scope N_scope.

(** A desktop processor with x2APIC, caches in leaf 4 and the brand string
    "Sample(R) CPU". *)
Definition recorded_cpu : cpu :=
  Cpu (fun leaf i =>
    if leaf =? 0 then intel_leaf0 0x14
    else if leaf =? 1 then Regs 0x000906EA 0x00100800 0x7FFAFBBF 0xBFEBFBFF
    else if leaf =? 2 then Regs 0x76036301 0x00F0B5FF 0 0x00C30000
    else if leaf =? 4 then sample_leaf4 8 i
    else if leaf =? 7 then if i =? 0 then Regs 0 0x029C6FBF 0 0x9C002E00 else regs0
    else if leaf =? 0xB then
      if i =? 0 then Regs 1 2 0x100 5 else if i =? 1 then Regs 4 12 0x201 5 else Regs 0 0 2 5
    else if leaf =? 0xD then Regs 0x1F 0x440 0x440 0
    else if leaf =? 0x14 then if i =? 0 then Regs 1 0xF 7 0 else Regs 0x02490002 0x003F3FFF 0 0
    else if leaf =? 0x80000000 then Regs 0x80000008 0 0 0
    else if leaf =? 0x80000001 then Regs 0 0 0x121 0x2C100800
    else if leaf =? 0x80000002 then Regs 0x706D6153 0x5228656C 0x50432029 0x00000055
    else regs0) (fun _ => Regs 0x76036301 0x00F0B5FF 0 0x00C30000) 7 0xFFFF.

Ltac every_leaf := repeat match goal with |- context [if ?b then _ else _] => destruct b end; unfold narrow, two32, intel_leaf0, regs0; cbn [eax ebx ecx edx]; lia.

Lemma recorded_sane : sane recorded_cpu.
Proof.
  split; [|vm_compute; reflexivity]. intros l i. unfold recorded_cpu. cbn [cpuidex]. destruct (l =? 4) eqn:E.
  - apply N.eqb_eq in E. subst l. cbn [N.eqb Pos.eqb]. apply (sample_leaf4_ok 8 i). lia.
  - every_leaf.
Qed.

Lemma byte_table : forall (l : list N) c, forallb (fun c => c <? 128) l = true -> In c l -> c < 128.
Proof. intros l c H Hin. rewrite forallb_forall in H. specialize (H c Hin). lia. Qed.
Ltac names_ascii := split; intros leaf c Hl Hc; cbn in Hl; repeat (destruct Hl as [<-|Hl]; [revert Hc; apply byte_table; vm_compute; reflexivity|]); destruct Hl.

Lemma recorded_ascii : ascii_names recorded_cpu.
Proof. names_ascii. Qed.

Lemma recorded_finite : finite recorded_cpu.
Proof.
  repeat split.
  - vm_compute. discriminate.
  - intros _. exists 4. split; reflexivity.
  - intros _. exists 2. split; reflexivity.
  - intros _ _. exists 2. split; [split; [lia|reflexivity]|reflexivity].
  - intros leaf Hl _. cbn in Hl. repeat (destruct Hl as [<-|Hl]; [vm_compute; discriminate|]). destruct Hl.
Qed.

Lemma recorded_faithful : faithful recorded_cpu.
Proof.
  split.
  - intros _ i. reflexivity.
  - intros _ _. reflexivity.
  - intros _ _. left. reflexivity.
  - intros _. exists 4. split; [lia|reflexivity].
  - intros _. exists 2. split; [lia|reflexivity].
  - intros H. vm_compute in H. exfalso. apply H. reflexivity.
  - intros _. vm_compute. reflexivity.
Qed.

(** A processor with two base leaves, as recorded. *)
Definition small_cpu : cpu :=
  Cpu (fun leaf i => if leaf =? 0 then intel_leaf0 1 else if leaf =? 1 then Regs 0x543 0 0 0x1BF else regs0) (fun _ => regs0) 0 0.
Lemma small_sane : sane small_cpu.
Proof. split; [|vm_compute; reflexivity]. intros l i. unfold small_cpu. cbn [cpuidex]. every_leaf. Qed.

(** ** Counterexamples *)
Lemma amd_sane : sane (amd_cpu true).
Proof. split; [|vm_compute; reflexivity]. exact (amd_cpu_ok true). Qed.

(** A VIA Nano with the PadLock units. *)
Definition via_cpu : cpu :=
  Cpu (fun leaf i =>
    if leaf =? 0 then Regs 0xA 0x746E6543 0x736C7561 0x48727561
    else if leaf =? 1 then Regs 0x6F8 0x800 0x008023BD 0xBFC9FBFF
    else if leaf =? 0x80000000 then Regs 0x80000008 0 0 0
    else if leaf =? 0xC0000000 then Regs 0xC0000004 0 0 0
    else if leaf =? 0xC0000001 then Regs 0 0 0 0x3FCC
    else regs0) (fun _ => regs0) 7 0xFFFF.
Lemma via_sane : sane via_cpu.
Proof. split; [|vm_compute; reflexivity]. intros l i. unfold via_cpu. cbn [cpuidex]. every_leaf. Qed.

(** Eleven caches in leaf 4, the last of them the L3 cache. *)
Definition many_caches : cpu :=
  Cpu (fun leaf i =>
    if leaf =? 0 then intel_leaf0 4
    else if leaf =? 1 then Regs 0x000906EA 0x00100800 0x7FDAFBBF 0xBFEBFBFF
    else if leaf =? 4 then if i <? 10 then Regs 0x143 0x00C0003F 1023 0 else if i =? 10 then Regs 0x163 0x03C0003F 8191 0 else regs0
    else regs0) (fun _ => regs0) 7 0xFFFF.
Lemma many_sane : sane many_caches.
Proof. split; [|vm_compute; reflexivity]. intros l i. unfold many_caches. cbn [cpuidex]. every_leaf. Qed.

Lemma pick_processors : forall m f b fuel (P : xinfo -> xinfo -> bool),
  match dump_text m f with
  | Some t => match parse t with
              | Some table =>
                  match init_processor b m fuel, init_processor b (replayed table (xcr0 m) (mxcsr_mask m)) fuel with
                  | Ok i, Ok i' => P i i'
                  | _, _ => false
                  end
              | None => false
              end
  | None => false
  end = true ->
  exists t table i i', dump_text m f = Some t /\ parse t = Some table /\ init_processor b m fuel = Ok i /\
    init_processor b (replayed table (xcr0 m) (mxcsr_mask m)) fuel = Ok i' /\ P i i' = true.
Proof.
  intros m f b fuel P H. destruct (dump_text m f) as [t|] eqn:E0; [|discriminate]. destruct (parse t) as [table|] eqn:E; [|discriminate].
  destruct (init_processor b m fuel) as [i| |] eqn:E1; try discriminate.
  destruct (init_processor b (replayed table _ _) fuel) as [i'| |] eqn:E2; try discriminate.
  exists t, table, i, i'. auto.
Qed.
Lemma pick_features : forall m f b x,
  match dump_text m f with
  | Some t => match parse t with
              | Some table => init_isa b m x && negb (init_isa b (replayed table (xcr0 m) (mxcsr_mask m)) x)
              | None => false
              end
  | None => false
  end = true ->
  exists t table, dump_text m f = Some t /\ parse t = Some table /\ init_isa b m x = true /\
    init_isa b (replayed table (xcr0 m) (mxcsr_mask m)) x = false.
Proof.
  intros m f b x H. destruct (dump_text m f) as [t|] eqn:E0; [|discriminate]. destruct (parse t) as [table|] eqn:E; [|discriminate].
  apply andb_prop in H. destruct H as [G1 G2]. apply Bool.negb_true_iff in G2. exists t, table. auto.
Qed.
Definition lost (c : xinfo -> xcache) (i i' : xinfo) : bool :=
  negb (g_size (xc_geometry (c i)) =? 0) && (g_size (xc_geometry (c i')) =? 0).
Lemma lost_sizes : forall c i i', lost c i i' = true -> g_size (xc_geometry (c i)) <> 0 /\ g_size (xc_geometry (c i')) = 0.
Proof. intros c i i' H. unfold lost in H. lia. Qed.

Lemma amd_names : ascii_names (amd_cpu true).
Proof. names_ascii. Qed.
Lemma via_ascii : ascii_names via_cpu.
Proof. names_ascii. Qed.
Lemma many_names : ascii_names many_caches.
Proof. names_ascii. Qed.

Lemma ended : forall m f t, sane m -> dump_text m f = Some t -> finite m.
Proof. intros m f t Hs H. apply dump_ends; [exact Hs|]. exists f, t. exact H. Qed.

Lemma replay_amd_refuted : exists m f t table i i', sane m /\ finite m /\ ascii_names m /\
  dump_text m f = Some t /\ parse t = Some table /\
  init_processor (Build false false) m 20 = Ok i /\ init_processor (Build false false) (replayed table (xcr0 m) (mxcsr_mask m)) 20 = Ok i' /\
  g_size (xc_geometry (xi_l2 i)) <> 0 /\ g_size (xc_geometry (xi_l2 i')) = 0.
Proof.
  destruct (pick_processors (amd_cpu true) 50 (Build false false) 20 (lost xi_l2)) as (t & table & i & i' & H1 & H2 & H3 & H4 & H5); [vm_compute; reflexivity|].
  apply lost_sizes in H5. destruct H5 as [H5 H6]. exists (amd_cpu true), 50%nat, t, table, i, i'.
  split; [exact amd_sane|]. split; [exact (ended _ _ _ amd_sane H1)|]. split; [exact amd_names|]. auto 10.
Qed.
Lemma replay_via_refuted : exists m f t table, sane m /\ finite m /\ ascii_names m /\
  dump_text m f = Some t /\ parse t = Some table /\
  init_isa (Build false false) m F_ace = true /\ init_isa (Build false false) (replayed table (xcr0 m) (mxcsr_mask m)) F_ace = false.
Proof.
  destruct (pick_features via_cpu 50 (Build false false) F_ace) as (t & table & H1 & H2 & H3 & H4); [vm_compute; reflexivity|]. exists via_cpu, 50%nat, t, table.
  split; [exact via_sane|]. split; [exact (ended _ _ _ via_sane H1)|]. split; [exact via_ascii|]. auto 10.
Qed.
Lemma replay_many_refuted : exists m f t table i i', sane m /\ finite m /\ ascii_names m /\
  dump_text m f = Some t /\ parse t = Some table /\
  init_processor (Build false false) m 20 = Ok i /\ init_processor (Build false false) (replayed table (xcr0 m) (mxcsr_mask m)) 20 = Ok i' /\
  g_size (xc_geometry (xi_l3 i)) <> 0 /\ g_size (xc_geometry (xi_l3 i')) = 0.
Proof.
  destruct (pick_processors many_caches 50 (Build false false) 20 (lost xi_l3)) as (t & table & i & i' & H1 & H2 & H3 & H4 & H5); [vm_compute; reflexivity|].
  apply lost_sizes in H5. destruct H5 as [H5 H6]. exists many_caches, 50%nat, t, table, i, i'.
  split; [exact many_sane|]. split; [exact (ended _ _ _ many_sane H1)|]. split; [exact many_names|]. auto 10.
Qed.
