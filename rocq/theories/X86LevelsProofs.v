(** Proofs about the topology levels and microarchitectures decoded from CPUID. *)
From Verif Require Import Base BaseProofs TopologySpec X86LinuxModel X86LinuxSpec X86DescriptorModel X86DecodeModel X86DecodeSpec
  X86DecodeProofs X86DescriptorProofs.
Open Scope N_scope.

(** ** Leaf 0xB *)

Lemma level_field_none type leaf : level_field type leaf 0 0 0.
Proof. right. split; [intros; lia|auto]. Qed.

Lemma level_field_hit type leaf k : t_type (leaf (N.of_nat k)) = type ->
  level_field type leaf (S k) (shifts_before leaf k) (t_shift (leaf (N.of_nat k))).
Proof. intros H. left. exists k. split; [lia|]. split; [exact H|]. split; [reflexivity|]. split; [reflexivity|]. intros; lia. Qed.

Lemma level_field_miss type leaf k o l : t_type (leaf (N.of_nat k)) <> type ->
  level_field type leaf k o l -> level_field type leaf (S k) o l.
Proof.
  intros H [(i & Hi & A & B & C & D)|(A & B)].
  - left. exists i. split; [lia|]. split; [exact A|]. split; [exact B|]. split; [exact C|].
    intros j Hj. destruct (Nat.eq_dec j k) as [->|]; [exact H|]. apply D. lia.
  - right. split; [|exact B]. intros i Hi. destruct (Nat.eq_dec i k) as [->|]; [exact H|]. apply A. lia.
Qed.

Lemma leafB_loop_spec m k : ends_at t_type (cpuidex m 0xB) k -> forall n fuel t, (n <= k)%nat -> (k - n < fuel)%nat ->
  level_field 1 (cpuidex m 0xB) n (tp_thread_offset t) (tp_thread_length t) ->
  level_field 2 (cpuidex m 0xB) n (tp_core_offset t) (tp_core_length t) ->
  exists t', leafB_loop m fuel (N.of_nat n) (shifts_before (cpuidex m 0xB) n) t = Ok t' /\
    level_field 1 (cpuidex m 0xB) k (tp_thread_offset t') (tp_thread_length t') /\
    level_field 2 (cpuidex m 0xB) k (tp_core_offset t') (tp_core_length t') /\
    tp_apic_id t' = edx (cpuidex m 0xB (N.of_nat k)).
Proof.
  intros (HK & HT & HP) n fuel. remember (k - n)%nat as d eqn:Ed. revert n fuel Ed.
  induction d as [|d IH]; intros n [|fuel] Ed t Hn Hf H1 H2; try lia; cbn [leafB_loop].
  - assert (n = k) by lia. subst n. change 0xFF with (N.ones 8). change 0x1F with (N.ones 5). rewrite land_field, land_field0.
    change (field 8 8 (ecx ?r)) with (t_type r). rewrite HT. cbn [N.eqb negb].
    eexists. split; [reflexivity|]. cbn. auto.
  - change 0xFF with (N.ones 8). change 0x1F with (N.ones 5). rewrite land_field, land_field0.
    change (field 8 8 (ecx ?r)) with (t_type r). change (field 0 5 (eax ?r)) with (t_shift r).
    assert (HP' := HP n ltac:(lia)). rewrite (proj2 (N.eqb_neq _ _) HP'). cbn [negb].
    replace (u32 (N.of_nat n + 1)) with (N.of_nat (S n)) by (rewrite u32_small; lia).
    change (u32 (shifts_before (cpuidex m 0xB) n + t_shift (cpuidex m 0xB (N.of_nat n)))) with (shifts_before (cpuidex m 0xB) (S n)).
    apply IH; try lia.
    + destruct (N.eqb_spec (t_type (cpuidex m 0xB (N.of_nat n))) 1) as [E|E]; [apply level_field_hit; exact E|].
      destruct (N.eqb_spec (t_type (cpuidex m 0xB (N.of_nat n))) 2) as [E'|E']; apply level_field_miss; assumption.
    + destruct (N.eqb_spec (t_type (cpuidex m 0xB (N.of_nat n))) 1) as [E|E];
        [apply level_field_miss; [congruence|exact H2]|].
      destruct (N.eqb_spec (t_type (cpuidex m 0xB (N.of_nat n))) 2) as [E'|E']; [apply level_field_hit; exact E'|].
      apply level_field_miss; assumption.
Qed.

(** The legacy part is not used when leaf 0xB is. *)
Lemma detect_topology_x2apic m fuel max_base max_ext leaf1 t k :
  l_x2apic leaf1 = true -> 0xB <= max_base -> ends_at t_type (cpuidex m 0xB) k -> (k < fuel)%nat ->
  exists t', detect_topology m fuel max_base max_ext leaf1 t = Ok t' /\
    level_field 1 (cpuidex m 0xB) k (tp_thread_offset t') (tp_thread_length t') /\
    level_field 2 (cpuidex m 0xB) k (tp_core_offset t') (tp_core_length t') /\
    tp_apic_id t' = edx (cpuidex m 0xB (N.of_nat k)).
Proof.
  intros HX HB HE HF. unfold detect_topology. change 0x00200000 with (2 ^ 21). rewrite !land_bit.
  change (N.testbit (ecx leaf1) 21) with (l_x2apic leaf1). rewrite HX. rewrite (proj2 (N.leb_le _ _) HB). cbn [andb].
  apply (leafB_loop_spec m k HE 0%nat fuel); [lia|lia| |]; apply level_field_none.
Qed.

Lemma t_shift_lt r : t_shift r < 32.
Proof. exact (field_lt 0 5 (eax r)). Qed.

Lemma two_levels_detected m fuel max_base max_ext leaf1 t :
  l_x2apic leaf1 = true -> 0xB <= max_base -> two_levels (cpuidex m 0xB) -> (2 < fuel)%nat ->
  exists id, detect_topology m fuel max_base max_ext leaf1 t =
    Ok (Topology id 0 (t_shift (cpuidex m 0xB 0)) (t_shift (cpuidex m 0xB 0)) (t_shift (cpuidex m 0xB 1))).
Proof.
  intros HX HB (T0 & T1 & T2) HF.
  assert (HE : ends_at t_type (cpuidex m 0xB) 2).
  { split; [reflexivity|]. split; [exact T2|]. intros [|[|i]] Hi; cbn [N.of_nat Pos.of_succ_nat]; [congruence|congruence|lia]. }
  destruct (detect_topology_x2apic m fuel max_base max_ext leaf1 t 2 HX HB HE HF) as (t' & E & F1 & F2 & _).
  assert (A : tp_thread_offset t' = 0 /\ tp_thread_length t' = t_shift (cpuidex m 0xB 0)).
  { destruct F1 as [(i & Hi & A & B & C & _)|(A & _)].
    - destruct i as [|[|i]]; [split; assumption|cbn in A; congruence|lia].
    - exfalso. apply (A 0%nat); [lia|exact T0]. }
  assert (B : tp_core_offset t' = t_shift (cpuidex m 0xB 0) /\ tp_core_length t' = t_shift (cpuidex m 0xB 1)).
  { destruct F2 as [(i & Hi & A' & B & C & _)|(A' & _)].
    - destruct i as [|[|i]]; [cbn in A'; congruence| |lia]. split; [|exact C]. rewrite B. cbn [shifts_before N.of_nat].
      rewrite N.add_0_l. apply N.mod_small. pose proof (t_shift_lt (cpuidex m 0xB 0)). unfold two32. lia.
    - exfalso. apply (A' 1%nat); [lia|exact T1]. }
  exists (tp_apic_id t'). rewrite E. destruct t' as [id a b c d]. cbn in A, B. cbn [tp_apic_id].
  destruct A as (-> & ->), B as (-> & ->). reflexivity.
Qed.

Lemma two_levels_documented_iff m fuel max_base max_ext leaf1 t :
  l_x2apic leaf1 = true -> 0xB <= max_base -> two_levels (cpuidex m 0xB) -> (2 < fuel)%nat ->
  exists t', detect_topology m fuel max_base max_ext leaf1 t = Ok t' /\
    (documented_x2apic (t_shift (cpuidex m 0xB 0)) (t_shift (cpuidex m 0xB 1)) t' <-> t_shift (cpuidex m 0xB 0) = 0).
Proof.
  intros HX HB HT HF. destruct (two_levels_detected m fuel max_base max_ext leaf1 t HX HB HT HF) as (id & E).
  eexists. split; [exact E|]. unfold documented_x2apic. cbn [tp_thread_offset tp_thread_length tp_core_offset tp_core_length]. lia.
Qed.

(** ** Legacy detection *)

Lemma legacy_guard leaf1 max_base : legacy_used leaf1 max_base -> l_x2apic leaf1 && (0xB <=? max_base) = false.
Proof. intros [->|H]; [reflexivity|]. apply andb_false_iff. right. lia. Qed.

Ltac legacy_start m HG :=
  unfold detect_topology; change 0x00200000 with (2 ^ 21); change 0x10000000 with (2 ^ 28);
  change (N.land (ecx (cpuid m 0x80000001)) 2) with (N.land (ecx (cpuid m 0x80000001)) (2 ^ 1));
  change 0xFF with (N.ones 8); rewrite !land_bit, ?land_field, ?land_field0;
  change (N.testbit (ecx ?r) 21) with (l_x2apic r); change (N.testbit (edx ?r) 28) with (l_htt r);
  change (N.testbit (ecx (cpuid m 0x80000001)) 1) with (l_cmp_legacy m);
  change (field 16 8 (ebx ?r)) with (l_logical r);
  rewrite (legacy_guard _ _ HG).

Lemma detect_topology_no_htt m fuel max_base max_ext leaf1 t :
  legacy_used leaf1 max_base -> l_htt leaf1 = false ->
  detect_topology m fuel max_base max_ext leaf1 t =
    Ok (Topology 0 (tp_thread_offset t) (tp_thread_length t) (tp_core_offset t) (tp_core_length t)).
Proof. intros HG HH. legacy_start m HG. now rewrite HH. Qed.

Lemma detect_topology_amd m fuel max_base max_ext leaf1 core_length :
  legacy_used leaf1 max_base -> l_htt leaf1 = true -> 0x80000008 <= max_ext -> l_cmp_legacy m = true ->
  exists width, log2_up (l_amd_cores m) width /\
  detect_topology m fuel max_base max_ext leaf1 (Topology 0 0 0 0 core_length) =
    Ok (Topology (N.shiftr (ebx leaf1) 24) 0 0 0 width).
Proof.
  intros HG HH HX HC. exists (bit_length (1 + field 0 8 (ecx (cpuid m 0x80000008)))). split.
  { unfold l_amd_cores. rewrite N.add_comm. apply bit_length_spec. pose proof (field_lt 0 8 (ecx (cpuid m 0x80000008))).
    unfold two32. change (2 ^ 8) with 256 in *. lia. }
  legacy_start m HG. rewrite HH, HC. rewrite (proj2 (N.leb_le 0x80000001 max_ext)) by lia.
  rewrite (proj2 (N.leb_le 0x80000008 max_ext)) by lia. reflexivity.
Qed.

Lemma detect_topology_legacy m fuel max_base max_ext leaf1 core_length :
  legacy_used leaf1 max_base -> l_htt leaf1 = true -> (max_ext < 0x80000001 \/ l_cmp_legacy m = false) ->
  l_logical leaf1 <> 0 ->
  (forall width, log2_up (l_logical leaf1) width -> core_length <= width) ->
  exists threads, log2_up (l_logical leaf1) (threads + core_length) /\
  detect_topology m fuel max_base max_ext leaf1 (Topology 0 0 0 0 core_length) =
    Ok (Topology (N.shiftr (ebx leaf1) 24) 0 threads threads core_length).
Proof.
  intros HG HH HC HL HW.
  assert (LT : l_logical leaf1 < 256) by exact (field_lt 16 8 (ebx leaf1)).
  assert (LS : log2_up (l_logical leaf1) (bit_length (l_logical leaf1))) by (apply bit_length_spec; unfold two32; lia).
  specialize (HW _ LS). exists (bit_length (l_logical leaf1) - core_length). split.
  { replace (bit_length (l_logical leaf1) - core_length + core_length) with (bit_length (l_logical leaf1)) by lia. exact LS. }
  legacy_start m HG. rewrite HH.
  replace (if 0x80000001 <=? max_ext then l_cmp_legacy m else false) with false.
  2:{ destruct HC as [HC|HC]; [|rewrite HC; now destruct (_ <=? _)]. now rewrite (proj2 (N.leb_gt _ _) HC). }
  rewrite (proj2 (N.eqb_neq _ _) HL). cbn [negb tp_core_length tp_thread_offset].
  assert (bit_length (l_logical leaf1) <= 8) by (apply bit_length_le; [lia|change (2 ^ 8) with 256; lia|reflexivity]).
  replace (sub32 (bit_length (l_logical leaf1)) core_length) with (bit_length (l_logical leaf1) - core_length); [reflexivity|].
  unfold sub32, u32. replace (bit_length (l_logical leaf1) + (two32 - core_length)) with
    (bit_length (l_logical leaf1) - core_length + 1 * two32) by (unfold two32 in *; lia).
  rewrite N.mod_add by discriminate. symmetry. apply N.mod_small. unfold two32. lia.
Qed.

(** ** Microarchitectures *)

Lemma first_of_in cases : first_of cases = uarch_unknown \/ In (first_of cases) (map snd cases).
Proof.
  unfold first_of. destruct (find fst cases) as [[x u]|] eqn:E; [|now left]. right.
  apply find_some in E. apply in_map_iff. exists (x, u). split; [reflexivity|apply E].
Qed.

Lemma first_of_forall (P : N -> Prop) cases : P uarch_unknown -> Forall P (map snd cases) -> P (first_of cases).
Proof. intros H0 H. destruct (first_of_in cases) as [->|HI]; [exact H0|]. rewrite Forall_forall in H. now apply H. Qed.

Lemma decode_uarch_vendor b vendor mi : decode_uarch b vendor mi = uarch_unknown \/
  uarch_vendor (decode_uarch b vendor mi) = vendor.
Proof.
  unfold decode_uarch.
  destruct (N.eqb_spec vendor vendor_intel) as [->|_]; [|destruct (N.eqb_spec vendor vendor_amd) as [->|_];
    [|destruct (N.eqb_spec vendor vendor_hygon) as [->|_]]];
  repeat match goal with
  | |- context [first_of ?c] => apply (first_of_forall (fun u => u = uarch_unknown \/ uarch_vendor u = _) c);
       [now left|cbn [map snd]; repeat (constructor; [right; reflexivity|]); constructor]
  | |- context [if ?e then _ else _] => destruct e
  end; solve [now left|right; reflexivity].
Qed.

Lemma decode_uarch_family_model b vendor mi1 mi2 :
  mi_family mi1 = mi_family mi2 -> mi_model mi1 = mi_model mi2 -> mi_extended_model mi1 = mi_extended_model mi2 ->
  decode_uarch b vendor mi1 = decode_uarch b vendor mi2.
Proof. intros A B C. unfold decode_uarch. now rewrite A, B, C. Qed.

Lemma decode_uarch_stepping b vendor sig1 sig2 : sig1 < two32 -> sig2 < two32 ->
  mi_family (decode_model_info sig1) = mi_family (decode_model_info sig2) ->
  mi_model (decode_model_info sig1) = mi_model (decode_model_info sig2) ->
  decode_uarch b vendor (decode_model_info sig1) = decode_uarch b vendor (decode_model_info sig2).
Proof.
  intros H1 H2 HF HM. apply decode_uarch_family_model; auto.
  destruct (model_info_fields sig1 H1) as (_ & _ & _ & _ & E1 & _ & _ & M1).
  destruct (model_info_fields sig2 H2) as (_ & _ & _ & _ & E2 & _ & _ & M2).
  rewrite E1, E2. rewrite M1, M2 in HM.
  pose proof (field_lt 4 4 sig1) as L1. pose proof (field_lt 4 4 sig2) as L2. change (2 ^ 4) with 16 in *. lia.
Qed.

(** ** Documented processors *)
Definition sample_signature (family model : N) : N :=
  (if family <? 15 then family * 2 ^ 8 else 15 * 2 ^ 8 + (family - 15) * 2 ^ 20) + model mod 16 * 2 ^ 4 + model / 16 * 2 ^ 16.
Definition entry_checks (e : N * N * list N * N) : bool :=
  let '(vendor, family, models, uarch) := e in
  forallb (fun m =>
    let sig := sample_signature family m in
    (sig <? two32) && (mi_family (decode_model_info sig) =? family) && (mi_model (decode_model_info sig) =? m) &&
    forallb (fun b => decode_uarch b vendor (decode_model_info sig) =? uarch)
      [Build true true; Build true false; Build false true; Build false false]) models.

Lemma documented_recognised b vendor sig uarch : sig < two32 -> regular_signature sig ->
  documented_uarch vendor (documented_family sig) (documented_model sig) uarch ->
  decode_uarch b vendor (decode_model_info sig) = uarch.
Proof.
  intros H (R1 & R2) (models & HI & HM).
  assert (E : forallb entry_checks documented_processors = true) by (vm_compute; reflexivity).
  rewrite forallb_forall in E. specialize (E _ HI). cbn [entry_checks] in E. rewrite forallb_forall in E. specialize (E _ HM).
  rewrite !andb_true_iff in E. destruct E as (((A & B) & C) & D). apply N.ltb_lt in A. apply N.eqb_eq in B, C.
  destruct (signature_documented sig H) as (S1 & S2). specialize (S1 R1). specialize (S2 R2).
  rewrite (decode_uarch_stepping b vendor sig _ H A) by congruence. rewrite forallb_forall in D. apply N.eqb_eq, D.
  destruct b as [[] []]; cbn; auto.
Qed.

Lemma dali_unknown b stepping : stepping < 16 ->
  documented_family (0x00820F00 + stepping) = 0x17 /\ documented_model (0x00820F00 + stepping) = 0x20 /\
  decode_uarch b vendor_amd (decode_model_info (0x00820F00 + stepping)) = uarch_unknown.
Proof.
  intros H. assert (E : forallb (fun s => (documented_family (0x00820F00 + s) =? 0x17) && (documented_model (0x00820F00 + s) =? 0x20) &&
    (mi_family (decode_model_info (0x00820F00 + s)) =? 0x17) && (mi_extended_model (decode_model_info (0x00820F00 + s)) =? 2))
    (map N.of_nat (seq 0 16)) = true) by (vm_compute; reflexivity).
  rewrite forallb_forall in E. specialize (E stepping). rewrite !andb_true_iff, !N.eqb_eq in E. destruct E as (((A & B) & C) & D).
  { apply in_map_iff. exists (N.to_nat stepping). split; [apply N2Nat.id|apply in_seq; lia]. }
  split; [exact A|]. split; [exact B|]. unfold decode_uarch. rewrite C, D. reflexivity.
Qed.

Lemma hygon_unknown b sig : sig < two32 -> documented_family sig = 0x18 ->
  decode_uarch b vendor_hygon (decode_model_info sig) = uarch_unknown.
Proof.
  intros H HF. unfold decode_uarch. change (vendor_hygon =? vendor_intel) with false. change (vendor_hygon =? vendor_amd) with false.
  change (vendor_hygon =? vendor_hygon) with true. cbn iota.
  destruct (model_info_fields sig H) as (_ & _ & _ & _ & _ & _ & -> & _). unfold documented_family in HF.
  pose proof (field_lt 8 4 sig) as L. change (2 ^ 4) with 16 in *.
  destruct (N.eqb_spec (field 8 4 sig) 15) as [E|E]; [|lia]. rewrite E. destruct (N.eqb_spec (15 + field 20 8 sig) 0); [lia|reflexivity].
Qed.

(** ** The whole of cpuinfo_x86_init_processor *)

Lemma last_described_bits complex levels leaf k s c0 c bound : (forall i, regs_ok (leaf i)) ->
  last_described complex levels leaf k s c0 c -> xc_apic_bits c0 <= bound -> 12 <= bound -> xc_apic_bits c <= bound.
Proof.
  intros HR [(i & _ & _ & C & _)|(_ & ->)] H0 HB; [|exact H0].
  apply N.le_trans with 12; [|exact HB]. apply (log2_up_le (d_sharing (leaf (N.of_nat i)))); [apply C|].
  unfold d_sharing. pose proof (field_lt 14 12 (eax (leaf (N.of_nat i)))). change (2 ^ 12) with 4096 in *. lia.
Qed.

Lemma ends_at_0 type leaf k : ends_at type leaf k -> ends_at type (fun i => leaf (0 + i)) k.
Proof. intros H. exact H. Qed.

Lemma detect_cache_bits b m fuel max_base max_ext ext vendor mi log2 :
  (forall l i, regs_ok (cpuidex m l i)) -> leaves_end m fuel -> log2 <= 6 ->
  exists cs log2', detect_cache b m fuel max_base max_ext ext vendor mi cstate0 log2 = Ok (cs, log2') /\
    (forall s, xc_apic_bits (cs_cache cs s) <= 12) /\ log2' <= 6 /\
    (log2' = log2 \/ exists i, log2' = bit_length (d_package_cores (cpuidex m 4 i))).
Proof.
  intros HR ((k4 & F4 & E4) & (k1 & F1 & E1)) HL. unfold detect_cache.
  match goal with |- exists cs log2', bind ?e _ = _ /\ _ => set (first := e) end.
  assert (P1 : exists cs log2', first = Ok (cs, log2') /\ (forall s, xc_apic_bits (cs_cache cs s) <= 12) /\ log2' <= 6 /\
      (log2' = log2 \/ exists i, log2' = bit_length (d_package_cores (cpuidex m 4 i))));
    [unfold first; clear first|clearbody first].
  { destruct (2 <=? max_base); [|exists cstate0, log2; split; [reflexivity|]; split; [cbn; lia|auto]]. cbv zeta.
    set (cs0 := repeat_descriptors _ _ _ _ _ _ _).
    assert (H0 : forall s, xc_apic_bits (cs_cache cs0 s) <= 12).
    { intros s. unfold cs0. rewrite repeat_descriptors_private by reflexivity. lia. }
    clearbody cs0. destruct (_ && _); [|exists cs0, log2; auto].
    destruct (leaf4_loop_spec m k4 fuel 0 cs0 0 (HR 4)) as (cs & E & HD & _); [destruct E4; lia|exact (ends_at_0 _ _ _ E4)|exact F4|].
    rewrite E. eexists cs, _. split; [reflexivity|]. split.
    - intros s. eapply last_described_bits; [|exact (HD s)|apply H0|lia]. intros i. apply HR.
    - destruct k4 as [|j]; [now auto|]. rewrite N.add_0_l.
      destruct (N.eqb_spec (d_package_cores (cpuidex m 4 (N.of_nat j))) 0) as [_|D]; cbn [negb]; [now auto|].
      split; [|right; eauto]. apply bit_length_le; [lia| |reflexivity]. unfold d_package_cores.
      pose proof (field_lt 26 6 (eax (cpuidex m 4 (N.of_nat j)))). lia. }
  destruct P1 as (cs & log2' & -> & HB & HL'). cbn [bind]. destruct (ext && _); [|exists cs, log2'; auto].
  destruct (leaf1d_loop_spec m k1 fuel 0 cs (HR 0x8000001D)) as (cs' & E & HD & _); [destruct E1; lia|exact (ends_at_0 _ _ _ E1)|exact F1|].
  rewrite E. exists cs', log2'. split; [reflexivity|]. split; [|exact HL'].
  intros s. eapply last_described_bits; [|exact (HD s)|apply HB|lia]. intros i. apply HR.
Qed.

Lemma bit_length_mono a b : 0 < a -> a <= b -> b < two32 -> bit_length a <= bit_length b.
Proof.
  intros A B C. apply (log2_up_le a); [apply bit_length_spec; lia|]. apply N.le_trans with b; [exact B|].
  apply (bit_length_spec b). lia.
Qed.

(** The fields after topology detection. *)
Definition fields_ok (t : topology) : Prop :=
  tp_thread_offset t = 0 /\ tp_core_offset t = tp_thread_length t /\ tp_thread_length t < 32 /\ tp_core_length t < 32 /\
  tp_thread_length t + tp_core_length t <= 32.

Lemma detect_topology_sane m fuel core_length max_ext :
  sane_topology m -> (2 < fuel)%nat -> core_length <= 6 ->
  max_ext = (if 0x80000000 <=? eax (cpuid m 0x80000000) then eax (cpuid m 0x80000000) else 0) ->
  (core_length = 0 \/ exists i, core_length = bit_length (d_package_cores (cpuidex m 4 i))) ->
  exists t, detect_topology m fuel (eax (cpuid m 0)) max_ext (cpuid m 1) (Topology 0 0 0 0 core_length) = Ok t /\ fields_ok t.
Proof.
  intros [(HX & HB & HT & HS)|(HG & HC)] HF HL HE HP.
  - destruct (two_levels_detected m fuel (eax (cpuid m 0)) max_ext (cpuid m 1) (Topology 0 0 0 0 core_length) HX HB HT HF) as (id & E).
    eexists. split; [exact E|]. unfold fields_ok. cbn.
    pose proof (t_shift_lt (cpuidex m 0xB 0)). pose proof (t_shift_lt (cpuidex m 0xB 1)). auto.
  - legacy_start m HG. cbn [tp_thread_offset tp_thread_length tp_core_offset tp_core_length].
    assert (LT : l_logical (cpuid m 1) < 256) by exact (field_lt 16 8 (ebx (cpuid m 1))).
    assert (BL : forall n, 0 < n -> n <= 256 -> bit_length n <= 8).
    { intros n H1 H2. apply bit_length_le; [exact H1|exact H2|reflexivity]. }
    destruct (l_htt (cpuid m 1)) eqn:EH; [|eexists; split; [reflexivity|]; unfold fields_ok; cbn; lia].
    destruct (if 0x80000001 <=? max_ext then l_cmp_legacy m else false) eqn:EC.
    + destruct (0x80000008 <=? max_ext).
      * eexists; split; [reflexivity|]. pose proof (field_lt 0 8 (ecx (cpuid m 0x80000008))) as L. change (2 ^ 8) with 256 in L.
        specialize (BL (1 + field 0 8 (ecx (cpuid m 2147483656)))). unfold fields_ok; cbn [tp_thread_offset tp_thread_length tp_core_offset tp_core_length]; lia.
      * destruct (N.eqb_spec (l_logical (cpuid m 1)) 0) as [E0|E0]; cbn [negb]; (eexists; split; [reflexivity|]);
        unfold fields_ok; cbn [tp_thread_offset tp_thread_length tp_core_offset tp_core_length]; [lia|]. specialize (BL (l_logical (cpuid m 1))). lia.
    + destruct (N.eqb_spec (l_logical (cpuid m 1)) 0) as [E0|E0]; cbn [negb]; (eexists; split; [reflexivity|]);
        unfold fields_ok; cbn [tp_thread_offset tp_thread_length tp_core_offset tp_core_length]; [lia|].
      assert (BW : core_length <= bit_length (l_logical (cpuid m 1))).
      { destruct HP as [->|(i & ->)]; [apply N.le_0_l|]. destruct HC as [HC|[(HC1 & HC2)|[HC|HC]]]; [discriminate| |congruence|].
        - exfalso. rewrite HC2 in EC. subst max_ext. rewrite (proj2 (N.leb_le 0x80000000 _)) in EC by lia.
          rewrite (proj2 (N.leb_le 0x80000001 _)) in EC by lia. discriminate.
        - apply bit_length_mono; [unfold d_package_cores; lia|apply HC|unfold two32; lia]. }
      specialize (BL (l_logical (cpuid m 1)) ltac:(lia) ltac:(lia)).
      replace (sub32 (bit_length (l_logical (cpuid m 1))) core_length) with (bit_length (l_logical (cpuid m 1)) - core_length); [lia|].
      unfold sub32, u32. replace (bit_length (l_logical (cpuid m 1)) + (two32 - core_length)) with
        (bit_length (l_logical (cpuid m 1)) - core_length + 1 * two32) by (unfold two32 in *; lia).
      rewrite N.mod_add by discriminate. symmetry. apply N.mod_small. unfold two32. lia.
Qed.

Lemma init_processor_sane b m fuel : (forall l i, regs_ok (cpuidex m l i)) -> leaves_end m fuel -> (2 < fuel)%nat -> sane_topology m ->
  exists x, init_processor b m fuel = Ok x /\ bits_ok x /\ adjacent_fields x.
Proof.
  intros HR HE HF HT. unfold init_processor.
  destruct (1 <=? eax (cpuid m 0)).
  - cbv zeta. set (max_ext := if 0x80000000 <=? eax (cpuid m 0x80000000) then eax (cpuid m 0x80000000) else 0).
    match goal with |- context [detect_cache b m fuel ?a ?c ?e ?v ?i cstate0 0] =>
      destruct (detect_cache_bits b m fuel a c e v i 0 HR HE ltac:(lia)) as (cs & log2 & E & HB & HL & HP); rewrite E end.
    cbn [bind].
    destruct (detect_topology_sane m fuel log2 max_ext HT HF HL eq_refl HP) as (t & -> & (F1 & F2 & F3 & F4 & F5)).
    cbn [bind]. eexists. split; [reflexivity|]. split.
    + unfold bits_ok. cbn [xi_thread_length xi_thread_offset xi_core_length xi_core_offset xi_l1i xi_l1d xi_l2 xi_l3 xi_l4].
      rewrite F1, F2. split; [exact F3|]. split; [reflexivity|]. split; [exact F4|]. split; [exact F3|].
      intros c HI _. cbn [In] in HI. repeat destruct HI as [<-|HI]; try destruct HI;
      match goal with |- xc_apic_bits (cs_cache cs ?s) < 32 => specialize (HB s); lia end.
    + unfold adjacent_fields. cbn. auto.
  - eexists. split; [reflexivity|]. split.
    + unfold bits_ok. cbn. repeat (split; [reflexivity|]). intros c HI _. repeat destruct HI as [<-|HI]; try destruct HI; reflexivity.
    + unfold adjacent_fields. cbn. lia.
Qed.

(** *** The fields, exactly *)

Lemma init_processor_x2apic b m fuel : (forall l i, regs_ok (cpuidex m l i)) -> leaves_end m fuel -> (2 < fuel)%nat ->
  l_x2apic (cpuid m 1) = true -> 0xB <= eax (cpuid m 0) -> two_levels (cpuidex m 0xB) ->
  exists x, init_processor b m fuel = Ok x /\ xi_thread_offset x = 0 /\ xi_thread_length x = t_shift (cpuidex m 0xB 0) /\
    xi_core_offset x = t_shift (cpuidex m 0xB 0) /\ xi_core_length x = t_shift (cpuidex m 0xB 1).
Proof.
  intros HR HE HF HX HB HT. unfold init_processor. rewrite (proj2 (N.leb_le 1 _)) by lia. cbv zeta.
  set (max_ext := if 0x80000000 <=? eax (cpuid m 0x80000000) then eax (cpuid m 0x80000000) else 0).
  match goal with |- context [detect_cache b m fuel ?a ?c ?e ?v ?i cstate0 0] =>
    destruct (detect_cache_bits b m fuel a c e v i 0 HR HE ltac:(lia)) as (cs & log2 & E & _); rewrite E end.
  cbn [bind].
  destruct (two_levels_detected m fuel (eax (cpuid m 0)) max_ext (cpuid m 1) (Topology 0 0 0 0 log2) HX HB HT HF) as (id & ->).
  eexists. split; [reflexivity|]. cbn. auto.
Qed.

Lemma detect_cache_package_cores b m fuel max_base max_ext ext vendor mi j :
  (forall l i, regs_ok (cpuidex m l i)) -> leaves_end m fuel ->
  vendor <> vendor_amd -> vendor <> vendor_hygon -> 4 <= max_base -> (S j < fuel)%nat -> ends_at d_type (cpuidex m 4) (S j) ->
  exists cs, detect_cache b m fuel max_base max_ext ext vendor mi cstate0 0 =
    Ok (cs, bit_length (d_package_cores (cpuidex m 4 (N.of_nat j)))).
Proof.
  intros HR (_ & (k1 & F1 & E1)) V1 V2 HB F4 E4. unfold detect_cache.
  rewrite (proj2 (N.leb_le 2 _)) by lia. rewrite (proj2 (N.leb_le 4 _)) by lia.
  rewrite (proj2 (N.eqb_neq _ _) V1), (proj2 (N.eqb_neq _ _) V2). cbv zeta. cbn [negb andb].
  destruct (leaf4_loop_spec m (S j) fuel 0 (repeat_descriptors b m vendor mi (N.to_nat (N.land (eax (cpuid2 m 0)) 255)) 0 cstate0) 0 (HR 4))
    as (cs & E & _); [destruct E4; lia|exact (ends_at_0 _ _ _ E4)|exact F4|].
  rewrite E. cbn [bind]. rewrite N.add_0_l. replace (d_package_cores (cpuidex m 4 (N.of_nat j)) =? 0) with false
    by (symmetry; apply N.eqb_neq; unfold d_package_cores; lia). cbn [negb].
  destruct (ext && _); [|eauto].
  destruct (leaf1d_loop_spec m k1 fuel 0 cs (HR 0x8000001D)) as (cs' & E' & _); [destruct E1; lia|exact (ends_at_0 _ _ _ E1)|exact F1|].
  rewrite E'. cbn [bind]. eauto.
Qed.

Lemma init_processor_legacy b m fuel j : (forall l i, regs_ok (cpuidex m l i)) -> leaves_end m fuel ->
  let vendor := decode_vendor b (ebx (cpuid m 0)) (ecx (cpuid m 0)) (edx (cpuid m 0)) in
  vendor <> vendor_amd -> vendor <> vendor_hygon -> 4 <= eax (cpuid m 0) ->
  (S j < fuel)%nat -> ends_at d_type (cpuidex m 4) (S j) ->
  legacy_used (cpuid m 1) (eax (cpuid m 0)) -> l_htt (cpuid m 1) = true ->
  (eax (cpuid m 0x80000000) < 0x80000001 \/ l_cmp_legacy m = false) ->
  d_package_cores (cpuidex m 4 (N.of_nat j)) <= l_logical (cpuid m 1) ->
  exists x, init_processor b m fuel = Ok x /\ xi_thread_offset x = 0 /\ xi_core_offset x = xi_thread_length x /\
    log2_up (d_package_cores (cpuidex m 4 (N.of_nat j))) (xi_core_length x) /\
    log2_up (l_logical (cpuid m 1)) (xi_thread_length x + xi_core_length x).
Proof.
  intros HR HE vendor V1 V2 HB HF E4 HG HH HC HL. unfold init_processor. rewrite (proj2 (N.leb_le 1 _)) by lia. cbv zeta.
  fold vendor. set (max_ext := if 0x80000000 <=? eax (cpuid m 0x80000000) then eax (cpuid m 0x80000000) else 0).
  match goal with |- context [detect_cache b m fuel ?a ?c ?e ?v ?i cstate0 0] =>
    destruct (detect_cache_package_cores b m fuel a c e v i j HR HE V1 V2 HB HF E4) as (cs & E); rewrite E end.
  cbn [bind].
  assert (P0 : 0 < d_package_cores (cpuidex m 4 (N.of_nat j))) by (unfold d_package_cores; lia).
  assert (LT : l_logical (cpuid m 1) < 256) by exact (field_lt 16 8 (ebx (cpuid m 1))).
  assert (LW := bit_length_mono _ _ P0 HL ltac:(unfold two32; lia)).
  destruct (detect_topology_legacy m fuel (eax (cpuid m 0)) max_ext (cpuid m 1)
              (bit_length (d_package_cores (cpuidex m 4 (N.of_nat j)))) HG HH) as (threads & L & ->).
  - destruct HC as [HC|HC]; [left|now right]. unfold max_ext. destruct (_ <=? _); lia.
  - lia.
  - intros width HW. rewrite (log2_up_unique _ width _ HW (bit_length_spec (l_logical (cpuid m 1)) ltac:(unfold two32; lia))). exact LW.
  - eexists. split; [reflexivity|]. cbn. split; [reflexivity|]. split; [reflexivity|]. split; [|exact L].
    apply bit_length_spec. unfold two32 in *. lia.
Qed.
