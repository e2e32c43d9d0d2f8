(** Proofs about which processor runs the detection. *)
From Verif Require Import Base TopologySpec X86LinuxModel X86DescriptorModel X86DecodeModel X86DecodeSpec X86IsaModel X86IsaSpec X86PackageModel CpuidReplayProofs AnyCoreSpec.
From Coq Require Import List Lia. Import ListNotations.
Open Scope N_scope.

Section AnyCore.
Context (m m' : cpu) (H : alike m m').

Lemma other l i : l <> 1 -> l <> 0xB -> l <> 0x1F -> l <> 0x8000001E -> cpuidex m' l i = cpuidex m l i.
Proof. apply (alike_else _ _ H). Qed.
Lemma other0 l : l <> 1 -> l <> 0xB -> l <> 0x1F -> l <> 0x8000001E -> cpuid m' l = cpuid m l.
Proof. apply (alike_else _ _ H). Qed.
Ltac same := rewrite other by discriminate.

Lemma cache_core b fuel base ext amd vendor mi cs lg : detect_cache b m' fuel base ext amd vendor mi cs lg = detect_cache b m fuel base ext amd vendor mi cs lg.
Proof.
  assert (E : forall n j c, repeat_descriptors b m' vendor mi n j c = repeat_descriptors b m vendor mi n j c).
  { induction n as [|n IH]; intros j c; [reflexivity|]. cbn [repeat_descriptors]. now rewrite (alike_leaf2 _ _ H), IH. }
  assert (E4 : forall fuel e c p, leaf4_loop m' fuel e c p = leaf4_loop m fuel e c p).
  { induction fuel0 as [|f IH]; intros e c p; [reflexivity|]. cbn [leaf4_loop]. same.
    destruct (decode_deterministic_cache_parameters _ _) as [(c', p')|]; [apply IH|reflexivity]. }
  assert (E1 : forall fuel e c, leaf1d_loop m' fuel e c = leaf1d_loop m fuel e c).
  { induction fuel0 as [|f IH]; intros e c; [reflexivity|]. cbn [leaf1d_loop]. same.
    destruct (decode_cache_properties _ _); [apply IH|reflexivity]. }
  unfold detect_cache. cbv zeta. rewrite (alike_leaf2 _ _ H), E, E4.
  match goal with |- bind ?x _ = bind ?x _ => destruct x as [(c, p)| |]; [|reflexivity|reflexivity] end. cbn [bind]. now rewrite E1.
Qed.

Lemma levels_core : forall fuel level shift t t', tp_thread_offset t' = tp_thread_offset t -> tp_thread_length t' = tp_thread_length t ->
  tp_core_offset t' = tp_core_offset t -> tp_core_length t' = tp_core_length t ->
  same_fields (leafB_loop m' fuel level shift t') (leafB_loop m fuel level shift t).
Proof.
  induction fuel as [|fuel IH]; intros level shift t t' A B C D; [exact I|]. cbn [leafB_loop]. cbv zeta.
  destruct (alike_levels _ _ H level) as (-> & ->). rewrite A, B, C, D.
  match goal with |- context [if negb ?x then _ else _] => destruct (negb x) end;
    repeat match goal with |- context [if ?x =? ?y then _ else _] => destruct (x =? y) end; first [apply IH; reflexivity|cbn; auto].
Qed.

Lemma logical_core : N.land (N.shiftr (ebx (cpuid m' 1)) 16) 0xFF = N.land (N.shiftr (ebx (cpuid m 1)) 16) 0xFF.
Proof.
  assert (E : forall x, N.land (N.shiftr x 16) 0xFF = N.land (N.shiftr (x mod 2 ^ 24) 16) 0xFF).
  { intros x. apply N.bits_inj. intros i. change 0xFF with (N.ones 8). rewrite !N.land_spec, !N.shiftr_spec by lia.
    destruct (N.ltb_spec i 8); [rewrite N.mod_pow2_bits_low by lia; reflexivity|]. rewrite N.ones_spec_high, !Bool.andb_false_r by lia. reflexivity. }
  rewrite (E (ebx (cpuid m' 1))), (alike_counts _ _ H), <- E. reflexivity.
Qed.

Lemma topology_core fuel base ext t : same_fields (detect_topology m' fuel base ext (cpuid m' 1) t) (detect_topology m fuel base ext (cpuid m 1) t).
Proof.
  unfold detect_topology. cbv zeta. rewrite (other0 0x80000001), (other0 0x80000008) by discriminate.
  destruct (alike_features _ _ H) as (-> & ->). rewrite logical_core.
  match goal with |- context [if ?c then leafB_loop _ _ _ _ _ else _] => destruct c end; [apply levels_core; reflexivity|].
  destruct (negb (N.land (edx (cpuid m 1)) 0x10000000 =? 0)); [|cbn; auto].
  match goal with |- context [if ?c then negb ?x else false] => destruct (if c then negb x else false) end;
    repeat match goal with |- context [if ?c then _ else _] => destruct c end; cbn; auto.
Qed.

Lemma any_core_processor b fuel : init_processor b m' fuel = init_processor b m fuel.
Proof.
  unfold init_processor. cbv zeta. rewrite !(other0 0), !(other0 0x80000000), !(other0 0x80000001) by discriminate. rewrite !(alike_signature _ _ H).
  destruct (1 <=? eax (cpuid m 0)); [|reflexivity]. rewrite cache_core.
  match goal with |- bind ?x _ = bind ?x _ => destruct x as [(c, lg)| |]; [|reflexivity|reflexivity] end. cbn [bind].
  match goal with |- bind (detect_topology _ ?f ?a ?e _ ?t) _ = _ => pose proof (topology_core f a e t) as D end.
  match goal with |- bind ?x _ = bind ?y _ => destruct x as [t'| |], y as [t| |]; cbn in D; try contradiction; try reflexivity end.
  destruct D as (D1 & D2 & D3 & D4). cbn [bind]. rewrite D1, D2, D3, D4. reflexivity.
Qed.

Lemma any_core_name b stack : detect_package_name b m' stack = detect_package_name b m stack.
Proof.
  unfold detect_package_name, raw_brand_string. cbv zeta. cbn [flat_map].
  rewrite !(other0 0), !(other0 0x80000000), !(other0 (0x80000002 + _)) by discriminate. reflexivity.
Qed.

Lemma any_core_isa b f : init_isa b m' f = init_isa b m f.
Proof.
  unfold init_isa. cbv zeta. rewrite !(other0 0), !(other0 0x80000000), !(other0 0x80000001), !(alike_signature _ _ H) by discriminate.
  destruct (1 <=? eax (cpuid m 0)); [|reflexivity].
  match goal with |- detect_isa _ _ _ ?e ?x ?y ?v ?u _ = _ => generalize e, x, y, v, u end. intros ext x y v u.
  unfold detect_isa. rewrite !other, !(other0 0x80000008), !(other0 0xC0000000), !(other0 0xC0000001) by discriminate.
  destruct (alike_features _ _ H) as (-> & ->). rewrite (alike_state _ _ H), (alike_mask _ _ H). reflexivity.
Qed.
Lemma any_core_getter b g : reports b m' g <-> reports b m g.
Proof.
  assert (E : has_x86 b (init_isa b m') g = has_x86 b (init_isa b m) g) by (destruct g; unfold has_x86; rewrite ?any_core_isa; reflexivity).
  unfold reports. now rewrite E.
Qed.
End AnyCore.
