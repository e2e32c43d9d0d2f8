(** Proofs about leaves that a processor does not have. *)
From Verif Require Import Base TopologySpec X86LinuxModel X86DescriptorModel X86DecodeModel X86DecodeSpec X86IsaModel X86IsaSpec X86PackageModel Leaf2Proofs SubleafOrderProofs AbsentLeavesSpec.
From Coq Require Import List Lia ZifyBool. Import ListNotations.
Open Scope N_scope.

Section Absent.
Context (b : build) (m m' : cpu).
Let vendor := decode_vendor b (ebx (cpuid m 0)) (ecx (cpuid m 0)) (edx (cpuid m 0)).
Context (H : same_leaves (vendor = vendor_via) m m').

Lemma leaf_0 : cpuid m' 0 = cpuid m 0.
Proof. apply (same_answers _ _ _ H). left. lia. Qed.
Lemma leaf_E : cpuid m' 0x80000000 = cpuid m 0x80000000.
Proof. apply (same_answers _ _ _ H). right. now left. Qed.
Lemma base l i : l <= eax (cpuid m 0) -> cpuidex m' l i = cpuidex m l i.
Proof. intros L. apply (same_answers _ _ _ H). now left. Qed.
Definition highest : N := if 0x80000000 <=? eax (cpuid m 0x80000000) then eax (cpuid m 0x80000000) else 0.
Lemma extended l i : 0x80000000 <= l -> l <= highest -> cpuidex m' l i = cpuidex m l i.
Proof.
  intros L L'. apply (same_answers _ _ _ H). right. right. left. unfold highest in L'.
  destruct (0x80000000 <=? eax (cpuid m 0x80000000)); lia.
Qed.

Lemma cache_absent fuel amd mi :
  res_like pair_like (detect_cache b m fuel (eax (cpuid m 0)) highest amd vendor mi cstate0 0)
                     (detect_cache b m' fuel (eax (cpuid m 0)) highest amd vendor mi cstate0 0).
Proof.
  unfold detect_cache.
  match goal with |- res_like _ (bind ?x _) (bind ?y _) => assert (K : res_like pair_like x y) end.
  { destruct (2 <=? eax (cpuid m 0)) eqn:E2; [|split; [intros s; reflexivity|reflexivity]].
    assert (D : forall i, cpuid2 m' i = cpuid2 m i) by (apply (same_leaf2 _ _ _ H); lia). rewrite (D 0%nat). cbv zeta.
    assert (E : forall n j c, repeat_descriptors b m' vendor mi n j c = repeat_descriptors b m vendor mi n j c).
    { induction n as [|n IH]; intros j c; [reflexivity|]. cbn [repeat_descriptors]. now rewrite D, IH. }
    rewrite E. destruct (negb _ && negb _ && _) eqn:E4; [|split; [intros s; reflexivity|reflexivity]].
    match goal with |- context [leaf4_loop m fuel 0 ?c 0] => pose proof (loop4_same m m' (fun i => base 4 i ltac:(lia)) fuel 0 c c 0 (fun s => eq_refl)) as Q end.
    unfold bind. destruct (leaf4_loop m _ _ _ _) as [(c, p)| |], (leaf4_loop m' _ _ _ _) as [(c', p')| |]; try destruct Q; try exact I.
    cbn [fst snd] in *. subst. split; [assumption|reflexivity]. }
  match goal with |- res_like _ (bind ?x _) (bind ?y _) => destruct x as [(c, p)| |], y as [(c', p')| |]; try destruct K; try exact I end.
  cbn [fst snd bind] in *. subst. destruct (amd && _) eqn:E; [|split; [assumption|reflexivity]].
  assert (M : forall i, cpuidex m' 0x8000001D i = cpuidex m 0x8000001D i) by (intros i; apply extended; lia).
  match goal with L : like c c' |- _ => pose proof (loop1d_same m m' M fuel 0 _ _ L) as Q end. unfold bind.
  destruct (leaf1d_loop m _ _ _), (leaf1d_loop m' _ _ _); try destruct Q; try exact I. split; [exact Q|reflexivity].
Qed.

Lemma topology_absent fuel leaf1 t : detect_topology m' fuel (eax (cpuid m 0)) highest leaf1 t = detect_topology m fuel (eax (cpuid m 0)) highest leaf1 t.
Proof.
  unfold detect_topology.
  assert (A : (if 0x80000001 <=? highest then negb (N.land (ecx (cpuid m' 0x80000001)) 2 =? 0) else false) =
              (if 0x80000001 <=? highest then negb (N.land (ecx (cpuid m 0x80000001)) 2 =? 0) else false)).
  { destruct (0x80000001 <=? highest) eqn:E; [|reflexivity]. unfold cpuid. rewrite extended by lia. reflexivity. }
  rewrite A.
  cbv zeta.
  assert (W : (0xB <=? eax (cpuid m 0)) = true -> forall fuel level shift t, leafB_loop m' fuel level shift t = leafB_loop m fuel level shift t).
  { intros E. induction fuel0 as [|f IH]; intros level shift t0; [reflexivity|]. cbn [leafB_loop]. rewrite base by lia. cbv zeta. now rewrite IH. }
  destruct (0x80000008 <=? highest) eqn:E8.
  - assert (C8 : cpuid m' 0x80000008 = cpuid m 0x80000008) by (apply extended; lia). rewrite C8.
    destruct (0xB <=? eax (cpuid m 0)) eqn:EB; [rewrite W by reflexivity; reflexivity|rewrite Bool.andb_false_r; reflexivity].
  - destruct (0xB <=? eax (cpuid m 0)) eqn:EB; [rewrite W by reflexivity; reflexivity|rewrite Bool.andb_false_r; reflexivity].
Qed.

Lemma first_extended : (if 0x80000001 <=? highest then cpuid m' 0x80000001 else regs0) = (if 0x80000001 <=? highest then cpuid m 0x80000001 else regs0).
Proof. destruct (0x80000001 <=? highest) eqn:E; [|reflexivity]. apply extended; lia. Qed.

Lemma absent_processor fuel : init_processor b m' fuel = init_processor b m fuel.
Proof.
  unfold init_processor. cbv zeta. rewrite leaf_0, leaf_E. fold highest. rewrite first_extended.
  destruct (1 <=? eax (cpuid m 0)) eqn:E1; [|reflexivity].
  assert (L1 : cpuid m' 1 = cpuid m 1) by (apply base; lia). rewrite L1. fold vendor.
  match goal with |- bind (detect_cache _ _ _ _ _ ?a _ ?mi _ _) _ = _ => pose proof (cache_absent fuel a mi) as K end.
  match goal with |- bind ?x _ = bind ?y _ => destruct x as [(c, p)| |], y as [(c', p')| |]; try destruct K; try reflexivity end.
  cbn [fst snd bind] in *. subst. rewrite topology_absent.
  match goal with L : like c' c |- _ => unfold bind; destruct (detect_topology _ _ _ _ _ _); [|reflexivity|reflexivity]; now rewrite !L end.
Qed.

Lemma absent_name stack : detect_package_name b m' stack = detect_package_name b m stack.
Proof.
  unfold detect_package_name. rewrite leaf_0.
  assert (E : raw_brand_string m' = raw_brand_string m).
  { unfold raw_brand_string. rewrite leaf_E. fold highest. cbv zeta. destruct (0x80000004 <=? highest) eqn:E; [|reflexivity].
    cbn [flat_map]. unfold cpuid. rewrite !extended by lia. reflexivity. }
  rewrite E. reflexivity.
Qed.

Lemma absent_isa f : f <> F_avx10_2 \/ 0x24 <= eax (cpuid m 0) \/ N.testbit (edx (cpuidex m 7 1)) 19 = false -> init_isa b m' f = init_isa b m f.
Proof.
  intros X. unfold init_isa. cbv zeta. rewrite leaf_0, leaf_E. fold highest. rewrite first_extended.
  destruct (1 <=? eax (cpuid m 0)) eqn:E1; [|reflexivity].
  assert (L1 : cpuid m' 1 = cpuid m 1) by (apply base; lia). rewrite L1. fold vendor.
  generalize (decode_uarch b vendor (decode_model_info (eax (cpuid m 1)))). intros uarch.
  generalize (if 0x80000001 <=? highest then cpuid m 0x80000001 else regs0). intros ext.
  assert (S : forall i, (if 7 <=? eax (cpuid m 0) then cpuidex m' 7 i else regs0) = (if 7 <=? eax (cpuid m 0) then cpuidex m 7 i else regs0)).
  { intros i. destruct (7 <=? eax (cpuid m 0)) eqn:E; [apply base; lia|reflexivity]. }
  assert (CAP : (if 0x80000008 <=? highest then cpuid m' 0x80000008 else regs0) = (if 0x80000008 <=? highest then cpuid m 0x80000008 else regs0)).
  { destruct (0x80000008 <=? highest) eqn:E; [|reflexivity]. apply extended; lia. }
  assert (XV : (if 0xD <=? eax (cpuid m 0) then N.lor (N.shiftl (edx (cpuidex m' 0xD 0)) 32) (eax (cpuidex m' 0xD 0)) else 0) =
               (if 0xD <=? eax (cpuid m 0) then N.lor (N.shiftl (edx (cpuidex m 0xD 0)) 32) (eax (cpuidex m 0xD 0)) else 0)).
  { destruct (0xD <=? eax (cpuid m 0)) eqn:E; [|reflexivity]. rewrite base by lia. reflexivity. }
  assert (PAD : forall mask, (if vendor =? vendor_via then
                 if 0xC0000001 <=? eax (cpuid m' 0xC0000000) then all (edx (cpuid m' 0xC0000001)) mask else false
               else false) = (if vendor =? vendor_via then
                 if 0xC0000001 <=? eax (cpuid m 0xC0000000) then all (edx (cpuid m 0xC0000001)) mask else false
               else false)).
  { intros mask. destruct (vendor =? vendor_via) eqn:E; [|reflexivity]. apply N.eqb_eq in E.
    assert (C : cpuid m' 0xC0000000 = cpuid m 0xC0000000) by (apply (same_answers _ _ _ H); do 3 right; auto). rewrite C.
    destruct (0xC0000001 <=? eax (cpuid m 0xC0000000)) eqn:E'; [|reflexivity].
    assert (C1 : cpuid m' 0xC0000001 = cpuid m 0xC0000001) by (apply (same_answers _ _ _ H); do 3 right; split; [exact E|right; lia]). now rewrite C1. }
  assert (AVX : f = F_avx10_2 -> forall g : bool, ((2 <=? N.land (ebx (if 7 <=? eax (cpuid m 0) then cpuidex m' 0x24 0 else regs0)) 0x000000FF) &&
                 (g && any (edx (if 7 <=? eax (cpuid m 0) then cpuidex m 7 1 else regs0)) 0x00080000)) =
                ((2 <=? N.land (ebx (if 7 <=? eax (cpuid m 0) then cpuidex m 0x24 0 else regs0)) 0x000000FF) &&
                 (g && any (edx (if 7 <=? eax (cpuid m 0) then cpuidex m 7 1 else regs0)) 0x00080000))).
  { intros F g. destruct X as [X|[X|X]]; [contradiction|rewrite base by exact X; reflexivity|].
    assert (Z : any (edx (if 7 <=? eax (cpuid m 0) then cpuidex m 7 1 else regs0)) 0x00080000 = false).
    { destruct (7 <=? eax (cpuid m 0)); [|reflexivity]. unfold any. change 0x00080000 with (2 ^ 19). apply Bool.negb_false_iff, N.eqb_eq. apply N.bits_inj. intros i.
      rewrite N.land_spec, N.bits_0. destruct (N.eq_dec i 19) as [->|Hn]; [rewrite X; reflexivity|]. rewrite N.pow2_bits_false by congruence. apply Bool.andb_false_r. }
    rewrite Z, !Bool.andb_false_r. reflexivity. }
  unfold detect_isa. rewrite !S, CAP, XV, (same_state _ _ _ H), (same_mask _ _ _ H). cbv zeta. clear S CAP XV.
  destruct f; try reflexivity; first [apply AVX; reflexivity | rewrite !PAD; reflexivity | idtac].
Qed.

Lemma absent_getter g : g <> Has_avx10_2 \/ 0x24 <= eax (cpuid m 0) \/ N.testbit (edx (cpuidex m 7 1)) 19 = false -> (reports b m' g <-> reports b m g).
Proof.
  intros X. assert (E : has_x86 b (init_isa b m') g = has_x86 b (init_isa b m) g); [|unfold reports; now rewrite E].
  destruct g; unfold has_x86; try rewrite !absent_isa by (left; discriminate); try reflexivity. apply absent_isa.
  destruct X as [X|X]; [contradiction|now right].
Qed.
End Absent.

(** ** A witness against AVX10.2 *)
(** Server processor with two threads per core as a virtual machine sees it: AVX10 in leaf 7, but leaves up to 0x1F only, the highest of
    which answers also for those behind.  [zero]: those behind answer 0. *)
Definition cut_cpu (zero : bool) : cpu :=
  Cpu (fun l s =>
    if l =? 0 then Regs 0x1F 0x756E6547 0x6C65746E 0x49656E69
    else if l =? 1 then Regs 0x000A06D1 0x00100800 0x7FFEFBBF 0xBFEBFBFF
    else if l =? 7 then if s =? 0 then Regs 2 0xF3BFBFFF 0x1B415F7E 0xFFDD4432 else Regs 0x00201C30 0 0 0x00080430
    else if l =? 0xD then Regs 0x000602FF 0 0 0
    else if l =? 0x80000000 then Regs 0x80000008 0 0 0
    else if l =? 0x80000001 then Regs 0 0 0x121 0x2C100800
    else if (0x1F <=? l) && (l <? 0x80000000) && negb (zero && negb (l =? 0x1F)) then
      if s =? 0 then Regs 1 2 0x100 0 else if s =? 1 then Regs 7 0x80 0x201 0 else Regs 0 0 2 0
    else regs0) (fun _ => regs0) 0x602E7 0xFFFF.
Lemma cut_answers : answers_as_highest (cut_cpu false).
Proof.
  intros l i. change (eax (cpuid (cut_cpu false) 0)) with 0x1F. intros L L'. unfold cut_cpu. cbn [cpuidex].
  repeat match goal with |- context [l =? ?k] => replace (l =? k) with false by (symmetry; apply N.eqb_neq; lia) end.
  replace (0x1F <=? l) with true by lia. replace (l <? 0x80000000) with true by lia. reflexivity.
Qed.
Lemma cut_same via : ~ via -> same_leaves via (cut_cpu false) (cut_cpu true).
Proof.
  intros V. split; try reflexivity. intros l i [L|[-> |[(L & L')|(L & _)]]]; [|reflexivity| |contradiction].
  - change (eax (cpuid (cut_cpu false) 0)) with 0x1F in L. unfold cut_cpu. cbn [cpuidex].
    destruct (l =? 0x1F) eqn:E; [reflexivity|]. replace (0x1F <=? l) with false by lia. reflexivity.
  - unfold cut_cpu. cbn [cpuidex]. replace (l <? 0x80000000) with false by lia. rewrite !Bool.andb_false_r. reflexivity.
Qed.
Lemma cut_refutes : exists m m', answers_as_highest m /\ ~ leaf_exists m 0x24 /\
  same_leaves (vendor_of (Build false false) m = vendor_via) m m' /\
  reports (Build false false) m Has_avx10_2 /\ ~ reports (Build false false) m' Has_avx10_2.
Proof.
  exists (cut_cpu false), (cut_cpu true). split; [exact cut_answers|]. split; [vm_compute; congruence|].
  split; [apply cut_same; vm_compute; discriminate|]. split; [vm_compute; reflexivity|vm_compute; discriminate].
Qed.
