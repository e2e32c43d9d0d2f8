(** Which leaves initialization reads, and which decide the caches. *)
From Verif Require Import Base BaseProofs Text LinuxTextModel X86LinuxModel X86DescriptorModel X86DecodeModel X86DecodeSpec X86DecodeProofs
  X86DescriptorProofs X86LevelsProofs.
Open Scope N_scope.

Lemma leaf4_loop_same m m' : (forall i, cpuidex m' 4 i = cpuidex m 4 i) ->
  forall fuel n cs max, leaf4_loop m' fuel n cs max = leaf4_loop m fuel n cs max.
Proof.
  intros H. induction fuel as [|fuel IH]; intros n cs max; cbn [leaf4_loop]; [reflexivity|]. rewrite H.
  now destruct (decode_deterministic_cache_parameters _ _) as [[]|].
Qed.

Lemma leaf1d_loop_same m m' : (forall i, cpuidex m' 0x8000001D i = cpuidex m 0x8000001D i) ->
  forall fuel n cs, leaf1d_loop m' fuel n cs = leaf1d_loop m fuel n cs.
Proof.
  intros H. induction fuel as [|fuel IH]; intros n cs; cbn [leaf1d_loop]; [reflexivity|]. rewrite H.
  now destruct (decode_cache_properties _ _).
Qed.

Lemma leafB_loop_same m m' : (forall i, cpuidex m' 0xB i = cpuidex m 0xB i) ->
  forall fuel n s t, leafB_loop m' fuel n s t = leafB_loop m fuel n s t.
Proof.
  intros H. induction fuel as [|fuel IH]; intros n s t; cbn [leafB_loop]; [reflexivity|]. rewrite H. cbv zeta. now rewrite IH.
Qed.

Lemma repeat_descriptors_same b m m' vendor mi : (forall i, cpuid2 m' i = cpuid2 m i) ->
  forall n i cs, repeat_descriptors b m' vendor mi n i cs = repeat_descriptors b m vendor mi n i cs.
Proof. intros H. induction n as [|n IH]; intros i cs; cbn [repeat_descriptors]; [reflexivity|]. now rewrite H, IH. Qed.

Lemma only_leaves_there b m m' fuel :
  (forall l i, leaf_there m l -> cpuidex m' l i = cpuidex m l i) ->
  (2 <= eax (cpuid m 0) -> forall i, cpuid2 m' i = cpuid2 m i) ->
  init_processor b m' fuel = init_processor b m fuel.
Proof.
  intros H H2. unfold init_processor.
  assert (Z : cpuid m' 0 = cpuid m 0) by (apply H; repeat split; [lia|discriminate|discriminate|discriminate]).
  assert (E : cpuid m' 0x80000000 = cpuid m 0x80000000) by (apply H; repeat split; [discriminate|discriminate|discriminate|discriminate]).
  rewrite Z, E. cbv zeta.
  set (max_ext := if 0x80000000 <=? eax (cpuid m 0x80000000) then eax (cpuid m 0x80000000) else 0).
  assert (L : forall l, 0x80000000 < l -> l <> 0x8000001D -> (l <=? max_ext) = true -> cpuid m' l = cpuid m l).
  { intros l H0 H1 HL. apply H. unfold leaf_there. apply N.leb_le in HL. unfold max_ext in HL.
    destruct (0x80000000 <=? eax (cpuid m 0x80000000)); [|lia]. repeat split; [lia|auto|lia|lia]. }
  assert (E1 : (if 0x80000001 <=? max_ext then cpuid m' 0x80000001 else regs0) = if 0x80000001 <=? max_ext then cpuid m 0x80000001 else regs0).
  { destruct (0x80000001 <=? max_ext) eqn:M; [|reflexivity]. apply L; [reflexivity|discriminate|exact M]. }
  rewrite E1. clear E1.
  destruct (1 <=? eax (cpuid m 0)) eqn:M1; [|reflexivity]. apply N.leb_le in M1.
  assert (B : forall l i, l < 0x80000000 -> l <= eax (cpuid m 0) -> cpuidex m' l i = cpuidex m l i).
  { intros l i H0 H1. apply H. unfold leaf_there. repeat split; [auto|lia|lia|lia]. }
  assert (L1 : cpuid m' 1 = cpuid m 1) by (apply B; [reflexivity|exact M1]). rewrite L1.
  match goal with |- bind ?a _ = bind ?a' _ => assert (EC : a = a') end.
  { unfold detect_cache.
    match goal with |- bind ?a _ = bind ?a' _ => assert (EF : a = a') end.
    { destruct (2 <=? eax (cpuid m 0)) eqn:M2; [|reflexivity]. apply N.leb_le in M2. specialize (H2 M2). cbv zeta.
      rewrite (H2 0%nat), (repeat_descriptors_same b m m' _ _ H2).
      destruct (4 <=? eax (cpuid m 0)) eqn:M4; [|now rewrite !andb_false_r]. apply N.leb_le in M4.
      rewrite (leaf4_loop_same m m'); [reflexivity|]. intros i. apply B; [reflexivity|exact M4]. }
    rewrite EF. match goal with |- bind ?e _ = _ => destruct e as [[cs log2]| |] end; try reflexivity. cbn [bind].
    match goal with |- (if ?c then _ else _) = _ => destruct c eqn:D end; [|reflexivity]. apply andb_prop in D. destruct D as (D1 & D2).
    rewrite (leaf1d_loop_same m m'); [reflexivity|]. intros i. apply H. apply N.leb_le in D2. unfold leaf_there, amd_extensions.
    assert (X : max_ext = eax (cpuid m 0x80000000)).
    { unfold max_ext in *. destruct (0x80000000 <=? eax (cpuid m 0x80000000)); [reflexivity|lia]. }
    rewrite <- X. repeat split; try lia. rewrite (proj2 (N.leb_le 0x80000001 max_ext) ltac:(lia)) in D1.
    rewrite <- (land_bit (ecx (cpuid m 0x80000001)) 22). exact D1. }
  rewrite EC. match goal with |- bind ?e _ = _ => destruct e as [[cs core_length]| |] end; try reflexivity. cbn [bind].
  match goal with |- bind ?a _ = bind ?a' _ => assert (ET : a = a') end; [|rewrite ET; reflexivity].
  unfold detect_topology. cbv zeta.
  assert (C1 : (if 0x80000001 <=? max_ext then negb (N.land (ecx (cpuid m' 0x80000001)) 2 =? 0) else false) =
               if 0x80000001 <=? max_ext then negb (N.land (ecx (cpuid m 0x80000001)) 2 =? 0) else false).
  { destruct (0x80000001 <=? max_ext) eqn:M; [|reflexivity]. now rewrite (L 0x80000001). }
  rewrite C1. clear C1.
  match goal with |- (if ?c then leafB_loop _ _ _ _ (Topology (tp_apic_id ?x) _ _ _ _) else _) =
                     (if _ then leafB_loop _ _ _ _ (Topology (tp_apic_id ?y) _ _ _ _) else _) => assert (XY : x = y) end.
  { destruct (0x80000008 <=? max_ext) eqn:M; [|reflexivity]. now rewrite (L 0x80000008). }
  rewrite XY.
  destruct (0xB <=? eax (cpuid m 0)) eqn:MB; [|now rewrite !andb_false_r]. apply N.leb_le in MB.
  rewrite (leafB_loop_same m m'); [reflexivity|]. intros i. apply B; [reflexivity|exact MB].
Qed.

Lemma follow_last complex levels leaf k cs cs' : ends_at d_type leaf k ->
  (forall s, last_described complex levels leaf k s (cs_cache cs s) (cs_cache cs' s)) -> caches_follow complex levels leaf (cs_cache cs').
Proof.
  intros HE HL. exists k. split; [exact HE|]. intros i s Hi HD HN. destruct (HL s) as [(j & Hj & DJ & CJ & NJ)|(N0 & _)].
  - destruct (Nat.lt_trichotomy i j) as [L|[->|L]]; [elim (HN j); [lia|exact DJ]|exact CJ|elim (NJ i); [lia|exact HD]].
  - now elim (N0 i Hi).
Qed.

Lemma caches_reported b m fuel x : (forall l i, regs_ok (cpuidex m l i)) -> leaves_end m fuel ->
  1 <= eax (cpuid m 0) -> init_processor b m fuel = Ok x ->
  let vendor := decode_vendor b (ebx (cpuid m 0)) (ecx (cpuid m 0)) (edx (cpuid m 0)) in
  (0x8000001D <= eax (cpuid m 0x80000000) -> amd_extensions m -> caches_follow false 3 (cpuidex m 0x8000001D) (xi_cache x)) /\
  (vendor <> vendor_amd -> vendor <> vendor_hygon -> 4 <= eax (cpuid m 0) ->
   eax (cpuid m 0x80000000) < 0x8000001D \/ ~ amd_extensions m -> caches_follow true 4 (cpuidex m 4) (xi_cache x)).
Proof.
  intros HR ((k4 & F4 & E4) & (k1 & F1 & E1)) H1 E vendor. unfold init_processor in E. cbv zeta in E.
  rewrite (proj2 (N.leb_le 1 _) H1) in E. fold vendor in E.
  set (max_ext := if 0x80000000 <=? eax (cpuid m 0x80000000) then eax (cpuid m 0x80000000) else 0) in E.
  set (ext := negb (N.land (ecx (if 0x80000001 <=? max_ext then cpuid m 0x80000001 else regs0)) 0x00400000 =? 0)) in E.
  assert (HX : ext && (0x8000001D <=? max_ext) = true <-> 0x8000001D <= eax (cpuid m 0x80000000) /\ amd_extensions m).
  { rewrite andb_true_iff, N.leb_le. unfold amd_extensions. unfold ext, max_ext. clear.
    destruct (N.leb_spec 0x80000000 (eax (cpuid m 0x80000000))); [|split; intros; lia].
    destruct (N.leb_spec 0x80000001 (eax (cpuid m 0x80000000))); [|split; intros; lia].
    change 0x00400000 with (2 ^ 22). rewrite land_bit. split; [|tauto]. intros (A & B). repeat split; auto. }
  clearbody ext max_ext. unfold detect_cache in E.
  match type of E with bind (bind ?e _) _ = _ => remember e as first eqn:EF end.
  destruct first as [[cs log2]| |]; try discriminate. cbn [bind] in E. destruct (ext && (0x8000001D <=? max_ext)) eqn:EX.
  - destruct (leaf1d_loop_spec m k1 fuel 0 cs (HR 0x8000001D)) as (cs' & EL & HD & _); [destruct E1; lia|exact (ends_at_0 _ _ _ E1)|exact F1|].
    rewrite EL in E. cbn [bind] in E. destruct (detect_topology _ _ _ _ _ _) as [t| |]; try discriminate. cbn [bind] in E.
    injection E as <-. pose proof (follow_last _ _ _ _ _ _ E1 HD) as FL. split.
    + intros _ _. destruct FL as (k & A & B). exists k. split; [exact A|]. intros i s. specialize (B i s). now destruct s.
    + intros _ _ _ [H|H]; destruct HX as (HX & _); destruct (HX eq_refl); [lia|contradiction].
  - split; [intros A B; assert (false = true) by (apply HX; auto); discriminate|]. intros V1 V2 H4 _.
    rewrite (proj2 (N.leb_le 2 (eax (cpuid m 0)))) in EF by lia. cbv zeta in EF.
    rewrite (proj2 (N.eqb_neq _ _) V1), (proj2 (N.eqb_neq _ _) V2), (proj2 (N.leb_le 4 _) H4) in EF. cbn [negb andb] in EF.
    set (cs0 := repeat_descriptors _ _ _ _ _ _ _) in EF.
    destruct (leaf4_loop_spec m k4 fuel 0 cs0 0 (HR 4)) as (cs' & EL & HD & _); [destruct E4; lia|exact (ends_at_0 _ _ _ E4)|exact F4|].
    rewrite EL in EF. cbn [bind] in EF. injection EF as -> _. cbn [bind] in E.
    destruct (detect_topology _ _ _ _ _ _) as [t| |]; try discriminate. cbn [bind] in E.
    injection E as <-. destruct (follow_last _ _ _ _ _ _ E4 HD) as (k & A & B). exists k. split; [exact A|].
    intros i s. specialize (B i s). now destruct s.
Qed.
