(** Proofs about the replay of a CPUID recording. *)
From Coq Require Import Sorted Lia ZifyBool ZifyNat ZifyN Arith.
From Verif Require Import Base BaseProofs Text X86DescriptorModel X86DecodeModel X86IsaModel X86NameModel X86PackageModel ArmCpuinfoSpec CpuidDumpModel CpuidDumpSpec CpuidDumpProofs CpuidDumpTextProofs CpuidParseProofs.
Open Scope N_scope.

(** ** Lookups *)
Lemma mock_cpuid_cases : forall t leaf,
  (exists t1 e t2, t = t1 ++ e :: t2 /\ input_eax e = leaf /\ (forall x, In x t1 -> input_eax x <> leaf) /\ mock_cpuid t leaf = answer e) \/
  ((forall x, In x t -> input_eax x <> leaf) /\ mock_cpuid t leaf = regs0).
Proof.
  induction t as [|e t IH]; intros leaf; [right; split; [intros x []|reflexivity]|]. cbn [mock_cpuid].
  destruct (leaf =? input_eax e) eqn:E.
  - apply N.eqb_eq in E. left. exists [], e, t. repeat split; [symmetry; exact E|intros x []].
  - apply N.eqb_neq in E. destruct (IH leaf) as [(t1 & x & t2 & -> & H1 & H2 & H3)|[H1 H2]].
    + left. exists (e :: t1), x, t2. repeat split; try assumption. intros y [<-|Hy]; [congruence|]. apply H2. exact Hy.
    + right. split; [|exact H2]. intros y [<-|Hy]; [congruence|]. apply H1. exact Hy.
Qed.
Lemma mock_cpuidex_cases : forall t leaf sub,
  (exists t1 e t2, t = t1 ++ e :: t2 /\ input_eax e = leaf /\ input_ecx e = sub /\
     (forall x, In x t1 -> ~ (input_eax x = leaf /\ input_ecx x = sub)) /\ mock_cpuidex t leaf sub = answer e) \/
  ((forall x, In x t -> ~ (input_eax x = leaf /\ input_ecx x = sub)) /\ mock_cpuidex t leaf sub = regs0).
Proof.
  induction t as [|e t IH]; intros leaf sub; [right; split; [intros x []|reflexivity]|]. cbn [mock_cpuidex].
  destruct ((leaf =? input_eax e) && (sub =? input_ecx e)) eqn:E.
  - left. exists [], e, t. repeat split; try lia. intros x [].
  - destruct (IH leaf sub) as [(t1 & x & t2 & -> & H1 & H2 & H3 & H4)|[H1 H2]].
    + left. exists (e :: t1), x, t2. repeat split; try assumption. intros y [<-|Hy]; [lia|]. apply H3. exact Hy.
    + right. split; [|exact H2]. intros y [<-|Hy]; [lia|]. apply H1. exact Hy.
Qed.

Lemma forall2_split : forall A B (R : A -> B -> Prop) l t1 e t2, Forall2 R l (t1 ++ e :: t2) ->
  exists l1 x l2, l = l1 ++ x :: l2 /\ Forall2 R l1 t1 /\ R x e.
Proof.
  intros A B R l t1 e t2 H. apply Forall2_app_inv_r in H. destruct H as (l1 & l' & H1 & H2 & ->). inversion H2; subst. eauto 6.
Qed.
Lemma forall2_in_l : forall A B (R : A -> B -> Prop) l t x, Forall2 R l t -> In x l -> exists e, In e t /\ R x e.
Proof.
  induction 1 as [|a b l t Hab F IH]; intros Hin; [destruct Hin|]. destruct Hin as [->|Hin]; [exists b; split; [left; reflexivity|exact Hab]|].
  destruct (IH Hin) as (e & He & Hr). exists e. split; [right; exact He|exact Hr].
Qed.
Lemma forall2_in_r : forall A B (R : A -> B -> Prop) l t e, Forall2 R l t -> In e t -> exists x, In x l /\ R x e.
Proof.
  induction 1 as [|a b l t Hab F IH]; intros Hin; [destruct Hin|]. destruct Hin as [->|Hin]; [exists a; split; [left; reflexivity|exact Hab]|].
  destruct (IH Hin) as (x & Hx & Hr). exists x. split; [right; exact Hx|exact Hr].
Qed.
Lemma sorted_split : forall rs l1 x l2, StronglySorted earlier rs -> rs = l1 ++ x :: l2 -> forall y, In y rs -> earlier y x -> In y l1.
Proof.
  intros rs l1 x l2 H -> y Hin He. apply in_app_iff in Hin. destruct Hin as [?|Hin]; [assumption|exfalso].
  assert (G : forall z, In z l2 -> earlier x z).
  { clear He Hin. induction l1 as [|a l1 IH]; cbn in H; inversion H; subst; [|apply IH; assumption].
    intros z Hz. eapply Forall_forall in H3; eassumption. }
  destruct Hin as [<-|Hin]; [|specialize (G _ Hin)]; unfold earlier in *; lia.
Qed.

Section Replay.
Context (m : cpu) (rs : list reading) (table : list entry).
Hypothesis Hs : sane m.
Hypothesis T : transcript m rs.
Hypothesis R : Forall2 read_back rs table.

(** Leaves without subleaves. *)
Lemma lookup_leaf : forall leaf, ~ In leaf subleaf_leaves ->
  (exists_in m leaf 0 -> mock_cpuid table leaf = cpuidex m leaf 0) /\ (~ exists_in m leaf 0 -> mock_cpuid table leaf = regs0).
Proof.
  intros leaf Hn. destruct T as [T1 _].
  assert (Z : forall s, exists_in m leaf s -> s = 0).
  { intros s He. destruct He; try reflexivity; exfalso; apply Hn; cbn; (tauto || (cbn in H; tauto)). }
  destruct (mock_cpuid_cases table leaf) as [(t1 & e & t2 & Et & H1 & H2 & H3)|[H1 H2]].
  - rewrite Et in R. destruct (forall2_split _ _ _ _ _ _ _ R) as (l1 & [[l s] r] & l2 & El & _ & Hx). cbn in Hx. destruct Hx as (X1 & X2 & _).
    assert (Hin : In (l, s, r) rs) by (rewrite El; apply in_or_app; right; left; reflexivity).
    apply T1 in Hin. destruct Hin as [He Hr]. assert (El' : l = leaf) by congruence. clear X1. subst l. assert (Es : s = 0) by (apply Z; exact He). subst s.
    split; [intros _; congruence|]. intros Hno. contradiction.
  - split; [|intros _; exact H2]. intros He. exfalso.
    assert (Hin : In (leaf, 0, cpuidex m leaf 0) rs) by (apply T1; split; [exact He|reflexivity]).
    destruct (forall2_in_l _ _ _ _ _ _ R Hin) as (e & Hine & Hx). cbn in Hx. apply (H1 e Hine). tauto.
Qed.

(** Subleaves. *)
Lemma lookup_sub : forall leaf sub, ~ In leaf (vendor_leaves ++ brand_leaves) ->
  (forall s, exists_in m leaf s -> exists_in m leaf 0) -> sub <= 10 ->
  (exists_in m leaf sub -> sub < 10 -> mock_cpuidex table leaf sub = cpuidex m leaf sub) /\
  (~ exists_in m leaf sub -> mock_cpuidex table leaf sub = regs0).
Proof.
  intros leaf sub Hn Z Hsub. destruct T as [T1 T2].
  destruct (mock_cpuidex_cases table leaf sub) as [(t1 & e & t2 & Et & H1 & H2 & H3 & H4)|[H1 H2]].
  - pose proof R as R'. rewrite Et in R'. destruct (forall2_split _ _ _ _ _ _ _ R') as (l1 & [[l s] r] & l2 & El & R1 & Hx). cbn in Hx. destruct Hx as (X1 & X2 & X3).
    assert (Hin : In (l, s, r) rs) by (rewrite El; apply in_or_app; right; left; reflexivity).
    pose proof Hin as Hin'. apply T1 in Hin'. destruct Hin' as [He Hr]. assert (El' : l = leaf) by congruence. clear X1. subst l. specialize (X3 Hn).
    assert (s = sub).
    { destruct (two_decimals s) eqn:E; [congruence|]. assert (sub = 0) by congruence. subst sub.
      destruct (N.eq_dec s 0) as [->|Hs0]; [congruence|exfalso].
      assert (He0 : exists_in m leaf 0) by (apply (Z s); exact He).
      assert (Hin0 : In (leaf, 0, cpuidex m leaf 0) rs) by (apply T1; split; [exact He0|reflexivity]).
      assert (Hl1 : In (leaf, 0, cpuidex m leaf 0) l1).
      { apply (sorted_split rs l1 (leaf, s, r) l2 T2 El); [exact Hin0|]. right. cbn. split; [reflexivity|lia]. }
      destruct (forall2_in_l _ _ _ _ _ _ R1 Hl1) as (e0 & He0in & Hx0). cbn in Hx0. destruct Hx0 as (Y1 & _ & Y3). specialize (Y3 Hn).
      apply (H3 e0 He0in). split; [exact Y1|]. rewrite Y3. change (two_decimals 0) with true. cbv iota. congruence. }
    subst s. split; [intros _ _; congruence|]. intros Hno. contradiction.
  - split; [|intros _; exact H2]. intros He Hlt. exfalso.
    assert (Hin : In (leaf, sub, cpuidex m leaf sub) rs) by (apply T1; split; [exact He|reflexivity]).
    destruct (forall2_in_l _ _ _ _ _ _ R Hin) as (e & Hine & Hx). cbn in Hx. destruct Hx as (X1 & X2 & X3). specialize (X3 Hn).
    apply (H1 e Hine). split; [exact X1|]. rewrite X3.
    assert (E : two_decimals sub = true).
    { unfold two_decimals. rewrite N.div_small, N.mod_small by lia. lia. }
    rewrite E. reflexivity.
Qed.

Context (xcr mx : N).
Let m' := replayed table xcr mx.

Lemma seen_single : forall leaf, with_subleaves leaf = false -> ~ In leaf subleaf_leaves -> exists_in m leaf 0 -> cpuid m' leaf = cpuid m leaf.
Proof. intros leaf H1 H2 H3. unfold cpuid, m', replayed. cbn [cpuidex]. rewrite H1. apply lookup_leaf; assumption. Qed.
Lemma unseen_single : forall leaf, with_subleaves leaf = false -> ~ In leaf subleaf_leaves -> ~ exists_in m leaf 0 -> cpuid m' leaf = regs0.
Proof. intros leaf H1 H2 H3. unfold cpuid, m', replayed. cbn [cpuidex]. rewrite H1. apply lookup_leaf; assumption. Qed.

Lemma base_exists : forall leaf, leaf <= highest_base m -> ~ In leaf subleaf_leaves -> exists_in m leaf 0.
Proof. intros. apply a_single; assumption. Qed.

Lemma seen_0 : cpuid m' 0 = cpuid m 0.
Proof. apply seen_single; [reflexivity|cbn; lia|]. apply base_exists; [lia|cbn; lia]. Qed.
Lemma seen_base : forall leaf, with_subleaves leaf = false -> ~ In leaf subleaf_leaves -> leaf <= eax (cpuid m 0) -> cpuid m' leaf = cpuid m leaf.
Proof. intros leaf H1 H2 H3. apply seen_single; [assumption|assumption|]. apply base_exists; assumption. Qed.
Lemma seen_extended : forall leaf, with_subleaves leaf = false -> 0x80000000 <= leaf -> leaf <= eax (cpuid m 0x80000000) -> cpuid m' leaf = cpuid m leaf.
Proof. intros leaf H1 H2 H3. apply seen_single; [assumption|cbn; lia|]. apply an_extended. split; assumption. Qed.
Lemma seen_max : (if 0x80000000 <=? eax (cpuid m' 0x80000000) then eax (cpuid m' 0x80000000) else 0) =
  (if 0x80000000 <=? eax (cpuid m 0x80000000) then eax (cpuid m 0x80000000) else 0).
Proof.
  destruct (0x80000000 <=? eax (cpuid m 0x80000000)) eqn:E.
  - rewrite seen_extended; [rewrite E; reflexivity|reflexivity|lia|lia].
  - rewrite unseen_single; [reflexivity|reflexivity|cbn; lia|]. rewrite exists_extended by (assumption || lia).
    change (highest_extended m) with (eax (cpuid m 0x80000000)). lia.
Qed.

(** The leaves with subleaves. *)
Lemma cache_first : forall s, exists_in m 4 s -> exists_in m 4 0.
Proof.
  intros s H. assert (Hb : 4 <= highest_base m) by (apply (exists_in_below m 4 s H); lia). rewrite exists_cache in * by exact Hb.
  destruct H as [H1 H2]. split; [rewrite two32_val; lia|]. intros i Hi. apply H2. lia.
Qed.
Lemma level_first : forall s, exists_in m 0xB s -> exists_in m 0xB 0.
Proof.
  intros s H. assert (Hb : 0xB <= highest_base m) by (apply (exists_in_below m 0xB s H); lia). rewrite exists_level in * by exact Hb.
  destruct H as [H1 H2]. split; [rewrite two32_val; lia|]. intros i Hi. apply H2. lia.
Qed.
Lemma indexed_first : forall leaf s, In leaf indexed_leaves -> exists_in m leaf s -> exists_in m leaf 0.
Proof.
  intros leaf s Hin H. assert (Hb : leaf <= highest_base m) by (apply (exists_in_below m leaf s H); cbn in Hin; lia).
  rewrite exists_indexed by assumption. lia.
Qed.

Lemma seen_sub : forall leaf sub, with_subleaves leaf = true -> (forall s, exists_in m leaf s -> exists_in m leaf 0) -> sub <= 10 ->
  (exists_in m leaf sub -> sub < 10 -> cpuidex m' leaf sub = cpuidex m leaf sub) /\ (~ exists_in m leaf sub -> cpuidex m' leaf sub = regs0).
Proof.
  intros leaf sub H1 H2 H3. unfold m', replayed. cbn [cpuidex]. rewrite H1. apply lookup_sub; [|exact H2|exact H3].
  unfold with_subleaves in H1. cbn. lia.
Qed.

Hypothesis F : faithful m.

Lemma leaf4_same : forall e, e <= 10 -> eax (cpuidex m 4 e) mod 32 = 0 -> (forall i, i < e -> eax (cpuidex m 4 i) mod 32 <> 0) -> 4 <= highest_base m ->
  forall k s fuel cs p, s + N.of_nat k = e -> leaf4_loop m' fuel s cs p = leaf4_loop m fuel s cs p.
Proof.
  intros e He H0 Hlt Hb. induction k as [|k IH]; intros s fuel cs p Hk; (destruct fuel as [|fuel]; [reflexivity|]); cbn [leaf4_loop].
  - assert (s = e) by lia. subst s.
    assert (E1 : decode_deterministic_cache_parameters (cpuidex m 4 e) cs = None).
    { unfold decode_deterministic_cache_parameters. rewrite land_type, H0. reflexivity. }
    assert (E2 : cpuidex m' 4 e = regs0).
    { apply seen_sub; [reflexivity|apply cache_first|exact He|]. rewrite exists_cache by exact Hb. intros [_ Hx]. apply (Hx e); [lia|exact H0]. }
    rewrite E1, E2. reflexivity.
  - assert (E : cpuidex m' 4 s = cpuidex m 4 s).
    { apply seen_sub; [reflexivity|apply cache_first|lia| |lia]. rewrite exists_cache by exact Hb. split; [rewrite two32_val; lia|].
      intros i Hi. apply Hlt. lia. }
    rewrite E. destruct (decode_deterministic_cache_parameters (cpuidex m 4 s) cs) as [[cs' max]|]; [|reflexivity].
    apply IH. rewrite u32_def, N.mod_small by lia. lia.
Qed.

Lemma first_end : forall (P : N -> bool) b, P b = true -> exists e, e <= b /\ P e = true /\ forall i, i < e -> P i = false.
Proof.
  intros P b. rewrite <- (N2Nat.id b). generalize (N.to_nat b) as k. induction k as [k IH] using lt_wf_ind. intros Hb.
  destruct (existsb (fun i => P (N.of_nat i)) (seq 0 k)) eqn:E.
  - apply existsb_exists in E. destruct E as (j & Hj & HP). apply in_seq in Hj. destruct (IH j ltac:(lia) HP) as (e & He & H1 & H2).
    exists e. repeat split; [lia|exact H1|exact H2].
  - exists (N.of_nat k). repeat split; [lia|exact Hb|]. intros i Hi. destruct (P i) eqn:EP; [|reflexivity]. exfalso.
    assert (X : existsb (fun i => P (N.of_nat i)) (seq 0 k) = true).
    { apply existsb_exists. exists (N.to_nat i). split; [apply in_seq; lia|]. rewrite N2Nat.id. exact EP. }
    rewrite X in E. discriminate.
Qed.

Lemma leaf4_replayed : forall fuel cs p, 4 <= highest_base m -> leaf4_loop m' fuel 0 cs p = leaf4_loop m fuel 0 cs p.
Proof.
  intros fuel cs p Hb. destruct (few_caches m F Hb) as (b & Hb10 & H0).
  destruct (first_end (fun s => eax (cpuidex m 4 s) mod 32 =? 0) b) as (e & He & H1 & H2); [apply N.eqb_eq; exact H0|].
  apply N.eqb_eq in H1. apply (leaf4_same e) with (k := N.to_nat e); [lia|exact H1| |exact Hb|lia].
  intros i Hi. apply N.eqb_neq. apply H2. exact Hi.
Qed.

(** Of the levels only the identifier of the last reading may differ. *)
Definition same_fields (a b : res topology) : Prop :=
  match a, b with
  | Ok a, Ok b => tp_thread_offset a = tp_thread_offset b /\ tp_thread_length a = tp_thread_length b /\
                  tp_core_offset a = tp_core_offset b /\ tp_core_length a = tp_core_length b
  | UB, UB => True
  | Hang, Hang => True
  | _, _ => False
  end.
Lemma same_fields_refl : forall a, same_fields a a.
Proof. intros [a| |]; cbn; auto. Qed.

Lemma level_type : forall x, N.land (N.shiftr x 8) 0xFF = (x / 256) mod 256.
Proof. intros x. change 0xFF with (N.ones 8). rewrite N.land_ones, N.shiftr_div_pow2. reflexivity. Qed.

Lemma leafB_same : forall e, e <= 10 -> (ecx (cpuidex m 0xB e) / 256) mod 256 = 0 -> (forall i, i < e -> (ecx (cpuidex m 0xB i) / 256) mod 256 <> 0) -> 0xB <= highest_base m ->
  forall k s fuel sh t, s + N.of_nat k = e -> same_fields (leafB_loop m' fuel s sh t) (leafB_loop m fuel s sh t).
Proof.
  intros e He H0 Hlt Hb. induction k as [|k IH]; intros s fuel sh t Hk; (destruct fuel as [|fuel]; [exact I|]); cbn [leafB_loop].
  - assert (s = e) by lia. subst s.
    assert (E2 : cpuidex m' 0xB e = regs0).
    { apply seen_sub; [reflexivity|apply level_first|exact He|]. rewrite exists_level by exact Hb. intros [_ Hx]. apply (Hx e); [lia|exact H0]. }
    rewrite E2. rewrite (level_type (ecx (cpuidex m 0xB e))), H0. cbn. auto.
  - assert (E : cpuidex m' 0xB s = cpuidex m 0xB s).
    { apply seen_sub; [reflexivity|apply level_first|lia| |lia]. rewrite exists_level by exact Hb. split; [rewrite two32_val; lia|].
      intros i Hi. apply Hlt. lia. }
    rewrite E. rewrite (level_type (ecx (cpuidex m 0xB s))).
    destruct (negb ((ecx (cpuidex m 0xB s) / 256) mod 256 =? 0)); [|apply same_fields_refl].
    apply IH. rewrite u32_def, N.mod_small by lia. lia.
Qed.
Lemma leafB_replayed : forall fuel sh t, 0xB <= highest_base m -> same_fields (leafB_loop m' fuel 0 sh t) (leafB_loop m fuel 0 sh t).
Proof.
  intros fuel sh t Hb. destruct (few_levels m F Hb) as (b & Hb10 & H0).
  destruct (first_end (fun s => (ecx (cpuidex m 0xB s) / 256) mod 256 =? 0) b) as (e & He & H1 & H2); [apply N.eqb_eq; exact H0|].
  apply N.eqb_eq in H1. apply (leafB_same e) with (k := N.to_nat e); [lia|exact H1| |exact Hb|lia].
  intros i Hi. apply N.eqb_neq. apply H2. exact Hi.
Qed.

Lemma leaf1d_replayed : forall fuel cs, 0x8000001D <= highest_extended m -> N.testbit (ecx (cpuidex m 0x80000001 0)) 22 = true ->
  leaf1d_loop m' fuel 0 cs = leaf1d_loop m fuel 0 cs.
Proof.
  intros fuel cs He Ht. destruct fuel as [|fuel]; [reflexivity|]. cbn [leaf1d_loop].
  assert (Z : forall s, exists_in m 0x8000001D s -> exists_in m 0x8000001D 0).
  { intros s H. rewrite exists_extended in * by (assumption || lia). tauto. }
  assert (E : cpuidex m' 0x8000001D 0 = cpuidex m 0x8000001D 0).
  { apply seen_sub; [reflexivity|exact Z|lia| |lia]. apply exists_extended; [exact Hs|lia|]. split; [exact He|reflexivity]. }
  rewrite E. destruct (decode_cache_properties (cpuidex m 0x8000001D 0) cs) as [cs'|] eqn:D; [|reflexivity].
  destruct (one_amd_cache m F He Ht) as [O|O].
  { unfold decode_cache_properties in D. rewrite land_type, O in D. discriminate. }
  destruct fuel as [|fuel]; [reflexivity|]. cbn [leaf1d_loop]. replace (u32 (0 + 1)) with 1 by reflexivity.
  assert (E1 : cpuidex m' 0x8000001D 1 = regs0).
  { apply seen_sub; [reflexivity|exact Z|lia|]. rewrite exists_extended by (assumption || lia). lia. }
  rewrite E1. unfold decode_cache_properties at 1 2. rewrite !land_type, O. reflexivity.
Qed.

Lemma descriptors_replayed : forall b v mi n i cs, 2 <= highest_base m -> repeat_descriptors b m' v mi n i cs = repeat_descriptors b m v mi n i cs.
Proof.
  intros b v mi n i cs Hb. revert i cs. induction n as [|n IH]; intros i cs; [reflexivity|]. cbn [repeat_descriptors].
  rewrite (same_descriptors m F Hb i). rewrite IH. f_equal. f_equal. cbn [cpuid2 m' replayed].
  apply lookup_leaf; [cbn; lia|]. apply base_exists; [exact Hb|cbn; lia].
Qed.

Lemma bit22 : forall x, negb (N.land x 0x00400000 =? 0) = N.testbit x 22.
Proof.
  intros x. change 0x00400000 with (2 ^ 22). destruct (N.testbit x 22) eqn:E.
  - destruct (N.land x (2 ^ 22) =? 0) eqn:G; [|reflexivity]. apply N.eqb_eq in G.
    assert (H : N.testbit (N.land x (2 ^ 22)) 22 = false) by (rewrite G; apply N.bits_0).
    rewrite N.land_spec, E, N.pow2_bits_true in H. discriminate.
  - assert (G : N.land x (2 ^ 22) = 0).
    { apply N.bits_inj. intros i. rewrite N.land_spec, N.bits_0. destruct (N.eq_dec i 22) as [->|Hn]; [rewrite E; reflexivity|].
      rewrite N.pow2_bits_false by congruence. apply Bool.andb_false_r. }
    rewrite G. reflexivity.
Qed.

Definition max_ext (x : cpu) : N := if 0x80000000 <=? eax (cpuid x 0x80000000) then eax (cpuid x 0x80000000) else 0.
Lemma max_ext_bound : forall l, 0x80000000 <= l -> l <= max_ext m -> l <= eax (cpuid m 0x80000000).
Proof. intros l H1 H2. unfold max_ext in H2. destruct (0x80000000 <=? eax (cpuid m 0x80000000)); lia. Qed.

Lemma leafE1_same : (if 0x80000001 <=? max_ext m then cpuid m' 0x80000001 else regs0) = (if 0x80000001 <=? max_ext m then cpuid m 0x80000001 else regs0).
Proof.
  destruct (0x80000001 <=? max_ext m) eqn:E; [|reflexivity]. apply seen_extended; [reflexivity|lia|]. apply max_ext_bound; lia.
Qed.

Lemma detect_cache_same : forall b fuel v mi cs lg,
  detect_cache b m' fuel (eax (cpuid m 0)) (max_ext m) (negb (N.land (ecx (if 0x80000001 <=? max_ext m then cpuid m 0x80000001 else regs0)) 0x00400000 =? 0)) v mi cs lg =
  detect_cache b m fuel (eax (cpuid m 0)) (max_ext m) (negb (N.land (ecx (if 0x80000001 <=? max_ext m then cpuid m 0x80000001 else regs0)) 0x00400000 =? 0)) v mi cs lg.
Proof.
  intros b fuel v mi cs lg. unfold detect_cache. rewrite bit22.
  match goal with |- bind ?x _ = bind ?y _ => assert (E1 : x = y) end.
  { destruct (2 <=? eax (cpuid m 0)) eqn:E2; [|reflexivity]. cbv zeta.
    assert (E : cpuid2 m' 0 = cpuid2 m 0).
    { rewrite (same_descriptors m F) by (unfold highest_base; change (cpuidex m 0 0) with (cpuid m 0); lia). cbn [cpuid2 m' replayed].
      apply lookup_leaf; [cbn; lia|]. apply base_exists; [unfold highest_base; change (cpuidex m 0 0) with (cpuid m 0); lia|cbn; lia]. }
    rewrite E, descriptors_replayed by (unfold highest_base; change (cpuidex m 0 0) with (cpuid m 0); lia).
    destruct (negb (v =? vendor_amd) && negb (v =? vendor_hygon) && (4 <=? eax (cpuid m 0))) eqn:E4; [|reflexivity].
    rewrite leaf4_replayed; [reflexivity|]. unfold highest_base. change (cpuidex m 0 0) with (cpuid m 0). lia. }
  rewrite E1. clear E1. match goal with |- bind ?x _ = bind ?x _ => destruct x as [[cs1 lg1]| |]; cbn [bind]; try reflexivity end.
  destruct (N.testbit _ 22 && (0x8000001D <=? max_ext m)) eqn:E; [|reflexivity].
  apply andb_prop in E. destruct E as [Ea Eb].
  assert (El : (0x80000001 <=? max_ext m) = true) by lia. rewrite El in Ea.
  rewrite leaf1d_replayed; [reflexivity| |exact Ea]. unfold highest_extended. apply max_ext_bound; lia.
Qed.

Lemma detect_topology_same : forall fuel leaf1 t,
  same_fields (detect_topology m' fuel (eax (cpuid m 0)) (max_ext m) leaf1 t) (detect_topology m fuel (eax (cpuid m 0)) (max_ext m) leaf1 t).
Proof.
  intros fuel leaf1 t. unfold detect_topology. cbv zeta.
  assert (E1 : (if 0x80000001 <=? max_ext m then negb (N.land (ecx (cpuid m' 0x80000001)) 2 =? 0) else false) =
               (if 0x80000001 <=? max_ext m then negb (N.land (ecx (cpuid m 0x80000001)) 2 =? 0) else false)).
  { destruct (0x80000001 <=? max_ext m) eqn:E; [|reflexivity]. rewrite seen_extended; [reflexivity|reflexivity|lia|apply max_ext_bound; lia]. }
  rewrite E1.
  assert (E8 : (0x80000008 <=? max_ext m) = true -> cpuid m' 0x80000008 = cpuid m 0x80000008).
  { intros E. apply seen_extended; [reflexivity|lia|apply max_ext_bound; lia]. }
  destruct (0x80000008 <=? max_ext m) eqn:H8; [rewrite E8 by reflexivity|]; clear E8;
    destruct (negb (N.land (ecx leaf1) 0x00200000 =? 0) && (0xB <=? eax (cpuid m 0))) eqn:EB; try apply same_fields_refl;
    apply leafB_replayed; unfold highest_base; change (cpuidex m 0 0) with (cpuid m 0); lia.
Qed.

Theorem init_processor_replayed : forall b fuel, init_processor b m' fuel = init_processor b m fuel.
Proof.
  intros b fuel. unfold init_processor. rewrite seen_0. rewrite seen_max. fold (max_ext m). cbv zeta. rewrite leafE1_same.
  destruct (1 <=? eax (cpuid m 0)) eqn:E1; [|reflexivity].
  rewrite (seen_base 1); [|reflexivity|cbn; lia|lia].
  rewrite detect_cache_same. destruct (detect_cache _ m _ _ _ _ _ _ _ _) as [[cs lg]| |]; cbn [bind]; try reflexivity.
  pose proof (detect_topology_same fuel (cpuid m 1) (Topology 0 0 0 0 lg)) as D.
  destruct (detect_topology m' _ _ _ _ _) as [t'| |], (detect_topology m _ _ _ _ _) as [t| |]; cbn in D; try contradiction; try reflexivity.
  destruct D as (D1 & D2 & D3 & D4). cbn [bind]. rewrite D1, D2, D3, D4. reflexivity.
Qed.

(** ** The instruction set *)
Hypothesis Hx : xcr = xcr0 m.
Hypothesis Hm : mx = mxcsr_mask m.

Lemma via_names : forall b, decode_vendor b (ebx (cpuid m 0)) (ecx (cpuid m 0)) (edx (cpuid m 0)) = vendor_via ->
  string_in (vendor_text (cpuidex m 0 0)) (text "CentaurHauls") \/ string_in (vendor_text (cpuidex m 0 0)) (text "VIA VIA VIA ").
Proof.
  intros b H. change (cpuidex m 0 0) with (cpuid m 0). destruct (cpuid m 0) as [a bb c d]. cbn [ebx ecx edx] in H.
  unfold decode_vendor in H. destruct (find _ vendor_cases) as [[[[[vb vd] vc] o] v]|] eqn:E; [|discriminate]. subst v.
  apply find_some in E. destruct E as [Hin Hc]. cbn in Hin.
  assert (Hb : bb = vb /\ d = vd /\ c = vc) by lia. destruct Hb as (-> & -> & ->).
  unfold vendor_text. cbn [ebx ecx edx].
  repeat (destruct Hin as [Hin|Hin]; [try discriminate; injection Hin as <- <- <- <-; first [left; vm_compute; apply full_string; cbn; lia | right; vm_compute; apply full_string; cbn; lia]|]).
  destruct Hin.
Qed.

Lemma detect_isa_same : forall b f, detect_isa b m' (cpuid m 1) (if 0x80000001 <=? max_ext m then cpuid m 0x80000001 else regs0) (eax (cpuid m 0)) (max_ext m)
    (decode_vendor b (ebx (cpuid m 0)) (ecx (cpuid m 0)) (edx (cpuid m 0)))
    (decode_uarch b (decode_vendor b (ebx (cpuid m 0)) (ecx (cpuid m 0)) (edx (cpuid m 0))) (decode_model_info (eax (cpuid m 1)))) f =
  detect_isa b m (cpuid m 1) (if 0x80000001 <=? max_ext m then cpuid m 0x80000001 else regs0) (eax (cpuid m 0)) (max_ext m)
    (decode_vendor b (ebx (cpuid m 0)) (ecx (cpuid m 0)) (edx (cpuid m 0)))
    (decode_uarch b (decode_vendor b (ebx (cpuid m 0)) (ecx (cpuid m 0)) (edx (cpuid m 0))) (decode_model_info (eax (cpuid m 1)))) f.
Proof.
  intros b f.
  set (vendor := decode_vendor b (ebx (cpuid m 0)) (ecx (cpuid m 0)) (edx (cpuid m 0))).
  set (uarch := decode_uarch b vendor (decode_model_info (eax (cpuid m 1)))).
  set (ext := if 0x80000001 <=? max_ext m then cpuid m 0x80000001 else regs0).
  assert (S0 : (if 7 <=? eax (cpuid m 0) then cpuidex m' 7 0 else regs0) = (if 7 <=? eax (cpuid m 0) then cpuidex m 7 0 else regs0)).
  { destruct (7 <=? eax (cpuid m 0)) eqn:E; [|reflexivity]. apply seen_sub; [reflexivity|intros s; apply indexed_first; cbn; tauto|lia| |lia].
    apply exists_indexed; [cbn; tauto|unfold highest_base; change (cpuidex m 0 0) with (cpuid m 0); lia|lia]. }
  assert (S1 : (if 7 <=? eax (cpuid m 0) then cpuidex m' 7 1 else regs0) = (if 7 <=? eax (cpuid m 0) then cpuidex m 7 1 else regs0)).
  { destruct (7 <=? eax (cpuid m 0)) eqn:E; [|reflexivity].
    assert (Hb : 7 <= highest_base m) by (unfold highest_base; change (cpuidex m 0 0) with (cpuid m 0); lia).
    destruct (seen_sub 7 1) as [A B]; [reflexivity|intros s; apply indexed_first; cbn; tauto|lia|].
    destruct (N.eq_dec (eax (cpuidex m 7 0)) 0) as [Z|Z].
    - rewrite (no_structured m F Hb Z). apply B. rewrite exists_indexed; [lia|cbn; tauto|exact Hb].
    - apply A; [|lia]. apply exists_indexed; [cbn; tauto|exact Hb|lia]. }
  assert (S2 : (if 7 <=? eax (cpuid m 0) then cpuidex m' 0x24 0 else regs0) =
               (if 0x24 <=? eax (cpuid m 0) then (if 7 <=? eax (cpuid m 0) then cpuidex m 0x24 0 else regs0) else regs0)).
  { destruct (seen_sub 0x24 0) as [A B]; [reflexivity|intros s; apply indexed_first; cbn; tauto|lia|].
    destruct (0x24 <=? eax (cpuid m 0)) eqn:E.
    - assert (E7 : (7 <=? eax (cpuid m 0)) = true) by lia. rewrite E7. apply A; [|lia].
      apply exists_indexed; [cbn; tauto|unfold highest_base; change (cpuidex m 0 0) with (cpuid m 0); lia|lia].
    - destruct (7 <=? eax (cpuid m 0)); [|reflexivity]. apply B. intros He. apply exists_in_below in He; [|lia].
      unfold highest_base in He. change (cpuidex m 0 0) with (cpuid m 0) in He. lia. }
  assert (CAP : (if 0x80000008 <=? max_ext m then cpuid m' 0x80000008 else regs0) = (if 0x80000008 <=? max_ext m then cpuid m 0x80000008 else regs0)).
  { destruct (0x80000008 <=? max_ext m) eqn:E; [|reflexivity]. apply seen_extended; [reflexivity|lia|apply max_ext_bound; lia]. }
  assert (XV : (if 0xD <=? eax (cpuid m 0) then N.lor (N.shiftl (edx (cpuidex m' 0xD 0)) 32) (eax (cpuidex m' 0xD 0)) else 0) =
               (if 0xD <=? eax (cpuid m 0) then N.lor (N.shiftl (edx (cpuidex m 0xD 0)) 32) (eax (cpuidex m 0xD 0)) else 0)).
  { destruct (0xD <=? eax (cpuid m 0)) eqn:E; [|reflexivity].
    assert (Hb : 0xD <= highest_base m) by (unfold highest_base; change (cpuidex m 0 0) with (cpuid m 0); lia).
    assert (G : cpuidex m' 0xD 0 = cpuidex m 0xD 0).
    { apply seen_sub; [reflexivity| |lia| |lia].
      - intros s _. apply base_exists; [exact Hb|cbn; lia].
      - apply base_exists; [exact Hb|cbn; lia]. }
    rewrite G. reflexivity. }
  assert (PAD : forall mask, (if vendor =? vendor_via then
                 if 0xC0000001 <=? eax (cpuid m' 0xC0000000) then all (edx (cpuid m' 0xC0000001)) mask else false
               else false) = (if vendor =? vendor_via then
                 if 0xC0000001 <=? eax (cpuid m 0xC0000000) then all (edx (cpuid m 0xC0000001)) mask else false
               else false)).
  { intros mask. destruct (vendor =? vendor_via) eqn:E; [|reflexivity]. apply N.eqb_eq in E. apply via_names in E. apply (not_via m F) in E.
    change (cpuidex m 0xC0000000 0) with (cpuid m 0xC0000000) in E.
    assert (E1 : (0xC0000001 <=? eax (cpuid m 0xC0000000)) = false) by lia. rewrite E1.
    assert (E2 : eax (cpuid m' 0xC0000000) < 0xC0000001).
    { destruct (N.le_gt_cases 0xC0000000 (eax (cpuid m 0x80000000))) as [Hle|Hgt].
      - rewrite seen_extended; [exact E|reflexivity|lia|exact Hle].
      - rewrite unseen_single; [cbn; lia|reflexivity|cbn; lia|]. rewrite exists_extended by (assumption || lia).
        change (highest_extended m) with (eax (cpuid m 0x80000000)). lia. }
    assert (E3 : (0xC0000001 <=? eax (cpuid m' 0xC0000000)) = false) by lia. rewrite E3. reflexivity. }
  assert (AVX : forall g : bool, ((2 <=? N.land (ebx (if 0x24 <=? eax (cpuid m 0) then (if 7 <=? eax (cpuid m 0) then cpuidex m 0x24 0 else regs0) else regs0)) 0x000000FF) &&
                 (g && any (edx (if 7 <=? eax (cpuid m 0) then cpuidex m 7 1 else regs0)) 0x00080000)) =
                ((2 <=? N.land (ebx (if 7 <=? eax (cpuid m 0) then cpuidex m 0x24 0 else regs0)) 0x000000FF) &&
                 (g && any (edx (if 7 <=? eax (cpuid m 0) then cpuidex m 7 1 else regs0)) 0x00080000))).
  { intros g. destruct (7 <=? eax (cpuid m 0)) eqn:E7; [|destruct (0x24 <=? eax (cpuid m 0)); reflexivity].
    destruct (0x24 <=? eax (cpuid m 0)) eqn:E; [reflexivity|].
    destruct (no_avx10 m F) as [A|A]; [unfold highest_base; change (cpuidex m 0 0) with (cpuid m 0); lia|unfold highest_base; change (cpuidex m 0 0) with (cpuid m 0); lia| |].
    - assert (Z : any (edx (cpuidex m 7 1)) 0x00080000 = false).
      { unfold any. change 0x00080000 with (2 ^ 19). apply Bool.negb_false_iff, N.eqb_eq. apply N.bits_inj. intros i. rewrite N.land_spec, N.bits_0.
        destruct (N.eq_dec i 19) as [->|Hn]; [rewrite A; reflexivity|]. rewrite N.pow2_bits_false by congruence. apply Bool.andb_false_r. }
      rewrite Z, !Bool.andb_false_r. reflexivity.
    - assert (Z : (2 <=? N.land (ebx (cpuidex m 0x24 0)) 0x000000FF) = false).
      { change 0x000000FF with (N.ones 8). rewrite N.land_ones. change (2 ^ 8) with 256. lia. }
      rewrite Z. reflexivity. }
  unfold detect_isa. rewrite S0, S1, S2, CAP, XV. change (xcr0 m') with xcr. change (mxcsr_mask m') with mx. rewrite Hx, Hm. cbv zeta.
  clear S0 S1 S2 CAP XV. destruct f; try reflexivity; first [apply AVX | rewrite !PAD; reflexivity | idtac].
Qed.

Theorem init_isa_replayed : forall b f, init_isa b m' f = init_isa b m f.
Proof.
  intros b f. unfold init_isa. rewrite seen_0, seen_max. fold (max_ext m). cbv zeta. rewrite leafE1_same.
  destruct (1 <=? eax (cpuid m 0)) eqn:E1; [|reflexivity].
  rewrite (seen_base 1); [|reflexivity|cbn; lia|lia]. apply detect_isa_same.
Qed.

Theorem package_name_replayed : forall b stack, detect_package_name b m' stack = detect_package_name b m stack.
Proof.
  intros b stack. unfold detect_package_name. rewrite seen_0.
  assert (E : raw_brand_string m' = raw_brand_string m).
  { unfold raw_brand_string. rewrite seen_max. fold (max_ext m). cbv zeta. destruct (0x80000004 <=? max_ext m) eqn:E; [|reflexivity].
    cbn [flat_map]. pose proof (max_ext_bound 0x80000004) as B.
    rewrite !seen_extended; try reflexivity; lia. }
  rewrite E. reflexivity.
Qed.
End Replay.

Theorem replay_same : forall m f t table, sane m -> ascii_names m -> faithful m -> dump_text m f = Some t -> parse t = Some table ->
  let m' := replayed table (xcr0 m) (mxcsr_mask m) in
  forall b, (forall fuel, init_processor b m' fuel = init_processor b m fuel) /\ (forall x, init_isa b m' x = init_isa b m x) /\
            (forall stack, detect_package_name b m' stack = detect_package_name b m stack).
Proof.
  intros m f t table Hs Ha F Hd Hp m' b. destruct (parse_dump m f t Hs Ha Hd) as (rs & table' & T & Hp' & R).
  assert (table' = table) by congruence. subst table'. repeat split.
  - intros fuel. apply (init_processor_replayed m rs table Hs T R (xcr0 m) (mxcsr_mask m) F).
  - intros x. apply (init_isa_replayed m rs table Hs T R (xcr0 m) (mxcsr_mask m) F); reflexivity.
  - intros stack. apply (package_name_replayed m rs table); assumption || reflexivity.
Qed.
