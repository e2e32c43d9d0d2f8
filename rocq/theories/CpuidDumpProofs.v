(** Proofs about the CPUID recorder: when it ends and what it reads. *)
From Coq Require Import Sorted Lia ZifyBool ZifyNat ZifyN Arith.
From Verif Require Import Base BaseProofs Text X86DescriptorModel X86DecodeModel ArmCpuinfoSpec CpuidDumpModel CpuidDumpSpec.
Open Scope N_scope.

Definition reading_of (l : line) : reading :=
  match l with
  | Plain leaf r => (leaf, 0, r)
  | Sub leaf sub r => (leaf, sub, r)
  | Vendor leaf r => (leaf, 0, r)
  | Brand leaf r => (leaf, 0, r)
  end.
Definition well_formed (l : line) : Prop :=
  match l with
  | Plain leaf _ => ~ In leaf subleaf_leaves /\ ~ In leaf vendor_leaves /\ ~ In leaf brand_leaves
  | Sub leaf _ _ => In leaf subleaf_leaves
  | Vendor leaf _ => In leaf vendor_leaves
  | Brand leaf _ => In leaf brand_leaves
  end.

Lemma two32_val : two32 = 4294967296. Proof. reflexivity. Qed.
Lemma u32max_val : u32max = 4294967295. Proof. reflexivity. Qed.
Lemma u32_def : forall x, u32 x = x mod 4294967296. Proof. reflexivity. Qed.

(** ** Open-ended loops *)
Lemma open_loop_mono : forall m stop leaf f f' c ls, (f <= f')%nat ->
  open_loop m stop leaf f c = Some ls -> open_loop m stop leaf f' c = Some ls.
Proof.
  induction f as [|f IH]; intros f' c ls Hf H; [discriminate|].
  destruct f' as [|f']; [lia|]. cbn [open_loop] in *.
  destruct (stop c (cpuidex m leaf c)); [exact H|].
  destruct (open_loop m stop leaf f (u32 (c + 1))) as [l|] eqn:E; [|discriminate].
  rewrite (IH f' _ l) by (assumption || lia). exact H.
Qed.

Definition place_at (c : N) (i : nat) : N := (c + N.of_nat i) mod two32.

Lemma place_at_step : forall c i, place_at (u32 (c + 1)) i = place_at c (S i).
Proof.
  intros c i. unfold place_at. rewrite u32_def, two32_val.
  rewrite N.add_mod_idemp_l by lia. f_equal. lia.
Qed.
Lemma place_at_0 : forall c, c < two32 -> place_at c 0 = c.
Proof. intros c H. unfold place_at. rewrite N.add_0_r. apply N.mod_small; exact H. Qed.
Lemma u32_lt : forall x, u32 x < two32.
Proof. intros x. rewrite u32_def, two32_val. apply N.mod_lt. lia. Qed.

Lemma open_loop_some : forall m stop leaf f c ls, c < two32 -> open_loop m stop leaf f c = Some ls ->
  exists k, stop (place_at c k) (cpuidex m leaf (place_at c k)) = true /\
    (forall i, (i < k)%nat -> stop (place_at c i) (cpuidex m leaf (place_at c i)) = false) /\
    ls = map (fun i => Sub leaf (place_at c i) (cpuidex m leaf (place_at c i))) (seq 0 k).
Proof.
  induction f as [|f IH]; intros c ls Hc H; [discriminate|]. cbn [open_loop] in H.
  destruct (stop c (cpuidex m leaf c)) eqn:Hs.
  - injection H as <-. exists 0%nat. rewrite place_at_0 by exact Hc. repeat split; [exact Hs|]. intros i Hi. lia.
  - destruct (open_loop m stop leaf f (u32 (c + 1))) as [l|] eqn:E; [|discriminate]. injection H as <-.
    destruct (IH _ _ (u32_lt _) E) as (k & H1 & H2 & H3). exists (S k).
    rewrite place_at_step in H1. split; [exact H1|]. split.
    + intros [|i] Hi; [rewrite place_at_0 by exact Hc; exact Hs|]. rewrite <- place_at_step. apply H2. lia.
    + rewrite H3. cbn [seq map]. rewrite place_at_0 by exact Hc. f_equal.
      rewrite <- seq_shift, map_map. apply map_ext. intros i. rewrite place_at_step. reflexivity.
Qed.

Lemma place_at_zero : forall i, N.of_nat i < two32 -> place_at 0 i = N.of_nat i.
Proof. intros i H. unfold place_at. rewrite N.add_0_l. apply N.mod_small; exact H. Qed.

Definition sub_lines (m : cpu) (leaf : N) (k : nat) : list line :=
  map (fun i => Sub leaf (N.of_nat i) (cpuidex m leaf (N.of_nat i))) (seq 0 k).

Lemma open_loop_from_0 : forall m stop leaf f ls, open_loop m stop leaf f 0 = Some ls ->
  exists k, N.of_nat k < two32 /\ stop (N.of_nat k) (cpuidex m leaf (N.of_nat k)) = true /\
    (forall i, (i < k)%nat -> stop (N.of_nat i) (cpuidex m leaf (N.of_nat i)) = false) /\
    ls = sub_lines m leaf k.
Proof.
  intros m stop leaf f ls H. apply open_loop_some in H; [|rewrite two32_val; lia].
  destruct H as (k & H1 & H2 & H3).
  assert (Hk : N.of_nat k < two32).
  { destruct (N.lt_ge_cases (N.of_nat k) two32) as [?|Hge]; [assumption|].
    exfalso. set (j := N.to_nat (place_at 0 k)).
    assert (Hj : (j < k)%nat).
    { unfold j, place_at. rewrite two32_val in *. pose proof (N.mod_lt (0 + N.of_nat k) 4294967296). lia. }
    specialize (H2 j Hj). rewrite place_at_zero in H2.
    - unfold j in H2. rewrite N2Nat.id in H2. rewrite H1 in H2. discriminate.
    - unfold j. rewrite N2Nat.id. unfold place_at. rewrite two32_val. apply N.mod_lt. lia. }
  exists k. rewrite place_at_zero in H1 by exact Hk. split; [exact Hk|]. split; [exact H1|]. split.
  - intros i Hi. specialize (H2 i Hi). rewrite place_at_zero in H2 by lia. exact H2.
  - rewrite H3. apply map_ext_in. intros i Hi. apply in_seq in Hi. rewrite place_at_zero by lia. reflexivity.
Qed.

Lemma open_loop_ends : forall m stop leaf k c f, c + N.of_nat k < two32 ->
  stop (c + N.of_nat k) (cpuidex m leaf (c + N.of_nat k)) = true -> (k < f)%nat ->
  exists ls, open_loop m stop leaf f c = Some ls.
Proof.
  induction k as [|k IH]; intros c f Hc Hs Hf; (destruct f as [|f]; [lia|]); cbn [open_loop].
  - rewrite N.add_0_r in Hs. rewrite Hs. eauto.
  - destruct (stop c (cpuidex m leaf c)); [eauto|].
    destruct (IH (u32 (c + 1)) f) as (ls & E).
    + rewrite two32_val in *. rewrite u32_def, N.mod_small by lia. lia.
    + rewrite two32_val in *. rewrite u32_def, N.mod_small by lia. replace (c + 1 + N.of_nat k) with (c + N.of_nat (S k)) by lia. exact Hs.
    + lia.
    + rewrite E. eauto.
Qed.

(** ** Loops up to a highest subleaf *)
Lemma index_loop_mono : forall m leaf f f' max c ls, (f <= f')%nat ->
  index_loop m leaf f max c = Some ls -> index_loop m leaf f' max c = Some ls.
Proof.
  induction f as [|f IH]; intros f' max c ls Hf H; [discriminate|].
  destruct f' as [|f']; [lia|]. cbn [index_loop] in *.
  destruct (c <=? max); [|exact H]. cbv zeta in *.
  destruct (index_loop m leaf f _ (u32 (c + 1))) as [l|] eqn:E; [|discriminate].
  rewrite (IH f' _ _ l) by (assumption || lia). exact H.
Qed.

Lemma index_loop_never : forall m leaf f c, c < two32 -> eax (cpuidex m leaf 0) = u32max ->
  index_loop m leaf f u32max c = None.
Proof.
  induction f as [|f IH]; intros c Hc E; [reflexivity|]. cbn [index_loop].
  rewrite two32_val in Hc. assert (Hle : (c <=? u32max) = true) by (rewrite u32max_val; lia). rewrite Hle. cbv zeta.
  destruct (c =? 0) eqn:H0.
  - apply N.eqb_eq in H0. subst c. rewrite E, IH; [reflexivity|apply u32_lt|exact E].
  - rewrite IH; [reflexivity|apply u32_lt|exact E].
Qed.

Lemma index_loop_from : forall m leaf max k c, max < u32max -> 0 < c -> c + N.of_nat k = max + 1 ->
  (forall f, (f <= k)%nat -> index_loop m leaf f max c = None) /\
  (forall f, (k < f)%nat -> index_loop m leaf f max c =
     Some (map (fun i => Sub leaf (c + N.of_nat i) (cpuidex m leaf (c + N.of_nat i))) (seq 0 k))).
Proof.
  induction k as [|k IH]; intros c Hm Hc Hk; split; intros f Hf.
  - destruct f; [reflexivity|lia].
  - destruct f; [lia|]. cbn [index_loop]. assert (Hle : (c <=? max) = false) by lia. rewrite Hle. reflexivity.
  - destruct f; [reflexivity|]. cbn [index_loop]. assert (Hle : (c <=? max) = true) by lia. rewrite Hle. cbv zeta.
    assert (H0 : (c =? 0) = false) by lia. rewrite H0.
    rewrite u32max_val in *. rewrite u32_def, N.mod_small by lia.
    destruct (IH (c + 1)) as [H1 _]; [lia|lia|lia|]. rewrite H1 by lia. reflexivity.
  - destruct f; [lia|]. cbn [index_loop]. assert (Hle : (c <=? max) = true) by lia. rewrite Hle. cbv zeta.
    assert (H0 : (c =? 0) = false) by lia. rewrite H0.
    rewrite u32max_val in *. rewrite u32_def, N.mod_small by lia.
    destruct (IH (c + 1)) as [_ H2]; [lia|lia|lia|]. rewrite H2 by lia.
    cbn [seq map]. rewrite N.add_0_r. f_equal. f_equal. rewrite <- seq_shift, map_map. apply map_ext. intros i.
    replace (c + 1 + N.of_nat i) with (c + N.of_nat (S i)) by lia. reflexivity.
Qed.

Lemma index_loop_0 : forall m leaf f, eax (cpuidex m leaf 0) < two32 ->
  (forall ls, index_loop m leaf f 0 0 = Some ls ->
     eax (cpuidex m leaf 0) <> u32max /\ ls = sub_lines m leaf (N.to_nat (eax (cpuidex m leaf 0) + 1))) /\
  (eax (cpuidex m leaf 0) <> u32max -> (N.to_nat (eax (cpuidex m leaf 0) + 1) < f)%nat -> exists ls, index_loop m leaf f 0 0 = Some ls).
Proof.
  intros m leaf f Hw. destruct f as [|f]; [split; [discriminate|intros; lia]|]. cbn [index_loop].
  assert (Hle : (0 <=? 0) = true) by reflexivity. rewrite Hle. cbv zeta. assert (H0 : (0 =? 0) = true) by reflexivity. rewrite H0.
  replace (u32 (0 + 1)) with 1 by reflexivity.
  destruct (N.eq_dec (eax (cpuidex m leaf 0)) u32max) as [E|E].
  - split; [|intros; contradiction]. intros ls. rewrite E at 1. rewrite index_loop_never; [discriminate|reflexivity|exact E].
  - set (max := eax (cpuidex m leaf 0)) in *.
    assert (Hm : max < u32max) by (rewrite u32max_val, two32_val in *; lia).
    destruct (index_loop_from m leaf max (N.to_nat max) 1) as [H1 H2]; [exact Hm|lia|lia|].
    split.
    + intros ls H. split; [exact E|]. destruct (le_lt_dec f (N.to_nat max)) as [Hf|Hf]; [rewrite H1 in H by exact Hf; discriminate|].
      rewrite H2 in H by exact Hf. injection H as <-. unfold sub_lines.
      replace (N.to_nat (max + 1)) with (S (N.to_nat max)) by lia. cbn [seq map]. f_equal.
      rewrite <- seq_shift, map_map. apply map_ext. intros i. replace (N.of_nat (S i)) with (1 + N.of_nat i) by lia. reflexivity.
    + intros _ Hf. rewrite H2 by lia. eauto.
Qed.

(** ** One leaf *)
Lemma sub_lines_in : forall m leaf k l s r, In (l, s, r) (map reading_of (sub_lines m leaf k)) <->
  l = leaf /\ s < N.of_nat k /\ r = cpuidex m leaf s.
Proof.
  intros. unfold sub_lines. rewrite map_map. rewrite in_map_iff. split.
  - intros (i & Hi & Hin). apply in_seq in Hin. cbn in Hi. injection Hi as <- <- <-. repeat split; try reflexivity. lia.
  - intros (-> & Hs & ->). exists (N.to_nat s). cbn. rewrite N2Nat.id. split; [reflexivity|]. apply in_seq. lia.
Qed.

Lemma sub_lines_sorted : forall m leaf k, StronglySorted earlier (map reading_of (sub_lines m leaf k)).
Proof.
  intros m leaf k. unfold sub_lines. rewrite map_map. cbn.
  assert (G : forall n a, StronglySorted earlier (map (fun x => (leaf, N.of_nat x, cpuidex m leaf (N.of_nat x))) (seq a n))).
  { induction n as [|n IH]; intros a; cbn; constructor; [apply IH|].
    apply Forall_forall. intros x Hx. apply in_map_iff in Hx. destruct Hx as (i & <- & Hi). apply in_seq in Hi.
    right. cbn. split; [reflexivity|lia]. }
  apply G.
Qed.

Lemma sub_lines_well_formed : forall m leaf k, In leaf subleaf_leaves -> Forall well_formed (sub_lines m leaf k).
Proof.
  intros m leaf k H. apply Forall_forall. intros x Hx. unfold sub_lines in Hx. apply in_map_iff in Hx.
  destruct Hx as (i & <- & _). exact H.
Qed.

(** What one leaf contributes. *)
Definition leaf_ok (m : cpu) (leaf : N) (ls : list line) : Prop :=
  (forall l s r, In (l, s, r) (map reading_of ls) <-> l = leaf /\ exists_in m leaf s /\ r = cpuidex m leaf s) /\
  StronglySorted earlier (map reading_of ls) /\ Forall well_formed ls.

Lemma land_type : forall x, (N.land x 0x1F =? 0) = (x mod 32 =? 0).
Proof. intros x. change 0x1F with (N.ones 5). rewrite N.land_ones. reflexivity. Qed.
Lemma land_section : forall x, (N.land x 0xF =? 0) = (x mod 16 =? 0).
Proof. intros x. change 0xF with (N.ones 4). rewrite N.land_ones. reflexivity. Qed.
Lemma land_level : forall x, (N.land x 0xFF00 =? 0) = ((x / 256) mod 256 =? 0).
Proof.
  intros x. change 0xFF00 with (N.shiftl (N.ones 8) 8).
  replace (N.land x (N.shiftl (N.ones 8) 8)) with (N.shiftl (N.land (N.shiftr x 8) (N.ones 8)) 8).
  - rewrite N.land_ones, N.shiftr_div_pow2. change (2 ^ 8) with 256. rewrite N.shiftl_mul_pow2. change (2 ^ 8) with 256.
    destruct ((x / 256) mod 256 =? 0) eqn:E; [apply N.eqb_eq in E; rewrite E; reflexivity|]. apply N.eqb_neq in E. apply N.eqb_neq. lia.
  - apply N.bits_inj. intros i. destruct (N.lt_ge_cases i 8) as [Hi|Hi].
    + rewrite N.shiftl_spec_low by exact Hi. rewrite N.land_spec, N.shiftl_spec_low by exact Hi. rewrite Bool.andb_false_r. reflexivity.
    + rewrite N.shiftl_spec_high' by exact Hi. rewrite !N.land_spec, N.shiftr_spec'. rewrite N.shiftl_spec_high' by exact Hi.
      replace (i - 8 + 8) with i by lia. reflexivity.
Qed.
Lemma land_bit2 : forall x, negb (N.land x 4 =? 0) = N.testbit x 2.
Proof.
  intros x. change 4 with (2 ^ 2). destruct (N.testbit x 2) eqn:E.
  - destruct (N.land x (2 ^ 2) =? 0) eqn:F; [|reflexivity]. apply N.eqb_eq in F.
    assert (G : N.testbit (N.land x (2 ^ 2)) 2 = false) by (rewrite F; apply N.bits_0).
    rewrite N.land_spec, E, N.pow2_bits_true in G. discriminate.
  - assert (F : N.land x (2 ^ 2) = 0).
    { apply N.bits_inj. intros i. rewrite N.land_spec, N.bits_0. destruct (N.eq_dec i 2) as [->|Hn]; [rewrite E; reflexivity|].
      rewrite N.pow2_bits_false by congruence. apply Bool.andb_false_r. }
    rewrite F. reflexivity.
Qed.

Lemma exists_in_below : forall m leaf s, exists_in m leaf s -> leaf < 0x80000000 -> leaf <= highest_base m.
Proof. intros m leaf s H Hl. destruct H; try assumption; lia. Qed.

Ltac not_listed := cbn; intros ?Hin; repeat (destruct Hin as [Hin|Hin]; [subst; lia|]); try contradiction.

(** Which constructor of [exists_in] applies to a base leaf. *)
Lemma exists_single : forall m leaf s, leaf < 0x80000000 -> leaf <= highest_base m -> ~ In leaf subleaf_leaves ->
  (exists_in m leaf s <-> s = 0).
Proof.
  intros m leaf s Hl Hb Hn. split.
  - intros H. destruct H; try reflexivity; exfalso; apply Hn; cbn; tauto || (cbn in H; tauto).
  - intros ->. apply a_single; assumption.
Qed.
Lemma exists_cache : forall m s, 4 <= highest_base m ->
  (exists_in m 4 s <-> s < two32 /\ forall i, i <= s -> eax (cpuidex m 4 i) mod 32 <> 0).
Proof.
  intros m s Hb. split.
  - intros H. remember 4 as leaf eqn:E. destruct H; try discriminate; try (split; assumption).
    + exfalso. subst leaf. cbn in H. lia.
    + exfalso. apply H0. subst leaf. cbn. tauto.
    + lia.
  - intros [H1 H2]. apply a_cache; assumption.
Qed.
Lemma exists_level : forall m s, 0xB <= highest_base m ->
  (exists_in m 0xB s <-> s < two32 /\ forall i, i <= s -> (ecx (cpuidex m 0xB i) / 256) mod 256 <> 0).
Proof.
  intros m s Hb. split.
  - intros H. remember 0xB as leaf eqn:E. destruct H; try discriminate; try (split; assumption).
    + exfalso. subst leaf. cbn in H. lia.
    + exfalso. apply H0. subst leaf. cbn. tauto.
    + lia.
  - intros [H1 H2]. apply a_level; assumption.
Qed.
Lemma exists_enclave : forall m s, 0x12 <= highest_base m ->
  (exists_in m 0x12 s <-> s < two32 /\ N.testbit (ebx (cpuidex m 7 0)) 2 = true /\
     forall i, 2 <= i <= s -> eax (cpuidex m 0x12 i) mod 16 <> 0).
Proof.
  intros m s Hb. split.
  - intros H. remember 0x12 as leaf eqn:E. destruct H; try discriminate; try (repeat split; assumption).
    + exfalso. subst leaf. cbn in H. lia.
    + exfalso. apply H0. subst leaf. cbn. tauto.
    + lia.
  - intros (H1 & H2 & H3). apply an_enclave; assumption.
Qed.
Lemma exists_indexed : forall m leaf s, In leaf indexed_leaves -> leaf <= highest_base m ->
  (exists_in m leaf s <-> s <= eax (cpuidex m leaf 0)).
Proof.
  intros m leaf s Hin Hb. split.
  - intros H. destruct H; try assumption; try (exfalso; clear -Hin; cbn in Hin; lia).
    + exfalso. apply H0. apply in_or_app. right. exact Hin.
    + exfalso. clear -Hin H. cbn in Hin. lia.
  - intros H. apply an_indexed; assumption.
Qed.

Lemma sub_lines_leaf_ok : forall m leaf k, In leaf subleaf_leaves ->
  (forall s, exists_in m leaf s <-> s < N.of_nat k) -> leaf_ok m leaf (sub_lines m leaf k).
Proof.
  intros m leaf k Hin Hs. split; [|split; [apply sub_lines_sorted|apply sub_lines_well_formed; exact Hin]].
  intros l s r. rewrite sub_lines_in, Hs. split; intros (? & ? & ?); subst; auto.
Qed.

Definition sgx_bit (m : cpu) : bool := N.testbit (ebx (cpuidex m 7 0)) 2.

Lemma base_leaf_ok : forall m f sgx leaf ls sgx', sane m -> leaf <= highest_base m ->
  (7 < leaf -> sgx = sgx_bit m) -> base_leaf m f sgx leaf = Some (ls, sgx') ->
  leaf_ok m leaf ls /\ (7 < leaf + 1 -> sgx' = sgx_bit m).
Proof.
  intros m f sgx leaf ls sgx' [Hw Hbase] Hb Hsgx H.
  assert (Hl : leaf < 0x80000000) by lia. unfold base_leaf in H.
  destruct (leaf =? 0) eqn:E0.
  { injection H as <- <-. apply N.eqb_eq in E0. subst leaf. split; [|intros; lia]. split; [|split].
    - intros l s r. rewrite exists_single; [|lia|lia|not_listed]. cbn. split.
      + intros [Hi|[]]. injection Hi as <- <- <-. auto.
      + intros (-> & -> & ->). left. reflexivity.
    - cbn. repeat constructor.
    - constructor; [|constructor]. cbn. tauto. }
  destruct (leaf =? 4) eqn:E4.
  { apply N.eqb_eq in E4. subst leaf. destruct (open_loop _ _ 4 f 0) as [l|] eqn:E; [|discriminate]. injection H as <- <-.
    apply open_loop_from_0 in E. destruct E as (k & Hk & H1 & H2 & ->). split; [|intros; lia].
    apply sub_lines_leaf_ok; [cbn; tauto|]. intros s. rewrite exists_cache by exact Hb. cbn beta in *. rewrite land_type in H1. apply N.eqb_eq in H1. split.
    - intros [_ Hs]. destruct (N.lt_ge_cases s (N.of_nat k)) as [?|Hge]; [assumption|]. destruct (Hs (N.of_nat k) Hge H1).
    - intros Hs. split; [lia|]. intros i Hi. specialize (H2 (N.to_nat i)). rewrite N2Nat.id, land_type in H2. apply N.eqb_neq. apply H2. lia. }
  destruct (leaf =? 7) eqn:E7.
  { apply N.eqb_eq in E7. subst leaf. destruct (index_loop m 7 f 0 0) as [l|] eqn:E; [|discriminate]. injection H as <- <-.
    destruct (index_loop_0 m 7 f) as [H1 _]; [apply Hw|]. destruct (H1 _ E) as [Hm ->]. split.
    - apply sub_lines_leaf_ok; [cbn; tauto|]. intros s. rewrite exists_indexed; [lia|cbn; tauto|exact Hb].
    - intros _. unfold sgx_bit. apply land_bit2. }
  destruct (leaf =? 0xB) eqn:EB.
  { apply N.eqb_eq in EB. subst leaf. destruct (open_loop _ _ 0xB f 0) as [l|] eqn:E; [|discriminate]. injection H as <- <-.
    apply open_loop_from_0 in E. destruct E as (k & Hk & H1 & H2 & ->). split; [|intros; apply Hsgx; lia].
    apply sub_lines_leaf_ok; [cbn; tauto|]. intros s. rewrite exists_level by exact Hb. cbn beta in *. rewrite land_level in H1. apply N.eqb_eq in H1. split.
    - intros [_ Hs]. destruct (N.lt_ge_cases s (N.of_nat k)) as [?|Hge]; [assumption|]. destruct (Hs (N.of_nat k) Hge H1).
    - intros Hs. split; [lia|]. intros i Hi. specialize (H2 (N.to_nat i)). rewrite N2Nat.id, land_level in H2. apply N.eqb_neq. apply H2. lia. }
  destruct (leaf =? 0x12) eqn:E12.
  { apply N.eqb_eq in E12. subst leaf. assert (Hx : sgx = sgx_bit m) by (apply Hsgx; lia).
    destruct sgx.
    - destruct (open_loop _ _ 0x12 f 0) as [l|] eqn:E; [|discriminate]. injection H as <- <-. split; [|intros; exact Hx].
      apply open_loop_from_0 in E. destruct E as (k & Hk & H1 & H2 & ->).
      apply sub_lines_leaf_ok; [cbn; tauto|]. intros s. rewrite exists_enclave by exact Hb. cbn beta in *. rewrite land_section in H1.
      apply andb_prop in H1. destruct H1 as [H1a H1b]. apply N.eqb_eq in H1b. apply N.leb_le in H1a. split.
      + intros (_ & _ & Hs). destruct (N.lt_ge_cases s (N.of_nat k)) as [?|Hge]; [assumption|]. destruct (Hs (N.of_nat k)); [lia|exact H1b].
      + intros Hs. split; [lia|]. split; [symmetry; exact Hx|]. intros i Hi. specialize (H2 (N.to_nat i)). rewrite N2Nat.id, land_section in H2.
        assert (Hlt : (N.to_nat i < k)%nat) by lia. specialize (H2 Hlt). apply Bool.andb_false_iff in H2. destruct H2 as [H2|H2]; [lia|]. apply N.eqb_neq. exact H2.
    - injection H as <- <-. split; [|intros; exact Hx]. split; [|split; constructor].
      intros l s r. rewrite exists_enclave by exact Hb. cbn. split; [tauto|]. intros (_ & (_ & Hc & _) & _). unfold sgx_bit in Hx. rewrite Hc in Hx. discriminate. }
  destruct ((leaf =? 0x14) || (leaf =? 0x17) || (leaf =? 0x24)) eqn:EI.
  { destruct (index_loop m leaf f 0 0) as [l|] eqn:E; [|discriminate]. injection H as <- <-.
    assert (Hin : In leaf indexed_leaves) by (cbn; lia).
    destruct (index_loop_0 m leaf f) as [H1 _]; [apply Hw|]. destruct (H1 _ E) as [Hm ->]. split; [|intros; apply Hsgx; lia].
    apply sub_lines_leaf_ok; [apply in_or_app; right; exact Hin|]. intros s. rewrite exists_indexed; [lia|exact Hin|exact Hb]. }
  injection H as <- <-. split; [|intros; apply Hsgx; lia].
  assert (Hn : ~ In leaf subleaf_leaves) by (cbn; lia).
  split; [|split].
  - intros l s r. rewrite exists_single by assumption. cbn. split.
    + intros [Hi|[]]. injection Hi as <- <- <-. auto.
    + intros (-> & -> & ->). left. reflexivity.
  - cbn. repeat constructor.
  - constructor; [|constructor]. cbn [well_formed]. split; [exact Hn|]. cbn. lia.
Qed.

(** ** All base leaves *)
Definition leaves_ok (m : cpu) (from upto : N) (ls : list line) : Prop :=
  (forall l s r, In (l, s, r) (map reading_of ls) <-> from <= l < upto /\ exists_in m l s /\ r = cpuidex m l s) /\
  StronglySorted earlier (map reading_of ls) /\ Forall well_formed ls.

Lemma sorted_app : forall A (R : A -> A -> Prop) a b, StronglySorted R a -> StronglySorted R b ->
  (forall x y, In x a -> In y b -> R x y) -> StronglySorted R (a ++ b).
Proof.
  induction a as [|x a IH]; intros b Ha Hb H; [exact Hb|]. inversion Ha; subst. cbn. constructor.
  - apply IH; [assumption|assumption|]. intros; apply H; [right|]; assumption.
  - apply Forall_app. split; [assumption|]. apply Forall_forall. intros y Hy. apply H; [left; reflexivity|exact Hy].
Qed.

Lemma leaves_ok_app : forall m a b c l1 l2, a <= b -> b <= c -> leaves_ok m a b l1 -> leaves_ok m b c l2 -> leaves_ok m a c (l1 ++ l2).
Proof.
  intros m a b c l1 l2 Hab Hbc (H1 & S1 & W1) (H2 & S2 & W2). split; [|split].
  - intros l s r. rewrite map_app, in_app_iff, H1, H2. split.
    + intros [(? & ? & ?)|(? & ? & ?)]; (split; [lia|split; assumption]).
    + intros (? & ? & ?). destruct (N.lt_ge_cases l b); [left|right]; (split; [lia|split; assumption]).
  - rewrite map_app. apply sorted_app; [assumption|assumption|].
    intros [[l s] r] [[l' s'] r'] Hx Hy. apply H1 in Hx. apply H2 in Hy. left. cbn. lia.
  - apply Forall_app. split; assumption.
Qed.

Lemma leaf_leaves : forall m leaf ls, leaf_ok m leaf ls -> leaves_ok m leaf (leaf + 1) ls.
Proof.
  intros m leaf ls (H1 & H2 & H3). split; [|split; assumption]. intros l s r. rewrite H1. split.
  - intros (-> & He & ->). split; [lia|]. auto.
  - intros (Hl & He & ->). assert (l = leaf) by lia. subst l. auto.
Qed.
Lemma no_leaves : forall m a, leaves_ok m a a [].
Proof. intros m a. split; [|split; constructor]. intros. cbn. split; [tauto|]. intros [? _]. lia. Qed.

Lemma base_loop_ok : forall m inner f sgx leaf ls, sane m -> leaf <= highest_base m + 1 ->
  (7 < leaf -> sgx = sgx_bit m) -> base_loop m inner f (highest_base m) sgx leaf = Some ls ->
  leaves_ok m leaf (highest_base m + 1) ls.
Proof.
  intros m inner. induction f as [|f IH]; intros sgx leaf ls Hs Hb Hsgx H; [discriminate|]. cbn [base_loop] in H.
  destruct (leaf <=? highest_base m) eqn:E.
  - destruct (base_leaf m inner sgx leaf) as [[l sgx']|] eqn:E1; [|discriminate].
    destruct (base_loop _ _ _ _ sgx' _) as [l'|] eqn:E2; [|discriminate]. injection H as <-.
    apply base_leaf_ok in E1; [|exact Hs|lia|exact Hsgx]. destruct E1 as [E1 Hx].
    assert (Hu : u32 (leaf + 1) = leaf + 1) by (destruct Hs; rewrite u32_def; apply N.mod_small; lia).
    rewrite Hu in E2. apply IH in E2; [|exact Hs|lia|exact Hx].
    apply leaves_ok_app with (b := leaf + 1); [lia|lia|apply leaf_leaves; exact E1|exact E2].
  - injection H as <-. assert (leaf = highest_base m + 1) by lia. subst leaf. apply no_leaves.
Qed.

(** ** The extended leaves *)
Lemma exists_extended : forall m leaf s, sane m -> 0x80000000 <= leaf ->
  (exists_in m leaf s <-> leaf <= highest_extended m /\ s = 0).
Proof.
  intros m leaf s [_ Hb] Hl. split.
  - intros H. destruct H; try lia.
  - intros [H ->]. apply an_extended. lia.
Qed.
Lemma extended_leaf_ok : forall m leaf, sane m -> 0x80000000 <= leaf <= highest_extended m -> leaf_ok m leaf [extended_leaf m leaf].
Proof.
  intros m leaf Hs Hl.
  assert (Hr : reading_of (extended_leaf m leaf) = (leaf, 0, cpuidex m leaf 0)).
  { unfold extended_leaf. destruct (leaf =? 0x80000000); [reflexivity|].
    destruct ((leaf =? 0x80000002) || (leaf =? 0x80000003) || (leaf =? 0x80000004)); reflexivity. }
  split; [|split].
  - intros l s r. rewrite exists_extended by (assumption || lia). cbn. rewrite Hr. split.
    + intros [Hi|[]]. injection Hi as <- <- <-. repeat split; lia || reflexivity.
    + intros (-> & (_ & ->) & ->). left. reflexivity.
  - cbn. repeat constructor.
  - constructor; [|constructor]. unfold extended_leaf. destruct (leaf =? 0x80000000) eqn:E1.
    + apply N.eqb_eq in E1. subst leaf. cbn. tauto.
    + destruct ((leaf =? 0x80000002) || (leaf =? 0x80000003) || (leaf =? 0x80000004)) eqn:E2.
      * cbn. lia.
      * cbn. lia.
Qed.

Lemma extended_loop_never : forall m f leaf, leaf < two32 -> extended_loop m f u32max leaf = None.
Proof.
  induction f as [|f IH]; intros leaf H; [reflexivity|]. cbn [extended_loop]. rewrite two32_val in H.
  assert (E : (leaf <=? u32max) = true) by (rewrite u32max_val; lia). rewrite E, IH; [reflexivity|]. apply u32_lt.
Qed.

Lemma extended_loop_ok : forall m f leaf ls, sane m -> highest_extended m < u32max -> 0x80000000 <= leaf <= highest_extended m + 1 ->
  extended_loop m f (highest_extended m) leaf = Some ls -> leaves_ok m leaf (highest_extended m + 1) ls.
Proof.
  intros m. induction f as [|f IH]; intros leaf ls Hs Hmax Hl H; [discriminate|]. cbn [extended_loop] in H.
  destruct (leaf <=? highest_extended m) eqn:E.
  - destruct (extended_loop m f (highest_extended m) (u32 (leaf + 1))) as [l|] eqn:E2; [|discriminate]. injection H as <-.
    assert (Hu : u32 (leaf + 1) = leaf + 1) by (rewrite u32max_val in *; rewrite u32_def; apply N.mod_small; lia).
    rewrite Hu in E2. apply IH in E2; [|exact Hs|exact Hmax|lia].
    change (extended_leaf m leaf :: l) with ([extended_leaf m leaf] ++ l).
    apply leaves_ok_app with (b := leaf + 1); [lia|lia|apply leaf_leaves, extended_leaf_ok; [exact Hs|lia]|exact E2].
  - injection H as <-. assert (leaf = highest_extended m + 1) by lia. subst leaf. apply no_leaves.
Qed.

Lemma leaves_weaken : forall m a b b' ls, leaves_ok m a b ls -> (forall l s, exists_in m l s -> a <= l < b' -> l < b) -> b <= b' -> leaves_ok m a b' ls.
Proof.
  intros m a b b' ls (H1 & H2 & H3) H Hb. split; [|split; assumption]. intros l s r. rewrite H1. split.
  - intros (? & ? & ?). repeat split; try assumption; lia.
  - intros (? & He & ?). repeat split; try assumption; try lia. apply (H l s He). assumption.
Qed.

Theorem dump_ok : forall m f ls, sane m -> dump m f = Some ls ->
  transcript m (map reading_of ls) /\ Forall well_formed ls.
Proof.
  intros m f ls Hs H. unfold dump in H. fold (highest_base m) (highest_extended m) in H.
  change (cpuid m 0) with (cpuidex m 0 0) in H. change (cpuid m 0x80000000) with (cpuidex m 0x80000000 0) in H.
  fold (highest_base m) (highest_extended m) in H.
  destruct (base_loop m f f (highest_base m) false 0) as [l1|] eqn:E1; [|discriminate].
  destruct (extended_loop m f (highest_extended m) 0x80000000) as [l2|] eqn:E2; [|discriminate]. injection H as <-.
  assert (Hw : highest_extended m < two32) by (apply Hs).
  apply base_loop_ok in E1; [|exact Hs|lia|intros; lia].
  assert (B : leaves_ok m 0 0x80000000 l1).
  { apply leaves_weaken with (1 := E1); [|destruct Hs; lia]. intros l s He Hl. pose proof (exists_in_below _ _ _ He). lia. }
  assert (X : leaves_ok m 0x80000000 (N.max 0x80000000 (highest_extended m + 1)) l2).
  { destruct (N.eq_dec (highest_extended m) u32max) as [Em|Em].
    - rewrite Em, extended_loop_never in E2 by reflexivity. discriminate.
    - destruct (N.lt_ge_cases (highest_extended m) 0x80000000) as [Hlt|Hge].
      + destruct f as [|f]; [discriminate|]. cbn [extended_loop] in E2.
        assert (El : (0x80000000 <=? highest_extended m) = false) by lia. rewrite El in E2. injection E2 as <-.
        replace (N.max 0x80000000 (highest_extended m + 1)) with 0x80000000 by lia. apply no_leaves.
      + replace (N.max 0x80000000 (highest_extended m + 1)) with (highest_extended m + 1) by lia.
        apply extended_loop_ok with (4 := E2); [exact Hs| |lia]. rewrite u32max_val, two32_val in *. lia. }
  assert (T := leaves_ok_app m 0 0x80000000 (N.max 0x80000000 (highest_extended m + 1)) l1 l2 ltac:(lia) ltac:(lia) B X).
  destruct T as (T1 & T2 & T3). split; [|exact T3]. split; [|exact T2].
  intros l s r. rewrite T1. split; [tauto|]. intros [He ->]. split; [|auto]. split; [lia|].
  destruct (N.lt_ge_cases l 0x80000000) as [?|Hge]; [lia|]. apply exists_extended in He; [|exact Hs|exact Hge]. lia.
Qed.

(** ** When it ends *)
Lemma base_leaf_mono : forall m f f' sgx leaf x, (f <= f')%nat -> base_leaf m f sgx leaf = Some x -> base_leaf m f' sgx leaf = Some x.
Proof.
  intros m f f' sgx leaf x Hf H. unfold base_leaf in *.
  repeat match type of H with context [if ?b then _ else _] => destruct b end; try exact H;
  match type of H with context [open_loop ?m ?s ?l f ?c] => destruct (open_loop m s l f c) as [l'|] eqn:E; [|discriminate];
                        rewrite (open_loop_mono _ _ _ _ f' _ _ Hf E); exact H
                    | context [index_loop ?m ?l f ?c ?d] => destruct (index_loop m l f c d) as [l'|] eqn:E; [|discriminate];
                        rewrite (index_loop_mono _ _ _ f' _ _ _ Hf E); exact H end.
Qed.
Lemma base_loop_mono : forall m f1 f2 max k k' sgx leaf ls, (f1 <= f2)%nat -> (k <= k')%nat ->
  base_loop m f1 k max sgx leaf = Some ls -> base_loop m f2 k' max sgx leaf = Some ls.
Proof.
  intros m f1 f2 max. induction k as [|k IH]; intros k' sgx leaf ls Hf Hk H; [discriminate|].
  destruct k' as [|k']; [lia|]. cbn [base_loop] in *. destruct (leaf <=? max); [|exact H].
  destruct (base_leaf m f1 sgx leaf) as [[l s]|] eqn:E; [|discriminate].
  rewrite (base_leaf_mono _ _ _ _ _ _ Hf E).
  destruct (base_loop m f1 k max s (u32 (leaf + 1))) as [l'|] eqn:E2; [|discriminate].
  rewrite (IH k' _ _ l') by (assumption || lia). exact H.
Qed.
Lemma extended_loop_mono : forall m k k' max leaf ls, (k <= k')%nat ->
  extended_loop m k max leaf = Some ls -> extended_loop m k' max leaf = Some ls.
Proof.
  intros m. induction k as [|k IH]; intros k' max leaf ls Hk H; [discriminate|].
  destruct k' as [|k']; [lia|]. cbn [extended_loop] in *. destruct (leaf <=? max); [|exact H].
  destruct (extended_loop m k max (u32 (leaf + 1))) as [l|] eqn:E; [|discriminate].
  rewrite (IH k' _ _ l) by (assumption || lia). exact H.
Qed.
Lemma dump_mono : forall m f f' ls, (f <= f')%nat -> dump m f = Some ls -> dump m f' = Some ls.
Proof.
  intros m f f' ls Hf H. unfold dump in *.
  destruct (base_loop m f f _ _ _) as [l1|] eqn:E1; [|discriminate].
  destruct (extended_loop m f _ _) as [l2|] eqn:E2; [|discriminate].
  rewrite (base_loop_mono _ _ _ _ _ _ _ _ _ Hf Hf E1), (extended_loop_mono _ _ _ _ _ _ Hf E2). exact H.
Qed.
Lemma dump_text_same : forall m f f' t t', dump_text m f = Some t -> dump_text m f' = Some t' -> t = t'.
Proof.
  intros m f f' t t' H H'. unfold dump_text in *.
  destruct (dump m f) as [l|] eqn:E; [|discriminate]. destruct (dump m f') as [l'|] eqn:E'; [|discriminate].
  assert (l = l').
  { destruct (le_lt_dec f f') as [Hf|Hf].
    - rewrite (dump_mono _ _ f' _ Hf E) in E'. congruence.
    - rewrite (dump_mono _ _ f _ (Nat.lt_le_incl _ _ Hf) E') in E. congruence. }
  congruence.
Qed.

Lemma base_leaf_ends : forall m enough sgx leaf, 4294967297 < N.of_nat enough -> sane m -> finite m -> leaf <= highest_base m -> (7 < leaf -> sgx = sgx_bit m) ->
  exists x, base_leaf m enough sgx leaf = Some x.
Proof.
  intros m enough sgx leaf He [Hw Hb] (_ & F4 & FB & F12 & FI) Hl Hsgx. unfold base_leaf.
  assert (OL : forall stop s, s < two32 -> stop s (cpuidex m leaf s) = true -> exists ls, open_loop m stop leaf enough 0 = Some ls).
  { intros stop s Hs Hst. apply open_loop_ends with (k := N.to_nat s); rewrite ?N2Nat.id, ?N.add_0_l; [exact Hs|exact Hst|].
    rewrite two32_val in Hs. lia. }
  assert (IL : In leaf indexed_leaves -> exists ls, index_loop m leaf enough 0 0 = Some ls).
  { intros Hin. destruct (index_loop_0 m leaf enough) as [_ H]; [apply Hw|]. apply H; [apply FI; assumption|].
    assert (Hx := Hw leaf 0). destruct Hx as [Hx _]. rewrite two32_val in Hx. lia. }
  destruct (leaf =? 0); [eauto|].
  destruct (leaf =? 4) eqn:E4.
  { apply N.eqb_eq in E4. subst leaf. destruct (F4 Hl) as (s & Hs & Hst).
    destruct (OL (fun _ r => N.land (eax r) 0x1F =? 0) s Hs) as [ls ->]; [rewrite land_type; apply N.eqb_eq; exact Hst|eauto]. }
  destruct (leaf =? 7) eqn:E7.
  { apply N.eqb_eq in E7. subst leaf. destruct IL as [ls ->]; [cbn; tauto|eauto]. }
  destruct (leaf =? 0xB) eqn:EB.
  { apply N.eqb_eq in EB. subst leaf. destruct (FB Hl) as (s & Hs & Hst).
    destruct (OL (fun _ r => N.land (ecx r) 0xFF00 =? 0) s Hs) as [ls ->]; [rewrite land_level; apply N.eqb_eq; exact Hst|eauto]. }
  destruct (leaf =? 0x12) eqn:E12.
  { apply N.eqb_eq in E12. subst leaf. destruct sgx; [|eauto]. destruct (F12 Hl) as (s & Hs & Hst); [symmetry; apply Hsgx; lia|].
    destruct (OL (fun s r => (2 <=? s) && (N.land (eax r) 0xF =? 0)) s) as [ls ->]; [lia| |eauto].
    cbn beta. rewrite land_section. apply andb_true_intro. split; [lia|]. apply N.eqb_eq. exact Hst. }
  destruct ((leaf =? 0x14) || (leaf =? 0x17) || (leaf =? 0x24)) eqn:EI; [|eauto].
  destruct IL as [ls ->]; [cbn; lia|eauto].
Qed.

Lemma base_loop_ends : forall m enough k leaf sgx f, 4294967297 < N.of_nat enough -> sane m -> finite m -> leaf + N.of_nat k = highest_base m + 1 -> (7 < leaf -> sgx = sgx_bit m) ->
  (k < f)%nat -> exists ls, base_loop m enough f (highest_base m) sgx leaf = Some ls.
Proof.
  intros m enough. induction k as [|k IH]; intros leaf sgx f He Hs Hf Hk Hsgx Hlt; (destruct f as [|f]; [lia|]); cbn [base_loop].
  - assert (E : (leaf <=? highest_base m) = false) by lia. rewrite E. eauto.
  - assert (E : (leaf <=? highest_base m) = true) by lia. rewrite E.
    destruct (base_leaf_ends m enough sgx leaf He Hs Hf) as [[l sgx'] E1]; [lia|exact Hsgx|]. rewrite E1.
    apply base_leaf_ok in E1; [|exact Hs|lia|exact Hsgx]. destruct E1 as [_ Hx].
    assert (Hu : u32 (leaf + 1) = leaf + 1) by (destruct Hs; rewrite u32_def; apply N.mod_small; lia). rewrite Hu.
    destruct (IH (leaf + 1) sgx' f) as [l' E2]; [exact He|exact Hs|exact Hf|lia|exact Hx|lia|]. rewrite E2. eauto.
Qed.

Lemma extended_loop_ends : forall m max k leaf f, max < u32max -> leaf + N.of_nat k = max + 1 -> (k < f)%nat ->
  exists ls, extended_loop m f max leaf = Some ls.
Proof.
  intros m max. induction k as [|k IH]; intros leaf f Hm Hk Hlt; (destruct f as [|f]; [lia|]); cbn [extended_loop].
  - assert (E : (leaf <=? max) = false) by lia. rewrite E. eauto.
  - assert (E : (leaf <=? max) = true) by lia. rewrite E.
    assert (Hu : u32 (leaf + 1) = leaf + 1) by (rewrite u32max_val in *; rewrite u32_def; apply N.mod_small; lia). rewrite Hu.
    destruct (IH (leaf + 1) f) as [l E2]; [exact Hm|lia|lia|]. rewrite E2. eauto.
Qed.

Lemma base_loop_leaf : forall m inner f max sgx leaf ls l0, base_loop m inner f max sgx leaf = Some ls -> max < 0x80000000 ->
  leaf <= l0 <= max -> exists sgx' x, base_leaf m inner sgx' l0 = Some x /\
    (leaf = l0 -> sgx' = sgx).
Proof.
  intros m inner. induction f as [|f IH]; intros max sgx leaf ls l0 H Hmax Hl; [discriminate|]. cbn [base_loop] in H.
  assert (E : (leaf <=? max) = true) by lia. rewrite E in H.
  destruct (base_leaf m inner sgx leaf) as [[l sgx']|] eqn:E1; [|discriminate].
  destruct (N.eq_dec leaf l0) as [->|Hn]; [eauto|].
  assert (Hu : u32 (leaf + 1) = leaf + 1) by (rewrite u32_def; apply N.mod_small; lia). rewrite Hu in H.
  destruct (base_loop m inner f max sgx' (leaf + 1)) as [l'|] eqn:E2; [|discriminate].
  destruct (IH max sgx' (leaf + 1) l' l0 E2) as (s & x & Hx & _); [exact Hmax|lia|]. exists s, x. split; [exact Hx|]. intros; contradiction.
Qed.

(** The has_sgx of the round of leaf 0x12. *)
Lemma base_loop_sgx : forall m inner f sgx leaf ls l0, sane m -> base_loop m inner f (highest_base m) sgx leaf = Some ls ->
  (7 < leaf -> sgx = sgx_bit m) -> 7 < l0 -> leaf <= l0 <= highest_base m -> exists x, base_leaf m inner (sgx_bit m) l0 = Some x.
Proof.
  intros m inner. induction f as [|f IH]; intros sgx leaf ls l0 Hs H Hsgx H7 Hl; [discriminate|]. cbn [base_loop] in H.
  assert (E : (leaf <=? highest_base m) = true) by lia. rewrite E in H.
  destruct (base_leaf m inner sgx leaf) as [[l sgx']|] eqn:E1; [|discriminate].
  destruct (N.eq_dec leaf l0) as [->|Hn]; [rewrite <- (Hsgx H7); eauto|].
  apply base_leaf_ok in E1; [|exact Hs|lia|exact Hsgx]. destruct E1 as [_ Hx].
  assert (Hu : u32 (leaf + 1) = leaf + 1) by (destruct Hs; rewrite u32_def; apply N.mod_small; lia). rewrite Hu in H.
  destruct (base_loop m inner f _ sgx' (leaf + 1)) as [l'|] eqn:E2; [|discriminate].
  apply (IH sgx' (leaf + 1) l' l0 Hs E2 Hx H7). lia.
Qed.

Theorem dump_ends : forall m, sane m -> ((exists f t, dump_text m f = Some t) <-> finite m).
Proof.
  intros m Hs. split.
  - intros (f & t & H). unfold dump_text in H. destruct (dump m f) as [ls|] eqn:E; [|discriminate]. clear H t.
    unfold dump in E. change (eax (cpuid m 0)) with (highest_base m) in E. change (eax (cpuid m 0x80000000)) with (highest_extended m) in E.
    destruct (base_loop m f f (highest_base m) false 0) as [l1|] eqn:E1; [|discriminate].
    destruct (extended_loop m f (highest_extended m) 0x80000000) as [l2|] eqn:E2; [|discriminate]. clear E.
    assert (Hb : highest_base m < 0x80000000) by apply Hs.
    repeat split.
    + intros Em. rewrite Em, extended_loop_never in E2 by reflexivity. discriminate.
    + intros H4. destruct (base_loop_leaf _ _ _ _ _ _ _ 4 E1 Hb) as (sg & x & Hx & _); [lia|]. unfold base_leaf in Hx. cbn -[open_loop] in Hx.
      destruct (open_loop m _ 4 f 0) as [l|] eqn:EO; [|discriminate]. apply open_loop_from_0 in EO. destruct EO as (k & Hk & Hst & _).
      exists (N.of_nat k). split; [exact Hk|]. cbn beta in Hst. rewrite land_type in Hst. apply N.eqb_eq. exact Hst.
    + intros HB. destruct (base_loop_leaf _ _ _ _ _ _ _ 0xB E1 Hb) as (sg & x & Hx & _); [lia|]. unfold base_leaf in Hx. cbn -[open_loop] in Hx.
      destruct (open_loop m _ 0xB f 0) as [l|] eqn:EO; [|discriminate]. apply open_loop_from_0 in EO. destruct EO as (k & Hk & Hst & _).
      exists (N.of_nat k). split; [exact Hk|]. cbn beta in Hst. rewrite land_level in Hst. apply N.eqb_eq. exact Hst.
    + intros H12 Hsg. destruct (base_loop_sgx _ _ _ _ _ _ 0x12 Hs E1) as (x & Hx); [lia|lia|lia|].
      unfold sgx_bit in Hx. rewrite Hsg in Hx. unfold base_leaf in Hx. cbn -[open_loop] in Hx.
      destruct (open_loop m _ 0x12 f 0) as [l|] eqn:EO; [|discriminate]. apply open_loop_from_0 in EO. destruct EO as (k & Hk & Hst & _).
      exists (N.of_nat k). cbn beta in Hst. apply andb_prop in Hst. destruct Hst as [Ha Hst]. split; [lia|]. rewrite land_section in Hst. apply N.eqb_eq. exact Hst.
    + intros leaf Hin Hl. destruct (base_loop_leaf _ _ _ _ _ _ _ leaf E1 Hb) as (sg & x & Hx & _); [lia|].
      destruct (index_loop m leaf f 0 0) as [l|] eqn:EI.
      * destruct (index_loop_0 m leaf f) as [H1 _]; [apply Hs|]. apply (H1 _ EI).
      * exfalso. cbn in Hin. destruct Hin as [<-|[<-|[<-|[<-|[]]]]]; unfold base_leaf in Hx; cbn -[index_loop] in Hx; rewrite EI in Hx; discriminate.
  - intros Hf. assert (He : exists enough : nat, 4294967297 < N.of_nat enough).
    { exists (N.to_nat (two32 + 2)). rewrite N2Nat.id. reflexivity. }
    destruct He as [enough He]. exists enough. unfold dump_text, dump.
    change (eax (cpuid m 0)) with (highest_base m). change (eax (cpuid m 0x80000000)) with (highest_extended m).
    destruct (base_loop_ends m enough (N.to_nat (highest_base m + 1)) 0 false enough He Hs Hf) as [l1 ->]; [lia|intros; lia|destruct Hs; lia|].
    assert (Hw : highest_extended m < two32) by apply Hs. destruct Hf as (Hmax & _). rewrite two32_val in Hw. rewrite u32max_val in Hmax.
    destruct (N.lt_ge_cases (highest_extended m) 0x80000000) as [Hlt|Hge].
    + destruct enough as [|e] eqn:Ee; [cbn in He; lia|]. cbn [extended_loop]. assert (El : (0x80000000 <=? highest_extended m) = false) by lia. rewrite El. eauto.
    + destruct (extended_loop_ends m (highest_extended m) (N.to_nat (highest_extended m + 1 - 0x80000000)) 0x80000000 enough) as [l2 ->]; [rewrite u32max_val; lia|lia|lia|eauto].
Qed.
