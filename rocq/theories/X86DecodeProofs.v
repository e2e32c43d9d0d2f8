(** Proofs about the CPUID decoding. *)
From Verif Require Import Base BaseProofs Text TopologySpec X86LinuxModel X86LinuxSpec Masks
  X86DescriptorModel X86DecodeModel X86DecodeSpec.
Open Scope N_scope.
Ltac Zify.zify_post_hook ::= Z.div_mod_to_equations.

(** ** Bit fields *)

Lemma land_field lo width x : N.land (N.shiftr x lo) (N.ones width) = field lo width x.
Proof. unfold field. now rewrite N.land_ones, N.shiftr_div_pow2. Qed.

Lemma land_field0 width x : N.land x (N.ones width) = field 0 width x.
Proof. rewrite <- land_field. now rewrite N.shiftr_0_r. Qed.

Lemma field_lt lo width x : field lo width x < 2 ^ width.
Proof. unfold field. apply N.mod_lt. apply N.pow_nonzero. discriminate. Qed.

Lemma field_top lo width x : x < 2 ^ (lo + width) -> N.shiftr x lo = field lo width x.
Proof.
  intros H. unfold field. rewrite N.shiftr_div_pow2. symmetry. apply N.mod_small.
  apply N.div_lt_upper_bound; [apply N.pow_nonzero; discriminate|]. rewrite <- N.pow_add_r. exact H.
Qed.

Lemma land_bit x k : negb (N.land x (2 ^ k) =? 0) = N.testbit x k.
Proof.
  destruct (N.testbit x k) eqn:E.
  - apply negb_true_iff, N.eqb_neq. intros H. assert (N.testbit (N.land x (2 ^ k)) k = false) by now rewrite H, N.bits_0.
    rewrite N.land_spec, E, N.pow2_bits_true in H0. discriminate.
  - apply negb_false_iff, N.eqb_eq. apply N.bits_inj. intros i. rewrite N.land_spec, N.bits_0.
    destruct (N.eq_dec i k) as [->|D]; [now rewrite E|]. rewrite N.pow2_bits_false by congruence. apply andb_false_r.
Qed.

Lemma bit_length_spec n : 0 < n < two32 -> log2_up n (bit_length n).
Proof.
  intros H. unfold bit_length, log2_up. unfold sub32, u32.
  replace ((n + (two32 - 1)) mod two32) with (n - 1).
  2:{ replace (n + (two32 - 1)) with (n - 1 + 1 * two32) by lia. rewrite N.mod_add by discriminate. rewrite N.mod_small; lia. }
  destruct (N.eqb_spec (n - 1) 0) as [E|E].
  - split; [cbn; lia|intros; lia].
  - assert (L := N.log2_spec (n - 1) ltac:(lia)).
    assert (N.log2 (n - 1) <= 31).
    { apply N.lt_succ_r. apply N.log2_lt_pow2; [lia|]. change (2 ^ N.succ 31) with two32. lia. }
    replace (32 - (31 - N.log2 (n - 1))) with (N.succ (N.log2 (n - 1))) by lia.
    split; [lia|]. intros k Hk. apply N.le_succ_l. apply N.log2_lt_pow2; lia.
Qed.

Lemma log2_up_unique n a b : log2_up n a -> log2_up n b -> a = b.
Proof. intros (A1 & A2) (B1 & B2). apply N.le_antisymm; auto. Qed.

Lemma log2_up_le n b k : log2_up n b -> n <= 2 ^ k -> b <= k.
Proof. intros (_ & H). exact (H k). Qed.

Lemma bit_length_le n k : 0 < n -> n <= 2 ^ k -> k < 32 -> bit_length n <= k.
Proof.
  intros H1 H2 H3. apply (log2_up_le n); [|exact H2]. apply bit_length_spec.
  split; [exact H1|]. apply N.le_lt_trans with (2 ^ k); [exact H2|]. change two32 with (2 ^ 32). now apply N.pow_lt_mono_r.
Qed.

(** ** Caches *)

Definition flag_word (r : regs) (complex : bool) : N :=
  N.lor (N.lor (if N.testbit (edx r) 1 then cache_inclusive else 0) (if complex && N.testbit (edx r) 2 then cache_complex_indexing else 0))
        (if d_type r =? 3 then cache_unified else 0).

Lemma flag_word_bits r complex i : N.testbit (flag_word r complex) i =
    match i with
    | 0 => d_type r =? 3
    | 1 => N.testbit (edx r) 1
    | 2 => complex && N.testbit (edx r) 2
    | _ => false
    end.
Proof.
  unfold flag_word. rewrite !N.lor_spec.
  destruct (N.testbit (edx r) 1), (complex && N.testbit (edx r) 2), (d_type r =? 3);
    destruct i as [|[p|[p|p|]|]]; reflexivity.
Qed.

Lemma u32_product a b c d : u32 (u32 (u32 (a * b) * c) * u32 d) = (a * b * c * d) mod two32.
Proof.
  unfold u32. rewrite N.mul_mod_idemp_r by discriminate. rewrite N.mul_mod_idemp_l by discriminate.
  rewrite <- N.mul_assoc. rewrite N.mul_mod_idemp_l by discriminate. now rewrite N.mul_assoc.
Qed.

Lemma described_cache_size r flags : regs_ok r -> g_size (xc_geometry (described_cache r flags)) = d_size r mod two32.
Proof.
  intros (Ha & Hb & Hc & Hd). unfold described_cache. cbn [xc_geometry g_size].
  change 0xFFF with (N.ones 12). change 0x3FF with (N.ones 10).
  rewrite !land_field, land_field0. rewrite (field_top 22 10) by exact Hb. rewrite u32_product.
  unfold d_size, d_ways, d_partitions, d_line_size, d_sets.
  rewrite (N.add_comm _ 1), (N.add_comm (field 12 10 _) 1), (N.add_comm (field 0 12 _) 1), (N.add_comm (ecx r) 1). reflexivity.
Qed.

Lemma described_cache_of r complex flags : regs_ok r -> flags = flag_word r complex -> cache_of complex r (described_cache r flags).
Proof.
  intros HR ->. pose proof (described_cache_size r (flag_word r complex) HR) as HZ. destruct HR as (Ha & Hb & Hc & Hd).
  unfold described_cache in HZ |- *. cbn [xc_geometry g_size] in HZ.
  change 0xFFF with (N.ones 12) in *. change 0x3FF with (N.ones 10) in *.
  rewrite !land_field, land_field0 in *. rewrite (field_top 22 10) in * by exact Hb.
  pose proof (field_lt 0 12 (ebx r)) as L1. pose proof (field_lt 12 10 (ebx r)) as L2. pose proof (field_lt 22 10 (ebx r)) as L3.
  pose proof (field_lt 14 12 (eax r)) as L4. cbn in L1, L2, L3, L4.
  constructor; cbn [xc_geometry xc_apic_bits g_associativity g_partitions g_line_size g_sets g_size g_flags].
  - unfold d_ways. lia.
  - unfold d_partitions. lia.
  - unfold d_line_size. lia.
  - unfold d_sets. intros H. rewrite u32_small; lia.
  - intros H. rewrite <- (N.mod_small (d_size r) two32) by exact H. exact HZ.
  - unfold d_sharing. rewrite N.add_comm. apply bit_length_spec. unfold two32. lia.
  - intros i. apply flag_word_bits.
Qed.

Lemma set_cache_same s c cs : cs_cache (set_cache s c cs) s = c.
Proof. now destruct s. Qed.

Definition caches_updated (complex : bool) (levels : N) (r : regs) (cs cs' : cstate) : Prop :=
  (forall s, (describes levels r s -> cache_of complex r (cs_cache cs' s)) /\
             (~ describes levels r s -> cs_cache cs' s = cs_cache cs s)) /\
  cs_tlb cs' = cs_tlb cs /\ cs_trace cs' = cs_trace cs /\ cs_prefetch cs' = cs_prefetch cs.

Lemma describes_dec levels r s : describes levels r s \/ ~ describes levels r s.
Proof.
  destruct s; cbn [describes]; repeat first [apply Decidable.dec_and|apply Decidable.dec_or|apply N.eq_decidable|apply N.le_decidable].
Qed.

Ltac slot_goal Hc Hu :=
  split; [|repeat split]; intros s; destruct s; cbn [describes set_cache cs_cache slot_beq];
  (split; [intros HD; first [exact Hc|exact Hu|exfalso; lia]|intros HD; first [reflexivity|exfalso; apply HD; lia]]).

Lemma leaf4_decodes r cs : regs_ok r ->
  (d_type r = 0 /\ decode_deterministic_cache_parameters r cs = None) \/
  (d_type r <> 0 /\ exists cs', decode_deterministic_cache_parameters r cs = Some (cs', d_package_cores r) /\
     caches_updated true 4 r cs cs').
Proof.
  intros Hr. unfold decode_deterministic_cache_parameters.
  change 0x1F with (N.ones 5). change 0x7 with (N.ones 3). rewrite land_field, land_field0.
  change (field 0 5 (eax r)) with (d_type r). change (field 5 3 (eax r)) with (d_level r).
  destruct (N.eqb_spec (d_type r) 0) as [T|T]; [left; now split|right; split; [exact T|]].
  rewrite (field_top 26 6) by exact (proj1 Hr). rewrite (N.add_comm 1 (field 26 6 (eax r))).
  change (N.land (edx r) 2) with (N.land (edx r) (2 ^ 1)). change (N.land (edx r) 4) with (N.land (edx r) (2 ^ 2)).
  rewrite !land_bit.
  set (flags := N.lor (if N.testbit (edx r) 1 then cache_inclusive else 0) (if N.testbit (edx r) 2 then cache_complex_indexing else 0)).
  assert (Hc : d_type r <> 3 -> cache_of true r (described_cache r flags)).
  { intros H. apply described_cache_of; [exact Hr|]. unfold flag_word. replace (d_type r =? 3) with false by lia.
    rewrite N.lor_0_r. reflexivity. }
  assert (Hu : d_type r = 3 -> cache_of true r (described_cache r (N.lor flags cache_unified))).
  { intros H. apply described_cache_of; [exact Hr|]. unfold flag_word. rewrite H. reflexivity. }
  clearbody flags. eexists. split; [reflexivity|]. unfold caches_updated.
  destruct (N.eqb_spec (d_type r) 3) as [T3|T3];
    [specialize (Hu T3); clear Hc|specialize (Hc T3); clear Hu; destruct (N.eqb_spec (d_type r) 1) as [T1|T1];
      [|destruct (N.eqb_spec (d_type r) 2) as [T2|T2]]];
  (destruct (N.eqb_spec (d_level r) 1) as [V1|V1]; [|destruct (N.eqb_spec (d_level r) 2) as [V2|V2];
    [|destruct (N.eqb_spec (d_level r) 3) as [V3|V3]; [|destruct (N.eqb_spec (d_level r) 4) as [V4|V4]]]]);
  (split; [intros s; destruct s; cbn [describes set_cache cs_cache slot_beq]; (split;
     [intros HD; first [exact Hu|exact Hc|exfalso; lia]|intros HD; first [reflexivity|exfalso; apply HD; lia]])|repeat split]).
Qed.

Lemma leaf1d_decodes r cs : regs_ok r ->
  (d_type r = 0 /\ decode_cache_properties r cs = None) \/
  (d_type r <> 0 /\ exists cs', decode_cache_properties r cs = Some cs' /\ caches_updated false 3 r cs cs').
Proof.
  intros Hr. unfold decode_cache_properties.
  change 0x1F with (N.ones 5). change 0x7 with (N.ones 3). rewrite land_field, land_field0.
  change (field 0 5 (eax r)) with (d_type r). change (field 5 3 (eax r)) with (d_level r).
  destruct (N.eqb_spec (d_type r) 0) as [T|T]; [left; now split|right; split; [exact T|]].
  change (N.land (edx r) 2) with (N.land (edx r) (2 ^ 1)). rewrite !land_bit.
  set (flags := if N.testbit (edx r) 1 then cache_inclusive else 0).
  assert (Hc : d_type r <> 3 -> cache_of false r (described_cache r flags)).
  { intros H. apply described_cache_of; [exact Hr|]. unfold flag_word. replace (d_type r =? 3) with false by lia.
    cbn [andb]. rewrite !N.lor_0_r. reflexivity. }
  assert (Hu : d_type r = 3 -> cache_of false r (described_cache r (N.lor flags cache_unified))).
  { intros H. apply described_cache_of; [exact Hr|]. unfold flag_word. rewrite H. cbn [andb]. rewrite N.lor_0_r. reflexivity. }
  clearbody flags. eexists. split; [reflexivity|]. unfold caches_updated.
  destruct (N.eqb_spec (d_type r) 3) as [T3|T3];
    [specialize (Hu T3); clear Hc|specialize (Hc T3); clear Hu; destruct (N.eqb_spec (d_type r) 1) as [T1|T1];
      [|destruct (N.eqb_spec (d_type r) 2) as [T2|T2]]];
  (destruct (N.eqb_spec (d_level r) 1) as [V1|V1]; [|destruct (N.eqb_spec (d_level r) 2) as [V2|V2];
    [|destruct (N.eqb_spec (d_level r) 3) as [V3|V3]]]);
  (split; [intros s; destruct s; cbn [describes set_cache cs_cache slot_beq]; (split;
     [intros HD; first [exact Hu|exact Hc|exfalso; lia]|intros HD; first [reflexivity|exfalso; apply HD; lia]])|repeat split]).
Qed.

(** *** The loops over the subleafs *)

Lemma last_described_step complex levels leaf k s c0 c1 c : 
  last_described complex levels (fun i => leaf (N.succ i)) k s c1 c ->
  (describes levels (leaf 0) s -> cache_of complex (leaf 0) c1) -> (~ describes levels (leaf 0) s -> c1 = c0) ->
  last_described complex levels leaf (S k) s c0 c.
Proof.
  intros H H1 H2. destruct H as [(i & Hi & D & C & L)|(D & ->)].
  - left. exists (S i). rewrite Nat2N.inj_succ. split; [lia|]. split; [exact D|]. split; [exact C|].
    intros [|j] Hj; [lia|]. rewrite Nat2N.inj_succ. apply L. lia.
  - destruct (describes_dec levels (leaf 0) s) as [D0|D0].
    + left. exists 0%nat. split; [lia|]. split; [exact D0|]. split; [now apply H1|].
      intros [|j] Hj; [lia|]. rewrite Nat2N.inj_succ. apply D. lia.
    + right. split; [|now apply H2]. intros [|i] Hi; [exact D0|]. rewrite Nat2N.inj_succ. apply D. lia.
Qed.

Lemma ends_at_shift type leaf k : ends_at type leaf (S k) -> ends_at type (fun i => leaf (N.succ i)) k.
Proof.
  intros (H1 & H2 & H3). rewrite Nat2N.inj_succ in *. repeat split; [lia|exact H2|].
  intros i Hi. rewrite <- Nat2N.inj_succ. apply H3. lia.
Qed.

Definition same_rest (cs cs' : cstate) : Prop :=
  cs_tlb cs' = cs_tlb cs /\ cs_trace cs' = cs_trace cs /\ cs_prefetch cs' = cs_prefetch cs.

Lemma leaf4_loop_spec m : forall k fuel n cs max, (forall i, regs_ok (cpuidex m 4 i)) ->
  N.of_nat k + n < two32 -> ends_at d_type (fun i => cpuidex m 4 (n + i)) k -> (k < fuel)%nat ->
  exists cs', leaf4_loop m fuel n cs max =
      Ok (cs', match k with O => max | S j => d_package_cores (cpuidex m 4 (n + N.of_nat j)) end) /\
    (forall s, last_described true 4 (fun i => cpuidex m 4 (n + i)) k s (cs_cache cs s) (cs_cache cs' s)) /\
    same_rest cs cs'.
Proof.
  induction k as [|k IH]; intros [|fuel] n cs max HR HN HE HF; try lia; cbn [leaf4_loop].
  - destruct HE as (_ & HE & _). cbn in HE. rewrite N.add_0_r in HE.
    destruct (leaf4_decodes (cpuidex m 4 n) cs (HR n)) as [(_ & ->)|(D & _)]; [|congruence].
    exists cs. split; [reflexivity|]. split; [|repeat split]. intros s. right. split; [intros; lia|reflexivity].
  - destruct (leaf4_decodes (cpuidex m 4 n) cs (HR n)) as [(D & _)|(_ & cs1 & -> & HU & HS)].
    { destruct HE as (_ & _ & HE). specialize (HE O ltac:(lia)). cbn in HE. rewrite N.add_0_r in HE. congruence. }
    rewrite u32_small by lia.
    apply ends_at_shift in HE.
    assert (EX : forall i, cpuidex m 4 (n + N.succ i) = cpuidex m 4 (n + 1 + i)) by (intros; f_equal; lia).
    destruct (IH fuel (n + 1) cs1 (d_package_cores (cpuidex m 4 n)) HR ltac:(lia)) as (cs' & E & HL & HS').
    { destruct HE as (E1 & E2 & E3). repeat split; [exact E1|rewrite <- EX; exact E2|]. intros i Hi. rewrite <- EX. now apply E3. }
    { lia. }
    exists cs'. rewrite E. split.
    { f_equal. f_equal. destruct k as [|j]; [cbn; now rewrite N.add_0_r|]. rewrite <- EX. do 2 f_equal. lia. }
    split; [|destruct HS as (? & ? & ?), HS' as (? & ? & ?); repeat split; congruence].
    intros s. destruct (HU s) as (U1 & U2). apply last_described_step with (cs_cache cs1 s); rewrite ?N.add_0_r; auto.
    specialize (HL s). destruct HL as [(i & Hi & D & C & L)|(D & HL)].
    + left. exists i. rewrite EX. split; [exact Hi|]. split; [exact D|]. split; [exact C|]. intros j Hj. rewrite EX. now apply L.
    + right. split; [|exact HL]. intros i Hi. rewrite EX. now apply D.
Qed.

Lemma leaf1d_loop_spec m : forall k fuel n cs, (forall i, regs_ok (cpuidex m 0x8000001D i)) ->
  N.of_nat k + n < two32 -> ends_at d_type (fun i => cpuidex m 0x8000001D (n + i)) k -> (k < fuel)%nat ->
  exists cs', leaf1d_loop m fuel n cs = Ok cs' /\
    (forall s, last_described false 3 (fun i => cpuidex m 0x8000001D (n + i)) k s (cs_cache cs s) (cs_cache cs' s)) /\
    same_rest cs cs'.
Proof.
  induction k as [|k IH]; intros [|fuel] n cs HR HN HE HF; try lia; cbn [leaf1d_loop].
  - destruct HE as (_ & HE & _). cbn in HE. rewrite N.add_0_r in HE.
    destruct (leaf1d_decodes (cpuidex m 0x8000001D n) cs (HR n)) as [(_ & ->)|(D & _)]; [|congruence].
    exists cs. split; [reflexivity|]. split; [|repeat split]. intros s. right. split; [intros; lia|reflexivity].
  - destruct (leaf1d_decodes (cpuidex m 0x8000001D n) cs (HR n)) as [(D & _)|(_ & cs1 & -> & HU & HS)].
    { destruct HE as (_ & _ & HE). specialize (HE O ltac:(lia)). cbn in HE. rewrite N.add_0_r in HE. congruence. }
    rewrite u32_small by lia.
    apply ends_at_shift in HE.
    assert (EX : forall i, cpuidex m 0x8000001D (n + N.succ i) = cpuidex m 0x8000001D (n + 1 + i)) by (intros; f_equal; lia).
    destruct (IH fuel (n + 1) cs1 HR ltac:(lia)) as (cs' & E & HL & HS').
    { destruct HE as (E1 & E2 & E3). repeat split; [exact E1|rewrite <- EX; exact E2|]. intros i Hi. rewrite <- EX. now apply E3. }
    { lia. }
    exists cs'. rewrite E. split; [reflexivity|].
    split; [|destruct HS as (? & ? & ?), HS' as (? & ? & ?); repeat split; congruence].
    intros s. destruct (HU s) as (U1 & U2). apply last_described_step with (cs_cache cs1 s); rewrite ?N.add_0_r; auto.
    specialize (HL s). destruct HL as [(i & Hi & D & C & L)|(D & HL)].
    + left. exists i. rewrite EX. split; [exact Hi|]. split; [exact D|]. split; [exact C|]. intros j Hj. rewrite EX. now apply L.
    + right. split; [|exact HL]. intros i Hi. rewrite EX. now apply D.
Qed.

(** ** Signature *)

Lemma model_info_fields sig : sig < two32 ->
  let mi := decode_model_info sig in
  mi_stepping mi = field 0 4 sig /\ mi_base_model mi = field 4 4 sig /\ mi_base_family mi = field 8 4 sig /\
  mi_processor_type mi = field 12 2 sig /\ mi_extended_model mi = field 16 4 sig /\ mi_extended_family mi = field 20 8 sig /\
  mi_family mi = field 8 4 sig + field 20 8 sig /\ mi_model mi = field 16 4 sig * 16 + field 4 4 sig.
Proof.
  intros _. unfold decode_model_info. cbn [mi_stepping mi_base_model mi_base_family mi_processor_type mi_extended_model mi_extended_family mi_family mi_model].
  change 0xF with (N.ones 4). change 0x3 with (N.ones 2). change 0xFF with (N.ones 8). rewrite !land_field, land_field0.
  pose proof (field_lt 4 4 sig) as A. pose proof (field_lt 8 4 sig) as B. pose proof (field_lt 16 4 sig) as C. pose proof (field_lt 20 8 sig) as D.
  cbn in A, B, C, D. rewrite N.shiftl_mul_pow2. change (2 ^ 4) with 16. repeat split.
  - apply u32_small. unfold two32. lia.
  - rewrite (u32_small (_ * 16)) by (unfold two32; lia). rewrite u32_small by (unfold two32; lia). lia.
Qed.

Lemma peel lo width x : x / 2 ^ lo = field lo width x + 2 ^ width * (x / 2 ^ (lo + width)).
Proof.
  unfold field. rewrite N.pow_add_r, <- N.div_div by (apply N.pow_nonzero; discriminate).
  rewrite N.add_comm. apply N.div_mod. apply N.pow_nonzero. discriminate.
Qed.

Lemma signature_rebuilt sig : sig < two32 ->
  let mi := decode_model_info sig in
  sig = mi_stepping mi + 2 ^ 4 * mi_base_model mi + 2 ^ 8 * mi_base_family mi + 2 ^ 12 * mi_processor_type mi +
        2 ^ 14 * field 14 2 sig + 2 ^ 16 * mi_extended_model mi + 2 ^ 20 * mi_extended_family mi + 2 ^ 28 * field 28 4 sig.
Proof.
  intros H. cbv zeta. destruct (model_info_fields sig H) as (-> & -> & -> & -> & -> & -> & _).
  pose proof (peel 0 4 sig) as P0. pose proof (peel 4 4 sig) as P1. pose proof (peel 8 4 sig) as P2. pose proof (peel 12 2 sig) as P3.
  pose proof (peel 14 2 sig) as P4. pose proof (peel 16 4 sig) as P5. pose proof (peel 20 8 sig) as P6. pose proof (peel 28 4 sig) as P7.
  change (2 ^ 0) with 1 in P0. rewrite N.div_1_r in P0.
  assert (P8 : sig / 2 ^ 32 = 0) by (apply N.div_small; exact H).
  repeat match goal with |- context [2 ^ ?k] => let v := eval vm_compute in (2 ^ k) in change (2 ^ k) with v in * end.
  repeat match goal with P : context [2 ^ ?k] |- _ => let v := eval vm_compute in (2 ^ k) in change (2 ^ k) with v in P end.
  repeat match goal with P : context [sig / ?k] |- _ => generalize dependent (sig / k); intros end.
  repeat match goal with |- context [field ?a ?b sig] => generalize dependent (field a b sig); intros end. clear H. lia.
Qed.

Lemma signature_documented sig : sig < two32 ->
  (field 8 4 sig = 15 \/ field 20 8 sig = 0 -> mi_family (decode_model_info sig) = documented_family sig) /\
  (field 8 4 sig = 15 \/ field 8 4 sig = 6 \/ field 16 4 sig = 0 -> mi_model (decode_model_info sig) = documented_model sig).
Proof.
  intros H. destruct (model_info_fields sig H) as (_ & _ & _ & _ & _ & _ & -> & ->).
  unfold documented_family, documented_model.
  generalize (field 8 4 sig), (field 20 8 sig), (field 16 4 sig), (field 4 4 sig). intros f ef em bm.
  split; intros HH; destruct (N.eqb_spec f 15), (N.eqb_spec f 6); cbn [orb]; lia.
Qed.

(** ** Vendors *)

Definition vendor_matches (ebx ecx edx : N) (e : string * N) : bool :=
  (word_of (firstn 4 (text (fst e))) =? ebx) && (word_of (firstn 4 (skipn 4 (text (fst e)))) =? edx) &&
  (word_of (skipn 8 (text (fst e))) =? ecx).

Ltac closed_eqb :=
  repeat match goal with |- context [N.pos ?a =? N.pos ?b] => let v := eval vm_compute in (N.pos a =? N.pos b) in change (N.pos a =? N.pos b) with v end;
  cbn [andb].

Lemma decode_vendor_find b ebx ecx edx : decode_vendor b ebx ecx edx =
  match find (vendor_matches ebx ecx edx) (vendor_strings b) with Some e => snd e | None => vendor_unknown end.
Proof.
  unfold decode_vendor, vendor_cases, vendor_strings. destruct (b_x86_32 b); cbn [app find fst snd orb negb];
  unfold vendor_matches; cbn [fst snd];
  repeat match goal with |- context [word_of ?x] => let y := eval vm_compute in (word_of x) in change (word_of x) with y end;
  repeat (match goal with |- context [?k =? ebx] => destruct (N.eqb_spec k ebx) as [<-|] end; closed_eqb);
  repeat (match goal with |- context [?k =? edx] => destruct (N.eqb_spec k edx) as [<-|] end; closed_eqb);
  repeat (match goal with |- context [?k =? ecx] => destruct (N.eqb_spec k ecx) as [<-|] end; closed_eqb);
  reflexivity.
Qed.

Lemma vendor_strings_length b : forall e, In e (vendor_strings b) -> length (text (fst e)) = 12%nat.
Proof. apply Forall_forall. unfold vendor_strings. destruct (b_x86_32 b); cbn [app]; repeat constructor. Qed.

Lemma vendor_matches_spells b ebx ecx edx e : In e (vendor_strings b) ->
  vendor_matches ebx ecx edx e = true <-> spells (fst e) ebx ecx edx.
Proof.
  intros HI. pose proof (vendor_strings_length b e HI) as HL. unfold vendor_matches, spells. rewrite !andb_true_iff, !N.eqb_eq.
  split; [intros ((<- & <-) & <-); auto|intros (_ & -> & -> & ->); auto].
Qed.

Lemma decode_vendor_spec b ebx ecx edx v : decode_vendor b ebx ecx edx = v <->
  (exists s, In (s, v) (vendor_strings b) /\ spells s ebx ecx edx) \/
  (v = vendor_unknown /\ forall s w, In (s, w) (vendor_strings b) -> ~ spells s ebx ecx edx).
Proof.
  split.
  - intros <-. rewrite decode_vendor_find. destruct (find _ _) as [[s w]|] eqn:E.
    + left. apply find_some in E. exists s. split; [apply E|].
      apply (vendor_matches_spells b _ _ _ (s, w)); apply E.
    + right. split; [reflexivity|]. intros s w HI HS. apply (vendor_matches_spells b _ _ _ (s, w) HI) in HS.
      rewrite (find_none _ _ E _ HI) in HS. discriminate.
  - intros [(s & HI & HS)|(-> & HN)].
    + destruct HS as (_ & -> & -> & ->). revert HI. unfold vendor_strings. destruct b as [[|] a]; cbn [b_x86_32 app In]; intros HI;
      repeat (destruct HI as [HI|HI]; [injection HI as <- <-; reflexivity|]); destruct HI.
    + rewrite decode_vendor_find. destruct (find _ _) as [[s w]|] eqn:E; [|reflexivity]. exfalso.
      apply find_some in E. apply (HN s w); [apply E|]. apply (vendor_matches_spells b _ _ _ (s, w)); apply E.
Qed.
