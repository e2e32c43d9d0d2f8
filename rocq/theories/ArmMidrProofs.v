(** Lemmas about the main id register. *)
From Verif Require Import Base BaseProofs Masks ArmMidrModel ArmMidrSpec.
Open Scope N_scope.

Lemma field_bits f m b : N.testbit (field_of f m) b = (b <? field_width f) && N.testbit m (b + lowest_bit f).
Proof.
  unfold field_of. rewrite <- N.land_ones, N.land_spec, ones_bit, <- N.shiftr_div_pow2, N.shiftr_spec' .
  apply andb_comm.
Qed.

(** The mask of a field. *)
Definition covers (mask : N) (f : midr_field) : Prop := mask = N.shiftl (N.ones (field_width f)) (lowest_bit f).

Lemma covers_bit mask f b : covers mask f -> N.testbit mask b = (lowest_bit f <=? b) && (b <? lowest_bit f + field_width f).
Proof.
  intros ->. destruct (N.leb_spec (lowest_bit f) b) as [L|L]; cbn [andb].
  - rewrite N.shiftl_spec_high' by exact L. rewrite ones_bit. lia.
  - now rewrite N.shiftl_spec_low.
Qed.

Lemma all_covers : covers implementer_mask Implementer /\ covers variant_mask Variant /\
  covers architecture_mask Architecture /\ covers part_mask PartNumber /\ covers revision_mask Revision.
Proof. repeat split. Qed.

Lemma top_field f : lowest_bit f + field_width f <= 32.
Proof. destruct f; discriminate. Qed.

Lemma u32_bits x : (forall b, 32 <= b -> N.testbit x b = false) -> is_u32 x.
Proof.
  intros H. unfold is_u32. rewrite two32_pow. destruct (N.eq_dec x 0) as [->|Hx]; [reflexivity|].
  apply N.log2_lt_pow2; [lia|]. destruct (N.lt_ge_cases (N.log2 x) 32) as [L|L]; [exact L|].
  pose proof (N.bit_log2 x Hx) as B. rewrite (H _ L) in B. discriminate.
Qed.

Lemma u32_high x b : is_u32 x -> 32 <= b -> N.testbit x b = false.
Proof.
  intros H L. rewrite <- (N.mod_small x (2 ^ 32)) by (rewrite <- two32_pow; exact H). now apply N.mod_pow2_bits_high.
Qed.

(** Fields do not overlap. *)
Lemma fields_apart f g b : f <> g -> b < field_width g ->
  (lowest_bit f <=? b + lowest_bit g) && (b + lowest_bit g <? lowest_bit f + field_width f) = false.
Proof. destruct f, g; intros H; try (now elim H); cbn [lowest_bit field_width]; lia. Qed.

(** Replacing the bits under a field's mask by those of [y]. *)
Lemma copy_replaced mask f m y : covers mask f -> is_u32 m ->
  replaced f (field_of f y) m (N.lor (N.land m (not32 mask)) (N.land y mask)).
Proof.
  intros HC Hm. pose proof (top_field f) as HT.
  assert (B : forall b, N.testbit (N.lor (N.land m (not32 mask)) (N.land y mask)) b =
    if (lowest_bit f <=? b) && (b <? lowest_bit f + field_width f) then N.testbit y b else N.testbit m b).
  { intros b. rewrite N.lor_spec, !N.land_spec, not32_bit, (covers_bit _ _ b HC).
    destruct ((lowest_bit f <=? b) && (b <? lowest_bit f + field_width f)) eqn:E; cbn [negb].
    - rewrite !andb_false_r, andb_true_r. reflexivity.
    - rewrite andb_true_r, andb_false_r, orb_false_r. destruct (N.ltb_spec b 32) as [L|L]; [apply andb_true_r|].
      now rewrite (u32_high m b Hm L). }
  split; [|split].
  - apply u32_bits. intros b L. rewrite B. replace ((lowest_bit f <=? b) && (b <? lowest_bit f + field_width f)) with false by lia. now apply u32_high.
  - apply N.bits_inj. intros b. rewrite !field_bits, B. destruct (N.ltb_spec b (field_width f)) as [L|L]; [|reflexivity].
    replace ((lowest_bit f <=? b + lowest_bit f) && (b + lowest_bit f <? lowest_bit f + field_width f)) with true by lia.
    reflexivity.
  - intros g Hg. apply N.bits_inj. intros b. rewrite !field_bits, B.
    destruct (N.ltb_spec b (field_width g)) as [L|L]; [|reflexivity]. rewrite fields_apart; auto.
Qed.

Lemma put_replaced mask f m v : covers mask f -> is_u32 m ->
  replaced f (v mod 2 ^ field_width f) m (put_field mask (lowest_bit f) m v).
Proof.
  intros HC Hm. unfold put_field.
  replace (v mod 2 ^ field_width f) with (field_of f (u32 (N.shiftl v (lowest_bit f)))); [now apply copy_replaced|].
  apply N.bits_inj. intros b. rewrite field_bits. pose proof (top_field f) as HT.
  rewrite <- N.land_ones, N.land_spec, ones_bit.
  destruct (N.ltb_spec b (field_width f)) as [L|L]; [|symmetry; apply andb_false_r]. rewrite andb_true_r. cbn [andb].
  unfold u32. rewrite two32_pow, N.mod_pow2_bits_low by lia. rewrite N.shiftl_spec_high' by lia.
  f_equal. lia.
Qed.

Lemma get_exact mask f m : covers mask f -> get_field mask (lowest_bit f) m = field_of f m.
Proof.
  intros HC. apply N.bits_inj. intros b. unfold get_field.
  rewrite N.shiftr_spec', N.land_spec, (covers_bit _ _ _ HC), field_bits, andb_comm. f_equal.
  destruct (N.ltb_spec b (field_width f)); lia.
Qed.

(** ** Identification of cores *)

Lemma field_bound f m : field_of f m < 2 ^ field_width f.
Proof. unfold field_of. apply N.mod_lt. apply N.pow_nonzero. lia. Qed.

Lemma disjoint_add a b : N.land a b = 0 -> N.lor a b = a + b.
Proof. intros H. rewrite <- N.lxor_lor by exact H. symmetry. now apply N.add_nocarry_lxor. Qed.

Lemma land_field mask f m : covers mask f -> N.land m mask = field_of f m * 2 ^ lowest_bit f.
Proof.
  intros HC. rewrite <- N.shiftl_mul_pow2. apply N.bits_inj. intros b. rewrite N.land_spec, (covers_bit _ _ _ HC).
  destruct (N.leb_spec (lowest_bit f) b) as [L|L]; cbn [andb].
  - rewrite N.shiftl_spec_high' by exact L. rewrite field_bits, andb_comm. f_equal; [lia|f_equal; lia].
  - rewrite N.shiftl_spec_low by exact L. apply andb_false_r.
Qed.

Lemma land_apart m a b : N.land a b = 0 -> N.land m (N.lor a b) = N.land m a + N.land m b.
Proof.
  intros H. rewrite N.land_lor_distr_r. apply disjoint_add. apply N.bits_inj. intros i.
  rewrite !N.land_spec, N.bits_0. assert (N.testbit (N.land a b) i = false) as X by (rewrite H; apply N.bits_0).
  rewrite N.land_spec in X. destruct (N.testbit a i), (N.testbit b i), (N.testbit m i); cbn in *; congruence.
Qed.

Lemma land_uarch m : N.land m uarch_mask = field_of Implementer m * 16777216 + field_of PartNumber m * 16.
Proof.
  unfold uarch_mask. rewrite land_apart by reflexivity.
  rewrite (land_field implementer_mask Implementer), (land_field part_mask PartNumber) by reflexivity. reflexivity.
Qed.

Lemma land_core m : N.land m core_mask =
  field_of Implementer m * 16777216 + field_of Architecture m * 65536 + field_of PartNumber m * 16.
Proof.
  unfold core_mask. rewrite !land_apart by reflexivity.
  rewrite (land_field implementer_mask Implementer), (land_field architecture_mask Architecture),
    (land_field part_mask PartNumber) by reflexivity. reflexivity.
Qed.

Lemma design_eq m i p : design m = (i, p) <-> field_of Implementer m = i /\ field_of PartNumber m = p.
Proof. unfold design. split; [now intros [= -> ->]|intros (-> & ->); reflexivity]. Qed.

Lemma uarch_is m i p : i < 256 -> p < 4096 -> (N.land m uarch_mask = i * 16777216 + p * 16 <-> design m = (i, p)).
Proof.
  intros Hi Hp. rewrite land_uarch, design_eq. pose proof (field_bound Implementer m) as B1. pose proof (field_bound PartNumber m) as B2.
  cbn [field_width] in B1, B2. change (2 ^ 8) with 256 in B1. change (2 ^ 12) with 4096 in B2. lia.
Qed.

Lemma same_uarch_exact known i p m : i < 256 -> p < 4096 -> N.land known uarch_mask = i * 16777216 + p * 16 ->
  (same_uarch known m = true <-> design m = (i, p)).
Proof. intros Hi Hp HK. unfold same_uarch. rewrite HK, N.eqb_eq. now apply uarch_is. Qed.

Lemma one_of_in l x : one_of l x = true <-> In x l.
Proof.
  unfold one_of. rewrite existsb_exists. split.
  - intros (y & Hy & E). apply N.eqb_eq in E. now subst.
  - intros H. exists x. split; [exact H|apply N.eqb_refl].
Qed.

Lemma core_names :
  forall m, (midr_is_arm1156 m = true <-> design m = (0x41, 0xB56)) /\
  (midr_is_arm11 m = true <-> field_of Implementer m = 0x41 /\ field_of PartNumber m / 256 = 0xB) /\
  (midr_is_cortex_a9 m = true <-> design m = (0x41, 0xC09)) /\
  (midr_is_scorpion m = true <-> design m = (0x51, 0x00F) \/ design m = (0x51, 0x02D)) /\
  (midr_is_krait m = true <-> design m = (0x51, 0x04D) \/ design m = (0x51, 0x06F)) /\
  (midr_is_cortex_a53 m = true <-> design m = (0x41, 0xD03)) /\
  (midr_is_qualcomm_cortex_a53_silver m = true <-> design m = (0x51, 0x801)) /\
  (midr_is_qualcomm_cortex_a55_silver m = true <-> design m = (0x51, 0x803)) /\
  (midr_is_kryo280_gold m = true <-> design m = (0x51, 0x800)) /\
  (midr_is_kryo_silver m = true <->
     field_of Architecture m = 0xF /\ (design m = (0x51, 0x211) \/ design m = (0x51, 0x201))) /\
  (midr_is_kryo_gold m = true <-> design m = (0x51, 0x205)) /\
  (midr_is_ampere_altra m = true <-> design m = (0x41, 0xD0C)).
Proof.
  intros m. repeat match goal with |- _ /\ _ => split end;
    try (apply same_uarch_exact; reflexivity).
  - unfold midr_is_arm11. rewrite N.eqb_eq.
    replace (N.land m (N.lor implementer_mask 0xF000)) with (field_of Implementer m * 16777216 + field_of PartNumber m / 256 * 4096).
    + pose proof (field_bound Implementer m) as B1. pose proof (field_bound PartNumber m) as B2. cbn [field_width] in B1, B2.
      change (2 ^ 8) with 256 in B1. change (2 ^ 12) with 4096 in B2. lia.
    + rewrite land_apart by reflexivity. rewrite (land_field implementer_mask Implementer) by reflexivity.
      f_equal. change 4096 with (2 ^ 12) at 1. rewrite <- N.shiftl_mul_pow2. change 256 with (2 ^ 8) at 1.
      rewrite <- N.shiftr_div_pow2. apply N.bits_inj. intros b. rewrite N.land_spec.
      change 0xF000 with (N.shiftl (N.ones 4) 12).
      destruct (N.lt_ge_cases b 12) as [L|L].
      * rewrite !N.shiftl_spec_low by exact L. symmetry. apply andb_false_r.
      * rewrite !N.shiftl_spec_high' by exact L. rewrite N.shiftr_spec', field_bits, ones_bit.
        cbn [field_width lowest_bit]. rewrite andb_comm. f_equal; [f_equal; lia|lia].
  - unfold midr_is_scorpion. rewrite one_of_in. cbn [In].
    rewrite <- (uarch_is m 0x51 0x00F), <- (uarch_is m 0x51 0x02D) by reflexivity.
    change (0x51 * 16777216 + 0x00F * 16) with 0x510000F0. change (0x51 * 16777216 + 0x02D * 16) with 0x510002D0.
    intuition congruence.
  - unfold midr_is_krait. rewrite one_of_in. cbn [In].
    rewrite <- (uarch_is m 0x51 0x04D), <- (uarch_is m 0x51 0x06F) by reflexivity.
    change (0x51 * 16777216 + 0x04D * 16) with 0x510004D0. change (0x51 * 16777216 + 0x06F * 16) with 0x510006F0.
    intuition congruence.
  - unfold midr_is_kryo_silver. rewrite one_of_in, land_core, !design_eq. cbn [In].
    unfold midr_kryo_silver_820, midr_kryo_silver_821.
    pose proof (field_bound Implementer m) as B1. pose proof (field_bound PartNumber m) as B2.
    pose proof (field_bound Architecture m) as B3. cbn [field_width] in B1, B2, B3.
    change (2 ^ 8) with 256 in B1. change (2 ^ 12) with 4096 in B2. change (2 ^ 4) with 16 in B3. lia.
Qed.

Lemma score_design arm32 a b : design a = design b -> midr_score_core arm32 a = midr_score_core arm32 b.
Proof.
  unfold design. intros [= E1 E2]. unfold midr_score_core. rewrite !land_uarch. now rewrite E1, E2.
Qed.

Lemma score_range arm32 m : 1 <= midr_score_core arm32 m <= 6.
Proof.
  unfold midr_score_core. repeat match goal with |- context [if ?c then _ else _] => destruct c end; lia.
Qed.

(** The score of a design, computed on a representative. *)
Lemma score_of arm32 m i p : i < 256 -> p < 4096 -> design m = (i, p) ->
  midr_score_core arm32 m = midr_score_core arm32 (i * 16777216 + p * 16).
Proof.
  intros Hi Hp H. apply uarch_is in H; [|assumption..]. unfold midr_score_core. rewrite H.
  replace (N.land (i * 16777216 + p * 16) uarch_mask) with (i * 16777216 + p * 16); [reflexivity|].
  rewrite <- H. now rewrite <- N.land_assoc, N.land_diag.
Qed.

Lemma known_pair m big little : field_of Architecture m = 0xF -> In (big, little) pairs -> design m = big ->
  big <> kryo_280_gold ->
  design (midr_little_core_for_big m) = little /\ field_of Architecture (midr_little_core_for_big m) = 0xF.
Proof.
  intros HA HI HD HK. unfold midr_little_core_for_big. rewrite land_core, HA.
  unfold pairs in HI. cbn [In] in HI.
  repeat match type of HI with _ \/ _ => destruct HI as [HI|HI] end; try (now destruct HI); injection HI as <- <-;
    try (elim HK; reflexivity); apply design_eq in HD; destruct HD as (-> & ->); vm_compute; split; reflexivity.
Qed.

Lemma not_paired m : is_u32 m -> ~ In (design m) (map fst pairs) -> midr_little_core_for_big m = m.
Proof.
  intros HM HN. unfold midr_little_core_for_big.
  assert (X : forall x i p, i < 256 -> p < 4096 -> x = i * 16777216 + 0xF * 65536 + p * 16 -> In (i, p) (map fst pairs) ->
    (N.land m core_mask =? x) = false).
  { intros x i p Hi Hp -> HI. apply N.eqb_neq. rewrite land_core. intros E. apply HN.
    replace (design m) with (i, p); [exact HI|]. symmetry. apply design_eq.
    pose proof (field_bound Implementer m) as B1. pose proof (field_bound PartNumber m) as B2.
    pose proof (field_bound Architecture m) as B3. cbn [field_width] in B1, B2, B3.
    change (2 ^ 8) with 256 in B1. change (2 ^ 12) with 4096 in B2. change (2 ^ 4) with 16 in B3. lia. }
  unfold one_of. cbn [existsb]. unfold midr_cortex_a75, midr_cortex_a73, midr_cortex_a72, midr_cortex_a57, midr_exynos_m1_m2,
    midr_cortex_a17, midr_cortex_a15, midr_kryo_gold, midr_denver2.
  rewrite (X _ 0x41 0xD0A), (X _ 0x41 0xD09), (X _ 0x41 0xD08), (X _ 0x41 0xD07), (X _ 0x53 0x001), (X _ 0x41 0xC0E),
    (X _ 0x41 0xC0F); try reflexivity; try (cbn; tauto). cbn [orb].
  replace (N.land m core_mask =? midr_kryo280_gold) with false.
  - rewrite (X _ 0x51 0x205), (X _ 0x4E 0x003); try reflexivity; cbn; tauto.
  - symmetry. apply N.eqb_neq. intros E. assert (N.testbit (N.land m core_mask) 0 = true) as Y by (rewrite E; reflexivity).
    rewrite N.land_spec in Y. now rewrite andb_false_r in Y.
Qed.

Lemma gold_280_unknown m : is_u32 m -> design m = kryo_280_gold -> midr_little_core_for_big m = m.
Proof.
  intros HM HD. apply design_eq in HD. destruct HD as (HI & HP). unfold midr_little_core_for_big.
  rewrite land_core, HI, HP. pose proof (field_bound Architecture m) as B. cbn [field_width] in B. change (2 ^ 4) with 16 in B.
  remember (field_of Architecture m) as a eqn:E. clear E HI HP HM.
  assert (C : forallb (fun a => let x := 81 * 16777216 + a * 65536 + 2048 * 16 in
     negb (x =? midr_cortex_a75) && negb (one_of [midr_cortex_a73; midr_cortex_a72; midr_cortex_a57; midr_exynos_m1_m2] x) &&
     negb (one_of [midr_cortex_a17; midr_cortex_a15] x) && negb (x =? midr_kryo280_gold) && negb (x =? midr_kryo_gold) &&
     negb (x =? midr_denver2)) (map N.of_nat (seq 0 16)) = true) by reflexivity.
  rewrite forallb_forall in C. specialize (C a).
  assert (In a (map N.of_nat (seq 0 16))) as HI. { apply in_map_iff. exists (N.to_nat a). rewrite in_seq. lia. }
  specialize (C HI). cbv zeta in C. rewrite !andb_true_iff, !negb_true_iff in C.
  destruct C as (((((-> & ->) & ->) & ->) & ->) & ->). reflexivity.
Qed.

Lemma pair_scores arm32 big little m n : In (big, little) pairs -> design m = big -> design n = little ->
  (arm32 = true \/ fst little <> 0x41 \/ snd little <> 0xC07) -> midr_score_core arm32 n < midr_score_core arm32 m.
Proof.
  intros HI Hm Hn HA. destruct big as [i p], little as [j q].
  assert (B : forall x, In x pairs -> fst (fst x) < 256 /\ snd (fst x) < 4096 /\ fst (snd x) < 256 /\ snd (snd x) < 4096).
  { apply Forall_forall. repeat constructor. }
  destruct (B _ HI) as (B1 & B2 & B3 & B4). cbn [fst snd] in *.
  rewrite (score_of arm32 m i p), (score_of arm32 n j q) by assumption. unfold pairs in HI. cbn [In] in HI.
  repeat match type of HI with _ \/ _ => destruct HI as [HI|HI] end; try (now destruct HI); injection HI as <- <- <- <-;
    destruct arm32; try reflexivity; destruct HA as [HA|[HA|HA]]; try discriminate HA; now elim HA.
Qed.

Lemma design_inv m i p : design m = (i, p) -> i < 256 /\ p < 4096.
Proof.
  intros H. apply design_eq in H. destruct H as (<- & <-). split; [apply (field_bound Implementer)|apply (field_bound PartNumber)].
Qed.

(** A comparison of scores of two finite sets of designs. *)
Lemma score_table arm32 f s ds es (P : N -> N -> bool) : In (design f) ds -> In (design s) es ->
  forallb (fun d => forallb (fun e => P (midr_score_core arm32 (fst e * 16777216 + snd e * 16))
                                        (midr_score_core arm32 (fst d * 16777216 + snd d * 16))) es) ds = true ->
  P (midr_score_core arm32 s) (midr_score_core arm32 f) = true.
Proof.
  intros Hf Hs C. destruct (design f) as [i p] eqn:Ef. destruct (design s) as [j q] eqn:Es.
  destruct (design_inv _ _ _ Ef), (design_inv _ _ _ Es).
  rewrite (score_of arm32 f i p), (score_of arm32 s j q) by assumption.
  rewrite forallb_forall in C. specialize (C _ Hf). cbn beta in C. rewrite forallb_forall in C. exact (C _ Hs).
Qed.

Lemma role_scores arm32 fast slow : In (design fast) fast_designs -> In (design slow) slow_designs ->
  midr_score_core arm32 slow < midr_score_core arm32 fast.
Proof. intros H1 H2. apply N.ltb_lt. apply (score_table arm32 fast slow _ _ N.ltb H1 H2). now destruct arm32. Qed.

Lemma prime_scores arm32 prime partner : In (design prime) prime_designs -> In (design partner) partner_designs ->
  midr_score_core arm32 partner < midr_score_core arm32 prime.
Proof. intros H1 H2. apply N.ltb_lt. apply (score_table arm32 prime partner _ _ N.ltb H1 H2). now destruct arm32. Qed.

(** A label naming another implementer is not matched. *)
Lemma other_implementer l m : Forall (fun x => x / 16777216 <> field_of Implementer m) l -> one_of l (N.land m uarch_mask) = false.
Proof.
  intros H. destruct (one_of _ _) eqn:E; [|reflexivity]. apply one_of_in in E. rewrite Forall_forall in H. exfalso.
  apply (H _ E). rewrite land_uarch. pose proof (field_bound PartNumber m) as B. cbn [field_width] in B. change (2 ^ 12) with 4096 in B.
  rewrite N.div_add_l by discriminate. rewrite (N.div_small (_ * 16)) by lia. lia.
Qed.

Lemma unknown_scores arm32 fast slow m : In (design fast) fast_designs -> In (design slow) slow_designs ->
  field_of Implementer m = 0x61 -> midr_score_core arm32 slow < midr_score_core arm32 m < midr_score_core arm32 fast.
Proof.
  intros H1 H2 H3. replace (midr_score_core arm32 m) with 3.
  - split; apply N.ltb_lt.
    + apply (score_table arm32 fast slow _ _ (fun s f => s <? 3) H1 H2). now destruct arm32.
    + apply (score_table arm32 fast slow _ _ (fun s f => 3 <? f) H1 H2). now destruct arm32.
  - unfold midr_score_core. rewrite !other_implementer; [reflexivity|..]; rewrite H3; destruct arm32;
      repeat (apply Forall_cons; [vm_compute; discriminate|]); apply Forall_nil.
Qed.

Lemma companion arm32 midr big little :
  field_of Architecture midr = 0xF -> In (big, little) pairs -> design midr = big -> big <> kryo_280_gold ->
  design (midr_little_core_for_big midr) = little /\
  (arm32 = true \/ little <> (0x41, 0xC07) ->
   midr_score_core arm32 (midr_little_core_for_big midr) < midr_score_core arm32 midr).
Proof.
  intros HA HI HD HK. destruct (known_pair _ _ _ HA HI HD HK) as (E & _). split; [exact E|]. intros H.
  apply (pair_scores arm32 big little); auto. destruct H as [H|H]; [now left|right]. destruct little as [i p]. cbn.
  destruct (N.eq_dec i 0x41) as [->|]; [|now left]. destruct (N.eq_dec p 0xC07) as [->|]; [now elim H|now right].
Qed.

Lemma gold_280 midr : is_u32 midr -> design midr = kryo_280_gold ->
  midr_little_core_for_big midr = midr /\ In (kryo_280_gold, (0x51, 0x801)) pairs /\ design midr <> (0x51, 0x801).
Proof.
  intros H E. split; [now apply gold_280_unknown|]. split; [cbn; tauto|]. rewrite E. discriminate.
Qed.
