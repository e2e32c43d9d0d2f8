(** Property theorems about ARM main id registers: C28, and C47 about the ranking
    of cores. *)
From Verif Require Import Base ArmMidrModel ArmMidrSpec ArmMidrProofs.
Open Scope N_scope.

(** ** C28 *)

Theorem midr_set_fields : forall midr v, is_u32 midr ->
  replaced Implementer (v mod 256) midr (midr_set_implementer midr v) /\
  replaced Variant (v mod 16) midr (midr_set_variant midr v) /\
  replaced Architecture (v mod 16) midr (midr_set_architecture midr v) /\
  replaced PartNumber (v mod 4096) midr (midr_set_part midr v) /\
  replaced Revision (v mod 16) midr (midr_set_revision midr v).
Proof.
  exact (fun m v H => conj (put_replaced implementer_mask Implementer m v eq_refl H)
    (conj (put_replaced variant_mask Variant m v eq_refl H) (conj (put_replaced architecture_mask Architecture m v eq_refl H)
    (conj (put_replaced part_mask PartNumber m v eq_refl H) (put_replaced revision_mask Revision m v eq_refl H))))).
Qed.
Print Assumptions midr_set_fields.

Theorem midr_copy_fields : forall midr other, is_u32 midr ->
  replaced Implementer (field_of Implementer other) midr (midr_copy_implementer midr other) /\
  replaced Variant (field_of Variant other) midr (midr_copy_variant midr other) /\
  replaced Architecture (field_of Architecture other) midr (midr_copy_architecture midr other) /\
  replaced PartNumber (field_of PartNumber other) midr (midr_copy_part midr other) /\
  replaced Revision (field_of Revision other) midr (midr_copy_revision midr other).
Proof.
  exact (fun m o H => conj (copy_replaced implementer_mask Implementer m o eq_refl H)
    (conj (copy_replaced variant_mask Variant m o eq_refl H) (conj (copy_replaced architecture_mask Architecture m o eq_refl H)
    (conj (copy_replaced part_mask PartNumber m o eq_refl H) (copy_replaced revision_mask Revision m o eq_refl H))))).
Qed.
Print Assumptions midr_copy_fields.

Theorem midr_get_fields : forall midr,
  midr_get_implementer midr = field_of Implementer midr /\ midr_get_variant midr = field_of Variant midr /\
  midr_get_part midr = field_of PartNumber midr /\ midr_get_revision midr = field_of Revision midr.
Proof.
  exact (fun m => conj (get_exact implementer_mask Implementer m eq_refl) (conj (get_exact variant_mask Variant m eq_refl)
    (conj (get_exact part_mask PartNumber m eq_refl) (get_exact revision_mask Revision m eq_refl)))).
Qed.
Print Assumptions midr_get_fields.

(** The register of a Cortex-A73 r0p2. *)
Example midr_fields_case :
  map (fun f => field_of f 0x410FD092) [Implementer; Variant; Architecture; PartNumber; Revision] = [0x41; 0; 0xF; 0xD09; 2] /\
  midr_set_part 0x410FD092 0x12D08 = 0x410FD082 /\ midr_set_variant 0x410FD092 3 = 0x413FD092 /\
  midr_copy_revision 0x410FD092 0x511F2114 = 0x410FD094 /\ is_u32 0x410FD092.
Proof. repeat split. Qed.

Theorem midr_tests_exact : forall midr,
  (midr_is_arm1156 midr = true <-> design midr = (0x41, 0xB56)) /\
  (midr_is_arm11 midr = true <-> field_of Implementer midr = 0x41 /\ field_of PartNumber midr / 256 = 0xB) /\
  (midr_is_cortex_a9 midr = true <-> design midr = (0x41, 0xC09)) /\
  (midr_is_scorpion midr = true <-> design midr = (0x51, 0x00F) \/ design midr = (0x51, 0x02D)) /\
  (midr_is_krait midr = true <-> design midr = (0x51, 0x04D) \/ design midr = (0x51, 0x06F)) /\
  (midr_is_cortex_a53 midr = true <-> design midr = (0x41, 0xD03)) /\
  (midr_is_qualcomm_cortex_a53_silver midr = true <-> design midr = (0x51, 0x801)) /\
  (midr_is_qualcomm_cortex_a55_silver midr = true <-> design midr = (0x51, 0x803)) /\
  (midr_is_kryo280_gold midr = true <-> design midr = (0x51, 0x800)) /\
  (midr_is_kryo_silver midr = true <->
     field_of Architecture midr = 0xF /\ (design midr = (0x51, 0x211) \/ design midr = (0x51, 0x201))) /\
  (midr_is_kryo_gold midr = true <-> design midr = (0x51, 0x205)) /\
  (midr_is_ampere_altra midr = true <-> design midr = (0x41, 0xD0C)).
Proof. exact core_names. Qed.
Print Assumptions midr_tests_exact.

Example midr_tests_case : midr_is_cortex_a53 0x410FD034 = true /\ midr_is_cortex_a53 0x411FD081 = false.
Proof. repeat split. Qed.

(** ** C47 *)

(** The rank of a core depends on its design only, not on variant or revision... *)
Theorem core_rank_of_design : forall arm32 a b, design a = design b ->
  midr_score_core arm32 a = midr_score_core arm32 b /\ 1 <= midr_score_core arm32 a <= 6.
Proof. exact (fun arm32 a b H => conj (score_design arm32 a b H) (score_range arm32 a)). Qed.
Print Assumptions core_rank_of_design.

(** ...fast designs rank above slow ones, and an unknown design is in between. *)
Theorem core_rank_roles : forall arm32 fast slow, In (design fast) fast_designs -> In (design slow) slow_designs ->
  midr_score_core arm32 slow < midr_score_core arm32 fast.
Proof. exact role_scores. Qed.
Print Assumptions core_rank_roles.

Theorem core_rank_prime : forall arm32 prime partner, In (design prime) prime_designs -> In (design partner) partner_designs ->
  midr_score_core arm32 partner < midr_score_core arm32 prime.
Proof. exact prime_scores. Qed.
Print Assumptions core_rank_prime.

Theorem core_rank_unknown : forall arm32 fast slow m, In (design fast) fast_designs -> In (design slow) slow_designs ->
  field_of Implementer m = 0x61 -> midr_score_core arm32 slow < midr_score_core arm32 m < midr_score_core arm32 fast.
Proof. exact unknown_scores. Qed.
Print Assumptions core_rank_unknown.

Example core_rank_case : In (design 0x412FD441) fast_designs /\ In (design 0x411FD050) slow_designs /\
  In (design 0x412FD441) prime_designs /\ In (design 0x411FD410) partner_designs /\
  field_of Implementer 0x611F0230 = 0x61.
Proof. repeat split; vm_compute; tauto. Qed.

(** The LITTLE core guessed for a big one is its documented companion, and ranks
    below it.  Cortex-A7, A15 and A17 are ranked on 32-bit ARM only. *)
Theorem little_companion : forall arm32 midr big little,
  field_of Architecture midr = 0xF -> In (big, little) pairs -> design midr = big -> big <> kryo_280_gold ->
  design (midr_little_core_for_big midr) = little /\
  (arm32 = true \/ little <> (0x41, 0xC07) ->
   midr_score_core arm32 (midr_little_core_for_big midr) < midr_score_core arm32 midr).
Proof. exact companion. Qed.
Print Assumptions little_companion.

(** Other cores are taken for their own companions. *)
Theorem no_little_companion : forall midr, is_u32 midr -> ~ In (design midr) (map fst pairs) ->
  midr_little_core_for_big midr = midr.
Proof. exact not_paired. Qed.
Print Assumptions no_little_companion.

Example little_companion_case : midr_little_core_for_big 0x411FD073 = 0x410FD030 /\ design 0x411FD073 = (0x41, 0xD07) /\
  midr_little_core_for_big 0x410FC075 = 0x410FC075 /\ ~ In (design 0x410FC075) (map fst pairs).
Proof. repeat split. cbn. intros H. repeat destruct H as [H|H]; try discriminate; exact H. Qed.

(** Kryo 280 Gold, of any variant and revision, is not recognised: the constant it
    is compared with has variant and revision bits that are masked away. *)
Theorem kryo_280_companion_refuted : forall midr, is_u32 midr -> design midr = kryo_280_gold ->
  midr_little_core_for_big midr = midr /\ In (kryo_280_gold, (0x51, 0x801)) pairs /\ design midr <> (0x51, 0x801).
Proof. exact gold_280. Qed.
Print Assumptions kryo_280_companion_refuted.

Example kryo_280_companion_case : is_u32 0x51AF8001 /\ design 0x51AF8001 = kryo_280_gold.
Proof. repeat split. Qed.
