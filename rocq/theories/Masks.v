(** Bit masks of 32-bit words. *)
From Verif Require Import Base BaseProofs TopologySpec X86LinuxModel X86LinuxSpec.
Open Scope N_scope.
Ltac Zify.zify_post_hook ::= Z.div_mod_to_equations.

Lemma two32_pow : two32 = 2 ^ 32.
Proof. reflexivity. Qed.

Lemma bit_mask_ones b : b < 32 -> bit_mask b = Ok (N.ones b).
Proof.
  intros H. unfold bit_mask. replace (b <? 32) with true by lia. f_equal.
  rewrite N.shiftl_1_l. assert (2 ^ b < two32) by (rewrite two32_pow; apply N.pow_lt_mono_r; lia).
  assert (0 < 2 ^ b) by (apply N.neq_0_lt_0; apply N.pow_nonzero; lia).
  rewrite u32_small by assumption. unfold sub32, u32. rewrite N.ones_equiv.
  replace (2 ^ b + (two32 - 1)) with (2 ^ b - 1 + 1 * two32) by lia.
  rewrite N.mod_add by discriminate. rewrite N.mod_small by lia. lia.
Qed.

Lemma bit_mask_ok b m : bit_mask b = Ok m -> b < 32 /\ m = N.ones b.
Proof.
  intros H. destruct (N.lt_ge_cases b 32) as [L|L].
  - rewrite bit_mask_ones in H by exact L. split; congruence.
  - unfold bit_mask in H. replace (b <? 32) with false in H by lia. discriminate.
Qed.

Lemma ones_bit k b : N.testbit (N.ones k) b = (b <? k).
Proof.
  destruct (N.ltb_spec b k); [now apply N.ones_spec_low|now apply N.ones_spec_high].
Qed.

Lemma not32_bit m b : N.testbit (not32 m) b = (b <? 32) && negb (N.testbit m b).
Proof.
  unfold not32. rewrite N.ldiff_spec. change u32max with (N.ones 32). now rewrite ones_bit.
Qed.

Lemma field_mask_bits len offset : len < 32 -> offset < 32 -> exists m, field_mask len offset = Ok m /\
  forall b, N.testbit m b = (b <? 32) && (offset <=? b) && (b <? offset + len).
Proof.
  intros H1 H2. unfold field_mask. rewrite bit_mask_ones by exact H1. cbn [bind].
  replace (offset <? 32) with true by lia. eexists. split; [reflexivity|]. intros b.
  unfold u32. rewrite two32_pow. destruct (N.ltb_spec b 32) as [L|L].
  - rewrite N.mod_pow2_bits_low by exact L. cbn [andb]. destruct (N.leb_spec offset b) as [G|G]; cbn [andb].
    + rewrite N.shiftl_spec_high' by exact G. rewrite ones_bit. lia.
    + now rewrite N.shiftl_spec_low.
  - now rewrite N.mod_pow2_bits_high.
Qed.

Lemma land_sub a b : (forall i, N.testbit a i = true -> N.testbit b i = true) -> N.land a b = a.
Proof.
  intros H. apply N.bits_inj. intros i. rewrite N.land_spec. specialize (H i).
  destruct (N.testbit a i); [now rewrite H|reflexivity].
Qed.

(** Clearing the low [k] bits of a 32-bit word. *)
Definition low_cleared (k m : N) : Prop := forall b, N.testbit m b = (b <? 32) && (k <=? b).

Lemma land_low_cleared k m a : low_cleared k m -> a < two32 -> N.land a m = a / 2 ^ k * 2 ^ k.
Proof.
  intros Hm Ha. rewrite <- N.shiftr_div_pow2, <- N.shiftl_mul_pow2. apply N.bits_inj. intros b.
  rewrite N.land_spec, Hm. destruct (N.leb_spec k b) as [L|L].
  - rewrite N.shiftl_spec_high' by exact L. rewrite N.shiftr_spec' . rewrite N.sub_add by exact L.
    destruct (N.ltb_spec b 32) as [L2|L2]; cbn [andb]; [now rewrite andb_true_r|].
    rewrite andb_false_r. symmetry. rewrite <- (N.mod_small a (2 ^ 32)) by (rewrite <- two32_pow; exact Ha).
    now apply N.mod_pow2_bits_high.
  - rewrite N.shiftl_spec_low by exact L. now rewrite !andb_false_r.
Qed.

Lemma low_cleared_eq k m a b : low_cleared k m -> a < two32 -> b < two32 ->
  (N.land a m = N.land b m <-> a / 2 ^ k = b / 2 ^ k).
Proof.
  intros Hm Ha Hb. rewrite !(land_low_cleared k m) by assumption.
  split; [|now intros ->]. intros H. apply N.mul_cancel_r in H; [exact H|]. apply N.pow_nonzero. lia.
Qed.

Lemma low_cleared_mono k m a b : low_cleared k m -> a <= b -> b < two32 -> N.land a m <= N.land b m.
Proof.
  intros Hm Hab Hb. rewrite !(land_low_cleared k m) by (assumption || lia).
  apply N.mul_le_mono_r. apply N.div_le_mono; [apply N.pow_nonzero; lia|exact Hab].
Qed.

Lemma not32_ones_cleared k : low_cleared k (not32 (N.ones k)).
Proof. intros b. rewrite not32_bit, ones_bit. lia. Qed.

(** ** The masks of cpuinfo_x86_linux_init *)

Lemma llc_bits_ok x : bits_ok x -> llc_apic_bits x < 32.
Proof.
  intros (_ & _ & _ & _ & H). unfold llc_apic_bits.
  repeat match goal with |- context [negb (?a =? 0)] => destruct (N.eqb_spec a 0); cbn [negb] end;
    try (apply H; [cbn; tauto|assumption]). lia.
Qed.

Lemma llc_is_last_level x : llc_apic_bits x = last_level_bits x.
Proof.
  unfold llc_apic_bits, last_level_bits, last_level. cbn [find].
  repeat match goal with |- context [negb (?a =? 0)] => destruct (a =? 0); cbn [negb]; [|reflexivity] end. reflexivity.
Qed.

Lemma apic_masks_ok x : bits_ok x -> exists cm pm lm,
  apic_masks x (llc_apic_bits x) = Ok (cm, pm, lm) /\
  N.land pm cm = pm /\ N.land pm lm = pm /\
  (xi_thread_offset x + xi_thread_length x <= llc_apic_bits x -> N.land lm cm = lm) /\
  (adjacent_fields x ->
     low_cleared (xi_thread_length x) cm /\
     low_cleared (xi_thread_length x + xi_core_length x) pm /\
     low_cleared (N.min (llc_apic_bits x) (xi_thread_length x + xi_core_length x)) lm).
Proof.
  intros HB. pose proof (llc_bits_ok x HB) as HL. destruct HB as (H1 & H2 & H3 & H4 & _). unfold apic_masks.
  destruct (field_mask_bits (xi_thread_length x) (xi_thread_offset x) H1 H2) as (t & -> & Ht).
  destruct (field_mask_bits (xi_core_length x) (xi_core_offset x) H3 H4) as (c & -> & Hc).
  cbn [bind]. rewrite (bit_mask_ones _ HL). cbn [bind].
  eexists _, _, _. split; [reflexivity|].
  set (cm := not32 t). set (pm := N.land cm (not32 c)). set (lm := N.lor pm (not32 (N.ones (llc_apic_bits x)))).
  assert (Hcm : forall b, N.testbit cm b = (b <? 32) && negb ((xi_thread_offset x <=? b) && (b <? xi_thread_offset x + xi_thread_length x))).
  { intros b. unfold cm. rewrite not32_bit, Ht. lia. }
  assert (Hpm : forall b, N.testbit pm b = N.testbit cm b && negb ((xi_core_offset x <=? b) && (b <? xi_core_offset x + xi_core_length x))).
  { intros b. unfold pm. rewrite N.land_spec, not32_bit, Hc, Hcm. lia. }
  assert (Hlm : forall b, N.testbit lm b = N.testbit pm b || ((b <? 32) && (llc_apic_bits x <=? b))).
  { intros b. unfold lm. rewrite N.lor_spec, not32_bit, ones_bit. rewrite N.leb_antisym. reflexivity. }
  clearbody cm pm lm.
  split; [apply land_sub; intros i; rewrite Hpm; intros H; now apply andb_prop in H|].
  split; [apply land_sub; intros i; rewrite Hlm; now intros ->|].
  split; [intros HH; apply land_sub; intros i; rewrite Hlm, Hpm, Hcm; lia|].
  intros (A1 & A2 & A3). rewrite A1, ?A2 in *.
  split; [|split]; intros b; rewrite ?Hlm, ?Hpm, Hcm; rewrite ?A2; lia.
Qed.
