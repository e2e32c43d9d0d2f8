(** Proofs about 32-bit and 64-bit processes on one machine. *)
From Verif Require Import Base ArmClusterMidrModel ArmClustersModel ArmIsaModel ArmIsaSpec ArmIsaProofs ArmIsa32Proofs ArmModesSpec.
From Coq Require Import List Lia. Import ListNotations.
Open Scope N_scope.

Section Machine.
Variables (hwcap hwcap2 compat compat2 : N) (t t' : target) (chip : chipset) (ps : list aproc).
Let midr := last_midr ps.
Let i64 := arm_linux_isa false (Getauxval hwcap hwcap2) t chip ps.
Let i32 := arm_linux_isa true (Getauxval compat compat2) t' chip ps.
Hypothesis same : same_machine hwcap compat2 midr.
Let x := Inputs (u32 compat) compat2 midr (fst (last_architecture ps)) (snd (last_architecture ps)) chip t'.

Lemma i32_eq g : has_arm true i32 g = true <-> meaning32 x g.
Proof.
  rewrite <- meaning_all. unfold i32, arm_linux_isa, feature_words, has32, x. destruct (last_architecture ps) as (v, l). reflexivity.
Qed.
Lemma i64_eq : i64 = decode_isa64 (u32 hwcap) hwcap2 midr chip no_isa.
Proof. reflexivity. Qed.

Lemma designs_32 l : l = fp16_designs32 \/ l = dot_designs32 -> designed midr l ->
  designed midr fp16_designs64 /\ (l = dot_designs32 -> designed midr dot_designs64) \/ designed midr newer_designs.
Proof.
  unfold designed. intros L H. generalize dependent (implementer_of midr, part_of midr). intros p H.
  destruct L as [-> | ->]; cbn [In fp16_designs32 dot_designs32] in H; unfold fp16_designs32, dot_designs32 in H; cbn [In] in H;
    repeat (destruct H as [<-|H]; [first [right; cbn; tauto | left; split; [cbn; tauto|intros E; first [discriminate E | cbn; tauto]]]|]); destruct H.
Qed.

Lemma newer_not_old : designed midr newer_designs -> ~ cortex_a55 midr /\ ~ cortex_a75 midr.
Proof.
  unfold cortex_a55, cortex_a75, designed. generalize (implementer_of midr, part_of midr). intros p H. unfold newer_designs in H. cbn [In] in *.
  repeat (destruct H as [<-|H]; [split; intros [E|[]]; discriminate E|]). destruct H.
Qed.

Lemma crypto_bits g k : In (g, k) [(Has_aes, 0); (Has_pmull, 1); (Has_sha1, 2); (Has_sha2, 3); (Has_crc32, 4)] ->
  has_arm true i32 g = true <-> has_arm false i64 g = true.
Proof.
  intros H. rewrite i32_eq. unfold i64. pose proof (sm_crypto _ _ _ same) as C. cbn [In] in H.
  repeat (destruct H as [H|H]; [injection H as <- <-; erewrite linux_kernel_bits by (cbn [In kernel_bits64]; unfold kernel_bits64; cbn [In]; tauto);
    unfold bit, meaning32, kernel2; cbn [in_features2 x];
    match goal with |- N.testbit _ ?k = true <-> _ => rewrite (C k) by reflexivity end; reflexivity|]). destruct H.
Qed.

Lemma half_no_more g : In g half_getters -> has_arm true i32 g = true -> has_arm false i64 g = true.
Proof.
  intros G H. rewrite i32_eq in H.
  assert (K : ~ exynos_9810 chip /\ designed midr fp16_designs32).
  { unfold half_getters in G. cbn [In] in G. repeat (destruct G as [<-|G]; [cbn [meaning32] in H; unfold core_in in H; cbn [in_chip in_midr x] in H; tauto|]). destruct G. }
  destruct K as (E & D). rewrite i64_eq. destruct (fp16_getters (u32 hwcap) hwcap2 midr chip) as (F & R & Q).
  assert (P : designed midr fp16_designs64 \/ (N.testbit (u32 hwcap) 9 = true /\ N.testbit (u32 hwcap) 10 = true) /\ N.testbit (u32 hwcap) 12 = true).
  { destruct (designs_32 _ (or_introl eq_refl) D) as [(W & _)|W]; [now left|]. right. rewrite !low_bit by reflexivity.
    pose proof (sm_newer _ _ _ same W) as B. repeat split; apply B; cbn; tauto. }
  unfold half_getters in G. cbn [In] in G. destruct G as [<-|[<-|[<-|[]]]]; [apply F|rewrite Q; apply F|apply R]; tauto.
Qed.

Lemma dot_no_more : has_arm true i32 Has_neon_dot = true -> has_arm false i64 Has_neon_dot = true.
Proof.
  rewrite i32_eq, i64_eq, dot_getter. cbn [meaning32 in_chip in_midr x]. unfold known_dot32. intros (_ & _ & [D|[D|D]]); [|tauto|tauto].
  destruct (designs_32 _ (or_intror eq_refl) D) as [(_ & W)|W]; [left; now apply W|].
  destruct (newer_not_old W). rewrite low_bit by reflexivity. do 3 right. repeat split; auto. apply (sm_newer _ _ _ same W). cbn. tauto.
Qed.

Lemma no_more g : ~ In g absent64 -> has_arm true i32 g = true -> has_arm false i64 g = true.
Proof.
  intros A H. destruct g;
    try (exfalso; apply A; cbn; tauto);
    try (apply base_getters; cbn; tauto);
    try (apply half_no_more; [cbn; tauto|exact H]);
    try (eapply crypto_bits; [|exact H]; cbn; tauto);
    try (apply dot_no_more; exact H);
    rewrite i32_eq in H; destruct H.
Qed.

Lemma common_agree g : is_v8 compat2 (fst (last_architecture ps)) -> In g common_getters -> has_arm true i32 g = true <-> has_arm false i64 g = true.
Proof.
  intros V G. unfold common_getters in G. apply in_app_or in G. destruct G as [G|G].
  - split; intros _; [now apply base_getters|]. rewrite i32_eq. unfold base64 in G. cbn [In] in G.
    repeat (destruct G as [<-|G]; [cbn [meaning32]; unfold v8; cbn [in_features2 in_version x]; tauto|]). destruct G.
  - cbn [In] in G. repeat (destruct G as [<-|G]; [eapply crypto_bits; cbn; tauto|]). destruct G.
Qed.

Lemma half_agree g : is_v8 compat2 (fst (last_architecture ps)) -> designed midr fp16_designs32 -> In g half_getters ->
  has_arm true i32 g = true <-> has_arm false i64 g = true.
Proof.
  intros V D G. split; [now apply half_no_more|]. intros H. rewrite i64_eq in H.
  destruct (fp16_getters (u32 hwcap) hwcap2 midr chip) as (F & R & Q). rewrite Q in * || idtac.
  assert (E : ~ exynos_9810 chip).
  { unfold half_getters in G. cbn [In] in G. destruct G as [<-|[<-|[<-|[]]]]; [apply F in H|rewrite Q in H; apply F in H|apply R in H]; tauto. }
  rewrite i32_eq. unfold half_getters in G. cbn [In] in G. 
  repeat (destruct G as [<-|G]; [cbn [meaning32]; unfold v8, core_in; cbn [in_features2 in_version in_midr in_chip x]; tauto|]). destruct G.
Qed.

Lemma dot_agree : is_v8 compat2 (fst (last_architecture ps)) -> designed midr dot_known -> ~ faulty_dot chip ->
  has_arm true i32 Has_neon_dot = true <-> has_arm false i64 Has_neon_dot = true.
Proof.
  intros V D F. split; [exact dot_no_more|]. rewrite i32_eq, i64_eq, dot_getter. intros H. cbn [meaning32]. unfold v8. cbn [in_features2 in_version in_midr in_chip x].
  repeat split; auto. unfold known_dot32.
  assert (K : cortex_a55 midr \/ cortex_a75 midr \/ designed midr dot_designs32).
  { unfold cortex_a55, cortex_a75, designed, dot_known in *. cbn [In] in *. tauto. }
  destruct K as [K|[K|K]]; [| |tauto].
  - destruct H as [H|[H|[H|H]]]; [|tauto|tauto|tauto]. exfalso. unfold cortex_a55, designed in *. cbn [In] in K. destruct K as [K|[]]. rewrite <- K in H.
    vm_compute in H. repeat (destruct H as [H|H]; [discriminate H|]). destruct H.
  - destruct H as [H|[H|[H|H]]]; [|tauto|tauto|tauto]. exfalso. unfold cortex_a75, designed in *. cbn [In] in K. destruct K as [K|[]]. rewrite <- K in H.
    vm_compute in H. repeat (destruct H as [H|H]; [discriminate H|]). destruct H.
Qed.
End Machine.
