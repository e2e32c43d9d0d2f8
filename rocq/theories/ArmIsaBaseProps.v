(** Property theorems about extensions of AArch64 and what they build on: C98. *)
From Verif Require Import Base ArmClustersModel ArmClusterMidrModel ArmUarchModel ArmIsaModel ArmIsaSpec ArmIsaBaseSpec ArmIsaBaseProofs.
Open Scope N_scope.

(** As on x86, if the kernel's words are complete. *)
Theorem arm64_builds_on : forall features features2 midr chip, kernel_complete features features2 -> forall a c, needs64 a c ->
  has_arm false (decode_isa64 features features2 midr chip no_isa) a = true ->
  has_arm false (decode_isa64 features features2 midr chip no_isa) c = true.
Proof. exact all_needs64. Qed.
Print Assumptions arm64_builds_on.

(** Extensions that take FP16 arithmetic for granted, except where the library hides it. *)
Theorem arm64_builds_on_fp16 : forall features features2 midr chip, kernel_complete features features2 -> forall g, In g on_fp16 -> ~ exynos_9810 chip ->
  has_arm false (decode_isa64 features features2 midr chip no_isa) g = true ->
  has_arm false (decode_isa64 features features2 midr chip no_isa) Has_fp16_arith = true.
Proof. exact fp16_under. Qed.
Print Assumptions arm64_builds_on_fp16.

Definition words_sample : N * N := (2 ^ 3 + 2 ^ 4 + 2 ^ 9 + 2 ^ 10 + 2 ^ 22 + 2 ^ 23, 2 ^ 1 + 2 ^ 12 + 2 ^ 14 + 2 ^ 23 + 2 ^ 37 + 2 ^ 38).
Definition chip_sample : chipset := Chipset 0 0 0.
Example arm64_builds_on_case :
  let '(f, f2) := words_sample in kernel_complete f f2 /\ needs64 Has_sme2p1 Has_sme /\ needs64 Has_sve2 Has_neon_v8 /\ ~ exynos_9810 chip_sample /\
  has_arm false (decode_isa64 f f2 0x410FD4F0 chip_sample no_isa) Has_sme2p1 = true /\
  has_arm false (decode_isa64 f f2 0x410FD4F0 chip_sample no_isa) Has_sve2 = true /\
  has_arm false (decode_isa64 f f2 0x410FD030 chip_sample no_isa) Has_fhm = true.
Proof.
  cbv beta iota delta [words_sample]. split.
  { intros v i w j H. cbn in H. repeat (destruct H as [H|H]; [injection H as <- <- <- <-; vm_compute; auto|]). destruct H. }
  split; [eapply needs64_step with (c := Has_sme2); [cbn; tauto|]; eapply needs64_step with (c := Has_sme); [cbn; tauto|apply needs64_self]|].
  split; [eapply needs64_step with (c := Has_sve); [cbn; tauto|]; eapply needs64_step with (c := Has_neon_v8); [cbn; tauto|apply needs64_self]|].
  split; [intros (H & _); discriminate H|]. repeat split; vm_compute; reflexivity.
Qed.
