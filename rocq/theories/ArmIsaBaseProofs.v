(** Getters of AArch64 include what an extension builds on. *)
From Verif Require Import Base ArmClustersModel ArmClusterMidrModel ArmUarchModel ArmIsaModel ArmIsaSpec ArmIsaProofs ArmIsaBaseSpec.
Open Scope N_scope.

Section One.
Variables (features features2 midr : N) (chip : chipset).
Hypothesis K : kernel_complete features features2.
Notation yes g := (has_arm false (decode_isa64 features features2 midr chip no_isa) g = true).

Lemma by_bits a v i c w j : In (a, (v, i)) kernel_bits64 -> In (c, (w, j)) kernel_bits64 -> In ((v, i), (w, j)) bits_build_on -> yes a -> yes c.
Proof.
  intros A C B. rewrite (kernel_bits features features2 midr chip a v i A), (kernel_bits features features2 midr chip c w j C). exact (K v i w j B).
Qed.

Ltac bits v i w j := apply (by_bits _ v i _ w j); [cbn; tauto|cbn; tauto|cbn; tauto].

Lemma step64 a c : In (a, c) builds_on64 -> yes a -> yes c.
Proof.
  intros H. apply in_app_or in H. destruct H as [H|H].
  - cbn in H. repeat (destruct H as [H|H]; [injection H as <- <-|]); try destruct H.
    + bits Hwcap 4 Hwcap 3.
    + now rewrite (proj2 (proj2 (fp16_getters features features2 midr chip))).
    + now rewrite (proj2 (proj2 (fp16_getters features features2 midr chip))).
    + now rewrite (proj1 (proj2 (bf16_getters features features2 midr chip))).
    + bits Hwcap2 1 Hwcap 22.
    + rewrite (proj2 (proj2 (bf16_getters features features2 midr chip))). now intros E%Bool.andb_true_iff.
    + rewrite (proj2 (proj2 (bf16_getters features features2 midr chip))). now intros E%Bool.andb_true_iff.
    + bits Hwcap2 37 Hwcap2 23.
    + bits Hwcap2 38 Hwcap2 37.
    + bits Hwcap2 39 Hwcap2 37.
    + bits Hwcap2 40 Hwcap2 37.
    + bits Hwcap2 41 Hwcap2 37.
    + bits Hwcap2 42 Hwcap2 37.
  - apply in_map_iff in H. destruct H as (g & E & _). injection E as <- <-. intros _. apply (proj1 (base_getters _)). cbn. tauto.
Qed.

Lemma all_needs64 a c : needs64 a c -> yes a -> yes c.
Proof. intros N. induction N as [|a c d I _ IH]; [auto|]. intros Y. now apply IH, (step64 a). Qed.

Lemma fp16_under g : In g on_fp16 -> ~ exynos_9810 chip -> yes g -> yes Has_fp16_arith.
Proof.
  intros G X Y. apply (proj1 (fp16_getters features features2 midr chip)). split; [exact X|]. right.
  assert (B : bit features features2 Hwcap 10 = true).
  { destruct G as [<-|[<-|[]]].
    - rewrite (kernel_bits features features2 midr chip Has_fhm Hwcap 23) in Y by (cbn; tauto). apply (K Hwcap 23 Hwcap 10); [cbn; tauto|exact Y].
    - rewrite (kernel_bits features features2 midr chip Has_sve Hwcap 22) in Y by (cbn; tauto). apply (K Hwcap 22 Hwcap 10); [cbn; tauto|exact Y]. }
  split; [|exact B]. apply (K Hwcap 10 Hwcap 9); [cbn; tauto|exact B].
Qed.
End One.
