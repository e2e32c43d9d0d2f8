(** Which extensions of AArch64 build on which, from the architecture's manual. *)
From Verif Require Import Base ArmClustersModel ArmClusterMidrModel ArmUarchModel ArmIsaModel ArmIsaSpec.
Open Scope N_scope.

(** The kernel's bits: the extension of the first one takes that of the second one for granted. *)
Definition bits_build_on : list ((word * N) * (word * N)) :=
  [((Hwcap, 4), (Hwcap, 3)); (* PMULL, AES *)
   ((Hwcap, 10), (Hwcap, 9)); (* FP16 in vectors and in scalars *) ((Hwcap, 9), (Hwcap, 10));
   ((Hwcap, 23), (Hwcap, 10)); (* FHM, FP16 *) ((Hwcap, 22), (Hwcap, 10)); (* SVE, FP16 *)
   ((Hwcap2, 1), (Hwcap, 22)); (* SVE2, SVE *) ((Hwcap2, 12), (Hwcap2, 14)); (* BF16 in SVE, BF16 *) ((Hwcap2, 12), (Hwcap, 22));
   ((Hwcap2, 37), (Hwcap2, 23)); (* SME2, SME *) ((Hwcap2, 38), (Hwcap2, 37)); (* SME2.1, SME2 *)
   ((Hwcap2, 39), (Hwcap2, 37)); ((Hwcap2, 40), (Hwcap2, 37)); ((Hwcap2, 41), (Hwcap2, 37)); ((Hwcap2, 42), (Hwcap2, 37))].
(** A kernel that reports nothing without what it builds on. *)
Definition kernel_complete (features features2 : N) : Prop :=
  forall v i w j, In ((v, i), (w, j)) bits_build_on -> bit features features2 v i = true -> bit features features2 w j = true.

(** The same for getters. *)
Definition builds_on64 : list (getter * getter) :=
  [(Has_pmull, Has_aes); (Has_fp16_arith, Has_neon_fp16_arith); (Has_neon_fp16_arith, Has_fp16_arith); (Has_neon_bf16, Has_bf16);
   (Has_sve2, Has_sve); (Has_sve_bf16, Has_sve); (Has_sve_bf16, Has_bf16); (Has_sme2, Has_sme); (Has_sme2p1, Has_sme2);
   (Has_sme_i16i32, Has_sme2); (Has_sme_bi32i32, Has_sme2); (Has_sme_b16b16, Has_sme2); (Has_sme_f16f16, Has_sme2)] ++
  map (fun g => (g, Has_neon_v8))
    [Has_aes; Has_sha1; Has_sha2; Has_neon_rdm; Has_neon_dot; Has_neon_fp16_arith; Has_neon_bf16; Has_i8mm; Has_fcma; Has_fhm; Has_jscvt; Has_sve].
(** These take FP16 arithmetic for granted. *)
Definition on_fp16 : list getter := [Has_fhm; Has_sve].

Inductive needs64 : getter -> getter -> Prop :=
| needs64_self g : needs64 g g
| needs64_step a c d : In (a, c) builds_on64 -> needs64 c d -> needs64 a d.
