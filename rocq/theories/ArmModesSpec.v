(** One ARMv8 machine as the kernel describes it to 64-bit and to 32-bit processes; independent of the detection code. *)
From Verif Require Import Base ArmClusterMidrModel ArmClustersModel ArmIsaModel ArmIsaSpec.
Open Scope N_scope.

(** Cortex-A78, X1, A510, A710, X2, A715 and X3: designs with FP16 arithmetic, RDM and the dot product. *)
Definition newer_designs : list (N * N) :=
  [(0x41, 0xD41); (0x41, 0xD44); (0x41, 0xD46); (0x41, 0xD47); (0x41, 0xD48); (0x41, 0xD4D); (0x41, 0xD4E)].

(** [hwcap] is AT_HWCAP of 64-bit processes, [compat2] AT_HWCAP2 of 32-bit processes: the cryptographic instructions and CRC32 are
    in bits 3 to 7 of the one and 0 to 4 of the other, and the kernel tells 64-bit processes what the newer designs have. *)
Record same_machine (hwcap compat2 midr : N) : Prop := {
  sm_crypto : forall k, k < 5 -> N.testbit compat2 k = N.testbit hwcap (k + 3);
  sm_newer : designed midr newer_designs -> forall k, In k [9; 10; 12; 20] -> N.testbit hwcap k = true
}.

(** Extensions that the kernel tells both kinds of processes, or that ARMv8 requires. *)
Definition common_getters : list getter := base64 ++ [Has_aes; Has_pmull; Has_sha1; Has_sha2; Has_crc32].
Definition half_getters : list getter := [Has_fp16_arith; Has_neon_fp16_arith; Has_neon_rdm].
(** Designs for which the library knows in 32-bit processes whether they have the dot product. *)
Definition dot_known : list (N * N) := (0x41, 0xD05) :: (0x41, 0xD0A) :: dot_designs32.
