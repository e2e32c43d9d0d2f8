(** Property C102: 32-bit and 64-bit processes on one ARMv8 machine learn of the same extensions. *)
From Verif Require Import Base ArmClusterMidrModel ArmClustersModel ArmUarchModel ArmIsaModel ArmIsaSpec ArmModesSpec ArmModesProofs.
From Coq Require Import List Lia. Import ListNotations.
Open Scope N_scope.

(** A 32-bit process is told of no extension that a 64-bit process on the same machine is not told of, except those that exist in
    32-bit mode only (Thumb, VFPv2, WMMX and the like). *)
Theorem arm32_process_no_more : forall hwcap hwcap2 compat compat2 t t' chip ps,
  same_machine hwcap compat2 (last_midr ps) ->
  forall g, ~ In g absent64 ->
  has_arm true (arm_linux_isa true (Getauxval compat compat2) t' chip ps) g = true ->
  has_arm false (arm_linux_isa false (Getauxval hwcap hwcap2) t chip ps) g = true.
Proof. exact no_more. Qed.
Print Assumptions arm32_process_no_more.

(** If the kernel calls the processor ARMv8, or names one of its extensions, both learn of the same base and of the same cryptographic
    instructions. *)
Theorem arm_processes_agree : forall hwcap hwcap2 compat compat2 t t' chip ps,
  same_machine hwcap compat2 (last_midr ps) ->
  forall g, is_v8 compat2 (fst (last_architecture ps)) -> In g common_getters ->
  (has_arm true (arm_linux_isa true (Getauxval compat compat2) t' chip ps) g = true <->
   has_arm false (arm_linux_isa false (Getauxval hwcap hwcap2) t chip ps) g = true).
Proof. exact common_agree. Qed.
Print Assumptions arm_processes_agree.

(** They agree about FP16 arithmetic and RDM for the designs that the library knows to have them ... *)
Theorem arm_processes_agree_fp16 : forall hwcap hwcap2 compat compat2 t t' chip ps,
  same_machine hwcap compat2 (last_midr ps) ->
  forall g, is_v8 compat2 (fst (last_architecture ps)) -> designed (last_midr ps) fp16_designs32 -> In g half_getters ->
  (has_arm true (arm_linux_isa true (Getauxval compat compat2) t' chip ps) g = true <->
   has_arm false (arm_linux_isa false (Getauxval hwcap hwcap2) t chip ps) g = true).
Proof. exact half_agree. Qed.
Print Assumptions arm_processes_agree_fp16.

(** ... and about the dot product, unless the chip is one whose dot product is faulty. *)
Theorem arm_processes_agree_dot : forall hwcap hwcap2 compat compat2 t t' chip ps,
  same_machine hwcap compat2 (last_midr ps) ->
  is_v8 compat2 (fst (last_architecture ps)) -> designed (last_midr ps) dot_known -> ~ faulty_dot chip ->
  (has_arm true (arm_linux_isa true (Getauxval compat compat2) t' chip ps) Has_neon_dot = true <->
   has_arm false (arm_linux_isa false (Getauxval hwcap hwcap2) t chip ps) Has_neon_dot = true).
Proof. exact dot_agree. Qed.
Print Assumptions arm_processes_agree_dot.

(** A processor that /proc/cpuinfo calls ARMv8. *)
Definition armv8 (midr : N) : aproc := AProc 0x3F1000 midr 0 0 0 0 0 0 0 0 (AReport 8 0 l1_report0 l1_report0 0 0).

(** A Cortex-A78 and the words of Linux for it. *)
Example arm_processes_case :
  let ps := [armv8 0x411FD050; armv8 0x411FD410] in let chip := Chipset 0 0 0 in let t := Target true false 0 0 in
  last_midr ps = 0x411FD410 /\ same_machine 0x119FFFFF 0x1F (last_midr ps) /\ is_v8 0x1F (fst (last_architecture ps)) /\
  designed (last_midr ps) fp16_designs32 /\ designed (last_midr ps) dot_known /\ ~ faulty_dot chip /\
  has_arm true (arm_linux_isa true (Getauxval 0x27B0D6 0x1F) t chip ps) Has_neon_dot = true /\
  has_arm true (arm_linux_isa true (Getauxval 0x27B0D6 0x1F) t chip ps) Has_aes = true.
Proof.
  cbv zeta. split; [reflexivity|]. split.
  { split.
    - intros k K. assert (C : In k [0; 1; 2; 3; 4]) by (cbn; lia). cbn [In] in C.
      repeat (destruct C as [<-|C]; [vm_compute; reflexivity|]). destruct C.
    - intros _ k K. cbn [In] in K. repeat (destruct K as [<-|K]; [vm_compute; reflexivity|]). destruct K. }
  split; [left; vm_compute; discriminate|]. split; [vm_compute; tauto|]. split; [vm_compute; tauto|].
  split; [unfold faulty_dot; cbn; intros [(H & _)|[(H & _)|(H & _)]]; discriminate H|]. split; vm_compute; reflexivity.
Qed.

(** "A 32-bit process learns of all that a 64-bit process learns of, as far as 32-bit mode has it" is false: on Cortex-A78AE, which is
    not in the list of designs, FP16 arithmetic and the dot product are known by the kernel's word only, and 32-bit processes do not see it. *)
Theorem arm32_process_all_refuted : exists hwcap hwcap2 compat compat2 t chip ps,
  same_machine hwcap compat2 (last_midr ps) /\ is_v8 compat2 (fst (last_architecture ps)) /\ designed (last_midr ps) [(0x41, 0xD42)] /\
  forall g, In g [Has_fp16_arith; Has_neon_rdm; Has_neon_dot] ->
    has_arm false (arm_linux_isa false (Getauxval hwcap hwcap2) t chip ps) g = true /\
    has_arm true (arm_linux_isa true (Getauxval compat compat2) t chip ps) g = false.
Proof.
  exists 0x119FFFFF, 0, 0x27B0D6, 0x1F, (Target true false 0 0), (Chipset 0 0 0), [armv8 0x410FD421]. split.
  { split.
    - intros k K. assert (C : In k [0; 1; 2; 3; 4]) by (cbn; lia). cbn [In] in C.
      repeat (destruct C as [<-|C]; [vm_compute; reflexivity|]). destruct C.
    - intros _ k K. cbn [In] in K. repeat (destruct K as [<-|K]; [vm_compute; reflexivity|]). destruct K. }
  split; [left; vm_compute; discriminate|]. split; [vm_compute; tauto|].
  intros g K. cbn [In] in K. repeat (destruct K as [<-|K]; [vm_compute; split; reflexivity|]). destruct K.
Qed.
Print Assumptions arm32_process_all_refuted.
