(** Four Cortex-A7 and four Cortex-A15. *)
From Verif Require Import Base Sorting Text TopologySpec ArmClusterMidrModel ArmCpuinfoSpec ArmLinuxModel ArmLinuxSpec ArmLinuxSample ArmCacheModel
  ArmDecodersModel ArmClustersSample ArmCoresSample ArmMidrSpec.
Open Scope nat_scope.

Definition eight_32 : machine :=
  Machine [0; 1; 2; 3; 4; 5; 6; 7] (map (fun c => Scpu c 0x41 (if c <? 4 then 0xC07%N else 0xC0F%N) 7) [0; 1; 2; 3; 4; 5; 6; 7])
    (fun c => c / 4) (fun c => if c <? 4 then "1400000"%string else "1800000"%string).
Definition eight_32_midr (c : nat) : N := if c <? 4 then 0x411FC070%N else 0x411FC0F0%N.
(** 32-bit programs for ARMv7-A. *)
Definition v7 : build := Build true true false false.
Definition detect_32 (m : machine) : res aoutcome :=
  arm_linux_init true true false junk 64 (arm_sort true) (fun _ => true) (library_decoders v7 (fun _ _ _ => Ok unknown_chip)) (arm_machine_files m).

Lemma eight_32_ok : machine_ok eight_32. Proof. machine_is_ok. Qed.
Lemma eight_32_groups : groups_say (machine_usable eight_32) (arm_machine_files eight_32) (m_group eight_32).
Proof. apply machine_groups; [apply eight_32_ok|intros c Hc; cbn in Hc; repeat (destruct Hc as [<-|Hc]; [reflexivity|]); destruct Hc]. Qed.
Lemma eight_32_usable c : machine_usable eight_32 c -> In c (m_cpus eight_32).
Proof. intros H. apply machine_usable_iff in H; [exact H|repeat constructor]. Qed.
Lemma eight_32_midrs : midrs_given (machine_usable eight_32) (meanings eight_32) (m_group eight_32) eight_32_midr.
Proof.
  split.
  - intros c H. apply eight_32_usable in H. cbn in H.
    repeat (destruct H as [<-|H]; [split; [exists 7%N, []; vm_compute; tauto|]; intros [] F; try congruence; (split; [eexists; vm_compute; eauto 12|vm_compute; reflexivity])|]).
    destruct H.
  - intros a b A B. apply eight_32_usable in A. apply eight_32_usable in B. cbn in A, B.
    repeat (destruct A as [<-|A]; [repeat (destruct B as [<-|B]; [vm_compute; congruence|]); destruct B|]). destruct A.
Qed.
