(** Four Cortex-A53 and four Cortex-A57 once more, with even and odd numbers. *)
From Verif Require Import Base Text TopologySpec ArmClustersModel ArmClusterMidrModel ArmCpuinfoModel ArmCpuinfoSpec ArmLinuxModel ArmLinuxSpec ArmLinuxSample
  ArmMidrSpec ArmCoresSpec ArmCoresSample ArmRenumberSpec.
Open Scope nat_scope.

Definition every_other : machine :=
  Machine [0; 1; 2; 3; 4; 5; 6; 7] (map (fun c => Scpu c 0x41 (if Nat.even c then 0xD03%N else 0xD07%N) 8) [0; 1; 2; 3; 4; 5; 6; 7])
    (fun c => c mod 2) (fun c => if Nat.even c then "1500000"%string else "2000000"%string).
Definition every_other_midr (c : nat) : N := if Nat.even c then 0x411FD030%N else 0x411FD070%N.
(** From the numbers of [eight] to those of [every_other]. *)
Definition deal (c : nat) : nat := if c <? 4 then 2 * c else 2 * (c - 4) + 1.

Lemma every_other_ok : machine_ok every_other. Proof. machine_is_ok. Qed.
Lemma every_other_groups : groups_say (machine_usable every_other) (arm_machine_files every_other) (m_group every_other).
Proof. apply machine_groups; [apply every_other_ok|intros c Hc; cbn in Hc; repeat (destruct Hc as [<-|Hc]; [reflexivity|]); destruct Hc]. Qed.
Lemma every_other_midrs : midrs_given (machine_usable every_other) (meanings every_other) (m_group every_other) every_other_midr.
Proof.
  split.
  - intros c H. apply machine_usable_iff in H; [|repeat constructor]. cbn in H. repeat (destruct H as [<-|H]; [its_midr|]). destruct H.
  - intros a b A B. apply machine_usable_iff in A; [|repeat constructor]. apply machine_usable_iff in B; [|repeat constructor]. cbn in A, B.
    repeat (destruct A as [<-|A]; [repeat (destruct B as [<-|B]; [vm_compute; congruence|]); destruct B|]). destruct A.
Qed.

Lemma dealt : arm_renumbered deal (machine_usable eight) (m_group eight) eight_midr (machine_usable every_other) (m_group every_other) every_other_midr.
Proof.
  assert (U : forall c, machine_usable eight c <-> In c [0; 1; 2; 3; 4; 5; 6; 7]) by (intros c; apply machine_usable_iff; repeat constructor).
  assert (U' : forall c, machine_usable every_other c <-> In c [0; 1; 2; 3; 4; 5; 6; 7]) by (intros c; apply machine_usable_iff; repeat constructor).
  split.
  - intros c H. apply U in H. cbn in H. repeat (destruct H as [<-|H]; [split; [apply U'; cbn; tauto|reflexivity]|]). destruct H.
  - intros c H. apply U' in H. exists (c / 2 + 4 * (c mod 2)). rewrite U. cbn in H.
    repeat (destruct H as [<-|H]; [split; [vm_compute; tauto|reflexivity]|]). destruct H.
  - intros a b A B. apply U in A. apply U in B. cbn in A, B.
    repeat (destruct A as [<-|A]; [repeat (destruct B as [<-|B]; [vm_compute; congruence|]); destruct B|]). destruct A.
  - intros a b A B. apply U in A. apply U in B. cbn in A, B.
    repeat (destruct A as [<-|A]; [repeat (destruct B as [<-|B]; [vm_compute; split; congruence|]); destruct B|]). destruct A.
Qed.
