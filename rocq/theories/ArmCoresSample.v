(** A machine with four Cortex-A53 and four Cortex-A57, and one with four Cortex-A78. *)
From Verif Require Import Base Sorting Text TopologySpec ArmClusterMidrModel ArmCpuinfoSpec ArmLinuxModel ArmLinuxSpec ArmLinuxSample ArmMidrSpec.
Open Scope nat_scope.

Definition eight : machine :=
  Machine [0; 1; 2; 3; 4; 5; 6; 7] (map (fun c => Scpu c 0x41 (if c <? 4 then 0xD03%N else 0xD07%N) 8) [0; 1; 2; 3; 4; 5; 6; 7])
    (fun c => c / 4) (fun c => if c <? 4 then "1500000"%string else "2000000"%string).
Definition eight_midr (c : nat) : N := if c <? 4 then 0x411FD030%N else 0x411FD070%N.
Definition four_a78 : machine :=
  Machine [0; 1; 2; 3] (map (fun c => Scpu c 0x41 0xD41%N 8) [0; 1; 2; 3]) (fun _ => 0) (fun _ => "2400000"%string).

Lemma eight_ok : machine_ok eight. Proof. machine_is_ok. Qed.
Lemma four_a78_ok : machine_ok four_a78. Proof. machine_is_ok. Qed.
Lemma eight_groups : groups_say (machine_usable eight) (arm_machine_files eight) (m_group eight).
Proof. apply machine_groups; [apply eight_ok|intros c Hc; cbn in Hc; repeat (destruct Hc as [<-|Hc]; [reflexivity|]); destruct Hc]. Qed.
Lemma four_a78_groups : groups_say (machine_usable four_a78) (arm_machine_files four_a78) (m_group four_a78).
Proof. apply machine_groups; [apply four_a78_ok|intros c Hc; cbn in Hc; repeat (destruct Hc as [<-|Hc]; [reflexivity|]); destruct Hc]. Qed.
Lemma eight_usable c : machine_usable eight c -> In c (m_cpus eight).
Proof. intros H. apply machine_usable_iff in H; [exact H|repeat constructor]. Qed.
Ltac its_midr := split; [exists 8%N, []; vm_compute; tauto|]; intros [] F; try congruence; (split; [eexists; vm_compute; eauto 12|vm_compute; reflexivity]).
Lemma eight_midrs : midrs_given (machine_usable eight) (meanings eight) (m_group eight) eight_midr.
Proof.
  split.
  - intros c H. apply eight_usable in H. cbn in H. repeat (destruct H as [<-|H]; [its_midr|]). destruct H.
  - intros a b A B. apply eight_usable in A. apply eight_usable in B. cbn in A, B.
    repeat (destruct A as [<-|A]; [repeat (destruct B as [<-|B]; [vm_compute; congruence|]); destruct B|]). destruct A.
Qed.
Lemma four_a78_midrs : midrs_given (machine_usable four_a78) (meanings four_a78) (m_group four_a78) (fun _ => 0x411FD410%N).
Proof.
  split; [|reflexivity]. intros c H. apply machine_usable_iff in H; [|repeat constructor]. cbn in H. repeat (destruct H as [<-|H]; [its_midr|]). destruct H.
Qed.
