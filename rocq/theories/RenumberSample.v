(** The sample machine with its four CPUs numbered core by core. *)
From Coq Require Import NArith String List Lia.
From Verif Require RiscvLinuxModel RiscvLinuxSpec.
From Verif Require Import Base Text LinuxTextModel LinuxTextSpec TopologySpec X86CpuinfoModel X86CpuinfoSpec X86LinuxModel X86LinuxSpec X86Sample
  X86OfflineSpec X86OfflineSample RenumberSpec.
Import ListNotations.
Open Scope N_scope.

(** In [threads_on_lines], CPUs 0 and 2 are the threads of the first core; here, CPUs 0 and 1. *)
Definition by_core_lines : list (list N) :=
  [text "processor" ++ [9] ++ text ": 0"; text "apicid" ++ [9; 9] ++ text ": 0"; [];
   text "processor" ++ [9] ++ text ": 1"; text "apicid" ++ [9; 9] ++ text ": 1"; [];
   text "processor" ++ [9] ++ text ": 2"; text "apicid" ++ [9; 9] ++ text ": 2"; [];
   text "processor" ++ [9] ++ text ": 3"; text "apicid" ++ [9; 9] ++ text ": 3"; []].
Definition by_core_meanings : list meaning :=
  [Announces 0; Gives 0; Nothing; Announces 1; Gives 1; Nothing; Announces 2; Gives 2; Nothing; Announces 3; Gives 3; Nothing].
Definition swap12 (c : N) : N := match c with 1 => 2 | 2 => 1 | _ => c end.

Lemma by_core_say : files_say 32 (four_cpus by_core_lines) 64 (Some [(0, 3)]) (Some [(0, 3)]) by_core_meanings.
Proof.
  apply four_cpus_say; [discriminate| |cbn; lia|its_lines].
  repeat constructor; cbn; intros H; repeat destruct H as [H|H]; discriminate || exact H.
Qed.

Lemma usable_four ms c : c = 0 \/ c = 1 \/ c = 2 \/ c = 3 -> usable 64 (Some [(0, 3)]) (Some [(0, 3)]) ms c.
Proof. intros H. split; [lia|]. split; exists 0, 3; (split; [now left|lia]). Qed.

Lemma by_core_renumbered : renumbered swap12 (usable 64 (Some [(0, 3)]) (Some [(0, 3)]) threads_on_meanings) threads_on_meanings
  (usable 64 (Some [(0, 3)]) (Some [(0, 3)]) by_core_meanings) by_core_meanings.
Proof.
  split.
  - intros c H. apply four_usable in H. destruct H as [->|[->|[->| ->]]]; (split; [apply usable_four; cbn; auto|vm_compute; reflexivity]).
  - intros c H. apply four_usable in H. exists (swap12 c). split; [apply usable_four|]; destruct H as [->|[->|[->| ->]]]; cbn; auto.
Qed.

(** The RISC-V machine with cores {0, 1} and {2, 3}; numbered otherwise, it has cores {0, 2} and {1, 3}. *)
Definition by_core_group : RiscvLinuxSpec.grouping_fn := fun v c => match v with RiscvLinuxModel.RCore => (c / 2)%nat | _ => 0%nat end.
Definition swap_cpus (c : nat) : nat := match c with 1 => 2 | 2 => 1 | _ => c end%nat.
