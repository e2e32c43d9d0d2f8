(** Sample processor tables and sibling lists for the examples about ARM clusters. *)
From Verif Require Import Base LinuxTextModel LinuxTextSpec X86DetectProofs RiscvSample ArmClustersModel ArmClustersSpec.
Open Scope nat_scope.

(** A usable processor with a maximum frequency, and one that is not there. *)
Definition cpu_at (mhz : N) : aproc :=
  AProc (N.lor (N.lor af_valid af_package_id) af_max_frequency) 0 mhz 0 0 0 0 0 0 0 areport0.
Definition cpu_unknown : aproc := AProc (N.lor af_valid af_package_id) 0 0 0 0 0 0 0 0 0 areport0.
Definition absent : aproc := AProc 0 0 0 0 0 0 0 0 0 0 areport0.

Definition no_file : file := File None [].
Definition no_lists : nat -> sibling_files := fun _ => SiblingFiles no_file no_file.
Definition junk : known := Known 0xFFFFFFFF 1 2 3.

(** Eight CPUs of which the first is absent, two clusters; the lists name all
    possible CPUs, and there are no cluster_cpus_list files. *)
Definition two_clusters : list aproc := absent :: repeat (cpu_at 1000) 3 ++ repeat (cpu_at 2000) 4.
Definition half (c : nat) : nat := c / 4.
Definition half_lists (c : nat) : sibling_files :=
  SiblingFiles no_file (list_file (filter (fun j => half j =? half c) (seq 0 8))).

Lemma list_file_says_arm cpus : cpus <> [] -> Forall (fun c => c < 10) cpus ->
  X86LinuxSpec.list_says (list_file cpus) (Some (map (fun c => (N.of_nat c, N.of_nat c)) cpus)).
Proof. apply list_file_says. Qed.

Lemma listed_singles cpus j : listed (map (fun c => (N.of_nat c, N.of_nat c)) cpus) (N.of_nat j) <-> In j cpus.
Proof.
  unfold listed. split.
  - intros (f & l & H & B). apply in_map_iff in H. destruct H as (c & E & H). injection E as <- <-. now replace j with c by lia.
  - intros H. exists (N.of_nat j), (N.of_nat j). split; [|lia]. now apply (in_map (fun c => (N.of_nat c, N.of_nat c))).
Qed.

Lemma half_lists_say : kernel_lists two_clusters half_lists half.
Proof.
  assert (U : forall i, usable two_clusters i -> 1 <= i < 8).
  { intros i Hi. do 8 (destruct i as [|i]; [first [lia|discriminate Hi]|]). unfold usable in Hi. destruct i; discriminate Hi. }
  split.
  - intros i Hi. apply U in Hi. do 8 (destruct i as [|i]; [first [lia|reflexivity]|]). lia.
  - right. split; [intros; apply X86LinuxSpec.says_nothing; reflexivity|]. intros i Hi. apply U in Hi.
    exists (map (fun c => (N.of_nat c, N.of_nat c)) (filter (fun j => half j =? half i) (seq 0 8))). split.
    + apply list_file_says_arm; [|apply Forall_forall; intros c Hc; apply filter_In in Hc; destruct Hc as (Hc & _); apply in_seq in Hc; lia].
      intros E. assert (X : In i []); [|destruct X]. rewrite <- E. apply filter_In. split; [apply in_seq; lia|apply Nat.eqb_refl].
    + intros j Hj. apply U in Hj. rewrite listed_singles, filter_In, Nat.eqb_eq, in_seq. lia.
Qed.
Lemma two_clusters_uncounted i : a_count (entry two_clusters i) = 0.
Proof. do 8 (destruct i as [|i]; [reflexivity|]). now destruct i. Qed.

(** The kernel groups nothing: frequencies 1000, ?, 1000, 2000, ?, 1000. *)
Definition ungrouped : list aproc := leaders_are_self [cpu_at 1000; cpu_unknown; cpu_at 1000; absent; cpu_at 2000; cpu_unknown; cpu_at 1000].
Lemma ungrouped_leads_itself : kernel_grouped ungrouped.
Proof.
  intros i Hi. do 7 (destruct i as [|i]; [first [discriminate Hi|reflexivity]|]). unfold usable in Hi. destruct i; discriminate Hi.
Qed.

(** Four and four, of which the first is different from the next three. *)
Definition odd_first : list aproc := leaders_are_self (cpu_at 3000 :: repeat (cpu_at 1000) 3 ++ repeat (cpu_at 2000) 4).
Lemma odd_first_leads_itself : kernel_grouped odd_first.
Proof.
  intros i Hi. do 8 (destruct i as [|i]; [first [discriminate Hi|reflexivity]|]). unfold usable in Hi. destruct i; discriminate Hi.
Qed.
(** Eight usable processors. *)
Definition eight : list aproc := repeat cpu_unknown 8.
Lemma no_lists_commas i : commas (f_contents (sf_cluster_cpus (no_lists i))) /\ commas (f_contents (sf_core_siblings (no_lists i))).
Proof. split; intros c a w b X; discriminate X. Qed.
Lemma eight_uncounted i : a_count (entry eight i) = 0.
Proof. do 8 (destruct i as [|i]; [reflexivity|]). now destruct i. Qed.
