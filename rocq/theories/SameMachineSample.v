(** One package of two cores with two threads each, on every system. *)
From Verif Require Import Base Text TopologySpec X86CpuinfoSpec X86LinuxModel X86LinuxSpec X86Sample X86OfflineSpec X86OfflineSample X86CountsSpec
  SameMachineSpec.
From Verif Require X86CountsModel X86CountsProps X86WindowsModel X86WindowsSpec X86WindowsProps.
From Coq Require Import NArith List Lia Arith. Import ListNotations.
Open Scope nat_scope.

Definition small_info : xinfo :=
  XInfo 1 2 3 0 1 1 1 (sample_cache 32768 1) (sample_cache 32768 1) (sample_cache 262144 1) (sample_cache 8388608 2) (sample_cache 0 0).
(** The same with a third level for each core. *)
Definition split_info : xinfo :=
  XInfo 1 2 3 0 1 1 1 (sample_cache 32768 1) (sample_cache 32768 1) (sample_cache 262144 1) (sample_cache 8388608 1) (sample_cache 0 0).
(** The same with one second level for both cores. *)
Definition wide_info : xinfo :=
  XInfo 1 2 3 0 1 1 1 (sample_cache 32768 1) (sample_cache 32768 1) (sample_cache 262144 2) (sample_cache 8388608 2) (sample_cache 0 0).

Definition small_mach : X86CountsModel.mach_answers := X86CountsModel.MachAnswers (Some 2%Z) (Some 4%Z) (Some 1%Z) None.
Definition small_groups : list N := text "<groups><group level=""1"" cache-level=""3""></group></groups>".
Definition small_freebsd : X86CountsModel.freebsd_answers := X86CountsModel.FreebsdAnswers (Some small_groups) (Some 2%Z) (Some 2%Z).
Definition small_windows : X86WindowsModel.windows_answers :=
  X86WindowsModel.WindowsAnswers false 1 (fun _ => 4) true (Some [X86WindowsModel.WInfo true [(0, 15%N)]])
    (Some [X86WindowsModel.WInfo true [(0, 3%N)]; X86WindowsModel.WInfo true [(0, 12%N)]]).

Lemma small_fields : fields_hold small_info 2 2.
Proof. repeat split; cbn; lia. Qed.
Lemma small_usual : usual_sharing small_info.
Proof. constructor; try reflexivity. left. discriminate. Qed.
Lemma small_defined : X86WindowsSpec.caches_defined small_info.
Proof. intros c H _. cbn in H. repeat destruct H as [<-|H]; try reflexivity. destruct H. Qed.

Lemma four_are_usable c : (c < 4)%N -> usable 64 (Some [(0, 3)]%N) (Some [(0, 3)]%N) threads_on_meanings c.
Proof.
  intros H. assert (L : exists a b, In (a, b) [(0, 3)]%N /\ (a <= c <= b)%N) by (exists 0%N, 3%N; split; [now left|lia]).
  split; [lia|]. split; exact L.
Qed.
Lemma small_linux x : xi_thread_length x = 1%N -> xi_core_length x = 1%N ->
  linux_machine x 1 2 2 (usable 64 (Some [(0, 3)]%N) (Some [(0, 3)]%N) threads_on_meanings) threads_on_meanings.
Proof.
  intros H1 H2. constructor.
  - intros k c j Hk Hc Hj. assert (k = 0) by lia. assert (C : c = 0 \/ c = 1) by lia. assert (J : j = 0 \/ j = 1) by lia. subst k.
    unfold apic_of. rewrite H1, H2.
    destruct C, J; subst c j; [exists 0%N|exists 2%N|exists 1%N|exists 3%N]; (split; [now apply four_are_usable|reflexivity]).
  - intros cpu U. apply four_usable in U. unfold apic_of. rewrite H1, H2.
    destruct U as [->|[->|[->| ->]]]; [exists 0, 0, 0|exists 0, 1, 0|exists 0, 0, 1|exists 0, 1, 1]; repeat (split; [lia|]); reflexivity.
  - exact threads_on_distinct.
Qed.

Lemma small_mach_says : mach_says (X86CountsModel.ma_physicalcpu_max small_mach) (X86CountsModel.ma_logicalcpu_max small_mach)
  (X86CountsModel.ma_packages small_mach) 1 (1 * 2) (1 * 2 * 2).
Proof. repeat split; reflexivity || (cbn; unfold two32; lia) || auto. Qed.
Lemma small_package : package_groups small_groups 1.
Proof.
  right. destruct (X86CountsProps.x86_freebsd_packages small_groups) as (n2 & n1 & O2 & O1 & E).
  revert E. vm_compute X86CountsModel.count_packages. destruct n2 as [|n2]; cbn [Nat.eqb].
  - intros E. injection E as <-. now split.
  - intros E. exfalso. destruct O2 as (l & ND & LN & IFF). destruct l as [|i l]; [discriminate LN|]. destruct (proj1 (IFF i) (or_introl eq_refl)) as (r & H).
    assert (L : i < 60). { destruct (Nat.lt_ge_cases i 60) as [Q|Q]; [exact Q|]. rewrite skipn_all2 in H; [discriminate H|refine (Nat.le_trans _ _ _ _ Q); vm_compute; lia]. }
    do 60 (destruct i as [|i]; [discriminate H|]). lia.
Qed.
Lemma small_windows_says : X86WindowsSpec.windows_says small_windows [4] [map (fun c => seq (c * 2) 2) (seq 0 2)].
Proof.
  constructor; try reflexivity.
  - constructor; [reflexivity| |]; repeat constructor; discriminate.
  - cbn. lia.
  - eexists. split; [reflexivity|]. split; [|reflexivity]. intros i e Hi Ht He. cbn in Hi.
    destruct Hi as [<-|[]]; cbn in He; destruct He as [<-|[]]; apply X86WindowsProps.mask_valid_15; cbn; lia.
  - eexists. split; [reflexivity|]. split; [|reflexivity]. intros i e Hi Ht He. cbn in Hi.
    destruct Hi as [<-|[<-|[]]]; cbn in He; destruct He as [<-|[]]; apply X86WindowsProps.mask_valid_15; cbn; lia.
Qed.
