(** Two processors told by CPUID: the Intel one of X86DecodeSample, and one with six cores of two threads whose third level is shared by
    three cores (the leaves that matter of an AMD Ryzen 5 3600). *)
From Verif Require Import Base Text X86DescriptorModel X86DecodeModel X86DecodeSpec X86DecodeSample X86CachesSpec X86SystemsSpec.
From Verif Require Import X86CountsModel.
From Verif Require X86WindowsModel X86WindowsSpec.
Open Scope N_scope.

Definition matisse_leaf1d (i : N) : regs :=
  if i =? 0 then Regs 0x4121 0x01C0003F 63 0
  else if i =? 1 then Regs 0x4122 0x01C0003F 63 0
  else if i =? 2 then Regs 0x4143 0x01C0003F 1023 2
  else if i =? 3 then Regs 0x14163 0x03C0003F 16383 1
  else regs0.
Definition matisse : cpu :=
  Cpu (fun leaf i =>
    if leaf =? 0 then Regs 0x10 0x68747541 0x444D4163 0x69746E65
    else if leaf =? 1 then Regs 0x00870F10 0x000C0800 0x7EF8320B 0x178BFBFF
    else if leaf =? 0xB then
      if i =? 0 then Regs 1 2 0x100 0 else if i =? 1 then Regs 4 12 0x201 0 else Regs 0 0 2 0
    else if leaf =? 0x80000000 then Regs 0x80000020 0 0 0
    else if leaf =? 0x80000001 then Regs 0x00870F10 0x20000000 0x75C237FF 0x2FD3FBFF
    else if leaf =? 0x80000008 then Regs 0x3030 0x010EB757 0x400B 0x00010000
    else if leaf =? 0x8000001D then matisse_leaf1d i
    else regs0) (fun _ => regs0) 7 0xFFFF.

Lemma matisse_ok : forall l i, regs_ok (cpuidex matisse l i).
Proof.
  intros l i. unfold matisse, matisse_leaf1d. cbn [cpuidex].
  repeat match goal with |- context [if ?b then _ else _] => destruct b end; unfold regs_ok, two32, regs0; cbn [eax ebx ecx edx]; lia.
Qed.
Lemma matisse_ends : leaves_end matisse 10.
Proof. split; [leaf_end 0%nat|leaf_end 4%nat]. Qed.
Lemma matisse_tells : tells_by_leaf_1d matisse.
Proof. split; [vm_compute; discriminate|split; [discriminate|reflexivity]]. Qed.
Lemma matisse_sane : sane_topology matisse.
Proof. left. repeat split; vm_compute; discriminate. Qed.
Lemma matisse_leaf1d_ends : ends_at d_type matisse_leaf1d 4.
Proof. split; [reflexivity|]. split; [reflexivity|]. intros j H. destruct j as [|[|[|[|]]]]; try lia; vm_compute; discriminate. Qed.
Lemma matisse_l2 : level_in_cpuid (Build false false) matisse L2 false (matisse_leaf1d 2).
Proof.
  left. split; [exact matisse_tells|]. split; [reflexivity|]. exists 4%nat, 2%nat. split; [exact matisse_leaf1d_ends|]. split; [lia|]. split; [reflexivity|].
  split; [vm_compute; tauto|]. split; [|reflexivity]. intros j H. replace j with 3%nat by lia. vm_compute. intuition discriminate.
Qed.
Lemma matisse_l3 : level_in_cpuid (Build false false) matisse L3 false (matisse_leaf1d 3).
Proof.
  left. split; [exact matisse_tells|]. split; [reflexivity|]. exists 4%nat, 3%nat. split; [exact matisse_leaf1d_ends|]. split; [lia|]. split; [reflexivity|].
  split; [vm_compute; tauto|]. split; [|reflexivity]. lia.
Qed.

(** Windows: one group of twelve processors, one package of six cores. *)
Definition matisse_windows : X86WindowsModel.windows_answers :=
  X86WindowsModel.WindowsAnswers false 1 (fun _ => 12%nat) true
    (Some [X86WindowsModel.WInfo true [(0%nat, 0xFFF)]])
    (Some (map (fun c => X86WindowsModel.WInfo true [(0%nat, 3 * 4 ^ c)]) [0; 1; 2; 3; 4; 5])).
Definition matisse_machine : X86WindowsSpec.machine := [[[0; 1]; [2; 3]; [4; 5]; [6; 7]; [8; 9]; [10; 11]]]%nat.
(** FreeBSD and macOS: one package, six cores, two threads each. *)
Definition matisse_freebsd : freebsd_answers :=
  FreebsdAnswers (Some (text "<groups><group level=""1"" cache-level=""3""></group></groups>")) (Some 6%Z) (Some 2%Z).
Definition matisse_mach : mach_answers := MachAnswers (Some 6%Z) (Some 12%Z) (Some 1%Z) None.

Lemma below_twelve m : m < 4096 -> X86WindowsSpec.mask_valid [12%nat] (0%nat, m).
Proof.
  intros H. split; [cbn; lia|]. cbn [fst snd nth]. intros b Hb. destruct (N.lt_ge_cases b (N.of_nat 12)) as [Q|Q]; [exact Q|].
  exfalso. destruct (N.eq_dec m 0) as [->|Z]; [now rewrite N.bits_0 in Hb|].
  rewrite N.bits_above_log2 in Hb; [discriminate|]. eapply N.lt_le_trans; [|exact Q]. change 4096 with (2 ^ 12) in H. apply N.log2_lt_pow2; [lia|exact H].
Qed.
Lemma matisse_windows_says : X86WindowsSpec.windows_says matisse_windows [12%nat] matisse_machine.
Proof.
  constructor; try reflexivity.
  - constructor; [reflexivity| |]; repeat constructor; discriminate.
  - cbn. lia.
  - eexists. split; [reflexivity|]. split; [|reflexivity]. intros i e Hi Ht He. cbn in Hi. destruct Hi as [<-|[]]. cbn in He. destruct He as [<-|[]]. now apply below_twelve.
  - eexists. split; [reflexivity|]. split; [|reflexivity]. intros i e Hi Ht He. cbn in Hi. repeat destruct Hi as [<-|Hi]; try destruct Hi; cbn in He; (destruct He as [<-|[]]; now apply below_twelve).
Qed.
