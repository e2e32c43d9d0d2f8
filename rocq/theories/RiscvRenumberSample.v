(** Two cores, one with three threads and one with two, in two numberings. *)
From Coq Require Import NArith List Lia Arith Sorting.Permutation.
From Verif Require Import Base TopologySpec RiscvLinuxModel RiscvLinuxSpec RiscvRenumberSpec.
Import ListNotations.
Open Scope nat_scope.

Definition five_cpus : list nat := [0; 1; 2; 3; 4].
Definition big_first : grouping_fn := fun v c => match v with RPackage => 0 | _ => if c <? 3 then 0 else 1 end.
Definition small_first : grouping_fn := fun v c => match v with RPackage => 0 | _ => if c <? 2 then 0 else 1 end.
Definition two_on (c : nat) : nat := match c with 0 => 2 | 1 => 3 | 2 => 4 | 3 => 0 | _ => 1 end.

Lemma small_renumbered : riscv_renumbered two_on five_cpus big_first five_cpus small_first.
Proof.
  split.
  - apply (Permutation_app_comm [0; 1] [2; 3; 4]).
  - intros v a b Ha Hb. cbn in Ha, Hb.
    repeat (destruct Ha as [<-|Ha]); try destruct Ha; repeat (destruct Hb as [<-|Hb]); try destruct Hb; destruct v; vm_compute; split; intros H; reflexivity || discriminate H.
Qed.

Lemma five_nested group : (forall v c, v <> RPackage -> group v c = group RCore c) -> (forall c, group RPackage c = 0) -> nested five_cpus group.
Proof.
  intros H H0 p q _ _. rewrite !H0, !(H RCluster) by discriminate. auto.
Qed.

Lemma cut_contiguous k : contiguous five_cpus (fun v c => match v with RPackage => 0 | _ => if c <? k then 0 else 1 end).
Proof.
  intros v a b c _ _ _ H. destruct v; try reflexivity; cbv beta iota;
    destruct (Nat.ltb_spec a k), (Nat.ltb_spec b k), (Nat.ltb_spec c k); intros E; lia || discriminate E || reflexivity.
Qed.
