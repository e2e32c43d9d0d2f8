(** Sample for the examples about the order of subleaves. *)
From Verif Require Import Base X86DescriptorModel X86DecodeModel X86DecodeSpec X86DecodeSample SubleafOrderSpec.
From Coq Require Import List Lia. Import ListNotations.
Open Scope N_scope.

(** The caches of X86DecodeSample, in its order and in another one with a cache repeated. *)
Definition in_order (cores : N) : list regs := map (sample_leaf4 cores) [0; 1; 2; 3].
Definition shuffled_order (cores : N) : list regs := map (sample_leaf4 cores) [3; 1; 0; 3; 2].
Definition shuffled_leaf (cores i : N) : regs := nth (N.to_nat i) (shuffled_order cores) (sample_leaf4 cores 4).

Ltac four H := cbn [in_order map In] in H; destruct H as [<-|[<-|[<-|[<-|[]]]]].
Lemma lists_in_order cores : cores = 8 \/ cores = 1 -> lists (sample_leaf4 cores) (in_order cores).
Proof.
  intros [-> | ->]; (split; [reflexivity|]; split; [reflexivity|]);
    intros [|[|[|[|i]]]] r H; cbn in H; try (injection H as <-; split; [reflexivity|vm_compute; discriminate]); destruct i; discriminate.
Qed.
Lemma lists_shuffled cores : cores = 8 \/ cores = 1 -> lists (shuffled_leaf cores) (shuffled_order cores).
Proof.
  intros [-> | ->]; (split; [reflexivity|]; split; [reflexivity|]);
    intros [|[|[|[|[|i]]]]] r H; cbn in H; try (injection H as <-; split; [reflexivity|vm_compute; discriminate]); destruct i; discriminate.
Qed.
Lemma same_caches cores r : In r (shuffled_order cores) <-> In r (in_order cores).
Proof. unfold shuffled_order, in_order. cbn [map In]. tauto. Qed.
Lemma in_order_ok cores r : cores <= 64 -> In r (in_order cores) -> regs_ok r.
Proof. intros C H. four H; now apply sample_leaf4_ok. Qed.
Lemma in_order_distinct levels cores : cores = 8 \/ cores = 1 -> one_per_cache levels (in_order cores).
Proof.
  intros [-> | ->] r r' s H H' (* caches of different levels or types *); four H; four H'; try reflexivity; intros D D'; exfalso;
    destruct s; cbn [describes] in D, D'; repeat match goal with H : _ /\ _ |- _ => destruct H | H : _ \/ _ |- _ => destruct H end;
    match goal with H : _ |- _ => solve [vm_compute in H; discriminate H] end.
Qed.
Lemma in_order_cores cores : cores = 8 \/ cores = 1 -> same_cores (in_order cores).
Proof. intros [-> | ->] r r' H H'; four H; four H'; reflexivity. Qed.
