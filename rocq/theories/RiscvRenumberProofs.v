(** RISC-V Linux: the numbers of the CPUs do not matter as long as groups have consecutive ones. *)
From Coq Require Import NArith List Lia Bool Arith Sorting.Permutation Sorting.Sorted.
From Verif Require Import Base TopologySpec RiscvLinuxModel RiscvLinuxSpec RiscvInitProofs ArmRenumberProofs RiscvRenumberSpec.
Import ListNotations.
Open Scope nat_scope.

Section Renumber.
  Context (f : nat -> nat) (cpus cpus' : list nat) (group group' : grouping_fn).
  Hypothesis R : riscv_renumbered f cpus group cpus' group'.

  Lemma members_perm v p : In p cpus -> Permutation (members cpus' group' v (f p)) (map f (members cpus group v p)).
  Proof using R.
    intros Hp. destruct R as [P G]. unfold members.
    assert (H : forall l l' (g : nat -> bool), Permutation l l' -> Permutation (filter g l) (filter g l')).
    { intros l l' g H. induction H; cbn; [constructor| | |].
      - destruct (g x); [now constructor|assumption].
      - destruct (g x), (g y); try reflexivity. constructor.
      - etransitivity; eauto. }
    rewrite (H _ _ _ P). clear P H.
    assert (E : forall l, incl l cpus -> filter (fun q => group' v q =? group' v (f p)) (map f l) = map f (filter (fun q => group v q =? group v p) l)).
    { induction l as [|a l IH]; intros I; cbn; [reflexivity|].
      assert (B : (group' v (f a) =? group' v (f p)) = (group v a =? group v p)).
      { apply Bool.eq_iff_eq_true. rewrite !Nat.eqb_eq. apply G; [apply I; now left|exact Hp]. }
      rewrite B, IH by (intros x Hx; apply I; now right). destruct (group v a =? group v p); reflexivity. }
    now rewrite E by apply incl_refl.
  Qed.

  Lemma groups_count v l l' : incl l cpus -> Permutation l' (map f l) -> distinct_groups group' v l' = distinct_groups group v l.
  Proof using R.
    intros I P. destruct R as [_ G]. unfold distinct_groups. apply Nat.le_antisymm.
    - apply (inject_length (fun x y => exists a, In a l /\ group' v (f a) = x /\ group v a = y)).
      + apply NoDup_nodup.
      + intros x Hx. apply nodup_In, in_map_iff in Hx. destruct Hx as (b & <- & Hb). apply (Permutation_in _ P), in_map_iff in Hb.
        destruct Hb as (a & <- & Ha). exists (group v a). split; [|eauto]. apply nodup_In, in_map, Ha.
      + intros x x' y _ _ (a & Ha & <- & <-) (b & Hb & <- & E). apply G; auto.
    - apply (inject_length (fun y x => exists a, In a l /\ group' v (f a) = x /\ group v a = y)).
      + apply NoDup_nodup.
      + intros y Hy. apply nodup_In, in_map_iff in Hy. destruct Hy as (a & <- & Ha). exists (group' v (f a)). split; [|eauto].
        apply nodup_In, in_map, (Permutation_in _ (Permutation_sym P)), in_map, Ha.
      + intros y y' x _ _ (a & Ha & <- & <-) (b & Hb & E & <-). apply G; auto.
  Qed.
End Renumber.

Lemma cpu_in cpus group t p : riscv_reports cpus group t -> In p (rt_processors t) -> In (N.to_nat (p_linux_id p)) cpus.
Proof.
  intros R H. apply (in_map p_linux_id) in H. rewrite (rr_processors _ _ _ R) in H. apply in_map_iff in H. destruct H as (c & <- & Hc).
  now rewrite Nat2N.id.
Qed.

Lemma riscv_renumber char_signed char_signed' default default' sorter sorter' fs fs' f cpus group cpus' group' :
  riscv_files_say default fs cpus group -> nested cpus group -> contiguous cpus group -> order_keeping sorter ->
  riscv_files_say default' fs' cpus' group' -> contiguous cpus' group' -> order_keeping sorter' ->
  riscv_renumbered f cpus group cpus' group' ->
  exists t o t' o', riscv_linux_init char_signed default sorter (fun _ => true) fs = Ok o /\ ro_published o = Some t /\
    riscv_linux_init char_signed' default' sorter' (fun _ => true) fs' = Ok o' /\ ro_published o' = Some t' /\ riscv_alike f t t'.
Proof.
  intros FS NE CO OK FS' CO' OK' R.
  assert (NE' : nested cpus' group').
  { intros p q Hp Hq. destruct R as [P G]. apply (Permutation_in _ P), in_map_iff in Hp, Hq. destruct Hp as (a & <- & Ha), Hq as (b & <- & Hb).
    rewrite !G by assumption. now apply NE. }
  destruct (init_reports char_signed default sorter fs cpus group FS NE CO OK) as (t & o & E & PU & RE & _ & L1 & L2 & L3 & L4 & L5 & _).
  destruct (init_reports char_signed' default' sorter' fs' cpus' group' FS' NE' CO' OK') as (t' & o' & E' & PU' & RE' & _ & L1' & L2' & L3' & L4' & L5' & _).
  exists t, o, t', o'. split; [exact E|]. split; [exact PU|]. split; [exact E'|]. split; [exact PU'|].
  pose proof (rv_same _ _ _ _ _ R) as P.
  assert (LC : length cpus' = length cpus) by (rewrite (Permutation_length P); apply map_length).
  assert (DG : forall v, distinct_groups group' v cpus' = distinct_groups group v cpus) by (intros v; apply (groups_count f cpus cpus' group group' R); [apply incl_refl|exact P]).
  constructor.
  - now rewrite L1, L2, L3, L4, L1', L2', L3', L4', LC, !DG.
  - now rewrite L5, L5', LC, L2, L2', DG.
  - intros p Hp. pose proof (cpu_in _ _ _ _ RE Hp) as Hc. apply (in_map f) in Hc. apply (Permutation_in _ (Permutation_sym P)) in Hc.
    apply (in_map N.of_nat) in Hc. rewrite <- (rr_processors _ _ _ RE') in Hc. apply in_map_iff in Hc. destruct Hc as (p' & Ep & Hp'). eauto.
  - intros p p' Hp Hp' Ep. pose proof (cpu_in _ _ _ _ RE Hp) as Hc.
    destruct (rr_records _ _ _ RE p Hp) as (c & l & k & C1 & C2 & C3 & _ & _ & _ & _ & N1 & _ & N2 & N3 & _ & N4 & N5 & N6).
    destruct (rr_records _ _ _ RE' p' Hp') as (c' & l' & k' & C1' & C2' & C3' & _ & _ & _ & _ & N1' & _ & N2' & N3' & _ & N4' & N5' & N6').
    cbv zeta in *. rewrite Ep, Nat2N.id in *. set (cpu := N.to_nat (p_linux_id p)) in *.
    assert (MP : forall v, Permutation (members cpus' group' v (f cpu)) (map f (members cpus group v cpu))) by (intros v; now apply members_perm).
    assert (ML : forall v, length (members cpus' group' v (f cpu)) = length (members cpus group v cpu)) by (intros v; rewrite (Permutation_length (MP v)); apply map_length).
    assert (MD : forall w v, distinct_groups group' w (members cpus' group' v (f cpu)) = distinct_groups group w (members cpus group v cpu)).
    { intros w v. apply (groups_count f cpus cpus' group group' R); [|apply MP]. intros x Hx. now apply filter_In in Hx. }
    exists c, l, k, c', l', k'. repeat (split; [assumption|]).
    rewrite N1, N2, N3, N4, N5, N6, N1', N2', N3', N4', N5', N6', !ML, !MD. auto.
  - intros p q p' q' Hp Hq Hp' Hq' Ep Eq. pose proof (cpu_in _ _ _ _ RE Hp) as Hc. pose proof (cpu_in _ _ _ _ RE Hq) as Hd.
    rewrite (proj1 (rr_cores _ _ _ RE) p q), (proj1 (rr_clusters _ _ _ RE) p q), (proj1 (rr_packages _ _ _ RE) p q) by assumption.
    rewrite (proj1 (rr_cores _ _ _ RE') p' q'), (proj1 (rr_clusters _ _ _ RE') p' q'), (proj1 (rr_packages _ _ _ RE') p' q') by assumption.
    rewrite Ep, Eq, !Nat2N.id. repeat split; apply (rv_groups _ _ _ _ _ R); assumption.
Qed.
