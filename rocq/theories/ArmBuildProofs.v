(** The published tables of ARM Linux, and the memory left behind. *)
From Verif Require Import Base BaseProofs Sorting Runs GroupArray Loops TopologySpec ArmMidrModel ArmClustersModel ArmClustersSpec
  ArmClustersProofs ArmClusterMidrModel ArmClusterMidrSpec ArmLinuxModel ArmOrderProofs ArmSortedProofs ArmTablesProofs.
From Verif Require X86LinuxModel.
Import X86LinuxModel(cache_size_at).
Open Scope nat_scope.

(** ** Memory *)
Lemma ablock_eqb_eq a b : ablock_eqb a b = true <-> a = b.
Proof. destruct a, b; cbn; split; intros H; try reflexivity; discriminate. Qed.

Lemma in_ablocks_spec b l : in_ablocks b l = true <-> In b l.
Proof.
  unfold in_ablocks. rewrite existsb_exists. split.
  - intros (x & H & E). apply ablock_eqb_eq in E. now subst.
  - intros H. exists b. split; [exact H|]. now apply ablock_eqb_eq.
Qed.

(** Allocation succeeds when every block does; otherwise some of them are live. *)
Lemma aallocate_spec calloc_ok : forall todo live,
  (forallb calloc_ok todo = true -> aallocate calloc_ok todo live = (true, rev todo ++ live)) /\
  (forallb calloc_ok todo = false -> exists some, aallocate calloc_ok todo live = (false, some ++ live)).
Proof.
  induction todo as [|b todo IH]; intros live; cbn [forallb aallocate]; [split; [reflexivity|discriminate]|].
  destruct (calloc_ok b); cbn [andb].
  - destruct (IH (b :: live)) as (I1 & I2). split.
    + intros H. rewrite (I1 H). cbn [rev]. now rewrite <- app_assoc.
    + intros H. destruct (I2 H) as (some & E). exists (some ++ [b]). rewrite E. now rewrite <- app_assoc.
  - split; [discriminate|]. intros _. now exists [].
Qed.

Lemma every_block_freed b : In b arm_frees.
Proof. destruct b; cbn; tauto. Qed.

Lemma acleanup_all live : acleanup [] live = [].
Proof.
  unfold acleanup. rewrite (filter_ext_in _ (fun _ => false)).
  - induction live; auto.
  - intros [] _; reflexivity.
Qed.

Lemma acleanup_reset live : acleanup arm_reset live = filter (fun b => negb (ablock_eqb b A_linux_processors)) live.
Proof. unfold acleanup. apply filter_ext. intros []; reflexivity. Qed.

(** ** The tables *)
Section BUILD.
  Variables (arm32 : bool) (ps ss : list aproc) (n : nat).
  Hypothesis A : arranged arm32 ps ss n.
  Hypothesis N0 : 0 < n.
  (** The first [m] of the [n] usable processors are listed. *)
  Variable m : nat.
  Hypothesis M0 : 0 < m.
  Hypothesis MN : m <= n.
  Variables (d : arm_decoders) (chip : chipset) (g1i g1d g2 g3 : nat -> geometry).
  Hypothesis DEC : forall i, i < m -> caches_of d chip (cluster_of ss i) (entry ss i) = Ok (g1i i, g1d i, g2 i, g3 i).
  Hypothesis UNI : forall i j, i < m -> j < m -> cluster_of ss i = cluster_of ss j -> has2 g2 i = has2 g2 j /\ has3 g3 i = has3 g3 j.

  Notation first2 := (first2 ss g2 g3).
  Notation first3 := (first3 ss g3).
  Notation total3 := (total3 ss m g2 g3).
  Notation shared3 := (shared3 ss m g2 g3).

  (** The blocks that are needed. *)
  Definition arm_blocks : list ablock :=
    arm_allocations (cnt n (starts_uarch ss)) ++ arm_cache_allocations (cnt m first2) total3.

  Lemma l3_table_done : l3_table ss m g2 g3 m = map (l3_at ss m g2 g3) (firstn total3 (filter first3 (seq 0 m))).
  Proof.
    unfold l3_table. pose proof (total3_le arm32 ps ss n A N0 m M0 MN g2 g3) as L.
    replace (total3 - cnt m first3) with 0 by lia. apply app_nil_r.
  Qed.

  (** What the maximum cache size is. *)
  Definition max_at : N :=
    match ad_max_cache d (a_uarch (entry ss 0)) with
    | Some s => s
    | None => if has3 g3 0 then g_size (g3 0) else if has2 g2 0 then g_size (g2 0) else g_size (ca_geometry (l1d_at arm32 ss g1d 0))
    end.

  Lemma nth_firstn {X} (l : list X) : forall k i, i < k -> nth_error (firstn k l) i = nth_error l i.
  Proof. induction l as [|x l IH]; intros k i H; [now rewrite firstn_nil|]. destruct k; [lia|]. destruct i; [reflexivity|]. cbn. apply IH. lia. Qed.

  Lemma l3_of_0 : has3 g3 0 = true -> l3_of ss m g2 g3 0 = Some 0.
  Proof.
    intros H. unfold l3_of. rewrite H. destruct shared3; [reflexivity|].
    assert (F : first3 0 = true) by (unfold ArmTablesProofs.first3; now rewrite H, (new_first arm32 ps ss n A N0)).
    replace (cnt 1 first3 <=? total3) with true.
    - unfold grp. cbn. rewrite F. reflexivity.
    - symmetry. apply Nat.leb_le. rewrite (total3_is arm32 ps ss n A N0 m M0 MN g2 g3), H. cbn. rewrite F. lia.
  Qed.

  Lemma l3_first : has3 g3 0 = true -> nth_error (l3_table ss m g2 g3 m) 0 = Some (l3_at ss m g2 g3 0).
  Proof.
    intros H. assert (F : first3 0 = true) by (unfold ArmTablesProofs.first3; now rewrite H, (new_first arm32 ps ss n A N0)).
    rewrite l3_table_done. apply map_nth_error. rewrite nth_firstn; [now apply (nth_filter first3 m 0)|].
    rewrite (total3_is arm32 ps ss n A N0 m M0 MN g2 g3), H. lia.
  Qed.

  Lemma max_size_is : arm_max_cache_size d (map (core_at ss) (seq 0 m)) (map (l1d_at arm32 ss g1d) (seq 0 m))
      (map (l2_at ss g2 g3) (filter first2 (seq 0 m))) (l3_table ss m g2 g3 m)
      (map (l2_of ss g2 g3) (seq 0 m)) (map (l3_of ss m g2 g3) (seq 0 m)) = Ok max_at.
  Proof.
    unfold arm_max_cache_size, rd. rewrite !nth_map_seq by exact M0. cbn [bind]. change (c_uarch (core_at ss 0)) with (a_uarch (entry ss 0)).
    unfold max_at. destruct (ad_max_cache d (a_uarch (entry ss 0))); [reflexivity|].
    destruct (has3 g3 0) eqn:E3.
    - rewrite (l3_of_0 E3). unfold cache_size_at, rd. rewrite (l3_first E3). reflexivity.
    - unfold l3_of. rewrite E3. unfold l2_of. rewrite E3. cbn [orb]. destruct (has2 g2 0) eqn:E2.
      + assert (F : first2 0 = true) by (unfold ArmTablesProofs.first2; now rewrite E2, (new_first arm32 ps ss n A N0), orb_true_r).
        rewrite (grp_leader _ 0 F). unfold cache_size_at, rd. rewrite (map_nth_error (l2_at ss g2 g3) (cnt 0 first2) (filter first2 (seq 0 m)) (d := 0)).
        * reflexivity.
        * now apply nth_filter.
      + unfold cache_size_at, rd. rewrite nth_map_seq by exact M0. reflexivity.
  Qed.

  Record built (t : arm_tables) : Prop := {
    bu_processors : at_processors t = map (processor_at ss) (seq 0 m);
    bu_cores : at_cores t = map (core_at ss) (seq 0 m);
    bu_clusters : at_clusters t = map (cluster_at ss) (filter (starts_cluster ss) (seq 0 m)) ++ repeat cluster0 (cnt n (starts_cluster ss) - cnt m (starts_cluster ss));
    bu_package : at_package t = Package 0 m 0 m 0 (cnt n (starts_cluster ss));
    bu_uarchs : filled (starts_uarch ss) n arm_uarch0 (uarch_entry ss) n (at_uarchs t);
    bu_l1i : at_l1i t = map (l1i_at arm32 ss g1i) (seq 0 m);
    bu_l1d : at_l1d t = map (l1d_at arm32 ss g1d) (seq 0 m);
    bu_l2 : at_l2 t = map (l2_at ss g2 g3) (filter first2 (seq 0 m));
    bu_l3 : at_l3 t = map (l3_at ss m g2 g3) (firstn total3 (filter first3 (seq 0 m)));
    bu_l2_of : at_l2_of t = map (l2_of ss g2 g3) (seq 0 m);
    bu_l3_of : at_l3_of t = map (l3_of ss m g2 g3) (seq 0 m);
    bu_max : at_max_cache_size t = max_at;
    bu_cpu_max : at_linux_cpu_max t = N.of_nat (length ss);
    bu_processor_map : mapped ss None Some m (at_processor_map t);
    bu_core_map : mapped ss None Some m (at_core_map t);
    bu_uarch_map : uarch_mapped ss n m (at_uarch_map t)
  }.

  Lemma build_result calloc_ok : exists t, built t /\
    build_arm arm32 d chip calloc_ok m (cnt n (starts_cluster ss)) ss = Ok (
      if forallb calloc_ok arm_blocks then AOutcome (Some t) (rev arm_blocks) true else AOutcome None [] true).
  Proof.
    unfold build_arm. rewrite (number_all arm32 ps ss n A N0).
    destruct (fill_from arm32 ps ss n A N0 (length ss) 0 (repeat arm_uarch0 (cnt n (starts_uarch ss))) (last_of ss n (length ss)) eq_refl) as (us & EU & FU);
      [now left|apply filled_init|]. change (cnt (min 0 n) (starts_uarch ss)) with 0 in EU. change (map (numbered ss n) (seq 0 (length ss))) with (numbered_all ss n) in EU.
    destruct (fill_all arm32 ps ss n A N0 m M0 MN d chip g1i g1d g2 g3 DEC) as (f & EF & FF).
    destruct (share_all arm32 ps ss n A N0 m M0 MN d chip g1i g1d g2 g3 DEC UNI) as (s & ES & FS).
    pose (t := ArmTables (ts_processors (fs_topology f)) (ts_cores (fs_topology f)) (ts_clusters (fs_topology f)) (Package 0 m 0 m 0 (cnt n (starts_cluster ss))) us
                 (fs_l1i f) (fs_l1d f) (ss_l2 s) (ss_l3 s) (ss_l2_of s) (ss_l3_of s) max_at (N.of_nat (length ss))
                 (ts_processor_map (fs_topology f)) (ts_core_map (fs_topology f)) (ts_uarch_map (fs_topology f))).
    destruct FF as [F1 F2 F3 F4 F5 F6 F7 F8 F9 F10]. destruct FS as [S1 S2 S3 S4 S5 S6 S7].
    rewrite prefix_all in F1. rewrite prefix_all in F2. rewrite prefix_all in F8. rewrite prefix_all in F9. rewrite prefix_all in S6. rewrite prefix_all in S7.
    unfold gathered in F3. rewrite gathered_all in S2.
    exists t. split.
    { split; cbn [t at_processors at_cores at_clusters at_package at_uarchs at_l1i at_l1d at_l2 at_l3 at_l2_of at_l3_of at_max_cache_size at_linux_cpu_max
        at_processor_map at_core_map at_uarch_map]; auto. rewrite S4. apply l3_table_done. }
    unfold arm_blocks. rewrite forallb_app.
    destruct (aallocate_spec calloc_ok (arm_allocations (cnt n (starts_uarch ss))) [A_linux_processors]) as (AY & AN).
    destruct (forallb calloc_ok (arm_allocations (cnt n (starts_uarch ss)))) eqn:E1.
    2:{ destruct (AN eq_refl) as (some & ->). cbn [negb andb]. rewrite acleanup_all. reflexivity. }
    rewrite (AY eq_refl). cbn [negb andb]. clear AY AN. rewrite EU. cbn [bind].
    unfold fill_init in EF. rewrite EF. cbn [bind]. rewrite F10, (count_l2 ss g2 g3 m). fold total3. fold shared3.
    destruct (aallocate_spec calloc_ok (arm_cache_allocations (cnt m first2) total3) (rev (arm_allocations (cnt n (starts_uarch ss))) ++ [A_linux_processors])) as (AY & AN).
    destruct (forallb calloc_ok (arm_cache_allocations (cnt m first2) total3)) eqn:E2.
    2:{ destruct (AN eq_refl) as (some & ->). cbn [negb]. rewrite acleanup_all. reflexivity. }
    rewrite (AY eq_refl). cbn [negb]. clear AY AN. unfold share_init in ES. rewrite ES. cbn [bind].
    pose proof max_size_is as MX. rewrite <- F2, <- F9, <- S2, <- S4, <- S6, <- S7 in MX. rewrite MX. cbn [bind].
    rewrite acleanup_reset. f_equal. fold t. f_equal.
    rewrite rev_app_distr, app_assoc, filter_app. cbn [filter ablock_eqb negb]. rewrite app_nil_r.
    rewrite (filter_ext_in _ (fun _ => true)); [|].
    - generalize (rev (arm_cache_allocations (cnt m first2) total3) ++ rev (arm_allocations (cnt n (starts_uarch ss)))). induction l; cbn; congruence.
    - intros b Hb. rewrite <- rev_app_distr in Hb. apply in_rev in Hb. destruct b; try reflexivity. exfalso.
      apply in_app_iff in Hb. unfold arm_allocations, arm_cache_allocations in Hb. revert Hb.
      destruct (1 <? cnt n (starts_uarch ss)), (cnt m first2 =? 0), (total3 =? 0); cbn; intuition discriminate.
  Qed.
End BUILD.
