(** ARM Linux: the order of processors of the same design, and that it does not depend on the sort. *)
From Verif Require Import Base BaseProofs Sorting LinuxTextModel LinuxTextSpec TopologySpec
  X86LinuxSpec ArmMidrModel ArmMidrProofs ArmClustersModel ArmClustersSpec ArmClustersProofs ArmClusterMidrModel ArmClusterMidrSpec
  ArmMidrTableProofs ArmCpuinfoModel ArmCpuinfoSpec ArmLinuxModel ArmOrderProofs
  ArmScanProofs ArmSortedProofs ArmLinuxSpec ArmDetectProofs ArmInitProofs ArmMidrSpec.
From Verif Require RiscvLinuxSpec RiscvDetailProofs.
Import RiscvLinuxSpec(number_says, or_zero).
Open Scope nat_scope.

(** ** The first of a cluster that tells its clock *)

Lemma find_filter {A} (f g : A -> bool) : forall l, find f (filter g l) = find (fun x => g x && f x) l.
Proof. induction l as [|a l IH]; [reflexivity|]. cbn. destruct (g a); cbn; [destruct (f a)|]; auto. Qed.

Lemma find_seq_first f : forall n s k, find f (seq s n) = Some k -> s <= k < s + n /\ f k = true /\ forall j, s <= j < k -> f j = false.
Proof.
  induction n as [|n IH]; intros s k H; [discriminate|]. cbn in H. destruct (f s) eqn:E.
  - injection H as <-. split; [lia|]. split; [exact E|lia].
  - destruct (IH _ _ H) as (A & B & C). split; [lia|]. split; [exact B|]. intros j Hj. destruct (Nat.eq_dec j s) as [->|]; [exact E|]. apply C. lia.
Qed.

(** The flag and the clock survive the clustering. *)
Lemma clock_kept p q : only_leaders_differ p (with_acount (a_count p) q) -> a_max q = a_max p /\ knows_max q = knows_max p.
Proof.
  intros [F _ _ M _ _ _ _ _ _ _]. split; [exact M|]. specialize (F 4%N eq_refl). cbn [a_flags with_acount] in F. unfold knows_max.
  assert (X : N.testbit (N.land (a_flags q) 4) 2 = N.testbit (N.land (a_flags p) 4) 2) by now rewrite F.
  rewrite !N.land_spec in X. change (N.testbit 4 2) with true in X. now rewrite !andb_true_r in X.
Qed.

Section CLOCK.
  Variables (arm32 : bool) (d : arm_decoders) (usable : nat -> Prop) (ms : list arm_meaning) (fs : arm_files) (ps1 ps2 ps3 : list aproc).
  Hypothesis D : detected_arm arm32 d usable ms fs ps1 ps2 ps3.
  Variables (group : nat -> nat) (khz : nat -> option N).
  Hypothesis GG : forall i j, usable i -> usable j -> (leader ps2 i = leader ps2 j <-> group i = group j).
  Hypothesis K : clocks_say usable fs khz.

  Lemma told_clock i : usable i -> a_max (entry ps2 i) = or_zero (khz i) /\ knows_max (entry ps2 i) = negb (or_zero (khz i) =? 0)%N.
  Proof.
    intros U. destruct (da_clock _ _ _ _ _ _ _ _ D i U) as (mx & E & A & B).
    destruct (RiscvDetailProofs.number_read _ _ (K i U)) as (_ & R). rewrite R in E. injection E as <-.
    destruct (clock_kept _ _ (proj2 (da_same _ _ _ _ _ _ _ _ D) i)) as (X & Y). rewrite X, Y. now split.
  Qed.

  Let U2 := usable_2 _ _ _ _ _ _ _ _ D.

  Lemma member_of x k : usable x -> k < length ps2 ->
    (a_valid (entry ps2 k) && (leader ps2 k =? leader ps2 x) = true <-> usable k /\ group k = group x).
  Proof.
    intros Hx Hk. rewrite andb_true_iff, Nat.eqb_eq. split.
    - intros (V & L). assert (U : usable k) by now apply U2. split; [exact U|]. now apply GG.
    - intros (U & G). split; [now apply U2|]. now apply GG.
  Qed.

  Lemma clock_of x v : usable x -> group_clock usable group khz x v -> a_max (entry ps3 x) = v.
  Proof.
    intros Hx C. unfold cluster_max, cluster_members in *.
    pose proof (da_max _ _ _ _ _ _ _ _ D x) as MX. pose proof (da_no_max _ _ _ _ _ _ _ _ D x) as NM.
    unfold cluster_max, cluster_members in MX, NM. rewrite find_filter in MX, NM.
    destruct (find _ (seq 0 (length ps2))) as [k|] eqn:F.
    - rewrite (MX _ Hx eq_refl). apply find_seq_first in F. destruct F as (Hk & Fk & F).
      apply andb_true_iff in Fk. destruct Fk as (Mk & Kk). apply (member_of x k Hx) in Mk; [|lia]. destruct Mk as (Uk & Gk).
      destruct (told_clock k Uk) as (T1 & T2). rewrite T1. rewrite T2, negb_true_iff, N.eqb_neq in Kk.
      destruct C as [c Uc Gc Nc Fc|Z]; [|now apply Z in Gk].
      destruct (lt_eq_lt_dec k c) as [[Lt|<-]|Lt]; [exfalso; now apply Kk, Fc|reflexivity|exfalso].
      assert (X : (a_valid (entry ps2 c) && (leader ps2 c =? leader ps2 x)) && knows_max (entry ps2 c) = true).
      { apply andb_true_iff. split; [apply member_of; auto; lia|]. destruct (told_clock c Uc) as (_ & ->). now apply negb_true_iff, N.eqb_neq. }
      rewrite F in X; [discriminate|lia].
    - rewrite (NM Hx eq_refl).
      assert (NT : forall k, usable k -> group k = group x -> or_zero (khz k) = 0%N).
      { intros k Uk Gk. assert (Lk : k < length ps2) by (apply usable_lt; now apply U2).
        pose proof (find_none _ _ F k ltac:(apply in_seq; lia)) as X. cbn beta in X. rewrite (proj2 (member_of x k Hx Lk)) in X by auto. cbn [andb] in X.
        rewrite (proj2 (told_clock k Uk)), negb_false_iff in X. now apply N.eqb_eq. }
      assert (UL : usable (leader ps2 x)).
      { apply U2. apply U2 in Hx. now apply (da_clusters _ _ _ _ _ _ _ _ D). }
      assert (LL : leader ps2 (leader ps2 x) = leader ps2 x).
      { apply U2 in Hx. now apply (da_clusters _ _ _ _ _ _ _ _ D). }
      rewrite (proj1 (told_clock _ UL)), NT; [|exact UL|now apply GG].
      destruct C as [c Uc Gc Nc Fc|Z]; [|reflexivity]. now rewrite NT in Nc.
  Qed.
End CLOCK.

(** ** The whole *)
Section WHOLE.
  Variables (sg arm32 android : bool) (garbage : known) (default : N) (calloc_ok : ablock -> bool)
    (d : arm_decoders) (fs : arm_files) (max : N) (po pr : option (list (N * N))) (ms : list arm_meaning) (version : N).
  Notation usable := (arm_usable max po pr).
  Hypothesis FS : arm_files_say arm32 default fs max po pr ms.
  Hypothesis ON : all_online usable ms version.
  Hypothesis DA : decoders_answer d ms.

  Lemma init_ordered sorter group khz o t : sorts (cmp_arm_linux_processor arm32) sorter -> groups_say usable fs group -> clocks_say usable fs khz ->
    arm_linux_init sg arm32 android garbage default sorter calloc_ok d fs = Ok o -> ao_published o = Some t -> ordered_by_clock usable group khz t.
  Proof.
    intros SO G K E P.
    destruct (init_stages sg arm32 android garbage default sorter calloc_ok d fs max po pr ms version FS ON DA SO) as (ps1 & S & PK & _ & X1 & X2 & X3).
    destruct (calloc_ok A_linux_processors) eqn:C; [|rewrite (X1 eq_refl) in E; injection E as <-; discriminate P].
    destruct (X2 eq_refl o E) as (ps2 & EC). destruct (X3 eq_refl ps2 EC) as (ps3 & chip & t' & blocks & EM & D & R & L & EI).
    rewrite EI in E. injection E as <-. destruct (forallb calloc_ok blocks); [|discriminate P]. cbn [ao_published] in P. injection P as ->. clear X1 X2 X3 EI.
    pose proof (se_usable _ _ _ _ S) as U1.
    assert (GL : forall i, ArmClustersSpec.usable ps1 i -> is_first_of_group ps1 group i (leader ps2 i)).
    { apply (kernel_lists_clusters _ _ _ _ _ _ _ _ (se_count _ _ _ _ S) (groups_kernel_lists _ _ _ _ _ _ S PK G) EC). }
    assert (GG : forall i j, usable i -> usable j -> (leader ps2 i = leader ps2 j <-> group i = group j)).
    { intros i j Hi Hj. apply U1 in Hi. apply U1 in Hj. apply (same_cluster_iff ps1 group i j); auto. }
    destruct L as [_ L1 _ L3]. intros i j p q a b Hij Hp Hq Ha Hb DE. cbv zeta. intros cx cy fx fy Cx Cy Fx Fy.
    destruct (L1 i p Hp) as (Ux & Ax). specialize (Ax a Ha). destruct (L1 j q Hq) as (Uy & Ay). specialize (Ay b Hb).
    specialize (L3 i j p q Hij Hp Hq). set (x := N.to_nat (p_linux_id p)) in *. set (y := N.to_nat (p_linux_id q)) in *.
    assert (NE : x <> y).
    { intros Q. apply N2Nat.inj in Q. pose proof (ap_once _ _ (rp_topology _ _ _ _ _ _ R)) as ND. apply (NoDup_nth_error (map p_linux_id (at_processors t))) with (i := i) (j := j) in ND.
      - lia.
      - rewrite map_length. apply nth_error_Some. congruence.
      - erewrite !map_nth_error by eassumption. now rewrite Q. }
    assert (First : forall c f, usable c -> first_of_group usable group c f -> a_leader (entry ps3 c) = f).
    { intros c f Uc (F1 & F2 & F3). change (a_leader (entry ps3 c)) with (leader ps3 c). rewrite (leader_3 _ _ _ _ _ _ _ _ D).
      destruct (GL c (proj1 (U1 c) Uc)) as (H1 & H2 & H3). apply U1 in H1. pose proof (F3 _ H1 H2). pose proof (H3 f (proj1 (U1 f) F1) F2). lia. }
    assert (Id : forall c, usable c -> a_id (entry ps3 c) = c).
    { intros c Uc. apply (so_ids _ (detected_sortable _ _ _ _ _ _ _ _ D)). apply usable_lt. now apply (usable_3 _ _ _ _ _ _ _ _ D). }
    assert (Va : forall c, usable c -> a_valid (entry ps3 c) = true) by (intros c Uc; now apply (usable_3 _ _ _ _ _ _ _ _ D)).
    pose proof (clock_of arm32 d usable ms fs ps1 ps2 ps3 D group khz GG K x cx Ux Cx) as Kx.
    pose proof (clock_of arm32 d usable ms fs ps1 ps2 ps3 D group khz GG K y cy Uy Cy) as Ky.
    unfold arm_before in L3. rewrite (Va x Ux), (Va y Uy), Kx, Ky, (First x fx Ux Fx), (First y fy Uy Fy), (Id x Ux), (Id y Uy) in L3.
    rewrite <- Ax, <- Ay, (score_design arm32 _ _ DE) in L3.
    destruct L3 as [(_ & X)|(_ & [X|(_ & X)])]; [discriminate|lia|]. destruct X as [X|(X & [Y|(Y & Z)])]; [now left|right; split; auto|right; split; auto].
    right. split; [exact Y|lia].
  Qed.

  (** Two sorts give the same array if no two elements are equal to the comparator. *)
  Lemma sorted_unique {A} (cmp : A -> A -> Z) : total_preorder cmp -> forall l l', Permutation l l' ->
    (forall a b, In a l -> In b l -> cmp a b = 0%Z -> a = b) ->
    StronglySorted (fun a b => (cmp a b <= 0)%Z) l -> StronglySorted (fun a b => (cmp a b <= 0)%Z) l' -> l = l'.
  Proof.
    intros TP. induction l as [|a l IH]; intros l' P EQ S1 S2.
    - apply Permutation_nil in P. now subst.
    - destruct l' as [|b l']; [apply Permutation_sym, Permutation_nil in P; discriminate|].
      inversion S1 as [|? ? S1' F1]; subst. inversion S2 as [|? ? S2' F2]; subst.
      assert (AB : a = b).
      { assert (Ia : In a (b :: l')) by (apply (Permutation_in _ P); now left). assert (Ib : In b (a :: l)) by (apply (Permutation_in _ (Permutation_sym P)); now left).
        destruct Ia as [->|Ia]; [reflexivity|]. destruct Ib as [->|Ib]; [reflexivity|].
        rewrite Forall_forall in F1, F2. specialize (F1 _ Ib). specialize (F2 _ Ia). apply EQ; [now left|now right|].
        pose proof (cmp_opposite _ TP a b) as O. destruct (cmp a b), (cmp b a); cbn in O; lia. }
      subst b. f_equal. apply IH; auto; [now apply Permutation_cons_inv in P|]. intros x y Hx Hy. apply EQ; now right.
  Qed.

  Lemma any_sort sorter1 sorter2 : sorts (cmp_arm_linux_processor arm32) sorter1 -> sorts (cmp_arm_linux_processor arm32) sorter2 ->
    arm_linux_init sg arm32 android garbage default sorter1 calloc_ok d fs = arm_linux_init sg arm32 android garbage default sorter2 calloc_ok d fs.
  Proof.
    intros S1 S2. destruct (lists_read_any sg arm32 default calloc_ok fs max po pr ms FS) as (mask & flags & FG & EA).
    unfold arm_linux_init. rewrite !EA. destruct (calloc_ok A_linux_processors); [|reflexivity].
    destruct (detection_steps sg arm32 android garbage d fs max po pr ms mask flags FG (as_cpuinfo _ _ _ _ _ _ _ FS) DA version ON)
      as (hardware & revision & ps0 & chip & ps1 & RB & BT & ECH & S & PK & CK & ED).
    rewrite ED. destruct (detect_clusters _ _ _ _ _ _) as [ps2| |] eqn:EC; cbn [bind]; [|reflexivity|reflexivity].
    destruct (every_core_clustered _ _ _ _ _ _ _ (se_count _ _ _ _ S) EC) as (CO & SZ & CH).
    destruct (assign_midrs_total arm32 (ad_uarch d) chip (usable_count ps1) ps2 CO) as (ps3 & EM & LM & DM & _ & FM & MX & NM).
    rewrite EM. cbn [bind]. f_equal. destruct (S1 ps3) as (P1 & T1), (S2 ps3) as (P2 & T2).
    apply (sorted_unique (cmp_arm_linux_processor arm32) (cmp_arm_preorder arm32)); auto; [rewrite <- P1; exact P2|].
    assert (IDS : forall i, i < length ps3 -> a_id (entry ps3 i) = i).
    { intros i Hi. rewrite (om_id _ _ (DM i)), (sc_id _ _ (changed_same _ _ (proj2 CH i))). apply (se_ids _ _ _ _ S). destruct CH as (L & _). lia. }
    intros a b Ha Hb Z. apply (Permutation_in _ (Permutation_sym P1)) in Ha. apply (Permutation_in _ (Permutation_sym P1)) in Hb.
    apply cmp_arm_distinct in Z. destruct (in_entry _ _ Ha) as (i & Hi & <-). destruct (in_entry _ _ Hb) as (j & Hj & <-).
    rewrite !IDS in Z by assumption. now subst.
  Qed.
End WHOLE.
