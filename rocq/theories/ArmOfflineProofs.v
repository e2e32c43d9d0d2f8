(** ARM Linux initialisation when some CPUs are offline. *)
From Verif Require Import Base BaseProofs Sorting Runs GroupArray Loops LinuxTextModel LinuxTextSpec TopologySpec
  X86LinuxSpec X86DetectProofs ArmMidrModel ArmMidrProofs ArmClustersModel ArmClustersSpec ArmClustersProofs ArmClusterMidrModel ArmClusterMidrSpec
  ArmClusterMidrProofs ArmMidrTableProofs ArmCpuinfoModel ArmCpuinfoSpec ArmCpuinfoResultProofs ArmLinuxModel ArmOrderProofs
  ArmScanProofs ArmOnlineGroupsProofs ArmSortedProofs ArmTablesProofs ArmBuildProofs ArmReportProofs ArmCacheReportProofs ArmLinuxSpec ArmDetectProofs ArmInitProofs ArmOfflineSpec
  ArmMidrSpec.
Open Scope nat_scope.

Lemma nth_in_firstn {X} (l : list X) : forall k i, i < k -> nth_error (firstn k l) i = nth_error l i.
Proof. induction l as [|x l IH]; intros [|k] [|i] H; try lia; try reflexivity. cbn. apply IH. lia. Qed.

(** ** The tables of the first [m] of [n] sorted processors *)
Section REPORT.
  Variables (arm32 : bool) (ps ss : list aproc) (n : nat).
  Hypothesis A : arranged arm32 ps ss n.
  Hypothesis N0 : 0 < n.
  Variable m : nat.
  Hypothesis M0 : 0 < m.
  Hypothesis MN : m <= n.
  Variables (d : arm_decoders) (chip : chipset) (g1i g1d g2 g3 : nat -> geometry).
  Hypothesis DEC : forall i, i < m -> caches_of d chip (cluster_of ss i) (entry ss i) = Ok (g1i i, g1d i, g2 i, g3 i).
  Hypothesis UNI : forall i j, i < m -> j < m -> cluster_of ss i = cluster_of ss j -> has2 g2 i = has2 g2 j /\ has3 g3 i = has3 g3 j.
  Variable t : arm_tables.
  Hypothesis B : built arm32 ss n m d g1i g1d g2 g3 t.

  Notation first2 := (first2 ss g2 g3).
  Notation first3 := (first3 ss g3).
  Notation total3 := (total3 ss m g2 g3).
  Notation shared3 := (shared3 ss m g2 g3).
  Notation new := (starts_cluster ss).

  Lemma processor_inv i p : nth_error (at_processors t) i = Some p -> i < m /\ p = processor_at ss i.
  Proof. rewrite (bu_processors _ _ _ _ _ _ _ _ _ _ B). apply nth_map_seq_inv. Qed.
  Lemma core_inv i c : nth_error (at_cores t) i = Some c -> i < m /\ c = core_at ss i.
  Proof. rewrite (bu_cores _ _ _ _ _ _ _ _ _ _ B). apply nth_map_seq_inv. Qed.

  (** The leader of the cluster, whose range reaches as far. *)
  Lemma leads_range i : i < m -> exists s, s <= i /\ new s = true /\ cnt s new = cluster_of ss i /\ cluster_of ss s = cluster_of ss i /\
    (forall k, s <= k <= i -> cluster_of ss k = cluster_of ss i) /\ (forall k, s < k <= i -> new k = false) /\ i < s + a_count (entry ss s).
  Proof.
    intros Hi. destruct (leader_before arm32 ps ss n A i ltac:(lia)) as (s & Hs & Es & Cs & EC & Ns & _ & ECs).
    exists s. repeat (split; [assumption|]). rewrite (cluster_size _ _ _ _ s A ltac:(lia)), (grp_leader new s Es).
    destruct (run_range new n s (new0 arm32 ps ss n A N0) ltac:(lia) Es) as (_ & _ & R). apply (R i ltac:(lia)). now rewrite Cs.
  Qed.

  Lemma cluster_reached i p c : nth_error (at_processors t) i = Some p -> nth_error (at_cores t) i = Some c ->
    exists k l, p_cluster p = Some k /\ nth_error (at_clusters t) k = Some l /\ in_range (cl_processor_start l) (cl_processor_count l) i /\
      cl_vendor l = c_vendor c /\ cl_uarch l = c_uarch c /\ cl_cpuid l = c_cpuid c.
  Proof.
    intros Hp Hc. apply processor_inv in Hp. destruct Hp as (Hi & ->). apply core_inv in Hc. destruct Hc as (_ & ->).
    destruct (leads_range i Hi) as (s & Hs & Es & Cs & EC & _ & _ & R).
    exists (cluster_of ss i), (cluster_at ss s). split; [reflexivity|]. split.
    - rewrite (bu_clusters _ _ _ _ _ _ _ _ _ _ B), nth_error_app1.
      + rewrite <- Cs. apply nth_filter_map; [lia|exact Es].
      + rewrite map_length, cnt_filter, <- Cs. pose proof (cnt_mono new (S s) m ltac:(lia)) as M. rewrite cnt_S_true in M by exact Es. lia.
    - split; [split; [exact Hs|exact R]|]. destruct (cluster_alike arm32 ps ss n A N0 s i ltac:(lia) ltac:(lia) EC) as (_ & E1 & E2 & E3). auto.
  Qed.

  Lemma l2_reached : within (at_l2_of t) (at_l2 t).
  Proof.
    rewrite (bu_l2_of _ _ _ _ _ _ _ _ _ _ B), (bu_l2 _ _ _ _ _ _ _ _ _ _ B). intros i k H. apply nth_map_seq_inv in H. destruct H as (Hi & E). symmetry in E.
    unfold l2_of in E. destruct (has3 g3 i) eqn:E3.
    - cbn [orb] in E. injection E as <-. exists (l2_at ss g2 g3 i).
      assert (F : first2 i = true) by (unfold ArmTablesProofs.first2; now rewrite E3). rewrite (grp_leader _ i F). split; [now apply nth_filter_map|].
      cbn [l2_at ca_processor_start ca_processor_count]. rewrite E3. unfold in_range. lia.
    - cbn [orb] in E. destruct (has2 g2 i) eqn:E2; [|discriminate]. injection E as <-.
      destruct (leads_range i Hi) as (s & Hs & Es & Cs & EC & ECs & Ns & R).
      destruct (first2_of ss n N0 m M0 MN d chip g1i g1d g2 g3 DEC UNI i s Hi Hs Es ECs Ns E3 E2) as (F & C).
      exists (l2_at ss g2 g3 s). unfold grp. rewrite C. cbn [pred]. split; [apply nth_filter_map; [lia|exact F]|].
      cbn [l2_at ca_processor_start ca_processor_count]. destruct (UNI s i ltac:(lia) Hi EC) as (_ & U). rewrite U, E3. split; [exact Hs|exact R].
  Qed.

  Lemma l3_reached : within (at_l3_of t) (at_l3 t).
  Proof.
    rewrite (bu_l3_of _ _ _ _ _ _ _ _ _ _ B), (bu_l3 _ _ _ _ _ _ _ _ _ _ B). intros i k H. apply nth_map_seq_inv in H. destruct H as (Hi & E). symmetry in E.
    assert (G : forall s, s < m -> first3 s = true -> cnt s first3 < total3 ->
      nth_error (map (l3_at ss m g2 g3) (firstn total3 (filter first3 (seq 0 m)))) (cnt s first3) = Some (l3_at ss m g2 g3 s)).
    { intros s Hs F L. apply map_nth_error. rewrite nth_in_firstn by exact L. now apply nth_filter. }
    unfold l3_of in E. destruct (has3 g3 i) eqn:E3; [|discriminate].
    destruct (leads_range i Hi) as (s & Hs & Es & Cs & EC & ECs & Ns & R).
    destruct (first3_of ss n N0 m M0 MN d chip g1i g1d g2 g3 DEC UNI i s Hi Hs Es EC Ns E3) as (F & C).
    destruct shared3 eqn:SH.
    - injection E as <-. destruct (proj1 (shared3_is arm32 ps ss n A N0 m M0 MN g2 g3) SH 0 M0) as (Z3 & _).
      assert (F0 : first3 0 = true) by (unfold ArmTablesProofs.first3; now rewrite Z3, (new0 arm32 ps ss n A N0)).
      exists (l3_at ss m g2 g3 0). split.
      + apply (G 0 M0 F0). cbn [cnt]. rewrite (total3_is arm32 ps ss n A N0 m M0 MN g2 g3), Z3. lia.
      + cbn [l3_at ca_processor_start ca_processor_count]. rewrite SH. unfold in_range. lia.
    - destruct (Nat.leb_spec (cnt (S i) first3) total3) as [L|L]; [|discriminate]. injection E as <-. unfold grp. rewrite C in *. cbn [pred].
      exists (l3_at ss m g2 g3 s). split; [apply G; [lia|exact F|lia]|]. cbn [l3_at ca_processor_start ca_processor_count]. rewrite SH. split; [exact Hs|exact R].
  Qed.

  Lemma uarchs_reached : match at_uarch_map t with
    | None => length (at_uarchs t) = 1
    | Some l => length l = N.to_nat (at_linux_cpu_max t) /\ Forall (fun k => k < length (at_uarchs t)) l /\
        forall i p c, nth_error (at_processors t) i = Some p -> nth_error (at_cores t) i = Some c ->
          exists k u, nth_error l (N.to_nat (p_linux_id p)) = Some k /\ nth_error (at_uarchs t) k = Some u /\ au_uarch u = c_uarch c
    end.
  Proof.
    pose proof (ar_le _ _ _ _ A) as LE. pose proof (cnt_pos (starts_uarch ss) eq_refl n N0) as CP.
    destruct (bu_uarchs _ _ _ _ _ _ _ _ _ _ B) as (BL & BF & _). pose proof (bu_uarch_map _ _ _ _ _ _ _ _ _ _ B) as BU.
    unfold uarch_mapped in BU. destruct (Nat.ltb_spec 1 (cnt n (starts_uarch ss))) as [L|L]; [|rewrite BU, BL; lia].
    destruct BU as (l & -> & ML & MM & MZ). rewrite (bu_cpu_max _ _ _ _ _ _ _ _ _ _ B), Nat2N.id, BL. split; [exact ML|]. split.
    - apply Forall_forall. intros k Hk. apply In_nth_error in Hk. destruct Hk as (j & Hj).
      pose proof (nth_error_some_lt _ _ _ _ Hj) as Lj. rewrite ML in Lj.
      destruct (ar_place _ _ _ _ A j Lj) as (i & Hi & Ei). destruct (Nat.lt_ge_cases i m) as [In|In].
      + specialize (MM i In). rewrite Ei, Hj in MM. injection MM as ->. unfold grp. pose proof (cnt_mono (starts_uarch ss) (S i) n ltac:(lia)).
        pose proof (cnt_pos (starts_uarch ss) eq_refl (S i) ltac:(lia)). lia.
      + rewrite (MZ j Lj) in Hj; [injection Hj as <-; lia|]. intros i' Hi' E. assert (i' = i) by (apply (ar_distinct _ _ _ _ A); [lia|lia|congruence]). lia.
    - intros i p c Hp Hc. apply processor_inv in Hp. destruct Hp as (Hi & ->). apply core_inv in Hc. destruct Hc as (_ & ->).
      cbn [processor_at p_linux_id core_at c_uarch]. rewrite Nat2N.id. exists (grp (starts_uarch ss) i).
      assert (Lk : grp (starts_uarch ss) i < cnt n (starts_uarch ss)).
      { unfold grp. pose proof (cnt_mono (starts_uarch ss) (S i) n ltac:(lia)). pose proof (cnt_pos (starts_uarch ss) eq_refl (S i) ltac:(lia)). lia. }
      destruct (leader_of (starts_uarch ss) n _ Lk) as (s & Hs & Es & Cs). exists (uarch_entry ss n s). split; [auto|]. split; [rewrite <- Cs; auto|].
      cbn [uarch_entry au_uarch]. change (uarch_key ss s = uarch_key ss i).
      destruct (group_end (starts_uarch ss) n s Hs) as (e & He & Hend & Hin).
      pose proof (proj1 (group_members (starts_uarch ss) eq_refl n s e i Es He Hend Hin ltac:(lia)) (eq_sym Cs)) as R.
      assert (G : forall k, s + k < e -> uarch_key ss (s + k) = uarch_key ss s).
      { induction k as [|k IH]; intros Hk; [now rewrite Nat.add_0_r|]. rewrite <- IH by lia. specialize (Hin (s + S k) ltac:(lia)).
        unfold starts_uarch, new_key in Hin. replace (s + S k) with (S (s + k)) in Hin |- * by lia. apply negb_false_iff, N.eqb_eq in Hin. exact Hin. }
      replace i with (s + (i - s)) by lia. symmetry. apply G. lia.
  Qed.

  Lemma ranked : big_first t.
  Proof.
    pose proof (ar_le _ _ _ _ A) as LE.
    intros i j a b Hij Ha Hb O. apply core_inv in Ha. destruct Ha as (Hi & ->). apply core_inv in Hb. destruct Hb as (Hj & ->).
    cbn [core_at c_cpuid] in O.
    assert (S : (midr_score_core arm32 (a_midr (entry ss i)) < midr_score_core arm32 (a_midr (entry ss j)))%N).
    { destruct O as [(O1 & O2)|(O1 & O2)]; [now apply role_scores|now apply prime_scores]. }
    pose proof (ar_order _ _ _ _ A i j Hij ltac:(lia)) as O'. unfold arm_before in O'.
    rewrite !(ar_valid _ _ _ _ A) in O'. replace (i <? n) with true in O' by (symmetry; apply Nat.ltb_lt; lia).
    replace (j <? n) with true in O' by (symmetry; apply Nat.ltb_lt; lia). destruct O' as [(_ & X)|(_ & [X|(X & _)])]; [discriminate X|lia|lia].
  Qed.

  Lemma mapped_right : arm_maps t.
  Proof.
    destruct B as [B1 B2 _ _ _ _ _ _ _ _ _ _ B5 (L1 & M1 & Z1) (L2 & M2 & Z2) _]. split; rewrite ?B5, ?Nnat.Nat2N.id.
    - auto.
    - intros i p Hp. rewrite B1 in Hp. apply nth_map_seq_inv in Hp. destruct Hp as (Hi & ->). cbn [processor_at p_linux_id p_core]. rewrite Nnat.Nat2N.id. auto.
    - intros cpu Hc Hn. rewrite B1 in Hn.
      assert (X : forall i, i < m -> a_id (entry ss i) <> cpu).
      { intros i Hi E. apply (Hn (processor_at ss i)); [apply in_map, in_seq; lia|]. cbn. now rewrite Nnat.Nat2N.id. }
      auto.
  Qed.

  Lemma each_once : NoDup (map p_linux_id (at_processors t)).
  Proof.
    pose proof (ar_le _ _ _ _ A) as LE.
    rewrite (bu_processors _ _ _ _ _ _ _ _ _ _ B), map_map. cbn [processor_at p_linux_id]. apply (NoDup_nth _ 0%N). intros i j Hi Hj E. rewrite map_length, seq_length in Hi, Hj.
    rewrite !(nth_indep _ 0%N (N.of_nat (a_id (entry ss 0)))) in E by (rewrite map_length, seq_length; lia).
    rewrite !(map_nth (fun x => N.of_nat (a_id (entry ss x)))), !seq_nth in E by lia. apply Nnat.Nat2N.inj in E.
    apply (ar_distinct _ _ _ _ A); [lia|lia|exact E].
  Qed.

  Lemma offline_reported usable ms : number_online usable ms m -> (forall c, usable c <-> ArmClustersSpec.usable ps c) -> arm_offline_reports usable ms t.
  Proof.
    intros NO U. pose proof (ar_le _ _ _ _ A) as LE.
    assert (LP : length (at_processors t) = m) by (rewrite (bu_processors _ _ _ _ _ _ _ _ _ _ B), map_length; apply seq_length).
    split; try rewrite LP.
    - exact NO.
    - intros p Hp. apply In_nth_error in Hp. destruct Hp as (i & Hp). apply processor_inv in Hp. destruct Hp as (Hi & ->).
      cbn [processor_at p_linux_id]. rewrite Nat2N.id. apply U. destruct (ar_entry _ _ _ _ A i ltac:(lia)) as (_ & Ee).
      unfold ArmClustersSpec.usable. rewrite <- Ee, (ar_valid _ _ _ _ A). apply Nat.ltb_lt. lia.
    - exact each_once.
    - rewrite (bu_cores _ _ _ _ _ _ _ _ _ _ B), map_length. apply seq_length.
    - intros i p c Hp Hc. apply processor_inv in Hp. destruct Hp as (Hi & ->). apply core_inv in Hc. destruct Hc as (_ & ->). cbn. auto.
    - exact cluster_reached.
    - exact ranked.
    - exact mapped_right.
    - rewrite (bu_l1i _ _ _ _ _ _ _ _ _ _ B), (bu_l1d _ _ _ _ _ _ _ _ _ _ B), (bu_l2_of _ _ _ _ _ _ _ _ _ _ B), (bu_l3_of _ _ _ _ _ _ _ _ _ _ B).
      rewrite !map_length, !seq_length. auto.
    - exact l2_reached.
    - exact l3_reached.
    - exact uarchs_reached.
  Qed.
End REPORT.

(** ** From the detected table to the published one *)
Section BUILT.
  Variables (arm32 : bool) (d : arm_decoders) (usable : nat -> Prop) (ms : list arm_meaning) (fs : arm_files) (ps1 ps2 ps3 : list aproc).
  Hypothesis D : detected_arm arm32 d usable ms fs ps1 ps2 ps3.
  Variables (sorter : list aproc -> list aproc) (chip : chipset) (clusters : nat).
  Hypothesis SO : sorts (cmp_arm_linux_processor arm32) sorter.
  Hypothesis ON : some_online d usable ms.
  Hypothesis DA : decoders_answer d ms.
  Hypothesis EM : assign_midrs arm32 (ad_uarch d) chip (online_count ps1) ps2 = Ok (clusters, ps3).

  Let ss := sorter ps3.
  Let n := usable_count ps3.
  Let m := online_count ps1.

  Notation "'the' p" := (p _ _ _ _ _ _ _ _ D) (at level 10, only parsing).

  Lemma online_below : m <= n.
  Proof.
    unfold n, m. rewrite (count_3 _ _ _ _ _ _ _ _ D). unfold online_count, usable_count, usable_below.
    generalize (seq 0 (length ps1)). intros l. induction l as [|i l IH]; [reflexivity|]. cbn [filter].
    destruct (a_valid (entry ps1 i)); cbn [andb]; [|exact IH]. destruct (in_cpuinfo (entry ps1 i)); cbn [length]; lia.
  Qed.

  Definition online_cpus : list nat := filter (fun i => a_valid (entry ps1 i) && in_cpuinfo (entry ps1 i)) (seq 0 (length ps1)).

  Lemma online_cpus_spec c : In c online_cpus <-> usable c /\ online ms c.
  Proof.
    unfold online_cpus. rewrite filter_In, in_seq, andb_true_iff. pose proof (the da_seen) as S. split.
    - intros (L & V & I). split; [now apply (se_usable _ _ _ _ S)|]. apply (se_online _ _ _ _ S c); [lia|exact I].
    - intros (U & O). apply (se_usable _ _ _ _ S) in U. pose proof (usable_lt _ _ U) as L. split; [lia|]. split; [exact U|]. now apply (se_online _ _ _ _ S c L).
  Qed.

  Lemma number_is : number_online usable ms m.
  Proof. exists online_cpus. split; [apply NoDup_filter, seq_NoDup|]. split; [exact online_cpus_spec|reflexivity]. Qed.

  Lemma some_listed : 0 < m.
  Proof.
    destruct (so_some _ _ _ ON) as (c & X). apply online_cpus_spec in X. unfold m, online_count. fold online_cpus.
    destruct online_cpus; [destruct X|cbn; lia].
  Qed.

  Lemma placed_at i : i < n -> usable (a_id (entry ss i)) /\ entry ss i = entry ps3 (a_id (entry ss i)).
  Proof. exact (placed _ _ _ _ _ _ _ _ D sorter SO i). Qed.

  Lemma arranged_3 : arranged arm32 ps3 ss n.
  Proof. exact (detected_arranged _ _ _ _ _ _ _ _ D sorter SO). Qed.

  (** An online CPU reports its design. *)
  Lemma reported c : usable c -> online ms c -> reports (entry ps2 c) = true /\
    exists midr, gives_midr ms c midr /\ version_free d midr /\ forall f, f <> Architecture -> field_of f (a_midr (entry ps2 c)) = field_of f midr.
  Proof.
    intros U O. pose proof (the da_seen) as S. destruct (so_designs _ _ _ ON c U O) as (midr & G & V). pose proof (same_2 _ _ _ _ _ _ _ _ D c) as SC.
    destruct (se_midr _ _ _ _ S c midr) as (B1 & B2); [apply usable_lt; now apply (se_usable _ _ _ _ S)|exact G|]. split.
    - unfold reports in *. rewrite forallb_forall in *. intros b Hb. rewrite (sc_flags _ _ SC); [now apply B1|].
      cbn in Hb. intros X. cbn in X. repeat (destruct Hb as [<-|Hb]; [intuition discriminate|]). destruct Hb.
    - exists midr. split; [exact G|]. split; [exact V|]. intros f Hf. rewrite (sc_midr _ _ SC). now apply B2.
  Qed.

  Lemma reporting_online c : usable c -> reports (entry ps2 c) = true -> online ms c.
  Proof.
    intros U R. pose proof (the da_seen) as S. pose proof (proj1 (se_usable _ _ _ _ S c) U) as V. apply (se_online _ _ _ _ S c (usable_lt _ _ V)).
    pose proof (same_2 _ _ _ _ _ _ _ _ D c) as SC. unfold in_cpuinfo. rewrite <- (sc_flags _ _ SC); [|cbn; intuition discriminate].
    unfold reports in R. rewrite forallb_forall in R. apply R. cbn. auto 10.
  Qed.

  Lemma attributable : 2 <= m -> ~ unattributable ps2.
  Proof.
    intros M2 (_ & r & _ & _ & _ & X). unfold m, online_count in M2. fold online_cpus in M2.
    assert (All : forall c, In c online_cpus -> c = r).
    { intros c Hc. apply online_cpus_spec in Hc. destruct Hc as (U & O). apply (X c); [now apply (usable_2 _ _ _ _ _ _ _ _ D)|].
      apply reports_names. now apply reported. }
    assert (ND : NoDup online_cpus) by (apply NoDup_filter, seq_NoDup).
    destruct online_cpus as [|a [|b l]]; cbn in M2; try lia.
    pose proof (All a (or_introl eq_refl)). pose proof (All b (or_intror (or_introl eq_refl))). subst.
    apply NoDup_cons_iff in ND. destruct ND as (ND & _). apply ND. now left.
  Qed.

  (** A cluster with an online CPU has the register of one of them. *)
  Lemma cluster_register cpu : 2 <= m -> usable cpu ->
    (exists k, usable k /\ online ms k /\ leader ps2 k = leader ps2 cpu /\
       forall f, f <> Architecture -> field_of f (a_midr (entry ps3 cpu)) = field_of f (a_midr (entry ps2 k))) \/
    (forall k, usable k -> leader ps2 k = leader ps2 cpu -> ~ online ms k).
  Proof.
    intros M2 U. assert (U2 : forall c, usable c <-> ArmClustersSpec.usable ps2 c) by exact (usable_2 _ _ _ _ _ _ _ _ D).
    destruct (cluster_midr ps2 (leader ps2 cpu)) as [x|] eqn:CM.
    - left. pose proof (the da_clusters) as CO.
      pose proof (kept_of_cluster arm32 (ad_uarch d) chip (online_count ps1) ps2 ps3 _ CO EM cpu x (attributable M2) (proj1 (U2 cpu) U) CM) as (K & _).
      unfold cluster_midr in CM. destruct (find _ _) as [k|] eqn:FN; [|discriminate]. cbn in CM. injection CM as <-.
      apply find_some in FN. destruct FN as (FN & RK). unfold cluster_members in FN. apply filter_In in FN. destruct FN as (_ & FN).
      apply andb_true_iff in FN. destruct FN as (Vk & Lk). apply Nat.eqb_eq in Lk. assert (Uk : usable k) by now apply U2.
      exists k. split; [exact Uk|]. split; [now apply reporting_online|]. split; [exact Lk|exact K].
    - right. intros k Uk Lk O. unfold cluster_midr in CM. destruct (find _ _) as [k'|] eqn:FN; [discriminate|]. clear CM.
      assert (X : In k (cluster_members ps2 (leader ps2 cpu))).
      { unfold cluster_members. apply filter_In. pose proof (proj1 (U2 k) Uk) as UU. split; [apply in_seq; apply usable_lt in UU; lia|].
        unfold ArmClustersSpec.usable in UU. rewrite UU, Lk. cbn. apply Nat.eqb_refl. }
      pose proof (find_none _ _ FN k X) as Y. cbn beta in Y. rewrite (proj1 (reported k Uk O)) in Y. discriminate Y.
  Qed.

  Let g (pick : geometry * geometry * geometry * geometry -> geometry) (i : nat) : geometry :=
    match caches_of d chip (cluster_of ss i) (entry ss i) with Ok q => pick q | _ => Geometry 0 0 0 0 0 0 end.
  Let g1i := g (fun q => fst (fst (fst q))).
  Let g1d := g (fun q => snd (fst (fst q))).
  Let g2 := g (fun q => snd (fst q)).
  Let g3 := g (fun q => snd q).

  Lemma decoded i : i < m -> caches_of d chip (cluster_of ss i) (entry ss i) = Ok (g1i i, g1d i, g2 i, g3 i).
  Proof. intros Hi. pose proof online_below. exact (caches_decoded _ _ _ _ _ _ _ _ D sorter chip SO DA i ltac:(fold n; lia)). Qed.

  (** The caches of two listed processors in a cluster are the same. *)
  Lemma caches_same i j : i < m -> j < m -> cluster_of ss i = cluster_of ss j ->
    caches_of d chip (cluster_of ss i) (entry ss i) = caches_of d chip (cluster_of ss j) (entry ss j).
  Proof.
    intros Hi Hj E. pose proof online_below as MN. destruct (Nat.eq_dec i j) as [<-|NE]; [reflexivity|]. assert (M2 : 2 <= m) by lia.
    pose proof arranged_3 as A. pose proof some_listed as M0.
    destruct (cluster_alike arm32 ps3 ss n A ltac:(lia) i j ltac:(lia) ltac:(lia) E) as (C1 & C2 & C3 & C4).
    destruct (placed_at i ltac:(lia)) as (Ui & Ei). destruct (placed_at j ltac:(lia)) as (Uj & Ej).
    unfold caches_of. rewrite <- C1, <- C2, <- C4, <- E.
    assert (SL : leader ps2 (a_id (entry ss j)) = leader ps2 (a_id (entry ss i))).
    { rewrite <- !(leader_3 _ _ _ _ _ _ _ _ D). unfold leader. rewrite <- Ei, <- Ej. symmetry. apply (same_group _ _ _ _ i j A); [lia|lia|exact E]. }
    destruct (cluster_register (a_id (entry ss i)) M2 Ui) as [(k & Uk & Ok & _ & K)|X].
    - destruct (reported k Uk Ok) as (_ & midr & _ & V & F). destruct (the da_follows _ Ui) as (_ & VU). rewrite <- Ei in VU.
      replace (a_uarch (entry ss i)) with (snd (ad_uarch d (a_midr (entry ss i))
        (any_flag (ar_features (a_report (entry ps2 (leader ps2 (a_id (entry ss i)))))) feature_vfpv4))) by now rewrite <- VU.
      apply V. intros f Hf. rewrite <- (F f Hf), <- (K f Hf), <- Ei. reflexivity.
    - assert (Z : forall c, usable c -> leader ps2 c = leader ps2 (a_id (entry ss i)) -> version_of ms c = 0%N).
      { intros c Uc Lc. specialize (X c Uc Lc). unfold version_of. unfold online in X. destruct (about ms c); [reflexivity|]. exfalso. apply X. discriminate. }
      f_equal. transitivity 0%N; [|symmetry].
      + rewrite Ei, (version_3 _ _ _ _ _ _ _ _ D _ Ui). now apply Z.
      + rewrite Ej, (version_3 _ _ _ _ _ _ _ _ D _ Uj). now apply Z.
  Qed.

  Lemma same_levels i j : i < m -> j < m -> cluster_of ss i = cluster_of ss j -> has2 g2 i = has2 g2 j /\ has3 g3 i = has3 g3 j.
  Proof.
    intros Hi Hj E. pose proof (caches_same i j Hi Hj E) as S. rewrite (decoded i Hi), (decoded j Hj) in S. injection S as _ _ S2 S3.
    unfold has2, has3. now rewrite S2, S3.
  Qed.

  (** Whose the processors and cores of the tables are. *)
  Record offline_linked (t : arm_tables) : Prop := {
    ol_processor : forall i p, nth_error (at_processors t) i = Some p -> usable (N.to_nat (p_linux_id p)) /\
      forall c, nth_error (at_cores t) i = Some c -> c_cpuid c = a_midr (entry ps3 (N.to_nat (p_linux_id p)));
    ol_cluster : forall p q, In p (at_processors t) -> In q (at_processors t) ->
      (p_cluster p = p_cluster q <-> leader ps2 (N.to_nat (p_linux_id p)) = leader ps2 (N.to_nat (p_linux_id q)))
  }.

  Lemma build_offline calloc_ok : exists t blocks, arm_offline_reports usable ms t /\ offline_linked t /\
      build_arm arm32 d chip calloc_ok m (length (cluster_leaders ps2)) ss = Ok (
        if forallb calloc_ok blocks then AOutcome (Some t) (rev blocks) true else AOutcome None [] true).
  Proof.
    pose proof arranged_3 as A. pose proof some_listed as M0. pose proof online_below as MN. assert (N0 : 0 < n) by lia.
    destruct (build_result arm32 ps3 ss n A N0 m M0 MN d chip g1i g1d g2 g3 decoded same_levels calloc_ok) as (t & B & E).
    exists t. eexists. split; [|split].
    - apply (offline_reported arm32 ps3 ss n A N0 m M0 MN d chip g1i g1d g2 g3 decoded same_levels t B); [exact number_is|].
      apply (usable_3 _ _ _ _ _ _ _ _ D).
    - assert (PP : forall i p, nth_error (at_processors t) i = Some p -> i < m /\ p = processor_at ss i) by (apply (processor_inv arm32 ss n m d g1i g1d g2 g3 t B)).
      split.
      + intros i p Hp. apply PP in Hp. destruct Hp as (Hi & ->). destruct (placed_at i ltac:(lia)) as (U & E1). cbn [processor_at p_linux_id]. rewrite Nat2N.id.
        split; [exact U|]. intros c Hc. apply (core_inv arm32 ss n m d g1i g1d g2 g3 t B) in Hc. destruct Hc as (_ & ->).
        cbn [core_at c_cpuid]. now rewrite <- E1.
      + intros p q Hp Hq. apply In_nth_error in Hp. apply In_nth_error in Hq. destruct Hp as (i & Hp), Hq as (j & Hq).
        apply PP in Hp. apply PP in Hq. destruct Hp as (Hi & ->), Hq as (Hj & ->). cbn [processor_at p_linux_id p_cluster]. rewrite !Nat2N.id.
        destruct (placed_at i ltac:(lia)) as (_ & E1). destruct (placed_at j ltac:(lia)) as (_ & F). rewrite <- !(leader_3 _ _ _ _ _ _ _ _ D). unfold leader. rewrite <- E1, <- F.
        rewrite <- (same_group _ _ _ _ i j A ltac:(lia) ltac:(lia)). unfold cluster_of. split; [intros H; now injection H|congruence].
    - rewrite <- (leaders_3 _ _ _ _ _ _ _ _ D), <- (ar_clusters _ _ _ _ A). exact E.
  Qed.
End BUILT.

(** ** The whole *)
Section WHOLE.
  Variables (sg arm32 android : bool) (garbage : known) (default : N) (sorter : list aproc -> list aproc) (calloc_ok : ablock -> bool)
    (d : arm_decoders) (fs : arm_files) (max : N) (po pr : option (list (N * N))) (ms : list arm_meaning).
  Notation usable := (arm_usable max po pr).
  Hypothesis FS : arm_files_say arm32 default fs max po pr ms.
  Hypothesis ON : some_online d usable ms.
  Hypothesis DA : decoders_answer d ms.
  Hypothesis SO : sorts (cmp_arm_linux_processor arm32) sorter.
  Notation init := (arm_linux_init sg arm32 android garbage default sorter calloc_ok d fs).

  Lemma offline_stages : exists ps1, seen arm32 usable ms ps1 /\
    (forall i, usable i -> id_file (ac_package_id (amf_cpu fs i)) -> bitmask_all (a_flags (entry ps1 i)) af_package_id = true) /\
    (forall i, clustered (entry ps1 i) = false /\
       (f_contents (ac_package_id (amf_cpu fs i)) = None -> bitmask_all (a_flags (entry ps1 i)) af_package_id = false)) /\
    let clusters := detect_clusters sg (android && arm32) garbage (fun i => ac_siblings (amf_cpu fs i)) (online_count ps1) ps1 in
    (calloc_ok A_linux_processors = false -> init = Ok (AOutcome None [] false)) /\
    (calloc_ok A_linux_processors = true -> forall o, init = Ok o -> exists ps2, clusters = Ok ps2) /\
    (calloc_ok A_linux_processors = true -> forall ps2, clusters = Ok ps2 ->
       exists ps3 chip t blocks, assign_midrs arm32 (ad_uarch d) chip (online_count ps1) ps2 = Ok (length (cluster_leaders ps2), ps3) /\
         detected_arm arm32 d usable ms fs ps1 ps2 ps3 /\
         arm_offline_reports usable ms t /\ offline_linked usable ps2 ps3 t /\
         init = Ok (if forallb calloc_ok blocks then AOutcome (Some t) (rev blocks) true else AOutcome None [] true)).
  Proof.
    destruct (lists_read_any sg arm32 default calloc_ok fs max po pr ms FS) as (mask & flags & FG & EA).
    assert (E : init = if calloc_ok A_linux_processors then arm_rest sg arm32 android garbage sorter calloc_ok d fs mask flags else Ok (AOutcome None [] false))
      by (unfold arm_linux_init; rewrite EA; reflexivity).
    destruct (detection_any sg arm32 android garbage d fs max po pr ms mask flags FG (as_cpuinfo _ _ _ _ _ _ _ FS) DA)
      as (hardware & revision & ps0 & chip & ps1 & v & EV & RB & BT & ECH & S & PK & CK & NC & ED). subst v.
    exists ps1. split; [exact S|]. split; [exact PK|]. split; [exact NC|]. cbv zeta. set (clusters := detect_clusters _ _ _ _ _ _) in *.
    split; [intros H; now rewrite E, H|]. split.
    - intros H o. rewrite E, H. unfold arm_rest. rewrite ED. destruct clusters as [ps2| |]; cbn [bind]; [eauto|discriminate|discriminate].
    - intros H ps2 EC. rewrite E, H. unfold arm_rest. rewrite ED, EC. cbn [bind]. unfold clusters in EC.
      destruct (every_core_clustered _ _ _ _ _ _ _ (se_count _ _ _ _ S) EC) as (CO & SZ & CH).
      destruct (assign_midrs_total arm32 (ad_uarch d) chip (online_count ps1) ps2 CO) as (ps3 & EM & LM & DM & _ & FM & MX & NM).
      assert (U2 : forall c, usable c <-> ArmClustersSpec.usable ps2 c).
      { intros c. rewrite (se_usable _ _ _ _ S). unfold ArmClustersSpec.usable. now rewrite (same_cpu_valid _ _ (changed_same _ _ (proj2 CH c))). }
      assert (D : detected_arm arm32 d usable ms fs ps1 ps2 ps3).
      { split; auto; intros i; [intros x Hi; apply MX|intros Hi; apply NM|intros Hi; apply FM]; now apply U2. }
      exists ps3, chip. rewrite EM. cbn [bind].
      destruct (build_offline arm32 d usable ms fs ps1 ps2 ps3 D sorter chip _ SO ON DA EM calloc_ok) as (t & blocks & R & L & EB).
      exists t, blocks. split; [reflexivity|]. split; [exact D|]. split; [exact R|]. split; [exact L|]. exact EB.
  Qed.

  Lemma offline_reports o : init = Ok o ->
    match ao_published o with
    | Some t => arm_offline_reports usable ms t
    | None => ao_live o = [] /\ exists b, calloc_ok b = false
    end.
  Proof.
    intros E. destruct offline_stages as (ps1 & S & PK & NC & X1 & X2 & X3). destruct (calloc_ok A_linux_processors) eqn:C.
    - destruct (X2 eq_refl o E) as (ps2 & EC). destruct (X3 eq_refl ps2 EC) as (ps3 & chip & t & blocks & EM & D & R & L & EI).
      rewrite EI in E. injection E as <-. destruct (forallb calloc_ok blocks) eqn:F; cbn [ao_published ao_live]; [exact R|]. split; [reflexivity|].
      clear - F. induction blocks as [|b l IH]; cbn in F; [discriminate|]. destruct (calloc_ok b) eqn:Eb; [apply IH; exact F|eauto].
    - rewrite (X1 eq_refl) in E. injection E as <-. cbn. split; [reflexivity|eauto].
  Qed.

  Lemma offline_total : sibling_commas fs -> (forall n, number_online usable ms n -> ~ In n [5; 6; 8; 10]) -> exists o, init = Ok o.
  Proof.
    intros SC NB. destruct offline_stages as (ps1 & S & PK & NC & X1 & X2 & X3). destruct (calloc_ok A_linux_processors) eqn:C; [|eauto].
    destruct (clusters_total sg (android && arm32) garbage (fun i => ac_siblings (amf_cpu fs i)) (online_count ps1) ps1 (se_count _ _ _ _ S) SC) as (ps2 & EC).
    { right. apply NB. exists (online_cpus ps1). split; [apply NoDup_filter, seq_NoDup|]. split; [|reflexivity]. intros c.
      unfold online_cpus. rewrite filter_In, in_seq, andb_true_iff. split.
      - intros (L & V & I). split; [now apply (se_usable _ _ _ _ S)|]. apply (se_online _ _ _ _ S c); [lia|exact I].
      - intros (U & O). apply (se_usable _ _ _ _ S) in U. pose proof (usable_lt _ _ U) as L. split; [lia|]. split; [exact U|]. now apply (se_online _ _ _ _ S c L). }
    destruct (X3 eq_refl ps2 EC) as (ps3 & chip & t & blocks & _ & _ & _ & _ & EI). eauto.
  Qed.

  (** The lists of the kernel in terms of the table. *)
  Lemma groups_lists_on ps1 group : seen arm32 usable ms ps1 ->
    (forall i, usable i -> id_file (ac_package_id (amf_cpu fs i)) -> bitmask_all (a_flags (entry ps1 i)) af_package_id = true) ->
    (forall i, clustered (entry ps1 i) = false /\
       (f_contents (ac_package_id (amf_cpu fs i)) = None -> bitmask_all (a_flags (entry ps1 i)) af_package_id = false)) ->
    groups_online usable ms fs group -> kernel_lists_on ps1 (fun i => in_cpuinfo (entry ps1 i)) (fun i => ac_siblings (amf_cpu fs i)) group.
  Proof.
    intros S PK NC [G1 G2 G3]. pose proof (se_usable _ _ _ _ S) as U.
    assert (O : forall i, ArmClustersSpec.usable ps1 i -> (in_cpuinfo (entry ps1 i) = true <-> online ms i)) by (intros i Hi; apply (se_online _ _ _ _ S), usable_lt, Hi).
    assert (T : forall list_of, siblings_online usable ms list_of fs group ->
      lists_group_on ps1 (fun i => in_cpuinfo (entry ps1 i)) list_of (fun i => ac_siblings (amf_cpu fs i)) group).
    { intros list_of H i Hi Oi. apply (O i Hi) in Oi. apply U in Hi. destruct (H i Hi Oi) as (rs & H1 & H2). exists rs. split; [exact H1|].
      intros j Hj. rewrite (O j Hj). apply H2. now apply U. }
    split.
    - intros i Hi. pose proof (O i Hi) as Oi. destruct (in_cpuinfo (entry ps1 i)).
      + apply PK; [now apply U|]. apply G1; [now apply U|now apply Oi].
      + apply NC. apply G2; [now apply U|]. intros X. apply Oi in X. discriminate X.
    - intros i _. apply NC.
    - destruct G3 as [G3|(N3 & G3)]; [left; now apply T|right]. split; [|now apply T]. intros i Hi Oi Fi. apply N3; [now apply U|now apply O|].
      intros j Hj Uj Oj. apply U in Uj. apply (O j Uj) in Oj. rewrite (Fi j Hj Uj) in Oj. discriminate Oj.
  Qed.

  (** Then there is no undefined behaviour, and the clusters are those of the kernel. *)
  Lemma offline_groups group : groups_online usable ms fs group -> exists o, init = Ok o /\ forall t, ao_published o = Some t ->
    clusters_online ms group t /\ (2 <= length (at_processors t) -> forall midr, midrs_online usable ms group midr -> cores_online ms midr t).
  Proof.
    intros G. destruct offline_stages as (ps1 & S & PK & NC & X1 & X2 & X3).
    destruct (calloc_ok A_linux_processors) eqn:C; [|eexists; split; [exact (X1 eq_refl)|intros t P; discriminate P]].
    pose proof (se_usable _ _ _ _ S) as U1.
    destruct (online_clusters ps1 (fun i => in_cpuinfo (entry ps1 i)) (fun i => ac_siblings (amf_cpu fs i)) group sg (android && arm32) garbage (se_count _ _ _ _ S)
      (groups_lists_on ps1 group S PK NC G)) as (ps2 & EC & GL).
    destruct (X3 eq_refl ps2 EC) as (ps3 & chip & t & blocks & EM & D & R & L & EI).
    eexists. split; [exact EI|]. intros t' P. destruct (forallb calloc_ok blocks); [|discriminate P]. cbn [ao_published] in P. injection P as <-. clear X1 X2 X3 EI.
    set (on := fun i => in_cpuinfo (entry ps1 i)) in *.
    assert (O : forall i, usable i -> (on i = true <-> online ms i)) by (intros i Hi; apply (se_online _ _ _ _ S), usable_lt; now apply U1).
    assert (GG : forall i j, usable i -> usable j -> (leader ps2 i = leader ps2 j <-> apart on group i = apart on group j)).
    { intros i j Hi Hj. apply U1 in Hi. apply U1 in Hj. apply (same_cluster_iff ps1 (apart on group) i j); auto. }
    assert (GO : forall i j, usable i -> usable j -> i <> j -> (leader ps2 i = leader ps2 j <-> online ms i /\ online ms j /\ group i = group j)).
    { intros i j Hi Hj NE. rewrite (GG i j Hi Hj), <- (O i Hi), <- (O j Hj). destruct (on j) eqn:Ej; [rewrite (apart_on on group j i Ej); split; [intros (a & b); auto|intros (a & _ & b); auto]|].
      rewrite (apart_off on group j i Ej). intuition congruence. }
    destruct L as [L1 L2]. split.
    - intros p q Hp Hq NE. rewrite (L2 p q Hp Hq). apply In_nth_error in Hp. apply In_nth_error in Hq. destruct Hp as (i & Hp), Hq as (j & Hq).
      apply GO; [apply (L1 i p Hp)|apply (L1 j q Hq)|]. intros X. apply NE. now apply N2Nat.inj.
    - intros T2 midr (M1 & M2) i p c Hp Hc Op f Hf. destruct (L1 i p Hp) as (U & EQ). rewrite (EQ c Hc). set (cpu := N.to_nat (p_linux_id p)) in *.
      assert (T : 2 <= online_count ps1).
      { destruct (or_count _ _ _ R) as (l & ND & Il & El). rewrite <- El in T2. change (2 <= length (online_cpus ps1)).
        transitivity (length l); [exact T2|]. apply NoDup_incl_length; [exact ND|]. intros x Hx. apply (online_cpus_spec _ _ _ _ _ _ _ _ D). now apply Il. }
      destruct (cluster_register _ _ _ _ _ _ _ _ D chip _ ON EM cpu T U) as [(j & Uj & Oj & Lj & F)|X].
      + rewrite (F f Hf). pose proof (same_2 _ _ _ _ _ _ _ _ D j) as SC. rewrite (sc_midr _ _ SC).
        destruct (se_midr _ _ _ _ S j (midr j)) as (_ & B2); [apply usable_lt; now apply U1|now apply M1|]. rewrite (B2 f Hf).
        destruct (Nat.eq_dec j cpu) as [->|NE]; [reflexivity|]. apply M2; auto. now apply (GO j cpu).
      + exfalso. now apply (X cpu U).
  Qed.
End WHOLE.
