(** ARM Linux initialisation when the files make sense. *)
From Verif Require Import Base BaseProofs Sorting Runs GroupArray Loops LinuxTextModel LinuxTextSpec TopologySpec
  X86LinuxSpec X86DetectProofs ArmMidrModel ArmClustersModel ArmClustersSpec ArmClustersProofs ArmClusterMidrModel ArmClusterMidrSpec
  ArmClusterMidrProofs ArmMidrTableProofs ArmCpuinfoModel ArmCpuinfoSpec ArmCpuinfoResultProofs ArmLinuxModel ArmOrderProofs
  ArmScanProofs ArmSortedProofs ArmTablesProofs ArmBuildProofs ArmReportProofs ArmCacheReportProofs ArmLinuxSpec ArmDetectProofs ArmMidrSpec.
Open Scope nat_scope.

(** ** From the detected table to the published one *)
Section BUILT.
  Variables (arm32 : bool) (d : arm_decoders) (usable : nat -> Prop) (ms : list arm_meaning) (fs : arm_files) (ps1 ps2 ps3 : list aproc).
  Hypothesis D : detected_arm arm32 d usable ms fs ps1 ps2 ps3.
  Variables (version : N) (sorter : list aproc -> list aproc) (chip : chipset).
  Hypothesis SO : sorts (cmp_arm_linux_processor arm32) sorter.
  Hypothesis ON : all_online usable ms version.
  Hypothesis DA : decoders_answer d ms.

  Let ss := sorter ps3.
  Let n := usable_count ps3.

  Lemma detected_arranged : arranged arm32 ps3 ss n.
  Proof. destruct (SO ps3) as (P & S). now apply arrange; [exact (detected_sortable _ _ _ _ _ _ _ _ D)|..]. Qed.

  Lemma count_3 : n = usable_count ps1.
  Proof.
    unfold n. rewrite (usable_count_same ps2 ps3).
    - apply usable_count_same; [apply (da_same _ _ _ _ _ _ _ _ D)|]. intros i _. apply same_cpu_valid. exact (same_2 _ _ _ _ _ _ _ _ D i).
    - apply (da_length _ _ _ _ _ _ _ _ D).
    - intros i _. exact (valid_3 _ _ _ _ _ _ _ _ D i).
  Qed.

  Lemma some_usable : 0 < n.
  Proof.
    destruct (ao_some _ _ _ ON) as (c & Hc). apply (usable_3 _ _ _ _ _ _ _ _ D) in Hc.
    unfold n, usable_count, usable_below. pose proof (usable_lt _ _ Hc) as L.
    assert (X : In c (filter (fun i => a_valid (entry ps3 i)) (seq 0 (length ps3)))) by (apply filter_In; split; [apply in_seq; lia|exact Hc]).
    destruct (filter _ _); [destruct X|cbn; lia].
  Qed.

  (** The place of a usable processor in the sorted table. *)
  Lemma placed i : i < n -> usable (a_id (entry ss i)) /\ entry ss i = entry ps3 (a_id (entry ss i)).
  Proof.
    intros Hi. pose proof detected_arranged as A. pose proof (ar_le _ _ _ _ A) as LE.
    destruct (ar_entry _ _ _ _ A i ltac:(lia)) as (_ & E). split; [|exact E].
    apply (usable_3 _ _ _ _ _ _ _ _ D). unfold ArmClustersSpec.usable. rewrite <- E, (ar_valid _ _ _ _ A). now apply Nat.ltb_lt.
  Qed.

  Let g (pick : geometry * geometry * geometry * geometry -> geometry) (i : nat) : geometry :=
    match caches_of d chip (cluster_of ss i) (entry ss i) with Ok q => pick q | _ => Geometry 0 0 0 0 0 0 end.
  Let g1i := g (fun q => fst (fst (fst q))).
  Let g1d := g (fun q => snd (fst (fst q))).
  Let g2 := g (fun q => snd (fst q)).
  Let g3 := g (fun q => snd q).

  Lemma caches_decoded i : i < n -> caches_of d chip (cluster_of ss i) (entry ss i) = Ok (g1i i, g1d i, g2 i, g3 i).
  Proof.
    intros Hi. destruct (placed i Hi) as (U & E).
    assert (X : exists a b c e, caches_of d chip (cluster_of ss i) (entry ss i) = Ok (a, b, c, e)).
    { unfold caches_of. destruct (da_follows _ _ _ _ _ _ _ _ D _ U) as (_ & V). rewrite <- E in V.
      replace (a_uarch (entry ss i)) with (snd (ad_uarch d (a_midr (entry ss i))
        (any_flag (ar_features (a_report (entry ps2 (leader ps2 (a_id (entry ss i)))))) feature_vfpv4))) by now rewrite <- V.
      apply (proj2 DA). }
    destruct X as (a & b & c & e & X). unfold g1i, g1d, g2, g3, g. rewrite X. reflexivity.
  Qed.

  Lemma version_everywhere i : i < n -> ar_architecture_version (a_report (entry ss i)) = version.
  Proof.
    intros Hi. destruct (placed i Hi) as (U & E). rewrite E, (version_3 _ _ _ _ _ _ _ _ D _ U). now apply (ao_version _ _ _ ON).
  Qed.

  Definition arm_needed : list ablock := arm_blocks ss n n g2 g3.

  (** What the processors and cores of the tables are. *)
  Record linked_to (t : arm_tables) : Prop := {
    lt_count : length (at_processors t) = n;
    lt_processor : forall i p, nth_error (at_processors t) i = Some p -> usable (N.to_nat (p_linux_id p)) /\
      forall c, nth_error (at_cores t) i = Some c -> c_cpuid c = a_midr (entry ps3 (N.to_nat (p_linux_id p)));
    lt_cluster : forall p q, In p (at_processors t) -> In q (at_processors t) ->
      (p_cluster p = p_cluster q <-> leader ps2 (N.to_nat (p_linux_id p)) = leader ps2 (N.to_nat (p_linux_id q)));
    lt_order : forall i j p q, i < j -> nth_error (at_processors t) i = Some p -> nth_error (at_processors t) j = Some q ->
      arm_before arm32 (entry ps3 (N.to_nat (p_linux_id p))) (entry ps3 (N.to_nat (p_linux_id q)))
  }.

  Lemma built_reports t : built arm32 ss n n d g1i g1d g2 g3 t ->
    chipset_from d ms n chip -> arm_reports arm32 d usable ms version t /\ linked_to t.
  Proof.
    intros B CH. pose proof detected_arranged as A. pose proof some_usable as N0. pose proof caches_decoded as DEC. pose proof version_everywhere as VER.
    assert (NP : length (at_processors t) = n) by (rewrite (bu_processors _ _ _ _ _ _ _ _ _ _ B), map_length; apply seq_length).
    split.
    - split.
      + apply (topology arm32 ps3 ss n A N0 d g1i g1d g2 g3 t B). apply (usable_3 _ _ _ _ _ _ _ _ D).
      + apply (big_before_little arm32 ps3 ss n A N0 d g1i g1d g2 g3 t B).
      + apply (maps_right arm32 ps3 ss n A N0 d g1i g1d g2 g3 t B).
      + exists (kind ss n). apply (kinds_right arm32 ps3 ss n A N0 d g1i g1d g2 g3 t B).
      + intros i c Hc. rewrite (bu_cores _ _ _ _ _ _ _ _ _ _ B) in Hc. apply nth_map_seq_inv in Hc. destruct Hc as (Hi & ->).
        destruct (placed i Hi) as (U & E). set (c := a_id (entry ss i)) in *.
        assert (UL : usable (leader ps2 c)).
        { apply (usable_2 _ _ _ _ _ _ _ _ D) in U. apply (usable_2 _ _ _ _ _ _ _ _ D). now apply (da_clusters _ _ _ _ _ _ _ _ D). }
        assert (LL : leader ps2 (leader ps2 c) = leader ps2 c).
        { apply (usable_2 _ _ _ _ _ _ _ _ D) in U. now apply (da_clusters _ _ _ _ _ _ _ _ D). }
        pose proof UL as UL3. apply (usable_3 _ _ _ _ _ _ _ _ D) in UL3.
        destruct (ar_place _ _ _ _ A (leader ps2 c)) as (j & Hj & Ej); [rewrite (ar_length _ _ _ _ A); now apply usable_lt|].
        assert (Hjn : j < n).
        { destruct (ar_entry _ _ _ _ A j Hj) as (_ & Ee). unfold ArmClustersSpec.usable in UL3. rewrite <- Ej, <- Ee, (ar_valid _ _ _ _ A) in UL3. now apply Nat.ltb_lt. }
        exists j, (processor_at ss j), (any_flag (ar_features (a_report (entry ps2 (leader ps2 c)))) feature_vfpv4).
        split; [rewrite (bu_processors _ _ _ _ _ _ _ _ _ _ B); now apply nth_map_seq|]. split; [|split].
        * apply (same_cluster_at arm32 ss n d g1i g1d g2 g3 t B). split; [exact Hi|]. split; [exact Hjn|].
          apply (same_group _ _ _ _ i j A Hi Hjn). destruct (placed j Hjn) as (_ & EJ). rewrite E, EJ, Ej.
          change (a_leader (entry ps3 c)) with (leader ps3 c). change (a_leader (entry ps3 (leader ps2 c))) with (leader ps3 (leader ps2 c)).
          rewrite !(leader_3 _ _ _ _ _ _ _ _ D). now rewrite LL.
        * cbn [core_at c_vendor c_uarch c_cpuid]. rewrite E. apply (da_follows _ _ _ _ _ _ _ _ D _ U).
        * cbn [processor_at p_linux_id]. rewrite Nat2N.id, Ej. change feature_vfpv4 with (2 ^ 16)%N. rewrite any_flag_bit.
          rewrite (sc_report _ _ (same_2 _ _ _ _ _ _ _ _ D (leader ps2 c))).
          apply (se_features _ _ _ _ (da_seen _ _ _ _ _ _ _ _ D) (leader ps2 c) 16).
          apply usable_lt. now apply (se_usable _ _ _ _ (da_seen _ _ _ _ _ _ _ _ D)).
      + apply (max_size_right arm32 ps3 ss n A N0 d chip g1i g1d g2 g3 DEC version VER t B).
      + exists chip. rewrite NP. split; [exact CH|]. split; [apply (l2_right arm32 ps3 ss n A N0 d chip g1i g1d g2 g3 DEC version VER t B)|]. split; [|split].
        * intros H32. apply (l1_right arm32 ps3 ss n A N0 d chip g1i g1d g2 g3 DEC version VER t B H32).
        * intros H32. split; [rewrite (bu_l1i _ _ _ _ _ _ _ _ _ _ B), (bu_l1d _ _ _ _ _ _ _ _ _ _ B), NP, !map_length, !seq_length; now split|].
          intros i p h1i h1d h2 h3 Hp HD.
          assert (Hi : i < n) by (rewrite <- NP; apply nth_error_Some; now rewrite Hp).
          apply (decoded_iff arm32 ps3 ss n A N0 d chip g1i g1d g2 g3 DEC version VER t B) in HD. destruct HD as (_ & -> & -> & _).
          rewrite (bu_processors _ _ _ _ _ _ _ _ _ _ B), nth_map_seq in Hp by exact Hi. injection Hp as <-. cbn [processor_at p_linux_id]. rewrite Nat2N.id.
          rewrite (bu_l1i _ _ _ _ _ _ _ _ _ _ B), (bu_l1d _ _ _ _ _ _ _ _ _ _ B), !nth_map_seq by exact Hi.
          destruct (placed i Hi) as (U & E). unfold l1i_at, l1d_at, l1_cache. set (c := a_id (entry ss i)) in *. clearbody c. rewrite E, H32. cbn [andb]. split.
          -- destruct (l1_3 _ _ _ _ _ _ _ _ D _ false U) as (F & V).
             destruct (bitmask_all _ _).
             ++ split; intros H; [unfold told_l1; rewrite <- !V; reflexivity|destruct (H (proj1 F eq_refl))].
             ++ split; intros H; [discriminate (proj2 F H)|reflexivity].
          -- destruct (l1_3 _ _ _ _ _ _ _ _ D _ true U) as (F & V).
             destruct (bitmask_all _ _).
             ++ split; intros H; [unfold told_l1; rewrite <- !V; reflexivity|destruct (H (proj1 F eq_refl))].
             ++ split; intros H; [discriminate (proj2 F H)|reflexivity].
        * intros [].
          -- apply (l3_shared arm32 ps3 ss n A N0 d chip g1i g1d g2 g3 DEC version VER t B).
          -- apply (l3_per_cluster arm32 ps3 ss n A N0 d chip g1i g1d g2 g3 DEC version VER t B).
    - assert (PP : forall i p, nth_error (at_processors t) i = Some p -> i < n /\ p = processor_at ss i).
      { intros i p Hp. rewrite (bu_processors _ _ _ _ _ _ _ _ _ _ B) in Hp. now apply nth_map_seq_inv in Hp. }
      split; [exact NP|..].
      + intros i p Hp. apply PP in Hp. destruct Hp as (Hi & ->). destruct (placed i Hi) as (U & E). cbn [processor_at p_linux_id]. rewrite Nat2N.id.
        split; [exact U|]. intros c Hc. rewrite (bu_cores _ _ _ _ _ _ _ _ _ _ B), nth_map_seq in Hc by exact Hi. injection Hc as <-.
        cbn [core_at c_cpuid]. now rewrite <- E.
      + intros p q Hp Hq. apply In_nth_error in Hp. apply In_nth_error in Hq. destruct Hp as (i & Hp), Hq as (j & Hq).
        apply PP in Hp. apply PP in Hq. destruct Hp as (Hi & ->), Hq as (Hj & ->). cbn [processor_at p_linux_id p_cluster]. rewrite !Nat2N.id.
        destruct (placed i Hi) as (_ & E). destruct (placed j Hj) as (_ & F). rewrite <- !(leader_3 _ _ _ _ _ _ _ _ D). unfold leader. rewrite <- E, <- F.
        rewrite <- (same_group _ _ _ _ i j A Hi Hj). unfold cluster_of. split; [intros H; now injection H|congruence].
      + intros i j p q Hij Hp Hq. apply PP in Hp. apply PP in Hq. destruct Hp as (Hi & ->), Hq as (Hj & ->). cbn [processor_at p_linux_id]. rewrite !Nat2N.id.
        destruct (placed i Hi) as (_ & E). destruct (placed j Hj) as (_ & F). rewrite <- E, <- F. apply (ar_order _ _ _ _ A); [exact Hij|].
        pose proof (ar_le _ _ _ _ A). lia.
  Qed.

  Lemma build_done calloc_ok : chipset_from d ms n chip ->
    exists t, arm_reports arm32 d usable ms version t /\ linked_to t /\
      build_arm arm32 d chip calloc_ok n (length (cluster_leaders ps2)) ss = Ok (
        if forallb calloc_ok arm_needed then AOutcome (Some t) (rev arm_needed) true else AOutcome None [] true).
  Proof.
    intros CH. pose proof detected_arranged as A. pose proof some_usable as N0. pose proof caches_decoded as DEC. pose proof version_everywhere as VER.
    destruct (build_result arm32 ps3 ss n A N0 n N0 (le_n n) d chip g1i g1d g2 g3 DEC (levels_alike arm32 ps3 ss n A N0 d chip g1i g1d g2 g3 DEC version VER) calloc_ok)
      as (t & B & E).
    destruct (built_reports t B CH) as (R & L). exists t. split; [exact R|]. split; [exact L|].
    rewrite <- (leaders_3 _ _ _ _ _ _ _ _ D), <- (ar_clusters _ _ _ _ A). exact E.
  Qed.
End BUILT.

(** ** The whole *)
Section WHOLE.
  Variables (sg arm32 android : bool) (garbage : known) (default : N) (sorter : list aproc -> list aproc) (calloc_ok : ablock -> bool)
    (d : arm_decoders) (fs : arm_files) (max : N) (po pr : option (list (N * N))) (ms : list arm_meaning) (version : N).
  Notation usable := (arm_usable max po pr).
  Hypothesis FS : arm_files_say arm32 default fs max po pr ms.
  Hypothesis ON : all_online usable ms version.
  Hypothesis DA : decoders_answer d ms.
  Hypothesis SO : sorts (cmp_arm_linux_processor arm32) sorter.
  Notation init := (arm_linux_init sg arm32 android garbage default sorter calloc_ok d fs).

  (** The clusters decide whether the rest is reached. *)
  Lemma init_stages : exists ps1, seen arm32 usable ms ps1 /\
    (forall i, usable i -> id_file (ac_package_id (amf_cpu fs i)) -> bitmask_all (a_flags (entry ps1 i)) af_package_id = true) /\
    (exists hardware revision ps0, board_texts ms hardware revision /\ forall A (nothing : A) rest,
       with_lists sg default calloc_ok fs nothing (fun mask flags => do r <- read_board sg arm32 mask fs flags; rest r) =
       if calloc_ok A_linux_processors then rest (Some (hardware, revision, usable_count ps1, ps0)) else Ok nothing) /\
    let clusters := detect_clusters sg (android && arm32) garbage (fun i => ac_siblings (amf_cpu fs i)) (usable_count ps1) ps1 in
    (calloc_ok A_linux_processors = false -> init = Ok (AOutcome None [] false)) /\
    (calloc_ok A_linux_processors = true -> forall o, init = Ok o -> exists ps2, clusters = Ok ps2) /\
    (calloc_ok A_linux_processors = true -> forall ps2, clusters = Ok ps2 ->
       exists ps3 chip t blocks, assign_midrs arm32 (ad_uarch d) chip (usable_count ps1) ps2 = Ok (length (cluster_leaders ps2), ps3) /\
         detected_arm arm32 d usable ms fs ps1 ps2 ps3 /\
         arm_reports arm32 d usable ms version t /\ linked_to arm32 usable ps2 ps3 t /\
         init = Ok (if forallb calloc_ok blocks then AOutcome (Some t) (rev blocks) true else AOutcome None [] true)).
  Proof.
    destruct (lists_read_any sg arm32 default calloc_ok fs max po pr ms FS) as (mask & flags & FG & EA).
    assert (E : init = if calloc_ok A_linux_processors then arm_rest sg arm32 android garbage sorter calloc_ok d fs mask flags else Ok (AOutcome None [] false))
      by (unfold arm_linux_init; rewrite EA; reflexivity).
    destruct (detection_steps sg arm32 android garbage d fs max po pr ms mask flags FG (as_cpuinfo _ _ _ _ _ _ _ FS) DA version ON)
      as (hardware & revision & ps0 & chip & ps1 & RB & BT & ECH & S & PK & CK & ED).
    exists ps1. split; [exact S|]. split; [exact PK|].
    split; [exists hardware, revision, ps0; split; [exact BT|]; intros A nothing rest; rewrite EA, RB; reflexivity|]. cbv zeta. set (clusters := detect_clusters _ _ _ _ _ _) in *.
    split; [intros H; now rewrite E, H|]. split.
    - intros H o. rewrite E, H. unfold arm_rest. rewrite ED. destruct clusters as [ps2| |]; cbn [bind]; [eauto|discriminate|discriminate].
    - intros H ps2 EC. rewrite E, H. unfold arm_rest. rewrite ED, EC. cbn [bind]. unfold clusters in EC.
      destruct (every_core_clustered _ _ _ _ _ _ _ (se_count _ _ _ _ S) EC) as (CO & SZ & CH).
      destruct (assign_midrs_total arm32 (ad_uarch d) chip (usable_count ps1) ps2 CO) as (ps3 & EM & LM & DM & _ & FM & MX & NM).
      assert (U2 : forall c, usable c <-> ArmClustersSpec.usable ps2 c).
      { intros c. rewrite (se_usable _ _ _ _ S). unfold ArmClustersSpec.usable. now rewrite (same_cpu_valid _ _ (changed_same _ _ (proj2 CH c))). }
      assert (D : detected_arm arm32 d usable ms fs ps1 ps2 ps3).
      { split; auto; intros i; [intros x Hi; apply MX|intros Hi; apply NM|intros Hi; apply FM]; now apply U2. }
      exists ps3, chip. rewrite EM. cbn [bind].
      assert (CF : chipset_from d ms (usable_count ps3) chip).
      { rewrite (count_3 _ _ _ _ _ _ _ _ D). now exists hardware, revision. }
      destruct (build_done arm32 d usable ms fs ps1 ps2 ps3 D version sorter chip SO ON DA calloc_ok CF) as (t & R & L & EB).
      exists t. eexists. split; [reflexivity|]. split; [exact D|]. split; [exact R|]. split; [exact L|].
      rewrite <- (count_3 _ _ _ _ _ _ _ _ D). exact EB.
  Qed.

  Lemma init_reports o : init = Ok o ->
    match ao_published o with
    | Some t => arm_reports arm32 d usable ms version t
    | None => ao_live o = [] /\ exists b, calloc_ok b = false
    end.
  Proof.
    intros E. destruct init_stages as (ps1 & S & PK & _ & X1 & X2 & X3). destruct (calloc_ok A_linux_processors) eqn:C.
    - destruct (X2 eq_refl o E) as (ps2 & EC). destruct (X3 eq_refl ps2 EC) as (ps3 & chip & t & blocks & EM & D & R & L & EI).
      rewrite EI in E. injection E as <-. destruct (forallb calloc_ok blocks) eqn:F; cbn [ao_published ao_live]; [exact R|]. split; [reflexivity|].
      clear - F. induction blocks as [|b l IH]; cbn in F; [discriminate|]. destruct (calloc_ok b) eqn:Eb; [apply IH; exact F|eauto].
    - rewrite (X1 eq_refl) in E. injection E as <-. cbn. split; [reflexivity|eauto].
  Qed.

  (** The buffers and the number of processors that the chip is decoded from. *)
  Lemma board_read : exists hardware revision n ps0, board_texts ms hardware revision /\
    (forall A (nothing : A) rest,
       with_lists sg default calloc_ok fs nothing (fun mask flags => do r <- read_board sg arm32 mask fs flags; rest r) =
       if calloc_ok A_linux_processors then rest (Some (hardware, revision, n, ps0)) else Ok nothing) /\
    forall o t, init = Ok o -> ao_published o = Some t -> calloc_ok A_linux_processors = true /\ length (at_processors t) = n.
  Proof.
    destruct init_stages as (ps1 & S & PK & (hw & rev & ps0 & BT & RD) & X1 & X2 & X3).
    exists hw, rev, (usable_count ps1), ps0. split; [exact BT|]. split; [exact RD|]. intros o t E P.
    destruct (calloc_ok A_linux_processors) eqn:C; [|rewrite (X1 eq_refl) in E; injection E as <-; discriminate P]. split; [reflexivity|].
    destruct (X2 eq_refl o E) as (ps2 & EC). destruct (X3 eq_refl ps2 EC) as (ps3 & chip & t' & blocks & EM & D & R & L & EI).
    rewrite EI in E. injection E as <-. destruct (forallb calloc_ok blocks); [|discriminate P]. cbn [ao_published] in P. injection P as ->.
    rewrite (lt_count _ _ _ _ _ L). exact (count_3 _ _ _ _ _ _ _ _ D).
  Qed.

  Lemma init_total : sibling_commas fs -> exists o, init = Ok o.
  Proof.
    intros SC. destruct init_stages as (ps1 & S & PK & _ & X1 & X2 & X3). destruct (calloc_ok A_linux_processors) eqn:C; [|eauto].
    destruct (clusters_total sg (android && arm32) garbage (fun i => ac_siblings (amf_cpu fs i)) (usable_count ps1) ps1 (se_count _ _ _ _ S) SC) as (ps2 & EC);
      [left; lia|]. destruct (X3 eq_refl ps2 EC) as (ps3 & chip & t & blocks & _ & _ & _ & _ & EI). eauto.
  Qed.

  Lemma init_total_groups group : groups_say usable fs group -> exists o, init = Ok o.
  Proof.
    intros G. destruct init_stages as (ps1 & S & PK & _ & X1 & X2 & X3). destruct (calloc_ok A_linux_processors) eqn:C; [|eauto].
    destruct (kernel_lists_total sg (android && arm32) garbage (fun i => ac_siblings (amf_cpu fs i)) ps1 group (se_count _ _ _ _ S)
      (groups_kernel_lists _ _ _ _ _ _ S PK G)) as (ps2 & EC).
    destruct (X3 eq_refl ps2 EC) as (ps3 & chip & t & blocks & _ & _ & _ & _ & EI). eauto.
  Qed.

  Lemma init_groups group o t : groups_say usable fs group -> init = Ok o -> ao_published o = Some t ->
    clusters_follow t group /\ forall midr, midrs_given usable ms group midr -> midrs_follow t midr.
  Proof.
    intros G E P. destruct init_stages as (ps1 & S & PK & _ & X1 & X2 & X3).
    destruct (calloc_ok A_linux_processors) eqn:C; [|rewrite (X1 eq_refl) in E; injection E as <-; discriminate P].
    destruct (X2 eq_refl o E) as (ps2 & EC). destruct (X3 eq_refl ps2 EC) as (ps3 & chip & t' & blocks & EM & D & R & L & EI).
    rewrite EI in E. injection E as <-. destruct (forallb calloc_ok blocks); [|discriminate P]. cbn [ao_published] in P. injection P as ->. clear X1 X2 X3 EI.
    pose proof (se_usable _ _ _ _ S) as U1.
    assert (GL : forall i, ArmClustersSpec.usable ps1 i -> is_first_of_group ps1 group i (leader ps2 i)).
    { apply (kernel_lists_clusters _ _ _ _ _ _ _ _ (se_count _ _ _ _ S) (groups_kernel_lists _ _ _ _ _ _ S PK G) EC). }
    assert (GG : forall i j, usable i -> usable j -> (leader ps2 i = leader ps2 j <-> group i = group j)).
    { intros i j Hi Hj. apply U1 in Hi. apply U1 in Hj. apply (same_cluster_iff ps1 group i j); auto. }
    destruct L as [_ L1 L2 _]. split.
    - intros p q Hp Hq. rewrite (L2 p q Hp Hq). apply In_nth_error in Hp. apply In_nth_error in Hq. destruct Hp as (i & Hp), Hq as (j & Hq).
      apply GG; [apply (L1 i p Hp)|apply (L1 j q Hq)].
    - intros midr (M1 & M2) i p c Hp Hc f Hf. destruct (L1 i p Hp) as (U & EQ). rewrite (EQ c Hc). set (cpu := N.to_nat (p_linux_id p)) in *.
      assert (MG : forall c, usable c -> reports (entry ps2 c) = true /\ forall f, f <> Architecture -> field_of f (a_midr (entry ps2 c)) = field_of f (midr c)).
      { intros k Hk. pose proof (same_2 _ _ _ _ _ _ _ _ D k) as SC.
        destruct (se_midr _ _ _ _ S k (midr k)) as (B1 & B2); [apply usable_lt; now apply U1|now apply M1|]. split.
        - unfold reports in *. rewrite forallb_forall in *. intros b Hb. rewrite (sc_flags _ _ SC); [now apply B1|].
          cbn in Hb. intros X. cbn in X. repeat (destruct Hb as [<-|Hb]; [intuition discriminate|]). destruct Hb.
        - intros h Hh. rewrite (sc_midr _ _ SC). now apply B2. }
      assert (U2 : forall c, usable c <-> ArmClustersSpec.usable ps2 c) by exact (usable_2 _ _ _ _ _ _ _ _ D).
      assert (NU : ~ unattributable ps2).
      { intros (X1 & r & X2 & X3 & X4 & X5).
        assert (All : forall j, ArmClustersSpec.usable ps2 j -> j = r).
        { intros j Hj. apply (X5 j Hj). apply reports_names. apply (MG j). now apply U2. }
        assert (ND : NoDup (cluster_leaders ps2)) by (apply NoDup_filter, seq_NoDup).
        assert (In1 : forall j, In j (cluster_leaders ps2) -> j = r).
        { intros j Hj. apply filter_In in Hj. destruct Hj as (_ & Hj). unfold leads in Hj. apply andb_true_iff in Hj. now apply All. }
        destruct (cluster_leaders ps2) as [|a [|b l]]; cbn in X1; try lia.
        pose proof (In1 a (or_introl eq_refl)). pose proof (In1 b (or_intror (or_introl eq_refl))). subst.
        apply NoDup_cons_iff in ND. destruct ND as (ND & _). apply ND. now left. }
      destruct (cluster_midr ps2 (leader ps2 cpu)) as [m|] eqn:CM.
      + pose proof (da_clusters _ _ _ _ _ _ _ _ D) as CO.
        pose proof (kept_of_cluster arm32 (ad_uarch d) chip (usable_count ps1) ps2 ps3 _ CO EM cpu m NU (proj1 (U2 cpu) U) CM) as (K & _).
        rewrite (K f Hf). unfold cluster_midr in CM. destruct (find _ _) as [k|] eqn:FN; [|discriminate]. cbn in CM. injection CM as <-.
        apply find_some in FN. destruct FN as (FN & _). unfold cluster_members in FN. apply filter_In in FN. destruct FN as (_ & FN).
        apply andb_true_iff in FN. destruct FN as (Vk & Lk). apply Nat.eqb_eq in Lk. assert (Uk : usable k) by now apply U2.
        rewrite (proj2 (MG k Uk) f Hf). f_equal. apply M2; [exact Uk|exact U|]. now apply GG.
      + exfalso. unfold cluster_midr in CM. destruct (find _ _) as [k|] eqn:FN; [discriminate|]. clear CM.
        assert (X : In cpu (cluster_members ps2 (leader ps2 cpu))).
        { unfold cluster_members. apply filter_In. pose proof (proj1 (U2 cpu) U) as UU. split; [apply in_seq; apply usable_lt in UU; lia|].
          unfold ArmClustersSpec.usable in UU. rewrite UU. cbn. apply Nat.eqb_refl. }
        pose proof (find_none _ _ FN cpu X) as Y. cbn beta in Y. rewrite (proj1 (MG cpu U)) in Y. discriminate Y.
  Qed.
End WHOLE.
