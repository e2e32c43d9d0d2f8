(** Proofs about the main id registers of ARM clusters: what is kept, what is filled in. *)
From Verif Require Import Base BaseProofs Loops Masks ArmMidrModel ArmMidrSpec ArmMidrProofs ArmClustersModel ArmClustersSpec ArmClustersProofs
  ArmClusterMidrModel ArmClusterMidrSpec ArmClusterMidrProofs ArmMidrAssignProofs ArmMidrDecideProofs ArmMidrResultProofs.
Open Scope nat_scope.

(** ** Agreement *)

Lemma full_mask p : reports p = true -> known_mask (a_flags p) = N.lor (N.lor (N.lor implementer_mask variant_mask) part_mask) revision_mask.
Proof.
  unfold reports. cbn [forallb]. rewrite !andb_true_iff. intros (_ & H17 & H18 & H19 & H20 & _). unfold known_mask.
  change af_implementer with (2 ^ 17)%N. change af_variant with (2 ^ 18)%N. change af_part with (2 ^ 19)%N. change af_revision with (2 ^ 20)%N.
  now rewrite !ArmScanProofs.any_flag_bit, H17, H18, H19, H20.
Qed.
Lemma empty_mask p : forallb (fun b => negb (N.testbit (a_flags p) b)) [17; 18; 19; 20]%N = true -> known_mask (a_flags p) = 0%N.
Proof.
  cbn [forallb]. rewrite !andb_true_iff, !negb_true_iff. intros (H17 & H18 & H19 & H20 & _). unfold known_mask.
  change af_implementer with (2 ^ 17)%N. change af_variant with (2 ^ 18)%N. change af_part with (2 ^ 19)%N. change af_revision with (2 ^ 20)%N.
  now rewrite !ArmScanProofs.any_flag_bit, H17, H18, H19, H20.
Qed.
Lemma agrees_nothing p m : forallb (fun b => negb (N.testbit (a_flags p) b)) [17; 18; 19; 20]%N = true -> midr_agrees p m = true.
Proof. intros H. unfold midr_agrees. rewrite (empty_mask p H), N.land_0_r. reflexivity. Qed.
Lemma agrees_self p : midr_agrees p (a_midr p) = true.
Proof. unfold midr_agrees. rewrite N.lxor_nilpotent, N.land_0_l. reflexivity. Qed.
Lemma agree_fields p m : reports p = true -> midr_agrees p m = true -> forall f, f <> Architecture -> field_of f m = field_of f (a_midr p).
Proof.
  intros R H. unfold midr_agrees in H. rewrite (full_mask p R) in H. apply N.eqb_eq in H.
  assert (X : forall mask f, covers mask f -> (forall b, N.testbit mask b = true ->
     N.testbit (N.lor (N.lor (N.lor implementer_mask variant_mask) part_mask) revision_mask) b = true) -> field_of f m = field_of f (a_midr p)).
  { intros mask f CV SUB. pose proof (land_field mask f m CV) as L1. pose proof (land_field mask f (a_midr p) CV) as L2.
    assert (E : N.land m mask = N.land (a_midr p) mask).
    { apply N.bits_inj. intros b. rewrite !N.land_spec. destruct (N.testbit mask b) eqn:M; [|now rewrite !andb_false_r]. rewrite !andb_true_r.
      assert (Z : N.testbit (N.land (N.lxor (a_midr p) m) (N.lor (N.lor (N.lor implementer_mask variant_mask) part_mask) revision_mask)) b = false)
        by (rewrite H; apply N.bits_0).
      rewrite N.land_spec, N.lxor_spec, (SUB b M), andb_true_r in Z. destruct (N.testbit (a_midr p) b), (N.testbit m b); auto; discriminate. }
    rewrite E, L2 in L1. apply N.mul_cancel_r in L1; [congruence|]. apply N.pow_nonzero. discriminate. }
  destruct all_covers as (C1 & C2 & C3 & C4 & C5).
  intros [] NA; try contradiction; [apply (X _ _ C1)|apply (X _ _ C2)|apply (X _ _ C4)|apply (X _ _ C5)];
    intros b M; rewrite !N.lor_spec, M, ?orb_true_r; reflexivity.
Qed.

Lemma table_architectures : forallb (fun cfg => forallb (fun c => (field_of Architecture (nth c (cc_cluster_midr cfg) 0) =? 0xF)%N)
  (seq 0 (cc_clusters cfg))) cluster_configs = true.
Proof. vm_compute. reflexivity. Qed.

Lemma table_hit_in table chip qs ls usable verify cfg : table_hit table chip qs ls usable verify = Some cfg ->
  In cfg table /\ cc_model cfg = ch_model chip /\ cc_series cfg = ch_series chip /\ table_fits qs ls usable verify cfg = true.
Proof.
  unfold table_hit. destruct (length ls <=? clusters_max); [|discriminate].
  destruct (table_entry table chip) as [c|] eqn:E; [|discriminate]. unfold table_entry in E. apply find_some in E.
  destruct E as (I & E). apply andb_true_iff in E. rewrite !N.eqb_eq in E. destruct (table_fits qs ls usable verify c) eqn:F; [|discriminate].
  intros X. injection X as <-. tauto.
Qed.

Lemma none_found {A} f (l : list A) x : find f l = None -> f x = true -> In x l -> False.
Proof. intros F H I. pose proof (find_none f l F x I). congruence. Qed.

Section Rules.
  Context {arm32 : bool} {decode : N -> bool -> N * N} {chip : chipset} {listed : nat} {ps ss : list aproc}.
  Context (C : clusters_ok ps).
  Context (A : assigned arm32 decode chip listed ps ss).

  Lemma gathered_leads qs l : gathered ps qs -> leads ps l = true -> leads qs l = true.
  Proof using. intros G L. destruct (gathered_same _ _ G l) as (_ & _ & X & _). congruence. Qed.

  (** ** Reports are kept *)
  Lemma report_kept i m : ~ unattributable ps -> usable ps i -> cluster_midr ps (leader ps i) = Some m -> same_core m (a_midr (entry ss i)).
  Proof using C A.
    intros NU U H. pose proof (leader_leads _ _ C U) as L. destruct (leader_midr C A i U) as (qs & rs & G & D & GV & E & _).
    rewrite E. set (l := leader ps i) in *. pose proof (ga_midr _ _ G l L) as M. rewrite H in M. destruct M as (R & M).
    assert (SAME : entry rs l = entry qs l -> same_core m (a_midr (entry rs l))).
    { intros ->. rewrite M. split; auto. }
    assert (SR : single_report ps = false).
    { destruct (single_report ps) eqn:S; [|reflexivity]. exfalso. apply NU. now apply single_report_iff. }
    destruct D as [u cfg rs EU _ HIT (T1 & T2 & T3)|u r first other rs _ _ _ _ _ EL _ (T1 & T2 & T3)|u r rs _ _ _ _ _ (T1 & T2)|]; auto.
    - assert (EU' : u = false) by congruence. subst u. rewrite EU' in HIT. cbn [negb] in HIT. apply table_hit_in in HIT. destruct HIT as (I & _ & _ & F).
      unfold table_fits in F. rewrite !andb_true_iff in F. destruct F as (((F1 & F2) & F3) & F4). cbn [negb orb] in F4.
      apply Nat.eqb_eq in F2. pose proof L as LI. apply leaders_in, In_nth_error in LI. destruct LI as (c & Ec).
      pose proof (nth_error_some_lt _ _ _ _ Ec) as LC. rewrite (T2 c l Ec). cbn [add_aflag a_midr with_aflags with_amidr].
      rewrite forallb_forall in F4. specialize (F4 c). rewrite (nth_error_nth _ _ 0 Ec) in F4. split.
      + intros f NA. rewrite <- M. apply (agree_fields (entry qs l)); auto. apply F4, in_seq. lia.
      + right. pose proof table_architectures as TA. rewrite forallb_forall in TA. apply in_table in I. destruct I as (I & _).
        specialize (TA cfg I). rewrite forallb_forall in TA. apply N.eqb_eq, TA, in_seq. lia.
    - apply SAME. assert (X : l = first \/ l = other). { apply leaders_in in L. rewrite EL in L. cbn [In] in L. intuition. }
      now rewrite (T2 l X), R.
    - apply SAME. now rewrite T2, R, andb_false_r.
  Qed.
  Lemma own_report_kept i : ~ unattributable ps -> reports_agree ps -> usable ps i -> reports (entry ps i) = true ->
    same_core (a_midr (entry ps i)) (a_midr (entry ss i)).
  Proof using C A.
    intros NU AG U R. apply report_kept; auto. unfold cluster_midr.
    destruct (find _ _) as [j|] eqn:F.
    - cbn [option_map]. f_equal. apply find_some in F. destruct F as (I & RJ). unfold cluster_members in I. apply filter_In in I.
      destruct I as (_ & I). apply andb_true_iff in I. destruct I as (UJ & LJ). apply Nat.eqb_eq in LJ. now apply AG.
    - exfalso. apply (none_found _ _ i F R). unfold cluster_members. apply filter_In. split.
      + apply in_seq. apply usable_lt in U. lia.
      + rewrite U, Nat.eqb_refl. reflexivity.
  Qed.

  (** ** Every cluster gets one *)
  Lemma reporter_cluster r : usable ps r -> reports (entry ps r) = true -> exists m, cluster_midr ps (leader ps r) = Some m.
  Proof using.
    intros U R. unfold cluster_midr. destruct (find _ _) as [j|] eqn:F; [cbn; eauto|]. exfalso.
    apply (none_found _ _ r F R). unfold cluster_members. apply filter_In. split.
    - apply in_seq. apply usable_lt in U. lia.
    - rewrite U, Nat.eqb_refl. reflexivity.
  Qed.
  Lemma names_reports p : all_or_nothing p -> names_core p = true -> reports p = true.
  Proof using.
    intros [R|N] H; auto. exfalso. unfold names_core in H. cbn [forallb] in N. rewrite !andb_true_iff, !negb_true_iff in N.
    apply andb_true_iff in H. destruct H, N; congruence.
  Qed.
  Lemma full_flags q p : reports q = true -> forall m, reports (add_aflag (N.land (a_flags q) af_midr) (with_amidr m p)) = true.
  Proof using.
    intros R m. rewrite <- reports_flags in *. rewrite bitmask_all_spec in *. intros b Hb. unfold add_aflag.
    cbn [a_flags with_aflags with_amidr]. rewrite N.lor_spec, N.land_spec, (R b Hb), Hb. apply orb_true_r.
  Qed.
  Lemma every_cluster_known : (forall i, usable ps i -> all_or_nothing (entry ps i)) -> 1 <= reporters ps -> usable_count ps <= listed ->
    forall i, usable ps i -> reports (entry ss i) = true.
  Proof using C A.
    intros AN R1 LU i U. pose proof (leader_leads _ _ C U) as L. destruct (leader_midr C A i U) as (qs & rs & G & D & GV & _ & _ & E).
    set (l := leader ps i) in *.
    assert (DONE : reports (entry rs l) = true -> reports (entry ss i) = true).
    { unfold reports. rewrite !forallb_forall. intros H b Hb. apply E; [|now apply H]. left. cbn [In] in Hb. intuition lia. }
    apply DONE. pose proof (gathered_leads qs l G L) as LQ.
    assert (KEEP : all_reported qs -> reports (entry rs l) = true).
    { intros AR. destruct (lg_leader _ _ GV l LQ) as (m & f & -> & _). specialize (AR l LQ). revert AR. unfold reports. rewrite !forallb_forall.
      intros H b Hb. cbn [a_flags with_amidr with_aflags]. rewrite N.lor_spec, (H b Hb). reflexivity. }
    assert (LASTR : forall r, is_last_reporter ps r -> reports (entry qs (leader ps r)) = true).
    { intros r (UR & NR & _). destruct (reporter_cluster r UR (names_reports _ (AN r UR) NR)) as (m & EM).
      pose proof (ga_midr _ _ G _ (leader_leads _ _ C UR)) as X. rewrite EM in X. apply X. }
    destruct D as [u cfg rs _ _ _ (T1 & T2 & T3)|u r first other rs _ _ _ LR _ EL _ (T1 & T2 & T3)|u r rs _ _ _ LR _ (T1 & T2)|SR NR].
    - pose proof L as LI. apply leaders_in, In_nth_error in LI. destruct LI as (c & Ec). rewrite (T2 c l Ec). apply reports_lor.
    - assert (X : l = first \/ l = other). { apply leaders_in in L. rewrite EL in L. cbn [In] in L. intuition. }
      rewrite (T2 l X). destruct (reports (entry qs l)) eqn:RQ; [exact RQ|]. apply full_flags. now apply LASTR.
    - rewrite T2, LQ. cbn [andb]. destruct (reports (entry qs l)) eqn:RQ; [exact RQ|]. cbn [negb]. apply reports_lor.
    - apply KEEP. destruct (Nat.lt_ge_cases (reporters ps) listed) as [LT|GE]; [destruct (NR LT); [assumption|lia]|].
      assert (ALL : forall j, usable ps j -> names_core (entry ps j) = true).
      { assert (X : usable_count ps <= reporters ps) by lia. unfold usable_count, usable_below, reporters in X. intros j UJ.
        assert (F : forall l, length (filter (fun i => a_valid (entry ps i)) l) <= length (filter (fun i => a_valid (entry ps i) && names_core (entry ps i)) l) ->
           forall j, In j l -> a_valid (entry ps j) = true -> names_core (entry ps j) = true).
        { assert (LE : forall l, length (filter (fun i => a_valid (entry ps i) && names_core (entry ps i)) l) <= length (filter (fun i => a_valid (entry ps i)) l)).
          { induction l0 as [|x l0 IH]; cbn [filter]; auto. destruct (a_valid (entry ps x)), (names_core (entry ps x)); cbn [andb length]; lia. }
          induction l0 as [|x l0 IH]; intros H k Hk Vk; [destruct Hk|]. cbn [filter] in H. specialize (LE l0). destruct Hk as [->|Hk].
          - rewrite Vk in H. destruct (names_core (entry ps k)); [reflexivity|]. cbn [andb length] in H. lia.
          - apply IH; auto. destruct (a_valid (entry ps x)), (names_core (entry ps x)); cbn [andb length] in H; lia. }
        apply (F _ X); auto. apply in_seq. apply usable_lt in UJ. lia. }
      intros k LK. assert (LP : leads ps k = true) by (destruct (gathered_same _ _ G k) as (_ & _ & Y & _); congruence).
      pose proof (leads_valid _ _ LP) as (UK & EK). destruct (reporter_cluster k UK (names_reports _ (AN k UK) (ALL k UK))) as (m & EM).
      rewrite EK in EM. pose proof (ga_midr _ _ G k LP) as Y. rewrite EM in Y. apply Y.
  Qed.

  (** ** big.LITTLE *)
  Definition not_tabulated : Prop := forall cfg, In cfg (cluster_table arm32) -> cc_series cfg = ch_series chip -> cc_model cfg = ch_model chip -> False.
  Lemma no_hit qs ls verify : not_tabulated -> table_hit (cluster_table arm32) chip qs ls listed verify = None.
  Proof using.
    intros H. destruct (table_hit (cluster_table arm32) chip qs ls listed verify) as [cfg|] eqn:E; [|reflexivity]. exfalso.
    apply table_hit_in in E. destruct E as (I & E1 & E2 & _). exact (H cfg I E2 E1).
  Qed.
  Lemma slower_gathered qs first other : gathered ps qs -> leads ps first = true -> leads ps other = true -> slower qs first other = slower_of ps first other.
  Proof using.
    intros G L1 L2. unfold slower, slower_of. pose proof (ga_max _ _ G first L1) as M1. pose proof (ga_max _ _ G other L2) as M2.
    destruct (cluster_max ps first) as [x|], (cluster_max ps other) as [y|]; destruct M1 as (-> & M1), M2 as (-> & M2); cbn [andb]; auto. now rewrite M1, M2.
  Qed.
  Lemma one_reporter r : usable ps r -> names_core (entry ps r) = true -> (forall j, usable ps j -> names_core (entry ps j) = true -> j = r) -> reporters ps = 1.
  Proof using.
    intros U N H. unfold reporters. apply (filter_one _ _ r); [now apply usable_lt|now rewrite U|]. intros j _ Hj. apply andb_true_iff in Hj. now apply H.
  Qed.
  Lemma only_cluster_report r l : usable ps r -> reports (entry ps r) = true -> (forall j, usable ps j -> names_core (entry ps j) = true -> j = r) ->
    cluster_midr ps l = if leader ps r =? l then Some (a_midr (entry ps r)) else None.
  Proof using.
    intros U R H. unfold cluster_midr.
    assert (X : forall j, In j (cluster_members ps l) -> reports (entry ps j) = true -> j = r /\ leader ps r = l).
    { intros j Hj Rj. unfold cluster_members in Hj. apply filter_In in Hj. destruct Hj as (_ & Hj). apply andb_true_iff in Hj. destruct Hj as (UJ & LJ).
      apply Nat.eqb_eq in LJ. assert (j = r) by (apply H; auto using reports_names). subst. auto. }
    destruct (find _ _) as [j|] eqn:F.
    - apply find_some in F. destruct (X j (proj1 F) (proj2 F)) as (-> & ->). now rewrite Nat.eqb_refl.
    - destruct (Nat.eqb_spec (leader ps r) l) as [E|]; [|reflexivity]. exfalso. apply (none_found _ _ r F R).
      unfold cluster_members. apply filter_In. split; [apply in_seq; apply usable_lt in U; lia|]. now rewrite U, E, Nat.eqb_refl.
  Qed.

  Lemma little_guessed first other r : not_tabulated -> cluster_leaders ps = [first; other] -> 2 <= listed ->
    (forall i, usable ps i -> all_or_nothing (entry ps i)) ->
    usable ps r -> reports (entry ps r) = true -> (forall j, usable ps j -> names_core (entry ps j) = true -> j = r) ->
    leader ps r <> slower_of ps first other ->
    forall i, usable ps i -> a_midr (entry ss i) =
      if leader ps i =? slower_of ps first other then midr_little_core_for_big (a_midr (entry ps r)) else a_midr (entry ps r).
  Proof using C A.
    intros NT EL L2 AN U R ONE NS i UI. pose proof (leader_leads _ _ C UI) as L. destruct (leader_midr C A i UI) as (qs & rs & G & D & GV & E & _).
    rewrite E. set (l := leader ps i) in *. set (M := a_midr (entry ps r)) in *.
    assert (LI : forall k, leads ps k = true <-> k = first \/ k = other) by (intros k; rewrite <- leaders_in, EL; cbn [In]; intuition).
    assert (LF : leads ps first = true) by (apply LI; auto). assert (LO : leads ps other = true) by (apply LI; auto).
    assert (FO : first <> other). { pose proof (leaders_nodup ps) as ND. rewrite EL in ND. apply NoDup_cons_iff in ND. destruct ND as (ND & _). cbn in ND. intuition. }
    pose proof (slower_gathered qs first other G LF LO) as SW.
    pose proof (one_reporter r U (reports_names _ R) ONE) as R1.
    assert (LR : forall r', is_last_reporter ps r' -> r' = r) by (intros r' (X1 & X2 & _); auto).
    pose proof (leader_leads _ _ C U) as LLR.
    assert (BIG : entry qs (leader ps r) = entry qs (leader ps r) /\ reports (entry qs (leader ps r)) = true /\ a_midr (entry qs (leader ps r)) = M).
    { pose proof (ga_midr _ _ G _ LLR) as X. rewrite (only_cluster_report r _ U R ONE), Nat.eqb_refl in X. destruct X; auto. }
    destruct BIG as (_ & BR & BM).
    assert (LIT : forall k, leads ps k = true -> k <> leader ps r -> reports (entry qs k) = false /\
       forallb (fun b => negb (N.testbit (a_flags (entry qs k)) b)) [17; 18; 19; 20]%N = true).
    { intros k LK NK. pose proof (ga_midr _ _ G _ LK) as X. rewrite (only_cluster_report r _ U R ONE) in X.
      destruct (Nat.eqb_spec (leader ps r) k); [congruence|]. destruct X as (X1 & _ & X3). split; [exact X1|].
      pose proof (leads_valid _ _ LK) as (UK & EK). destruct (AN k UK) as [RK|NK'].
      - exfalso. assert (k = r) by (apply ONE; auto using reports_names). subst k. congruence.
      - cbn [forallb] in *. rewrite !X3 by discriminate. exact NK'. }
    assert (SL : slower_of ps first other = first \/ slower_of ps first other = other).
    { unfold slower_of. destruct (cluster_max ps first), (cluster_max ps other); auto. destruct (_ <? _)%N; auto. }
    assert (BG : forall k, leads ps k = true -> k <> slower_of ps first other -> k = leader ps r).
    { intros k LK NK. apply LI in LK, LLR. intuition congruence. }
    assert (VALUE : guessed qs first other M (N.land (a_flags (entry qs (leader ps r))) af_midr) rs -> a_midr (entry rs l) =
       if l =? slower_of ps first other then midr_little_core_for_big M else M).
    { intros (T1 & T2 & T3). rewrite (T2 l) by now apply LI. destruct (Nat.eqb_spec l (slower_of ps first other)) as [ES|NES].
      - destruct (LIT l L ltac:(congruence)) as (-> & _). cbn [add_aflag a_midr with_aflags with_amidr]. unfold guess_for. rewrite SW, ES, Nat.eqb_refl. reflexivity.
      - rewrite (BG l L NES), BR. exact BM. }
    assert (FITS : guess_fits qs first other M = true).
    { unfold guess_fits, guess_for. rewrite SW. apply andb_true_iff.
      assert (X : forall k, leads ps k = true -> midr_agrees (entry qs k) (if k =? slower_of ps first other then midr_little_core_for_big M else M) = true).
      { intros k LK. destruct (Nat.eqb_spec k (slower_of ps first other)) as [EK|NK].
        - apply agrees_nothing, LIT; [exact LK|congruence].
        - rewrite (BG k LK NK), <- BM. apply agrees_self. }
      split; apply X; auto. }
    destruct D as [u cfg rs _ _ HIT _|u r' f o rs _ _ _ LR' _ EL' _ GS|u r' rs _ _ _ LR' NO _|SR NR].
    - rewrite no_hit in HIT by exact NT. discriminate.
    - rewrite EL in EL'. injection EL' as <- <-. rewrite (LR r' LR'), BM in GS. now apply VALUE.
    - destruct (NO first other EL R1) as (_ & X). rewrite (LR r' LR'), BM in X. congruence.
    - exfalso. destruct (NR ltac:(lia)) as [AR|Z]; [|lia].
      destruct (LIT (slower_of ps first other)) as (X & _); [apply LI; exact SL|congruence|].
      rewrite (AR (slower_of ps first other)) in X; [discriminate|]. apply (gathered_leads _ _ G), LI, SL.
  Qed.

  (** ** The scan *)
  Lemma running_spec qs d : gathered ps qs -> forall k,
    (exists m, running qs d k = m /\ report_before ps k m) \/
    (running qs d k = d /\ forall j, j < k -> leads ps j = true -> cluster_midr ps j = None).
  Proof using.
    intros G. induction k as [|k IH]; cbn [running]; [right; split; [reflexivity|lia]|].
    destruct (gathered_same _ _ G k) as (_ & _ & EL & _). rewrite EL.
    assert (NEXT : (leads ps k = true -> cluster_midr ps k = None) ->
      (exists m, running qs d k = m /\ report_before ps (S k) m) \/ (running qs d k = d /\ forall j, j < S k -> leads ps j = true -> cluster_midr ps j = None)).
    { intros NK. destruct IH as [(m & E & j & J1 & J2 & J3 & J4)|(E & H)].
      - left. exists m. split; [exact E|]. exists j. repeat split; auto. intros q Hq LQ. destruct (Nat.eq_dec q k); [subst; auto|apply J4; auto; lia].
      - right. split; [exact E|]. intros j Hj LJ. destruct (Nat.eq_dec j k); [subst; auto|apply H; auto; lia]. }
    destruct (leads ps k) eqn:LK; cbn [andb]; [|apply NEXT; discriminate].
    pose proof (ga_midr _ _ G k LK) as M. destruct (cluster_midr ps k) as [m|] eqn:CM.
    - destruct M as (-> & ->). left. exists m. split; [reflexivity|]. exists k. repeat split; auto. intros; lia.
    - destruct M as (-> & _). apply NEXT. auto.
  Qed.
  Lemma scan_fills : not_tabulated -> (forall i, usable ps i -> all_or_nothing (entry ps i)) -> 1 <= reporters ps -> reporters ps < listed ->
    ~ (length (cluster_leaders ps) = 2 /\ reporters ps = 1) -> forall i, usable ps i -> filled_in ps (leader ps i) (a_midr (entry ss i)).
  Proof using C A.
    intros NT AN R1 R2 N21 i U. pose proof (leader_leads _ _ C U) as L. destruct (leader_midr C A i U) as (qs & rs & G & D & GV & E & _).
    rewrite E. set (l := leader ps i) in *. pose proof (gathered_leads qs l G L) as LQ. pose proof (ga_midr _ _ G l L) as M.
    destruct D as [u cfg rs _ _ HIT _|u r' f o rs _ _ _ _ ONE EL' _ _|u r rs _ _ _ LR _ (T1 & T2)|SR NR].
    - rewrite no_hit in HIT by exact NT. discriminate.
    - exfalso. apply N21. rewrite EL'. auto.
    - unfold filled_in. rewrite T2, LQ. cbn [andb]. destruct (cluster_midr ps l) as [m|] eqn:CM.
      + destruct M as (-> & M). exact M.
      + destruct M as (-> & _). cbn [negb add_aflag a_midr with_aflags with_amidr].
        destruct (running_spec qs (a_midr (entry qs (leader ps r))) G l) as [(m & EM & RB)|(EM & NB)]; rewrite EM; [left; exact RB|].
        right. split; [exact NB|]. destruct LR as (UR & NR & HR). exists r. split; [exact UR|]. split; [exact NR|]. split; [|exact HR].
        destruct (reporter_cluster r UR (names_reports _ (AN r UR) NR)) as (m & EM').
        pose proof (ga_midr _ _ G _ (leader_leads _ _ C UR)) as X. rewrite EM' in X. destruct X as (_ & ->). exact EM'.
    - destruct (NR R2) as [AR|Z]; [|lia]. unfold filled_in. specialize (AR l LQ). destruct (cluster_midr ps l) as [m|]; [apply M|].
      destruct M as (M & _). congruence.
  Qed.

  (** ** The table *)
  Lemma table_used cfg : unattributable ps -> sizes_ok ps ->
    In cfg (cluster_table arm32) -> cc_series cfg = ch_series chip -> cc_model cfg = ch_model chip -> listed = cc_cores cfg ->
    length (cluster_leaders ps) = cc_clusters cfg -> cc_clusters cfg <= 3 ->
    (forall c l, nth_error (cluster_leaders ps) c = Some l -> nth_error (cc_cluster_cores cfg) c = Some (length (cluster_members ps l))) ->
    table_entry (cluster_table arm32) chip = Some cfg ->
    forall c l i, nth_error (cluster_leaders ps) c = Some l -> usable ps i -> leader ps i = l ->
      nth_error (cc_cluster_midr cfg) c = Some (a_midr (entry ss i)).
  Proof using C A.
    intros UN SZ I ES EM EC ELN L3 HC TE c l i Ec U Ei. pose proof (leader_leads _ _ C U) as L. destruct (leader_midr C A i U) as (qs & rs & G & D & GV & E & _).
    apply single_report_iff in UN.
    assert (HIT : forall v, v = false -> table_hit (cluster_table arm32) chip qs (cluster_leaders ps) listed v = Some cfg).
    { intros v ->. unfold table_hit. rewrite (proj2 (Nat.leb_le (length (cluster_leaders ps)) clusters_max)) by (unfold clusters_max; lia). rewrite TE.
      assert (F : table_fits qs (cluster_leaders ps) listed false cfg = true); [|now rewrite F].
      unfold table_fits. rewrite EC, Nat.eqb_refl, ELN, Nat.eqb_refl. cbn [negb orb andb]. rewrite andb_true_r. apply forallb_forall. intros k Hk.
      apply in_seq in Hk. rewrite <- ELN in Hk. destruct (nth_error_lt _ (cluster_leaders ps) k ltac:(lia)) as (lk & Ek). rewrite (nth_error_nth _ _ 0 Ek).
      rewrite (nth_error_nth _ _ 0 (HC k lk Ek)). apply Nat.eqb_eq. apply nth_error_In, leaders_in in Ek. destruct (leads_valid _ _ Ek) as (Uk & Lk).
      destruct (gathered_same _ _ G lk) as (_ & _ & _ & ->). rewrite (SZ lk Uk), Lk. reflexivity. }
    destruct D as [u cfg' rs EU _ HT (T1 & T2 & T3)|u r' f o rs EU _ HT _ _ _ _ _|u r rs EU _ HT _ _ _|SR _]; try (rewrite UN in EU; subst u; cbn [negb] in HT; rewrite HIT in HT by reflexivity); try congruence.
    injection HT as <-. rewrite E, Ei, (T2 c l Ec). cbn [add_aflag a_midr with_aflags with_amidr]. apply nth_error_nth'.
    pose proof (table_wide arm32) as TW. rewrite Forall_forall in TW. destruct (TW cfg I) as (_ & ->). apply nth_error_some_lt in Ec. unfold clusters_max. lia.
  Qed.
End Rules.
