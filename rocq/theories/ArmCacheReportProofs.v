(** The cache tables of ARM Linux say what they should. *)
From Verif Require Import Base BaseProofs Sorting Runs GroupArray Loops TopologySpec ArmMidrModel ArmMidrProofs ArmClustersModel ArmClustersSpec
  ArmClustersProofs ArmClusterMidrModel ArmClusterMidrSpec ArmLinuxModel ArmOrderProofs ArmSortedProofs ArmTablesProofs ArmBuildProofs
  ArmReportProofs.
From Verif Require ArmLinuxSpec.
Import ArmLinuxSpec(decoded,
  unpartitioned, ranges_agree, its_cache, same_cluster, arm_caches, Build_arm_caches, l3_case, Shared, Per_cluster, l3_sizes, arm_l3, Build_arm_l3,
  arm_l1, Build_arm_l1, max_size_rule).
Open Scope nat_scope.

Section CACHES.
  Variables (arm32 : bool) (ps ss : list aproc) (n : nat).
  Hypothesis A : arranged arm32 ps ss n.
  Hypothesis N0 : 0 < n.
  Variables (d : arm_decoders) (chip : chipset) (g1i g1d g2 g3 : nat -> geometry).
  Hypothesis DEC : forall i, i < n -> caches_of d chip (cluster_of ss i) (entry ss i) = Ok (g1i i, g1d i, g2 i, g3 i).
  Variable version : N.
  Hypothesis VER : forall i, i < n -> ar_architecture_version (a_report (entry ss i)) = version.
  Variable t : arm_tables.
  Hypothesis B : built arm32 ss n n d g1i g1d g2 g3 t.

  Notation first2 := (first2 ss g2 g3).
  Notation first3 := (first3 ss g3).
  Notation total3 := (total3 ss n g2 g3).
  Notation shared3 := (shared3 ss n g2 g3).
  Notation new := (starts_cluster ss).

  Let UNI i j : i < n -> j < n -> cluster_of ss i = cluster_of ss j -> has2 g2 i = has2 g2 j /\ has3 g3 i = has3 g3 j.
  Proof. exact (levels_alike arm32 ps ss n A N0 d chip g1i g1d g2 g3 DEC version VER i j). Qed.

  Lemma decoded_iff i a b c e : decoded d chip version t i a b c e <-> i < n /\ a = g1i i /\ b = g1d i /\ c = g2 i /\ e = g3 i.
  Proof.
    unfold decoded. rewrite (bu_cores _ _ _ _ _ _ _ _ _ _ B), (bu_clusters _ _ _ _ _ _ _ _ _ _ B), Nat.sub_diag, app_nil_r. split.
    - intros (co & l & k & Hc & Ek & Hl & E). apply nth_map_seq_inv in Hc. destruct Hc as (Hi & ->). split; [exact Hi|].
      apply nth_filter_inv in Hl. destruct Hl as (s & Hs & Es & Cs & ->). cbn [core_at c_cluster] in Ek. injection Ek as Ek.
      assert (EC : cluster_of ss s = cluster_of ss i) by (unfold cluster_of at 1; rewrite grp_leader by exact Es; congruence).
      destruct (cluster_alike arm32 ps ss n A N0 s i Hs Hi EC) as (E1 & _).
      cbn [core_at c_uarch c_cpuid cluster_at cl_core_count] in E. rewrite E1, <- Ek in E. pose proof (DEC i Hi) as D. unfold caches_of in D. rewrite (VER i Hi), E in D.
      injection D as -> -> -> ->. auto.
    - intros (Hi & -> & -> & -> & ->). destruct (leader_before arm32 ps ss n A i Hi) as (s & Hs & Es & Cs & EC & _).
      exists (core_at ss i), (cluster_at ss s), (cluster_of ss i). split; [now apply nth_map_seq|]. split; [reflexivity|].
      split; [rewrite <- Cs; apply nth_filter_map; auto; lia|].
      destruct (cluster_alike arm32 ps ss n A N0 s i ltac:(lia) Hi EC) as (E1 & _). cbn [core_at c_uarch c_cpuid cluster_at cl_core_count]. rewrite E1.
      pose proof (DEC i Hi) as D. unfold caches_of in D. now rewrite (VER i Hi) in D.
  Qed.

  Lemma same_cluster_at i j : same_cluster t i j <-> i < n /\ j < n /\ cluster_of ss i = cluster_of ss j.
  Proof.
    unfold same_cluster. rewrite (bu_processors _ _ _ _ _ _ _ _ _ _ B). split.
    - intros (p & q & Hp & Hq & E). apply nth_map_seq_inv in Hp. destruct Hp as (Hi & ->). apply nth_map_seq_inv in Hq. destruct Hq as (Hj & ->).
      cbn [processor_at p_cluster] in E. split; [exact Hi|]. split; [exact Hj|]. congruence.
    - intros (Hi & Hj & E). exists (processor_at ss i), (processor_at ss j). rewrite !nth_map_seq by auto. cbn [processor_at p_cluster]. rewrite E. auto.
  Qed.

  Lemma count_processors : length (at_processors t) = n.
  Proof. rewrite (bu_processors _ _ _ _ _ _ _ _ _ _ B). now rewrite map_length, seq_length. Qed.

  (** ** Second level *)
  Lemma l2_leader i : i < n -> has3 g3 i || has2 g2 i = true -> exists s, s <= i /\ first2 s = true /\
    l2_of ss g2 g3 i = Some (cnt s first2) /\ cluster_of ss s = cluster_of ss i /\ if has3 g3 i then s = i else new s = true.
  Proof.
    intros Hi H. destruct (has3 g3 i) eqn:E3.
    - exists i. assert (F : first2 i = true) by (unfold ArmTablesProofs.first2; now rewrite E3).
      split; [lia|]. split; [exact F|]. unfold l2_of. rewrite E3. cbn [orb]. rewrite (grp_leader _ i F). auto.
    - cbn [orb] in H. destruct (leader_before arm32 ps ss n A i Hi) as (s & Hs & Es & _ & EC & Ns & _ & ECs).
      destruct (first2_of ss n N0 n N0 (le_n n) d chip g1i g1d g2 g3 DEC UNI i s Hi Hs Es ECs Ns E3 H) as (F & C).
      exists s. split; [exact Hs|]. split; [exact F|]. unfold l2_of, grp. rewrite E3, H, C. cbn. auto.
  Qed.

  Lemma l2_none i : i < n -> (l2_of ss g2 g3 i = None <-> g_size (g2 i) = 0%N /\ g_size (g3 i) = 0%N).
  Proof.
    intros Hi. unfold l2_of, has3, has2. destruct (N.eqb_spec (g_size (g3 i)) 0), (N.eqb_spec (g_size (g2 i)) 0); cbn; split; intros; try discriminate; auto; tauto.
  Qed.

  Lemma l2_some i k : i < n -> l2_of ss g2 g3 i = Some k -> has3 g3 i || has2 g2 i = true.
  Proof. intros Hi. unfold l2_of. destruct (has3 g3 i || has2 g2 i); [reflexivity|discriminate]. Qed.

  (** Processors with the same second-level cache. *)
  Lemma l2_same i j k : i < n -> j < n -> l2_of ss g2 g3 i = Some k ->
    (l2_of ss g2 g3 j = Some k <-> if has3 g3 i then i = j else cluster_of ss i = cluster_of ss j).
  Proof.
    intros Hi Hj Ei. destruct (l2_leader i Hi (l2_some i k Hi Ei)) as (s & Hs & Fs & Es & Cs & Ls). rewrite Es in Ei. injection Ei as <-.
    split.
    - intros Ej. destruct (l2_leader j Hj (l2_some j _ Hj Ej)) as (s' & Hs' & Fs' & Es' & Cs' & Ls'). rewrite Es' in Ej. injection Ej as Ej.
      assert (s' = s) by (apply (leader_inj first2); auto). subst s'. destruct (UNI i j Hi Hj ltac:(congruence)) as (_ & U). rewrite <- U in Ls'.
      destruct (has3 g3 i); congruence.
    - intros H. destruct (has3 g3 i) eqn:E3; [now subst j|].
      destruct (UNI i j Hi Hj H) as (U2 & U3). assert (H' : has3 g3 j || has2 g2 j = true).
      { rewrite <- U2, <- U3, E3. unfold l2_of in Es. rewrite E3 in Es. cbn [orb] in Es |- *. destruct (has2 g2 i); [reflexivity|discriminate Es]. }
      destruct (l2_leader j Hj H') as (s' & Hs' & Fs' & Es' & Cs' & Ls'). rewrite <- U3, E3 in Ls'.
      assert (s' = s); [|congruence]. apply (leader_inj new); auto. rewrite <- !(grp_leader new) by auto. unfold cluster_of in *. congruence.
  Qed.

  Lemma l2_range s : s < n -> first2 s = true -> let c := ca_processor_count (l2_at ss g2 g3 s) in
    0 < c /\ s + c <= n /\ forall i, i < n -> (l2_of ss g2 g3 i = Some (cnt s first2) <-> s <= i < s + c).
  Proof.
    intros Hs Fs. cbn [l2_at ca_processor_count].
    assert (E : l2_of ss g2 g3 s = Some (cnt s first2)).
    { unfold l2_of. rewrite (grp_leader _ s Fs). unfold ArmTablesProofs.first2 in Fs. destruct (has3 g3 s); [reflexivity|]. cbn [orb] in *. apply andb_true_iff in Fs. now rewrite (proj1 Fs). }
    destruct (has3 g3 s) eqn:E3.
    - split; [lia|]. split; [lia|]. intros i Hi. pose proof (l2_same s i _ Hs Hi E) as S. rewrite E3 in S. rewrite S. lia.
    - assert (Es : new s = true).
      { unfold ArmTablesProofs.first2 in Fs. rewrite E3 in Fs. cbn [orb] in Fs. now apply andb_true_iff in Fs. }
      destruct (run_range new n s (new0 arm32 ps ss n A N0) Hs Es) as (R1 & R2 & R3).
      rewrite (cluster_size _ _ _ _ s A Hs). rewrite (grp_leader new s Es). split; [exact R1|]. split; [exact R2|].
      intros i Hi. pose proof (l2_same s i _ Hs Hi E) as S. rewrite E3 in S. rewrite S, <- (R3 i Hi). unfold cluster_of. rewrite (grp_leader new s Es). split; congruence.
  Qed.

  Lemma l2_right : arm_caches d chip version t.
  Proof.
    destruct B as [B1 B2 B3 _ _ _ _ B4 _ B5 B6 _ _ _ _ _]. pose proof count_processors as CP. split.
    - intros i Hi. rewrite CP in Hi. exists (g1i i), (g1d i), (g2 i), (g3 i). apply decoded_iff. auto.
    - rewrite B5, B6, CP, !map_length, !seq_length. auto.
    - rewrite B4, B5. split.
      + intros i k H. apply nth_map_seq_inv in H. destruct H as (Hi & E). symmetry in E. destruct (l2_leader i Hi (l2_some i k Hi E)) as (s & Hs & Fs & Es & _).
        rewrite Es in E. injection E as <-. rewrite map_length, cnt_filter. pose proof (cnt_mono first2 (S s) n ltac:(lia)) as M. rewrite cnt_S_true in M by exact Fs. lia.
      + intros k c H. apply nth_filter_inv in H. destruct H as (s & Hs & Fs & <- & ->). destruct (l2_range s Hs Fs) as (R1 & R2 & R3).
        cbn [ca_processor_start l2_at] in *. rewrite map_length, seq_length. split; [exact R1|]. split; [exact R2|]. intros i. split.
        * intros H. apply nth_map_seq_inv in H. destruct H as (Hi & E). apply R3; auto.
        * intros H. rewrite nth_map_seq by lia. f_equal. apply R3; [lia|exact H].
    - intros i a b c e D. apply decoded_iff in D. destruct D as (Hi & _ & _ & -> & ->). rewrite B5, nth_map_seq by exact Hi.
      rewrite <- (l2_none i Hi). split; [intros H; injection H; auto|intros ->; reflexivity].
    - intros i a b c e x D (k & H1 & H2). apply decoded_iff in D. destruct D as (Hi & _ & _ & -> & ->). rewrite B5, nth_map_seq in H1 by exact Hi. injection H1 as H1.
      destruct (l2_leader i Hi (l2_some i k Hi H1)) as (s & Hs & Fs & Es & Cs & _). rewrite Es in H1. injection H1 as <-.
      rewrite B4, (nth_filter_map _ first2 n s ltac:(lia) Fs) in H2. injection H2 as <-.
      destruct (caches_alike arm32 ps ss n A N0 d chip g1i g1d g2 g3 DEC version VER s i ltac:(lia) Hi Cs) as (_ & _ & E2 & _). cbn [l2_at ca_geometry]. rewrite E2. cbn. repeat split.
    - intros i j a b c e D Hj NN. apply decoded_iff in D. destruct D as (Hi & _ & _ & -> & ->). rewrite CP in Hj.
      rewrite B5, !nth_map_seq in * by auto. destruct (l2_of ss g2 g3 i) as [k|] eqn:Ek; [|now destruct NN].
      pose proof (l2_same i j k Hi Hj Ek) as S. unfold has3 in S. destruct (g_size (g3 i) =? 0)%N; cbn [negb] in S.
      + rewrite same_cluster_at. split; [intros H; injection H as H; symmetry in H; apply S in H; auto|]. intros (_ & _ & H). apply S in H. now rewrite H.
      + split; [intros H; injection H as H; symmetry in H; apply S in H; auto|]. intros H. apply S in H. now rewrite H.
  Qed.

  (** ** First level *)
  Lemma l1_right : arm32 = false -> arm_l1 d chip version t.
  Proof.
    intros E. destruct B as [_ _ _ _ _ B1 B2 _ _ _ _ _ _ _ _ _]. split.
    - rewrite B1, B2, count_processors, !map_length, !seq_length. auto.
    - intros i a b c e D. apply decoded_iff in D. destruct D as (Hi & -> & -> & _ & _). rewrite B1, B2, !nth_map_seq by exact Hi.
      unfold l1i_at, l1d_at, l1_cache. rewrite E. auto.
  Qed.

  (** ** Third level *)
  Lemma l3_leader i : i < n -> has3 g3 i = true -> exists s, s <= i /\ first3 s = true /\ new s = true /\
    cnt (S i) first3 = S (cnt s first3) /\ cluster_of ss s = cluster_of ss i.
  Proof.
    intros Hi H. destruct (leader_before arm32 ps ss n A i Hi) as (s & Hs & Es & _ & EC & Ns & _ & _).
    destruct (first3_of ss n N0 n N0 (le_n n) d chip g1i g1d g2 g3 DEC UNI i s Hi Hs Es EC Ns H) as (F & C). exists s. auto.
  Qed.

  Lemma shared_case : l3_sizes d chip version t Shared -> shared3 = true /\ total3 = 1.
  Proof.
    intros H. assert (Z : decoded d chip version t 0 (g1i 0) (g1d 0) (g2 0) (g3 0)) by (apply decoded_iff; auto).
    assert (HS : forall i, i < n -> has3 g3 i = true /\ g_size (g3 i) = g_size (g3 0)).
    { intros i Hi. assert (D : decoded d chip version t i (g1i i) (g1d i) (g2 i) (g3 i)) by (apply decoded_iff; auto).
      destruct (H _ _ _ _ _ D _ _ _ _ Z) as (H1 & H2). split; [|exact H2]. unfold has3. now apply negb_true_iff, N.eqb_neq. }
    split.
    - apply (shared3_is arm32 ps ss n A N0 n N0 (le_n n) g2 g3). intros i Hi. destruct (HS i Hi). auto.
    - rewrite (total3_is arm32 ps ss n A N0 n N0 (le_n n) g2 g3). rewrite (proj1 (HS 0 N0)). rewrite (cnt_ext _ (fun _ => false)).
      + clear. induction n; cbn; lia.
      + intros i Hi. unfold another3, size0. rewrite (proj2 (HS i Hi)), N.eqb_refl. apply andb_false_r.
  Qed.

  Lemma l3_of_small i : i < n -> l3_of ss n g2 g3 i = None <-> has3 g3 i = false \/ (has3 g3 i = true /\ shared3 = false /\ total3 < cnt (S i) first3).
  Proof.
    intros Hi. unfold l3_of. destruct (has3 g3 i); [|split; auto]. destruct shared3.
    - split; [discriminate|]. intros [X|(_ & X & _)]; discriminate X.
    - destruct (Nat.leb_spec (cnt (S i) first3) total3) as [L|L]; (split; [auto; try discriminate|]).
      + intros [X|(_ & _ & X)]; [discriminate X|lia].
      + reflexivity.
  Qed.

  Lemma cluster_case : l3_sizes d chip version t Per_cluster -> total3 = cnt n first3.
  Proof.
    intros H. assert (Z : decoded d chip version t 0 (g1i 0) (g1d 0) (g2 0) (g3 0)) by (apply decoded_iff; auto).
    rewrite (total3_is arm32 ps ss n A N0 n N0 (le_n n) g2 g3).
    assert (G : forall k, k < n -> (if has3 g3 0 then 1 else 0) + cnt (S k) (another3 ss g3) = cnt (S k) first3).
    { induction k as [|k IH]; intros Hk.
      - cbn. unfold another3, ArmTablesProofs.first3. rewrite (new0 arm32 ps ss n A N0). rewrite andb_true_r. cbn. destruct (has3 g3 0); lia.
      - specialize (IH ltac:(lia)). remember (S k) as k1. cbn [cnt]. rewrite <- IH. rewrite <- Nat.add_assoc. f_equal. f_equal.
        replace (another3 ss g3 k1) with (first3 k1); [reflexivity|]. unfold another3. replace (k1 =? 0) with false by (subst; reflexivity). cbn [negb andb].
        destruct (first3 k1) eqn:F; [|reflexivity]. cbn [andb]. symmetry. apply negb_true_iff, N.eqb_neq. unfold size0.
        assert (D : decoded d chip version t k1 (g1i k1) (g1d k1) (g2 k1) (g3 k1)) by (apply decoded_iff; repeat split; lia).
        unfold ArmTablesProofs.first3 in F. apply andb_true_iff in F. destruct F as (F1 & F2).
        apply (H _ _ _ _ _ D _ _ _ _ Z).
        + rewrite same_cluster_at. intros (_ & _ & E). unfold cluster_of in E. rewrite (grp_leader _ 0 (new0 arm32 ps ss n A N0)) in E.
          rewrite (grp_leader _ k1 F2) in E. cbn [cnt] in E. pose proof (cnt_pos new (new0 arm32 ps ss n A N0) k1 ltac:(lia)). lia.
        + unfold has3 in F1. now apply negb_true_iff, N.eqb_neq in F1. }
    specialize (G (n - 1) ltac:(lia)). now replace (S (n - 1)) with n in G by lia.
  Qed.

  Lemma firstn_ge {X} (l : list X) k : length l <= k -> firstn k l = l.
  Proof. apply firstn_all2. Qed.

  Lemma l3_shared : l3_sizes d chip version t Shared -> arm_l3 d chip version t Shared.
  Proof.
    intros H. destruct (shared_case H) as (SH & T1). destruct B as [B1 B2 B3 _ _ _ _ _ B4 _ B5 _ _ _ _ _].
    destruct (proj1 (shared3_is arm32 ps ss n A N0 n N0 (le_n n) g2 g3) SH 0 N0) as (Z3 & _).
    assert (HS : forall i, i < n -> has3 g3 i = true) by (intros i Hi; apply (proj1 (shared3_is arm32 ps ss n A N0 n N0 (le_n n) g2 g3) SH i Hi)).
    assert (F0 : first3 0 = true) by (unfold ArmTablesProofs.first3; now rewrite Z3, (new0 arm32 ps ss n A N0)).
    assert (T : at_l3 t = [l3_at ss n g2 g3 0]).
    { rewrite B4, T1. destruct n as [|m]; [lia|]. cbn [seq filter]. rewrite F0. reflexivity. }
    assert (P : forall i, i < n -> nth_error (at_l3_of t) i = Some (Some 0)).
    { intros i Hi. rewrite B5, nth_map_seq by exact Hi. unfold l3_of. now rewrite (HS i Hi), SH. }
    assert (LP : length (at_l3_of t) = n) by (now rewrite B5, map_length, seq_length).
    split.
    - rewrite T. split.
      + intros i k E. pose proof (nth_error_some_lt _ _ _ _ E) as L. rewrite LP in L. rewrite (P i L) in E. injection E as <-. cbn. lia.
      + intros k c E. destruct k as [|k]; [|destruct k; discriminate E]. injection E as <-. cbn [l3_at ca_processor_count ca_processor_start]. rewrite SH, LP.
        split; [exact N0|]. split; [lia|]. intros i. split.
        * intros E. pose proof (nth_error_some_lt _ _ _ _ E) as L. lia.
        * intros L. apply P. lia.
    - intros i a b c e D. apply decoded_iff in D. destruct D as (Hi & _ & _ & _ & ->). rewrite (P i Hi). pose proof (HS i Hi) as X. unfold has3 in X. apply negb_true_iff, N.eqb_neq in X.
      split; [discriminate|tauto].
    - intros i a b c e x D (k & E1 & E2). pose proof D as D0. apply decoded_iff in D. destruct D as (Hi & _ & _ & _ & ->). rewrite (P i Hi) in E1. injection E1 as <-.
      rewrite T in E2. injection E2 as <-. cbn. symmetry.
      assert (Z : decoded d chip version t 0 (g1i 0) (g1d 0) (g2 0) (g3 0)) by (apply decoded_iff; auto). apply (H _ _ _ _ _ D0 _ _ _ _ Z).
    - rewrite count_processors. intros i j _ Hi Hj. rewrite !P by auto. tauto.
    - intros k c E. rewrite T in E. destruct k as [|k]; [|destruct k; discriminate E]. injection E as <-. exists (g1i 0), (g1d 0), (g2 0), (g3 0).
      split; [apply decoded_iff; auto|cbn; repeat split].
  Qed.

  Lemma not_shared_pointer i : shared3 = false -> total3 = cnt n first3 -> i < n ->
    l3_of ss n g2 g3 i = if has3 g3 i then Some (grp first3 i) else None.
  Proof.
    intros SH T Hi. unfold l3_of. rewrite SH. destruct (has3 g3 i); [|reflexivity]. rewrite T.
    replace (cnt (S i) first3 <=? cnt n first3) with true; [reflexivity|]. symmetry. apply Nat.leb_le. apply cnt_mono. lia.
  Qed.

  Lemma l3_per_cluster : l3_sizes d chip version t Per_cluster -> arm_l3 d chip version t Per_cluster.
  Proof.
    intros H. pose proof (cluster_case H) as T. pose proof B as B'. destruct B as [B1 B2 B3 _ _ _ _ _ B4 _ B5 _ _ _ _ _].
    destruct shared3 eqn:SH.
    - (* one cluster only, or the cases coincide *)
      assert (HS : forall i, i < n -> has3 g3 i = true /\ (new i = true -> g_size (g3 i) = size0 g3)) by (intros i Hi; apply (proj1 (shared3_is arm32 ps ss n A N0 n N0 (le_n n) g2 g3) SH i Hi)).
      assert (ONE : forall i j, i < n -> j < n -> cluster_of ss i = cluster_of ss j).
      { assert (Z : forall i, i < n -> cluster_of ss i = 0).
        { intros i Hi. destruct (leader_before arm32 ps ss n A i Hi) as (s & Hs & Es & Cs & EC & _).
          destruct (Nat.eq_dec (cluster_of ss i) 0) as [|NZ]; [assumption|exfalso].
          assert (D : decoded d chip version t s (g1i s) (g1d s) (g2 s) (g3 s)) by (apply decoded_iff; repeat split; lia).
          assert (D0 : decoded d chip version t 0 (g1i 0) (g1d 0) (g2 0) (g3 0)) by (apply decoded_iff; auto).
          destruct (HS s ltac:(lia)) as (X1 & X2). unfold has3 in X1. apply negb_true_iff, N.eqb_neq in X1.
          refine (H _ _ _ _ _ D _ _ _ _ D0 _ X1 (X2 Es)). rewrite same_cluster_at. intros (_ & _ & E). apply NZ. rewrite <- EC, <- E.
          unfold cluster_of. rewrite grp_leader by exact (new0 arm32 ps ss n A N0). reflexivity. }
        intros i j Hi Hj. now rewrite !Z. }
      assert (SZ : l3_sizes d chip version t Shared).
      { intros i a b c e D h1 h2 h3 h4 D0. apply decoded_iff in D. destruct D as (Hi & _ & _ & _ & ->). apply decoded_iff in D0. destruct D0 as (_ & _ & _ & _ & ->).
        destruct (HS i Hi) as (X & _). unfold has3 in X. apply negb_true_iff, N.eqb_neq in X. split; [exact X|].
        destruct (caches_alike arm32 ps ss n A N0 d chip g1i g1d g2 g3 DEC version VER i 0 Hi N0 (ONE i 0 Hi N0)) as (_ & _ & _ & E). now rewrite E. }
      destruct (l3_shared SZ) as [S1 S2 S3 S4 S5]. split; auto. intros i j NN Hi Hj. rewrite (S4 i j NN Hi Hj). rewrite count_processors in Hi, Hj.
      rewrite same_cluster_at. split; auto.
    - assert (P : forall i, i < n -> nth_error (at_l3_of t) i = Some (if has3 g3 i then Some (grp first3 i) else None)).
      { intros i Hi. rewrite B5, nth_map_seq by exact Hi. f_equal. now apply not_shared_pointer. }
      assert (T' : at_l3 t = map (l3_at ss n g2 g3) (filter first3 (seq 0 n))) by (rewrite B4, firstn_ge; [reflexivity|rewrite cnt_filter; lia]).
      assert (LP : length (at_l3_of t) = n) by (now rewrite B5, map_length, seq_length).
      assert (SAME : forall i j, i < n -> j < n -> has3 g3 i = true ->
        ((if has3 g3 j then Some (grp first3 j) else None) = Some (grp first3 i) <-> cluster_of ss i = cluster_of ss j)).
      { intros i j Hi Hj H3. destruct (l3_leader i Hi H3) as (s & Hs & Fs & Es & Cs & EC). split.
        - destruct (has3 g3 j) eqn:H3'; [|discriminate]. destruct (l3_leader j Hj H3') as (s' & Hs' & Fs' & Es' & Cs' & EC').
          unfold grp. rewrite Cs, Cs'. cbn [pred]. intros E. injection E as E. assert (s' = s) by (apply (leader_inj first3); auto). congruence.
        - intros E. destruct (UNI i j Hi Hj E) as (_ & U). rewrite <- U, H3. destruct (l3_leader j Hj ltac:(congruence)) as (s' & Hs' & Fs' & Es' & Cs' & EC').
          assert (s' = s). { apply (leader_inj new); auto. rewrite <- !(grp_leader new) by auto. unfold cluster_of in *. congruence. }
          subst s'. unfold grp. now rewrite Cs, Cs'. }
      split.
      + rewrite T'. split.
        * intros i k E. pose proof (nth_error_some_lt _ _ _ _ E) as L. rewrite LP in L. rewrite (P i L) in E. destruct (has3 g3 i) eqn:H3; [|discriminate E]. injection E as <-.
          destruct (l3_leader i L H3) as (s & Hs & Fs & Es & Cs & EC). unfold grp. rewrite Cs, map_length, cnt_filter. cbn [pred].
          pose proof (cnt_mono first3 (S s) n ltac:(lia)) as M. rewrite cnt_S_true in M by exact Fs. lia.
        * intros k c E. apply nth_filter_inv in E. destruct E as (s & Hs & Fs & <- & ->). cbn [l3_at ca_processor_count ca_processor_start]. rewrite SH, LP.
          unfold ArmTablesProofs.first3 in Fs. pose proof Fs as Fs'. apply andb_true_iff in Fs'. destruct Fs' as (H3 & Es).
          destruct (run_range new n s (new0 arm32 ps ss n A N0) Hs Es) as (R1 & R2 & R3).
          rewrite (cluster_size _ _ _ _ s A Hs). rewrite (grp_leader new s Es). split; [exact R1|]. split; [exact R2|]. intros i. split.
          -- intros E. pose proof (nth_error_some_lt _ _ _ _ E) as L. rewrite LP in L. rewrite (P i L) in E. injection E as E. apply (R3 i L).
             rewrite <- (grp_leader first3 s Fs) in E. apply (SAME s i Hs L H3) in E. unfold cluster_of in E. rewrite (grp_leader new s Es) in E. congruence.
          -- intros L. rewrite P by lia. f_equal. rewrite <- (grp_leader first3 s Fs). apply (SAME s i Hs ltac:(lia) H3). unfold cluster_of. rewrite (grp_leader new s Es). symmetry. apply R3; lia.
      + intros i a b c e D. apply decoded_iff in D. destruct D as (Hi & _ & _ & _ & ->). rewrite (P i Hi). unfold has3. destruct (N.eqb_spec (g_size (g3 i)) 0); cbn [negb]; split; intros; auto; try discriminate. contradiction.
      + intros i a b c e x D (k & E1 & E2). apply decoded_iff in D. destruct D as (Hi & _ & _ & _ & ->). rewrite (P i Hi) in E1. destruct (has3 g3 i) eqn:H3; [|discriminate E1]. injection E1 as <-.
        destruct (l3_leader i Hi H3) as (s & Hs & Fs & Es & Cs & EC). unfold grp in E2. rewrite Cs in E2. cbn [pred] in E2.
        rewrite T', (nth_filter_map _ first3 n s ltac:(lia) Fs) in E2. injection E2 as <-. cbn.
        destruct (caches_alike arm32 ps ss n A N0 d chip g1i g1d g2 g3 DEC version VER s i ltac:(lia) Hi EC) as (_ & _ & _ & E). now rewrite E.
      + rewrite count_processors. intros i j NN Hi Hj. rewrite !P in * by auto. destruct (has3 g3 i) eqn:H3; [|now destruct NN].
        rewrite same_cluster_at. pose proof (SAME i j Hi Hj H3) as S. split.
        * intros E. injection E as E. symmetry in E. apply S in E. auto.
        * intros (_ & _ & E). apply S in E. now rewrite E.
      + intros k c E. rewrite T' in E. apply nth_filter_inv in E. destruct E as (s & Hs & Fs & <- & ->). exists (g1i s), (g1d s), (g2 s), (g3 s).
        split; [apply decoded_iff; auto|cbn; repeat split].
  Qed.

  (** ** The maximum cache size *)
  Lemma max_size_right : max_size_rule d t.
  Proof.
    pose proof B as B'. destruct B as [_ B2 _ _ _ _ B1 B3 B4 B5 B6 BM _ _ _ _]. exists (core_at ss 0). split; [rewrite B2; now apply nth_map_seq|].
    change (c_uarch (core_at ss 0)) with (a_uarch (entry ss 0)). rewrite BM. unfold max_at. destruct (ad_max_cache d (a_uarch (entry ss 0))); [reflexivity|].
    assert (P3 : nth_error (at_l3_of t) 0 = Some (if has3 g3 0 then Some 0 else None)).
    { rewrite B6, nth_map_seq by exact N0. f_equal. destruct (has3 g3 0) eqn:E3; [now apply (l3_of_0 arm32 ps ss n A N0 n N0 (le_n n) d chip g1i g1d g2 g3 DEC UNI)|]. unfold l3_of. now rewrite E3. }
    split; [|split].
    - intros x (k & E1 & E2). rewrite P3 in E1. destruct (has3 g3 0) eqn:E3; [|discriminate E1]. injection E1 as <-.
      pose proof (l3_first arm32 ps ss n A N0 n N0 (le_n n) d chip g1i g1d g2 g3 DEC UNI E3) as L. rewrite (l3_table_done arm32 ps ss n A N0 n N0 (le_n n) d chip g1i g1d g2 g3 DEC UNI), <- B4, E2 in L. injection L as ->. reflexivity.
    - intros E x (k & E1 & E2). rewrite P3 in E. destruct (has3 g3 0) eqn:E3; [discriminate E|]. rewrite B5, nth_map_seq in E1 by exact N0. injection E1 as E1.
      destruct (l2_leader 0 N0 (l2_some 0 k N0 E1)) as (s & Hs & Fs & Es & _). assert (s = 0) by lia. subst s. rewrite Es in E1. injection E1 as <-.
      rewrite B3, (nth_filter_map _ first2 n 0 N0 Fs) in E2. injection E2 as <-. cbn [l2_at ca_geometry one_partition g_size].
      replace (has2 g2 0) with true; [reflexivity|]. pose proof (l2_some 0 _ N0 Es) as X. rewrite E3 in X. cbn in X. auto.
    - intros E E' x Hx. rewrite P3 in E. destruct (has3 g3 0) eqn:E3; [discriminate E|]. rewrite B5, nth_map_seq in E' by exact N0. injection E' as E'.
      rewrite B1, nth_map_seq in Hx by exact N0. injection Hx as <-. unfold l2_of in E'. rewrite E3 in E'. cbn [orb] in E'. destruct (has2 g2 0); [discriminate E'|reflexivity].
  Qed.
End CACHES.
