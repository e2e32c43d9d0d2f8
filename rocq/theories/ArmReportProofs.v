(** The tables of ARM Linux say what they should, given the sorted table they are made from. *)
From Verif Require Import Base BaseProofs Sorting Runs GroupArray Loops TopologySpec ArmMidrModel ArmMidrProofs ArmClustersModel ArmClustersSpec
  ArmClustersProofs ArmClusterMidrModel ArmClusterMidrSpec ArmLinuxModel ArmOrderProofs ArmSortedProofs ArmTablesProofs ArmBuildProofs.
From Verif Require ArmLinuxSpec.
Import ArmLinuxSpec(arm_topology, Build_arm_topology, big_first, outranks, arm_maps, Build_arm_maps, arm_kinds, Build_arm_kinds, decoded,
  unpartitioned, ranges_agree, its_cache, same_cluster, arm_caches, Build_arm_caches, l3_case, Shared, Per_cluster, l3_sizes, arm_l3, Build_arm_l3,
  arm_l1, Build_arm_l1, max_size_rule).
Open Scope nat_scope.

(** ** Lists indexed by position or by run *)
Lemma nth_map_seq_inv {A} (f : nat -> A) n i x : nth_error (map f (seq 0 n)) i = Some x -> i < n /\ x = f i.
Proof.
  intros H. pose proof (nth_error_some_lt _ _ _ _ H) as L. rewrite map_length, seq_length in L. split; [exact L|].
  rewrite nth_map_seq in H by exact L. congruence.
Qed.

Lemma nth_filter_inv {A} (f : nat -> A) c n k x : nth_error (map f (filter c (seq 0 n))) k = Some x ->
  exists s, s < n /\ c s = true /\ cnt s c = k /\ x = f s.
Proof.
  intros H. pose proof (nth_error_some_lt _ _ _ _ H) as L. rewrite map_length, cnt_filter in L.
  destruct (leader_of c n k L) as (s & H1 & H2 & H3). exists s. repeat (split; auto).
  rewrite <- H3, (map_nth_error f _ _ (nth_filter c n s H1 H2)) in H. congruence.
Qed.

Lemma nth_filter_map {A} (f : nat -> A) c n s : s < n -> c s = true -> nth_error (map f (filter c (seq 0 n))) (cnt s c) = Some (f s).
Proof. intros H1 H2. apply map_nth_error. now apply nth_filter. Qed.

Lemma run_range new n s : new 0 = true -> s < n -> new s = true ->
  let c := cnt n (fun j => grp new j =? cnt s new) in
  0 < c /\ s + c <= n /\ forall i, i < n -> (grp new i = cnt s new <-> s <= i < s + c).
Proof.
  intros N0 Hs Es. destruct (group_end new n s Hs) as (e & He & Hend & Hin).
  assert (M : forall i, i < n -> (grp new i = cnt s new <-> s <= i < e)) by (intros i Hi; now apply (group_members new N0 n)).
  assert (C : cnt n (fun j => grp new j =? cnt s new) = e - s).
  { rewrite (cnt_interval (fun _ => true) _ s e n) by (try lia; intros i Hi; specialize (M i Hi);
      destruct (Nat.eqb_spec (grp new i) (cnt s new)), (Nat.leb_spec s i), (Nat.ltb_spec i e); cbn; auto; lia).
    now rewrite !cnt_all. }
  cbv zeta. rewrite C. split; [lia|]. split; [lia|]. intros i Hi. rewrite (M i Hi). lia.
Qed.

Lemma grouping_single n : 0 < n -> grouping (repeat 0 n) [(0, n)].
Proof.
  intros H. split.
  - rewrite repeat_length. cbn. auto.
  - intros i j. split.
    + intros E. pose proof (nth_error_some_lt _ _ _ _ E) as L. rewrite repeat_length in L. rewrite nth_error_repeat in E by exact L.
      injection E as <-. exists 0, n. split; [reflexivity|lia].
    + intros (s & c & E & L). destruct j as [|j]; [|destruct j; discriminate]. injection E as <- <-. apply nth_error_repeat. lia.
Qed.

Lemma repeat_map {A B} (x : B) (l : list A) : map (fun _ => x) l = repeat x (length l).
Proof. induction l; cbn; congruence. Qed.

Lemma map_repeat {A B} (f : A -> B) x : forall n, map f (repeat x n) = repeat (f x) n.
Proof. induction n; cbn; congruence. Qed.

Section REPORT.
  Variables (arm32 : bool) (ps ss : list aproc) (n : nat).
  Hypothesis A : arranged arm32 ps ss n.
  Hypothesis N0 : 0 < n.
  Variables (d : arm_decoders) (chip : chipset) (g1i g1d g2 g3 : nat -> geometry).
  Hypothesis DEC : forall i, i < n -> caches_of d chip (cluster_of ss i) (entry ss i) = Ok (g1i i, g1d i, g2 i, g3 i).
  Variable version : N.
  Hypothesis VER : forall i, i < n -> ar_architecture_version (a_report (entry ss i)) = version.

  Notation first2 := (first2 ss g2 g3).
  Notation first3 := (first3 ss g3).
  Notation total3 := (total3 ss n g2 g3).
  Notation shared3 := (shared3 ss n g2 g3).
  Notation new := (starts_cluster ss).

  Lemma new0 : new 0 = true.
  Proof using A N0. exact (new_first arm32 ps ss n A N0). Qed.

  (** ** The processors of a cluster are alike *)
  Lemma cluster_alike i j : i < n -> j < n -> cluster_of ss i = cluster_of ss j ->
    a_count (entry ss i) = a_count (entry ss j) /\ a_midr (entry ss i) = a_midr (entry ss j) /\
    a_vendor (entry ss i) = a_vendor (entry ss j) /\ a_uarch (entry ss i) = a_uarch (entry ss j).
  Proof using A N0.
    intros Hi Hj E. split.
    - rewrite (cluster_size _ _ _ _ i A Hi), (cluster_size _ _ _ _ j A Hj). change (grp new i = grp new j) in E. now rewrite E.
    - destruct (leader_before arm32 ps ss n A i Hi) as (s & _ & Ns & Cs & _ & _ & [M1 V1 U1 _ _ _] & _).
      destruct (leader_before arm32 ps ss n A j Hj) as (s' & _ & Ns' & Cs' & _ & _ & [M2 V2 U2 _ _ _] & _).
      assert (s = s') by (apply (leader_inj new); auto; congruence). subst s'. repeat split; congruence.
  Qed.

  Lemma caches_alike i j : i < n -> j < n -> cluster_of ss i = cluster_of ss j ->
    g1i i = g1i j /\ g1d i = g1d j /\ g2 i = g2 j /\ g3 i = g3 j.
  Proof using A N0 DEC VER.
    intros Hi Hj E. pose proof (DEC i Hi) as D1. pose proof (DEC j Hj) as D2. destruct (cluster_alike i j Hi Hj E) as (C1 & C2 & C3 & C4).
    unfold caches_of in D1, D2. rewrite (VER i Hi) in D1. rewrite (VER j Hj) in D2. rewrite C1, C2, C4, E, D2 in D1. injection D1 as -> -> -> ->. auto.
  Qed.

  Lemma levels_alike i j : i < n -> j < n -> cluster_of ss i = cluster_of ss j -> has2 g2 i = has2 g2 j /\ has3 g3 i = has3 g3 j.
  Proof using A N0 DEC VER. intros Hi Hj E. destruct (caches_alike i j Hi Hj E) as (_ & _ & E2 & E3). unfold has2, has3. now rewrite E2, E3. Qed.

  Variable t : arm_tables.
  Hypothesis B : built arm32 ss n n d g1i g1d g2 g3 t.

  (** ** Topology *)
  Lemma cluster_grouping f : (forall s, s < n -> new s = true -> f (cluster_at ss s) = (s, a_count (entry ss s))) ->
    grouping (map (cluster_of ss) (seq 0 n)) (map f (map (cluster_at ss) (filter new (seq 0 n)))).
  Proof using A N0.
    intros F. apply (grouping_runs new n).
    - exact new0.
    - exact N0.
    - now rewrite map_length, seq_length.
    - now rewrite !map_length, cnt_filter.
    - intros i Hi. now rewrite nth_map_seq.
    - intros s Hs Es. rewrite map_map, (nth_filter_map _ new n s Hs Es), F by auto. f_equal. f_equal.
      rewrite (cluster_size _ _ _ _ s A Hs). now rewrite (grp_leader new s Es).
  Qed.

  Lemma count_true k : cnt k (fun _ => true) = k.
  Proof using. clear. apply cnt_all. Qed.

  Lemma own_grouping : grouping (seq 0 n) (map core_processors (map (core_at ss) (seq 0 n))).
  Proof using N0. clear A B VER DEC g1i g1d g2 g3 d chip.
    apply (grouping_runs (fun _ => true) n); auto.
    - apply seq_length.
    - now rewrite !map_length, seq_length, cnt_all.
    - intros i Hi. rewrite (nth_error_nth' _ 0), seq_nth by (rewrite ?seq_length; lia). unfold grp. now rewrite cnt_all.
    - intros s Hs _. rewrite map_map, cnt_all, nth_map_seq by exact Hs. unfold core_processors, core_at. cbn [c_processor_start c_processor_count]. f_equal. f_equal.
      destruct (run_range (fun _ => true) n s eq_refl Hs eq_refl) as (P1 & P2 & P3). rewrite cnt_all in *.
      unfold grp in *. set (c := cnt n (fun j => _)) in *. destruct (Nat.eq_dec c 1) as [->|]; [reflexivity|exfalso].
      assert (X : pred (cnt (S (S s)) (fun _ => true)) = s) by (apply (P3 (S s)); lia). rewrite cnt_all in X. cbn in X. lia.
  Qed.

  Lemma topology usable : (forall c, usable c <-> ArmClustersSpec.usable ps c) -> arm_topology usable t.
  Proof using A N0 B.
    clear VER DEC.
    intros U. pose proof (ar_le _ _ _ _ A) as LE. pose proof (ar_length _ _ _ _ A) as LN.
    destruct B as [B1 B2 B3 B4 _ _ _ _ _ _ _ _ _ _ _ _]. rewrite Nat.sub_diag, app_nil_r in B3.
    assert (CN : 0 < cnt n new) by (apply (cnt_pos new new0 n N0)).
    split.
    - intros c. rewrite U, B1. split.
      + intros V. assert (Hc : c < length ps).
        { destruct (Nat.lt_ge_cases c (length ps)) as [|H]; [assumption|]. unfold ArmClustersSpec.usable, entry in V. rewrite nth_overflow in V by exact H. discriminate V. }
        destruct (ar_place _ _ _ _ A c ltac:(lia)) as (i & Hi & Ei).
        destruct (ar_entry _ _ _ _ A i Hi) as (_ & Ee). rewrite Ei in Ee.
        assert (L : i < n). { apply Nat.ltb_lt. rewrite <- (ar_valid _ _ _ _ A), Ee. exact V. }
        exists (processor_at ss i). split; [apply in_map, in_seq; lia|]. cbn [processor_at p_linux_id]. now rewrite Ei.
      + intros (p & Hp & E). apply in_map_iff in Hp. destruct Hp as (i & <- & Hi). apply in_seq in Hi. cbn [processor_at p_linux_id] in E.
        apply Nnat.Nat2N.inj in E. destruct (ar_entry _ _ _ _ A i ltac:(lia)) as (_ & Ee). rewrite E in Ee.
        unfold ArmClustersSpec.usable. rewrite <- Ee, (ar_valid _ _ _ _ A). apply Nat.ltb_lt. lia.
    - rewrite B1, map_map. cbn [processor_at p_linux_id]. apply (NoDup_nth _ 0%N). intros i j Hi Hj E. rewrite map_length, seq_length in Hi, Hj.
      rewrite !(nth_indep _ 0%N (N.of_nat (a_id (entry ss 0)))) in E by (rewrite map_length, seq_length; lia).
      rewrite !(map_nth (fun x => N.of_nat (a_id (entry ss x)))), !seq_nth in E by lia. apply Nnat.Nat2N.inj in E.
      apply (ar_distinct _ _ _ _ A); [lia|lia|exact E].
    - rewrite B1, B2, B3, B4. split.
      + exists (seq 0 n). split; [now rewrite map_map|exact own_grouping].
      + exists (map (cluster_of ss) (seq 0 n)). split; [now rewrite !map_map|]. now apply cluster_grouping.
      + exists (repeat 0 n). split; [rewrite map_map; cbn [processor_at p_package]; now rewrite repeat_map, seq_length, map_repeat|now apply grouping_single].
      + exists (map (cluster_of ss) (seq 0 n)). split; [now rewrite !map_map|]. now apply cluster_grouping.
      + exists (repeat 0 n). split; [rewrite map_map; cbn [core_at c_package]; now rewrite repeat_map, seq_length, map_repeat|now apply grouping_single].
      + exists (repeat 0 (cnt n new)). split; [rewrite map_map; cbn [cluster_at cl_package]; now rewrite repeat_map, cnt_filter, map_repeat|now apply grouping_single].
      + intros i p j c Hp Ec Hc. apply nth_map_seq_inv in Hp. destruct Hp as (Hi & ->). apply nth_map_seq_inv in Hc. destruct Hc as (Hj & ->).
        injection Ec as <-. split; reflexivity.
      + intros i p j l Hp _ Hl. apply nth_map_seq_inv in Hp. destruct Hp as (Hi & ->). apply nth_filter_inv in Hl. destruct Hl as (s & _ & _ & _ & ->). reflexivity.
    - rewrite B1, B2, B3, B4. split.
      + intros i p j c Hp Ec Hc. apply nth_map_seq_inv in Hp. destruct Hp as (Hi & ->). apply nth_map_seq_inv in Hc. destruct Hc as (Hj & ->).
        injection Ec as <-. cbn. lia.
      + intros i c j k Hc Ek Hk. apply nth_map_seq_inv in Hc. destruct Hc as (Hi & ->). injection Ek as <-. injection Hk as <-. cbn. lia.
      + intros i l j k Hl Ek Hk. apply nth_filter_inv in Hl. destruct Hl as (s & Hs & Es & <- & ->). injection Ek as <-. injection Hk as <-. cbn [cluster_at cl_cluster_id pk_cluster_start pk_cluster_count].
        split; [reflexivity|]. pose proof (cnt_mono new (S s) n Hs) as M. rewrite cnt_S_true in M by exact Es. lia.
    - intros i p Hp. rewrite B1 in Hp. apply nth_map_seq_inv in Hp. now destruct Hp as (_ & ->).
    - rewrite B2, B3. intros i c j l Hc Ej Hl. apply nth_map_seq_inv in Hc. destruct Hc as (Hi & ->). apply nth_filter_inv in Hl. destruct Hl as (s & Hs & Es & Cs & ->).
      injection Ej as Ej. assert (E : cluster_of ss s = cluster_of ss i) by (unfold cluster_of at 1; rewrite grp_leader by exact Es; congruence).
      destruct (cluster_alike s i Hs Hi E) as (_ & E1 & E2 & E3). cbn. auto.
  Qed.

  Lemma big_before_little : big_first t.
  Proof using A N0 B.
    clear VER DEC. pose proof (ar_le _ _ _ _ A) as LE.
    intros i j a b Hij Ha Hb O. rewrite (bu_cores _ _ _ _ _ _ _ _ _ _ B) in Ha, Hb. apply nth_map_seq_inv in Ha. destruct Ha as (Hi & ->). apply nth_map_seq_inv in Hb. destruct Hb as (Hj & ->).
    cbn [core_at c_cpuid] in O.
    assert (S : (midr_score_core arm32 (a_midr (entry ss i)) < midr_score_core arm32 (a_midr (entry ss j)))%N).
    { destruct O as [(O1 & O2)|(O1 & O2)]; [now apply role_scores|now apply prime_scores]. }
    pose proof (ar_order _ _ _ _ A i j Hij ltac:(lia)) as O'. unfold arm_before in O'.
    rewrite !(ar_valid _ _ _ _ A) in O'. replace (i <? n) with true in O' by (symmetry; now apply Nat.ltb_lt).
    replace (j <? n) with true in O' by (symmetry; now apply Nat.ltb_lt). destruct O' as [(_ & X)|(_ & [X|(X & _)])]; [discriminate X|lia|lia].
  Qed.

  Lemma maps_right : arm_maps t.
  Proof using A N0 B.
    clear VER DEC. pose proof (ar_le _ _ _ _ A) as LE.
    destruct B as [B1 B2 _ _ _ _ _ _ _ _ _ _ B5 (L1 & M1 & Z1) (L2 & M2 & Z2) _]. split; rewrite ?B5, ?Nnat.Nat2N.id.
    - auto.
    - intros i p Hp. rewrite B1 in Hp. apply nth_map_seq_inv in Hp. destruct Hp as (Hi & ->). cbn [processor_at p_linux_id p_core]. rewrite Nnat.Nat2N.id. auto.
    - intros cpu Hc Hn. rewrite B1 in Hn.
      assert (X : forall i, i < n -> a_id (entry ss i) <> cpu).
      { intros i Hi E. apply (Hn (processor_at ss i)); [apply in_map, in_seq; lia|]. cbn. now rewrite Nnat.Nat2N.id. }
      auto.
  Qed.

  (** ** Microarchitectures *)
  Definition kind : list nat := map (grp (starts_uarch ss)) (seq 0 n).

  Lemma kinds_right : arm_kinds t kind.
  Proof using A N0 B.
    clear VER DEC. pose proof (ar_le _ _ _ _ A) as LE.
    destruct B as [B1 B2 _ _ (BL & BF & _) _ _ _ _ _ _ _ B5 (L1 & M1 & Z1) _ BU].
    assert (IN : forall k u, nth_error (at_uarchs t) k = Some u -> exists s, s < n /\ starts_uarch ss s = true /\ cnt s (starts_uarch ss) = k /\ u = uarch_entry ss n s).
    { intros k u Hu. pose proof (nth_error_some_lt _ _ _ _ Hu) as L. rewrite BL in L. destruct (leader_of (starts_uarch ss) n k L) as (s & H1 & H2 & H3).
      exists s. repeat (split; auto). specialize (BF s H1 H2). rewrite H3, Hu in BF. congruence. }
    assert (K : forall i s, i < n -> s < n -> starts_uarch ss s = true -> grp (starts_uarch ss) i = cnt s (starts_uarch ss) -> uarch_key ss i = uarch_key ss s).
    { intros i s Hi Hs Es E. destruct (group_end (starts_uarch ss) n s Hs) as (e & He & Hend & Hin).
      pose proof (proj1 (group_members (starts_uarch ss) eq_refl n s e i Es He Hend Hin Hi) E) as R. clear E.
      assert (G : forall m, s + m < e -> uarch_key ss (s + m) = uarch_key ss s).
      { induction m as [|m IH]; intros Hm; [now rewrite Nat.add_0_r|]. rewrite <- IH by lia. specialize (Hin (s + S m) ltac:(lia)).
        unfold starts_uarch, new_key in Hin. replace (s + S m) with (S (s + m)) in Hin |- * by lia. apply negb_false_iff, N.eqb_eq in Hin. exact Hin. }
      replace i with (s + (i - s)) by lia. apply G. lia. }
    split.
    - exists (filter (starts_uarch ss) (seq 0 n)). split; [now rewrite cnt_filter, BL|]. apply (grouping_runs (starts_uarch ss) n); auto.
      + unfold kind. now rewrite map_length, seq_length.
      + rewrite combine_length, map_length, cnt_filter, BL. apply Nat.min_id.
      + intros i Hi. unfold kind. now rewrite nth_map_seq.
      + intros s Hs Es. rewrite (nth_error_nth' _ (0, 0)); [|rewrite combine_length, map_length, cnt_filter, BL, Nat.min_id; pose proof (cnt_mono (starts_uarch ss) (S s) n Hs) as M; rewrite cnt_S_true in M by exact Es; lia].
        rewrite combine_nth by (rewrite map_length, cnt_filter; congruence). f_equal. f_equal.
        * apply nth_error_nth. now apply nth_filter.
        * apply nth_error_nth. erewrite map_nth_error by (apply (BF s Hs Es)). reflexivity.
    - unfold kind. now rewrite B1, !map_length.
    - apply Forall_forall. intros u Hu. apply In_nth_error in Hu. destruct Hu as (k & Hu). destruct (IN k u Hu) as (s & _ & _ & _ & ->). reflexivity.
    - intros i c k u Hc Hk Hu. rewrite B2 in Hc. apply nth_map_seq_inv in Hc. destruct Hc as (Hi & ->). unfold kind in Hk. apply nth_map_seq_inv in Hk. destruct Hk as (_ & ->).
      destruct (IN _ u Hu) as (s & Hs & Es & Cs & ->). cbn. symmetry. apply K; auto.
    - intros k u v Hu Hv. destruct (IN _ u Hu) as (s & Hs & Es & Cs & ->). destruct (IN _ v Hv) as (s' & Hs' & Es' & Cs' & ->). cbn [uarch_entry au_uarch].
      assert (L : 0 < s'). { destruct s'; [|lia]. cbn in Cs'. discriminate Cs'. }
      assert (P : uarch_key ss (pred s') = uarch_key ss s).
      { apply K; auto; [lia|]. unfold grp. replace (S (pred s')) with s' by lia. lia. }
      rewrite <- P. destruct s' as [|s']; [lia|]. cbn [pred]. unfold starts_uarch, new_key in Es'. apply negb_true_iff, N.eqb_neq in Es'. auto.
    - unfold uarch_mapped in BU. pose proof (cnt_pos (starts_uarch ss) eq_refl n N0) as CP. destruct (Nat.ltb_spec 1 (cnt n (starts_uarch ss))) as [L|L].
      + destruct BU as (m & -> & ML & MM & MZ). rewrite B5, Nnat.Nat2N.id, BL. split; [exact ML|]. split; [exact L|]. split.
        * apply Forall_forall. intros k Hk. apply In_nth_error in Hk. destruct Hk as (j & Hj).
          pose proof (nth_error_some_lt _ _ _ _ Hj) as Lj. rewrite ML in Lj.
          destruct (ar_place _ _ _ _ A j Lj) as (i & Hi & Ei). destruct (Nat.lt_ge_cases i n) as [In|In].
          -- specialize (MM i In). rewrite Ei, Hj in MM. injection MM as ->. unfold grp. pose proof (cnt_mono (starts_uarch ss) (S i) n In). lia.
          -- rewrite (MZ j Lj) in Hj; [injection Hj as <-; lia|]. intros i' Hi' E. assert (i' = i) by (apply (ar_distinct _ _ _ _ A); [lia|lia|congruence]). lia.
        * intros i p k Hp Hk. rewrite B1 in Hp. apply nth_map_seq_inv in Hp. destruct Hp as (Hi & ->). unfold kind in Hk. apply nth_map_seq_inv in Hk. destruct Hk as (_ & ->).
          cbn [processor_at p_linux_id]. rewrite Nnat.Nat2N.id. auto.
      + rewrite BU, BL. lia.
  Qed.
End REPORT.
