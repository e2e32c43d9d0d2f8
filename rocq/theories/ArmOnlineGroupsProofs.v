(** The lists of siblings that the kernel keeps when some CPUs are offline. *)
From Verif Require Import Base BaseProofs Loops LinuxTextModel LinuxTextSpec X86LinuxSpec CpulistFileProofs X86DetectProofs ArmClustersModel ArmClustersSpec ArmClustersProofs ArmScanProofs.
Open Scope nat_scope.

(** Only the processors [on] have a package id and are in the lists. *)
Definition lists_group_on (ps : list aproc) (on : nat -> bool) (list_of : sibling_files -> file) (files : nat -> sibling_files)
           (group : nat -> nat) : Prop :=
  forall i, usable ps i -> on i = true -> exists ranges, list_says (list_of (files i)) (Some ranges) /\
    forall j, usable ps j -> (listed ranges (N.of_nat j) <-> on j = true /\ group j = group i).
Record kernel_lists_on (ps : list aproc) (on : nat -> bool) (files : nat -> sibling_files) (group : nat -> nat) : Prop := {
  ko_package_ids : forall i, usable ps i -> bitmask_all (a_flags (entry ps i)) af_package_id = on i;
  ko_unmarked : forall i, usable ps i -> clustered (entry ps i) = false;
  ko_lists : lists_group_on ps on sf_cluster_cpus files group \/
             ((forall i, usable ps i -> on i = true -> (forall j, j < i -> usable ps j -> on j = false) -> list_says (sf_cluster_cpus (files i)) None) /\
              lists_group_on ps on sf_core_siblings files group)
}.

Section LISTS.
  Variables (ps : list aproc) (on : nat -> bool) (files : nat -> sibling_files) (group : nat -> nat).
  (** The others are in groups of their own. *)
  Definition apart (j : nat) : nat := if on j then 2 * group j else 2 * j + 1.

  Lemma apart_on i j : on i = true -> (apart j = apart i <-> on j = true /\ group j = group i).
  Proof using on group. clear ps files. intros E. unfold apart. rewrite E. destruct (on j); [split; [split; [reflexivity|lia]|lia]|split; [lia|intros (X & _); discriminate X]]. Qed.
  Lemma apart_off i j : on i = false -> (apart j = apart i <-> j = i).
  Proof using on group. clear ps files. intros E. unfold apart. rewrite E. destruct (on j) eqn:F; split; intros H; try lia; subst; congruence. Qed.

  Notation first j := (first_of ps apart j).
  Lemma first_off j : usable ps j -> on j = false -> first j = j.
  Proof. intros U O. destruct (first_of_spec ps apart j U) as (_ & S2 & _). now apply (apart_off j). Qed.
  Lemma first_on j : usable ps j -> on j = true -> on (first j) = true.
  Proof. intros U O. destruct (first_of_spec ps apart j U) as (_ & S2 & _). now apply (apart_on j) in S2. Qed.

  Definition described_on (k : nat) (qs : list aproc) : Prop :=
    only_leaders_changed ps qs /\
    forall j, usable ps j ->
      if on j && (first j <? k) then leader qs j = first j /\ clustered (entry qs j) = true
      else leader qs j = j /\ (on j = false -> a_flags (entry qs j) = a_flags (entry ps j)).

  (** A processor outside the lists is not touched. *)
  Lemma siblings_untouched j : forall n from s s', for_each sibling_step from n s = Ok s' -> ~ (from <= j < from + n) ->
    entry (snd s') j = entry (snd s) j.
  Proof.
    induction n as [|n IH]; intros from (m & qs) s' E H; cbn [for_each] in E; [injection E as <-; reflexivity|].
    destruct (sibling_step from (m, qs)) as [(m1 & qs1)| |] eqn:E1; try discriminate. cbn [bind] in E.
    rewrite (IH _ _ _ E) by lia. cbn [snd]. unfold sibling_step in E1. destruct (rd qs from) as [p| |] eqn:R; try discriminate. cbn [bind] in E1.
    destruct (negb (a_valid p)); [injection E1 as <- <-; reflexivity|].
    assert (L : from < length qs) by (unfold rd in R; destruct (nth_error qs from) eqn:X; [|discriminate]; eapply nth_error_some_lt; eauto).
    rewrite wr_ok in E1 by exact L. cbn [bind] in E1. injection E1 as _ <-. rewrite entry_upd by exact L. destruct (Nat.eqb_spec j from); [lia|reflexivity].
  Qed.

  Lemma cluster_untouched p x y qs qs' j : p < length qs -> cluster_siblings p x y qs = Ok qs' -> j <> p -> ~ (x <= j < y) -> entry qs' j = entry qs j.
  Proof.
    intros L E NP H. unfold cluster_siblings in E. rewrite modify_entry in E by exact L. cbn [bind] in E.
    rewrite rd_entry in E by (rewrite upd_length; exact L). cbn [bind] in E.
    destruct (for_each sibling_step x (y - x) _) as [(m & rs)| |] eqn:F; try discriminate. cbn [bind] in E.
    pose proof (siblings_untouched j _ _ _ _ F ltac:(lia)) as U. cbn [snd] in U. rewrite entry_upd in U by exact L.
    destruct (Nat.eqb_spec j p) as [|_]; [contradiction|]. unfold modify in E. destruct (nth_error rs p) as [q|] eqn:R; try discriminate.
    pose proof (nth_error_some_lt _ _ _ _ R) as LP. injection E as <-. rewrite entry_upd by exact LP. destruct (Nat.eqb_spec j p) as [|_]; [contradiction|exact U].
  Qed.
  Lemma siblings_length : forall n from s s', for_each sibling_step from n s = Ok s' -> length (snd s') = length (snd s).
  Proof.
    induction n as [|n IH]; intros from (m & qs) s' E; cbn [for_each] in E; [injection E as <-; reflexivity|].
    destruct (sibling_step from (m, qs)) as [(m1 & qs1)| |] eqn:E1; try discriminate. cbn [bind] in E.
    rewrite (IH _ _ _ E). cbn [snd]. unfold sibling_step in E1. destruct (rd qs from) as [p| |] eqn:R; try discriminate. cbn [bind] in E1.
    destruct (negb (a_valid p)); [injection E1 as <- <-; reflexivity|].
    assert (L : from < length qs) by (unfold rd in R; destruct (nth_error qs from) eqn:X; [|discriminate]; eapply nth_error_some_lt; eauto).
    rewrite wr_ok in E1 by exact L. cbn [bind] in E1. injection E1 as _ <-. apply upd_length.
  Qed.
  Lemma cluster_length p x y qs qs' : p < length qs -> cluster_siblings p x y qs = Ok qs' -> length qs' = length qs.
  Proof.
    intros L E. unfold cluster_siblings in E. rewrite modify_entry in E by exact L. cbn [bind] in E.
    rewrite rd_entry in E by (rewrite upd_length; exact L). cbn [bind] in E.
    destruct (for_each sibling_step x (y - x) _) as [(m & rs)| |] eqn:F; try discriminate. cbn [bind] in E.
    apply siblings_length in F. cbn [snd] in F. rewrite upd_length in F. unfold modify in E. destruct (nth_error rs p) as [q|]; try discriminate.
    injection E as <-. now rewrite upd_length.
  Qed.

  Lemma ranges_untouched p j : j <> p -> forall rs qs qs', p < length qs -> j < length qs ->
    run_ranges (siblings_parser (N.of_nat (length qs)) (cluster_siblings_parser p)) true (Ok qs) (map Some rs) = (true, Ok qs') ->
    in_ranges rs j = false -> entry qs' j = entry qs j.
  Proof.
    intros NP. induction rs as [|(f & l) rs IH]; intros qs qs' Lp Lj E H; cbn [map run_ranges] in E; [injection E as <-; reflexivity|].
    unfold siblings_parser at 1, cluster_siblings_parser at 1 in E. cbn [andb bind] in E.
    set (y := N.to_nat (if (N.of_nat (length qs) <? l + 1)%N then N.of_nat (length qs) else (l + 1)%N)) in E.
    cbn [in_ranges existsb fst snd] in H. apply orb_false_iff in H. destruct H as (H1 & H2).
    destruct (cluster_siblings p (N.to_nat f) y qs) as [qs1| |] eqn:E1.
    - pose proof (cluster_length _ _ _ _ _ Lp E1) as L1. rewrite <- L1 in E. rewrite (IH qs1 qs') by (auto; lia).
      apply (cluster_untouched p (N.to_nat f) y); auto. unfold y. intros X.
      destruct (N.leb_spec f (N.of_nat j)), (N.leb_spec (N.of_nat j) l); try discriminate; destruct (N.ltb_spec (N.of_nat (length qs)) (l + 1)); lia.
    - exfalso. clear - E. revert E. induction rs as [|(f' & l') rs IHr]; cbn [map run_ranges]; [discriminate|]. unfold siblings_parser at 1, cluster_siblings_parser at 1. cbn [andb bind]. exact IHr.
    - exfalso. clear - E. revert E. induction rs as [|(f' & l') rs IHr]; cbn [map run_ranges]; [discriminate|]. unfold siblings_parser at 1, cluster_siblings_parser at 1. cbn [andb bind]. exact IHr.
  Qed.
  Lemma described_on_list sg f k qs rs : described_on k qs -> usable ps k -> on k = true ->
    X86LinuxSpec.list_says f (Some rs) -> (forall j, usable ps j -> (listed rs (N.of_nat j) <-> on j = true /\ group j = group k)) ->
    exists qs', detect_cluster_list sg (N.of_nat (length qs)) k f qs = Ok (true, qs') /\ described_on (S k) qs'.
  Proof.
    intros (F & D) Hk Ok HL HG0. unfold detect_cluster_list, detect_siblings.
    assert (E := HL). inversion E as [f' contents rs' Hc Hw Hl E1 E2|]; subst. rewrite Hc.
    rewrite (cpu_list_file_parse _ _ _ _ _ _ Hw Hl). cbn [bind]. clear E Hc Hw Hl.
    assert (HG : forall j, usable ps j -> (listed rs (N.of_nat j) <-> apart j = apart k)) by (intros j Hj; rewrite (HG0 j Hj); symmetry; now apply apart_on).
    set (m := first k). destruct (first_of_spec ps apart k Hk) as (M1 & M2 & M3). fold m in M1, M2, M3.
    assert (Hmk : m <= k) by (apply M3; auto).
    assert (Ek : leader qs k = m).
    { specialize (D k Hk). fold m in D. rewrite Ok in D. cbn [andb] in D. destruct (Nat.ltb_spec m k); [apply D|]. destruct D. lia. }
    assert (V : forall j, a_valid (entry qs j) = a_valid (entry ps j)) by (intros j; apply oc_valid, F).
    assert (SAME : forall j, usable ps j -> apart j = apart k -> first j = m).
    { intros j Hj Hg. apply (first_unique ps apart k); [|now apply first_of_spec]. destruct (first_of_spec ps apart j Hj) as (S1 & S2 & S3).
      split; [exact S1|]. split; [congruence|]. intros i Hi Hig. apply S3; congruence. }
    destruct (ranges_exact k m rs qs) as (qs' & E1 & F1 & A & B).
    - unfold usable in *. now rewrite V.
    - exact Ek.
    - intros j Hu Hr. unfold usable in Hu. rewrite V in Hu. apply in_ranges_listed, (HG j Hu) in Hr.
      specialize (D j Hu). rewrite (SAME j Hu Hr) in D. apply (apart_on k j Ok) in Hr. destruct Hr as (Oj & Gj). rewrite Oj in D. cbn [andb] in D.
      destruct (m <? k); [destruct D; lia|]. destruct D as (-> & _). apply M3; [exact Hu|]. now apply apart_on.
    - rewrite E1. cbn [bind]. exists qs'. split; [reflexivity|]. split; [eapply occ_trans; eauto|].
      intros j Hu. rewrite A, V. assert (Hu' := Hu). unfold usable in Hu'. rewrite Hu'. cbn [andb].
      destruct (in_ranges rs j) eqn:R.
      + assert (G : apart j = apart k) by (apply (HG j Hu), in_ranges_listed, R). rewrite (SAME j Hu G). apply (apart_on k j Ok) in G. destruct G as (Oj & Gj).
        rewrite Oj, (proj2 (Nat.ltb_lt m (S k)) ltac:(lia)). cbn [andb]. split; [reflexivity|]. apply B. rewrite V, Hu', R. reflexivity.
      + assert (G : apart j <> apart k).
        { intros G. apply (HG j Hu), in_ranges_listed in G. congruence. }
        specialize (D j Hu). assert (NK : first j <> k).
        { intros X. destruct (first_of_spec ps apart j Hu) as (_ & S2 & _). rewrite X in S2. congruence. }
        destruct (on j) eqn:Oj; cbn [andb] in D |- *.
        * destruct (Nat.ltb_spec (first j) k), (Nat.ltb_spec (first j) (S k)); try (exfalso; lia).
          -- destruct D as (D1 & D2). split; [exact D1|]. now apply (oc_marked _ _ (proj2 F1 j)).
          -- split; [apply D|discriminate].
        * destruct D as (D1 & D2). split; [exact D1|]. intros _. rewrite <- D2 by reflexivity. f_equal.
          assert (NE : j <> k) by (intros ->; congruence).
          apply (ranges_untouched k j NE rs qs qs'); [rewrite (proj1 F); now apply usable_lt|rewrite (proj1 F); now apply usable_lt|exact E1|exact R].
  Qed.

  Lemma described_on_skip k qs : described_on k qs -> (usable ps k -> on k = false) -> described_on (S k) qs.
  Proof.
    intros (F & D) Hk. split; [exact F|]. intros j Hu. specialize (D j Hu). destruct (on j) eqn:Oj; cbn [andb] in *; [|exact D].
    assert (NK : first j <> k).
    { intros X. destruct (first_of_spec ps apart j Hu) as (S1 & _). pose proof (first_on j Hu Oj) as Of. rewrite X in S1, Of. rewrite (Hk S1) in Of. discriminate. }
    destruct (Nat.ltb_spec (first j) k), (Nat.ltb_spec (first j) (S k)); try lia; auto.
  Qed.

  Definition source_on (k : nat) (mine : sibling_source) (s : sibling_source) : Prop :=
    s = mine \/ (s = Undecided /\ forall j, j < k -> usable ps j -> on j = false).

  Lemma lists_described sg : kernel_lists_on ps on files group ->
    exists s qs, for_each (sibling_lists_step sg (N.of_nat (length ps)) files) 0 (length ps) (Undecided, leaders_are_self ps) = Ok (s, qs) /\
      described_on (length ps) qs.
  Proof.
    intros [HP HU HLists].
    assert (D0 : described_on 0 (leaders_are_self ps)).
    { split; [apply leaders_self_changed|]. intros j Hu. cbn. rewrite andb_false_r. split; [apply leaders_self_leader, (usable_lt _ _ Hu)|]. intros _.
      rewrite leaders_self_entry by now apply usable_lt. reflexivity. }
    assert (PK : forall k qs, only_leaders_changed ps qs -> usable ps k -> bitmask_all (a_flags (entry qs k)) af_package_id = on k).
    { intros k qs F Hu. unfold bitmask_all. rewrite (oc_flags _ _ (proj2 F k)) by reflexivity. now apply HP. }
    destruct HLists as [HG|(HN & HG)].
    - destruct (for_each_inv (sibling_lists_step sg (N.of_nat (length ps)) files)
        (fun k s => source_on k Cluster_cpus (fst s) /\ described_on k (snd s)) (length ps) 0 (Undecided, leaders_are_self ps))
        as ((s & qs) & E & _ & D).
      + split; [right; split; [reflexivity|lia]|exact D0].
      + intros k (s & qs) Hk (HS & D). cbn [fst snd] in *. unfold sibling_lists_step. destruct D as (F & D).
        rewrite rd_entry by (rewrite (proj1 F); lia). cbn [bind]. rewrite (oc_valid _ _ (proj2 F k)).
        assert (SK : (usable ps k -> on k = false) -> source_on (S k) Cluster_cpus s /\ described_on (S k) qs).
        { intros NU. split; [|apply described_on_skip; [now split|exact NU]].
          destruct HS as [->|(-> & HS)]; [now left|]. right. split; [reflexivity|]. intros j Hj. destruct (Nat.eq_dec j k) as [->|]; [exact NU|apply HS; lia]. }
        destruct (a_valid (entry ps k)) eqn:V; cbn [negb].
        * rewrite (PK k qs F V). destruct (on k) eqn:Ok; cbn [negb]; [|eexists; split; [reflexivity|apply SK; reflexivity]]. destruct (HG k V Ok) as (rs & HL & HR).
          destruct (described_on_list sg _ k qs rs (conj F D) V Ok HL HR) as (qs' & E & D'). rewrite (proj1 F) in E.
          destruct HS as [->|(-> & _)]; rewrite E; cbn [bind snd]; eexists; (split; [reflexivity|]); (split; [now left|exact D']).
        * eexists. split; [reflexivity|]. apply SK. intros X. unfold usable in X. congruence.
      + exists s, qs. auto.
    - destruct (for_each_inv (sibling_lists_step sg (N.of_nat (length ps)) files)
        (fun k s => source_on k Core_siblings (fst s) /\ described_on k (snd s)) (length ps) 0 (Undecided, leaders_are_self ps))
        as ((s & qs) & E & _ & D).
      + split; [right; split; [reflexivity|lia]|exact D0].
      + intros k (s & qs) Hk (HS & D). cbn [fst snd] in *. unfold sibling_lists_step. destruct D as (F & D).
        rewrite rd_entry by (rewrite (proj1 F); lia). cbn [bind]. rewrite (oc_valid _ _ (proj2 F k)).
        assert (SK : (usable ps k -> on k = false) -> source_on (S k) Core_siblings s /\ described_on (S k) qs).
        { intros NU. split; [|apply described_on_skip; [now split|exact NU]].
          destruct HS as [->|(-> & HS)]; [now left|]. right. split; [reflexivity|]. intros j Hj. destruct (Nat.eq_dec j k) as [->|]; [exact NU|apply HS; lia]. }
        destruct (a_valid (entry ps k)) eqn:V; cbn [negb].
        * rewrite (PK k qs F V). destruct (on k) eqn:Ok; cbn [negb]; [|eexists; split; [reflexivity|apply SK; reflexivity]]. destruct (HG k V Ok) as (rs & HL & HR).
          destruct (described_on_list sg _ k qs rs (conj F D) V Ok HL HR) as (qs' & E & D'). rewrite (proj1 F) in E.
          destruct HS as [->|(-> & HS)].
          -- rewrite E. cbn [bind snd]. eexists. split; [reflexivity|]. split; [now left|exact D'].
          -- unfold detect_cluster_list at 1, detect_siblings. rewrite no_list by (apply HN; assumption). cbn [bind].
             rewrite E. cbn [bind snd]. eexists. split; [reflexivity|]. split; [now left|exact D'].
        * eexists. split; [reflexivity|]. apply SK. intros X. unfold usable in X. congruence.
      + exists s, qs. auto.
  Qed.

  (** The processors that are [on] are marked; the leaders are the first of the groups. *)
  Lemma kernel_stage_on sg : kernel_lists_on ps on files group ->
    exists qs, clusters_from_kernel sg files ps = Ok (length (filter (fun i => a_valid (entry ps i) && on i) (seq 0 (length ps))), qs) /\ only_leaders_changed ps qs /\
      clusters_ok qs /\ forall i, usable ps i -> leader qs i = first i.
  Proof.
    intros HK. destruct (lists_described sg HK) as (s & qs & E & F & D).
    assert (D' : forall j, usable ps j -> leader qs j = first j /\ clustered (entry qs j) = on j).
    { intros j Hu. specialize (D j Hu). destruct (on j) eqn:Oj; cbn [andb] in D.
      - destruct (first_of_spec ps apart j Hu) as (S1 & _). apply usable_lt in S1. now rewrite (proj2 (Nat.ltb_lt _ _) S1) in D.
      - destruct D as (D1 & D2). rewrite (first_off j Hu Oj). split; [exact D1|]. unfold clustered. rewrite D2 by reflexivity. now apply (ko_unmarked _ _ _ _ HK). }
    assert (FF : forall j, usable ps j -> first (first j) = first j).
    { intros j Hu. destruct (first_of_spec ps apart j Hu) as (S1 & S2 & S3). apply (first_unique ps apart j).
      - destruct (first_of_spec ps apart _ S1) as (T1 & T2 & T3). split; [exact T1|]. split; [congruence|]. intros i Hi Hg. apply T3; congruence.
      - now split. }
    assert (K : linked qs).
    { intros i Hu. apply (occ_usable _ _ _ F) in Hu. destruct (D' i Hu) as (-> & C). destruct (first_of_spec ps apart i Hu) as (S1 & S2 & S3).
      split; [now apply S3|]. split; [now apply (occ_usable _ _ _ F)|]. intros X. destruct (on i) eqn:Oi.
      - split; [exact C|]. rewrite (proj2 (D' _ S1)). now apply first_on.
      - exfalso. apply X. now apply first_off. }
    destruct (propagate_all qs K) as ((n & rs) & E2 & P).
    assert (EC : clusters_from_kernel sg files ps = Ok (n, rs)) by (unfold clusters_from_kernel; rewrite E; cbn [bind snd]; rewrite (proj1 F) in E2; exact E2).
    destruct P as (F2 & CL & Hn & _ & Hlt). exists rs. split; [|split; [eapply occ_trans; eauto|split]].
    - rewrite EC. f_equal. f_equal. rewrite Hn. cbn [plus]. rewrite (proj1 F). f_equal. apply filter_ext. intros i.
      rewrite (oc_valid _ _ (proj2 F i)). destruct (a_valid (entry ps i)) eqn:V; [|reflexivity]. now rewrite (proj2 (D' i V)).
    - apply kernel_grouped_ok. eapply kernel_stage_inv. exact EC.
    - intros i Hu. destruct (D' i Hu) as (D1 & D2).
      assert (Hu' : usable qs i) by now apply (occ_usable _ _ _ F).
      destruct (Hlt i (usable_lt _ _ Hu') Hu') as (_ & _ & _ & X & _). rewrite X; [exact D1|]. rewrite D1.
      destruct (first_of_spec ps apart i Hu) as (S1 & _). destruct (D' _ S1) as (-> & _). now apply FF.
  Qed.

  (** As many are marked as are listed, so nothing is guessed. *)
  Lemma online_clusters sg arm32 garbage : (forall i, a_count (entry ps i) = 0) -> kernel_lists_on ps on files group ->
    exists qs, detect_clusters sg arm32 garbage files (length (filter (fun i => a_valid (entry ps i) && on i) (seq 0 (length ps)))) ps = Ok qs /\
      forall i, usable ps i -> is_first_of_group ps apart i (leader qs i).
  Proof.
    intros Z HK. destruct (kernel_stage_on sg HK) as (ps1 & E1 & F1 & OK & D). unfold detect_clusters. rewrite E1. cbn [bind]. rewrite Nat.eqb_refl. cbn [bind].
    destruct (count_members ps1 OK (changed_zero _ _ F1 Z)) as (rs & E & _ & HL & _). exists rs. split; [exact E|]. intros i Hi.
    rewrite (proj1 (HL i)), (D i Hi). now apply first_of_spec.
  Qed.
End LISTS.
