(** Lemmas about the grouping of ARM processors into clusters. *)
From Verif Require Import Base BaseProofs Loops LinuxTextModel LinuxTextSpec CpulistFileProofs X86DetectProofs.
From Verif Require Import ArmMidrModel ArmClustersModel ArmClustersSpec.
Open Scope nat_scope.

(** ** Tables *)
Lemma rd_entry ps i : i < length ps -> rd ps i = Ok (entry ps i).
Proof.
  intros H. unfold rd, entry. destruct (nth_error_lt _ _ _ H) as (x & E). rewrite E. f_equal. symmetry. now apply nth_error_nth.
Qed.
Lemma modify_entry ps i f : i < length ps -> modify ps i f = Ok (upd ps i (f (entry ps i))).
Proof.
  intros H. unfold modify, entry. destruct (nth_error_lt _ _ _ H) as (x & E). rewrite E. f_equal. f_equal. f_equal. symmetry.
  now apply nth_error_nth.
Qed.
Lemma entry_upd ps i x j : i < length ps -> entry (upd ps i x) j = if j =? i then x else entry ps j.
Proof.
  intros H. unfold entry. destruct (Nat.eqb_spec j i) as [->|N].
  - apply nth_error_nth, nth_error_upd_eq, H.
  - destruct (nth_error (upd ps i x) j) as [y|] eqn:E.
    + rewrite (nth_error_nth _ _ _ E). rewrite nth_error_upd_neq in E by auto. symmetry. now apply nth_error_nth.
    + apply nth_error_None in E. rewrite upd_length in E. rewrite !nth_overflow; rewrite ?upd_length; auto.
Qed.
Lemma entry_out ps i : length ps <= i -> entry ps i = aproc0.
Proof. apply nth_overflow. Qed.
Lemma usable_lt ps i : usable ps i -> i < length ps.
Proof.
  intros H. destruct (Nat.lt_ge_cases i (length ps)) as [L|L]; [exact L|]. unfold usable in H. rewrite entry_out in H by exact L.
  discriminate.
Qed.
Lemma table_ext ps qs : length ps = length qs -> (forall i, i < length ps -> entry ps i = entry qs i) -> ps = qs.
Proof.
  intros HL H. apply nth_error_ext. intros i. destruct (Nat.lt_ge_cases i (length ps)) as [L|L].
  - specialize (H i L). unfold entry in H. rewrite (nth_error_nth' ps aproc0) by lia. rewrite (nth_error_nth' qs aproc0) by lia.
    now rewrite H.
  - rewrite (proj2 (nth_error_None ps i)) by lia. now rewrite (proj2 (nth_error_None qs i)) by lia.
Qed.

(** ** Flags *)
Lemma land_af_cluster f m : N.land m af_cluster = 0%N -> N.land (N.lor f af_cluster) m = N.land f m.
Proof. intros H. rewrite N.land_lor_distr_l, (N.land_comm af_cluster), H, N.lor_0_r. reflexivity. Qed.
Lemma valid_lor p : a_valid (with_aflags (N.lor (a_flags p) af_cluster) p) = a_valid p.
Proof. unfold a_valid, bitmask_all. cbn [a_flags with_aflags]. now rewrite land_af_cluster. Qed.
Lemma clustered_lor p : clustered (with_aflags (N.lor (a_flags p) af_cluster) p) = true.
Proof.
  unfold clustered, any_flag. cbn [a_flags with_aflags]. rewrite N.land_lor_distr_l, N.land_diag.
  destruct (N.eqb_spec (N.lor (N.land (a_flags p) af_cluster) af_cluster) 0) as [E|]; [|reflexivity].
  apply N.lor_eq_0_iff in E. destruct E as (_ & E). discriminate.
Qed.
Lemma has_both p : bitmask_all (a_flags p) (N.lor af_valid af_cluster) = a_valid p && clustered p.
Proof.
  unfold a_valid, clustered, bitmask_all, any_flag. change af_valid with (2 ^ 12)%N. change af_cluster with (2 ^ 10)%N.
  assert (B : forall k, N.land (a_flags p) (2 ^ k) = (if N.testbit (a_flags p) k then 2 ^ k else 0)%N).
  { intros k. apply N.bits_inj. intros b. rewrite N.land_spec, N.pow2_bits_eqb.
    destruct (N.eqb_spec k b) as [<-|N]; destruct (N.testbit (a_flags p) k) eqn:T; rewrite ?N.pow2_bits_true, ?N.bits_0, ?N.pow2_bits_eqb;
      rewrite ?T, ?andb_true_r, ?andb_false_r; auto. symmetry. now apply N.eqb_neq. }
  rewrite N.land_lor_distr_r, !B. destruct (N.testbit (a_flags p) 12), (N.testbit (a_flags p) 10); reflexivity.
Qed.
Lemma to_scan p : (N.land (a_flags p) (N.lor af_valid af_cluster) =? af_valid)%N = a_valid p && negb (clustered p).
Proof.
  unfold a_valid, clustered, bitmask_all, any_flag. change af_valid with (2 ^ 12)%N. change af_cluster with (2 ^ 10)%N.
  assert (B : forall k, N.land (a_flags p) (2 ^ k) = (if N.testbit (a_flags p) k then 2 ^ k else 0)%N).
  { intros k. apply N.bits_inj. intros b. rewrite N.land_spec, N.pow2_bits_eqb.
    destruct (N.eqb_spec k b) as [<-|N]; destruct (N.testbit (a_flags p) k) eqn:T; rewrite ?N.pow2_bits_true, ?N.bits_0, ?N.pow2_bits_eqb;
      rewrite ?T, ?andb_true_r, ?andb_false_r; auto. symmetry. now apply N.eqb_neq. }
  rewrite N.land_lor_distr_r, !B. destruct (N.testbit (a_flags p) 12), (N.testbit (a_flags p) 10); reflexivity.
Qed.

(** ** Frames *)
Lemma oc_refl p : only_leaders_differ p p.
Proof. constructor; auto. Qed.
Lemma oc_trans p q r : only_leaders_differ p q -> only_leaders_differ q r -> only_leaders_differ p r.
Proof.
  intros A B. constructor;
    try (destruct A, B; congruence); [intros m H; now rewrite (oc_flags _ _ B m H), (oc_flags _ _ A m H)|].
  intros H. now apply (oc_marked _ _ B), (oc_marked _ _ A).
Qed.
Lemma oc_valid p q : only_leaders_differ p q -> a_valid q = a_valid p.
Proof. intros H. unfold a_valid, bitmask_all. now rewrite (oc_flags _ _ H af_valid eq_refl). Qed.
Lemma oc_leader p l : only_leaders_differ p (with_aleader l p).
Proof. constructor; auto. Qed.
Lemma oc_count p l : only_leaders_differ p (with_acount (a_count p) (with_acount l p)).
Proof. constructor; auto. Qed.
Lemma oc_mark p : only_leaders_differ p (add_aflag af_cluster p).
Proof.
  unfold add_aflag. constructor; auto; [intros m; apply land_af_cluster|intros _; apply clustered_lor].
Qed.
Lemma oc_mark_leader p l : only_leaders_differ p (add_aflag af_cluster (with_aleader l p)).
Proof. eapply oc_trans; [apply oc_leader|apply oc_mark]. Qed.
Lemma mark_clustered p : clustered (add_aflag af_cluster p) = true.
Proof. apply clustered_lor. Qed.

Lemma occ_refl ps : only_leaders_changed ps ps.
Proof. split; auto using oc_refl. Qed.
Lemma occ_trans ps qs rs : only_leaders_changed ps qs -> only_leaders_changed qs rs -> only_leaders_changed ps rs.
Proof. intros (H1 & H2) (H3 & H4). split; [congruence|]. intros i. eapply oc_trans; eauto. Qed.
Lemma occ_upd ps i x : i < length ps -> only_leaders_differ (entry ps i) x -> only_leaders_changed ps (upd ps i x).
Proof.
  intros HL H. split; [apply upd_length|]. intros j. rewrite entry_upd by exact HL.
  destruct (Nat.eqb_spec j i) as [->|]; [exact H|apply oc_refl].
Qed.
Lemma occ_usable ps qs i : only_leaders_changed ps qs -> usable qs i <-> usable ps i.
Proof. intros (_ & H). unfold usable. now rewrite (oc_valid _ _ (H i)). Qed.

(** ** Sibling lists *)

(** What holds after any number of callbacks, for arbitrary lists. *)
Definition linked (ps : list aproc) : Prop := forall i, usable ps i ->
  leader ps i <= i /\ usable ps (leader ps i) /\
  (leader ps i <> i -> clustered (entry ps i) = true /\ clustered (entry ps (leader ps i)) = true).

(** Setting the leader of [i] to [l] and marking [i]. *)
Lemma linked_upd ps i l : linked ps -> i < length ps -> l <= i -> usable ps l -> (l = i \/ clustered (entry ps l) = true) ->
  linked (upd ps i (add_aflag af_cluster (with_aleader l (entry ps i)))).
Proof.
  intros HK HL Hl Hu Hc j Hj. set (ps' := upd ps i _) in *.
  assert (F : only_leaders_changed ps ps') by (apply occ_upd; [exact HL|apply oc_mark_leader]).
  apply (occ_usable _ _ _ F) in Hj. destruct (HK j Hj) as (H1 & H2 & H3).
  assert (CL : forall x, clustered (entry ps x) = true -> clustered (entry ps' x) = true) by (intros x; apply (oc_marked _ _ (proj2 F x))).
  assert (E : leader ps' j = if j =? i then l else leader ps j).
  { unfold leader, ps'. rewrite entry_upd by exact HL. destruct (Nat.eqb_spec j i); reflexivity. }
  rewrite E. destruct (Nat.eqb_spec j i) as [->|N].
  - split; [exact Hl|]. split; [now apply (occ_usable _ _ _ F)|]. intros Hne.
    assert (Ci : clustered (entry ps' i) = true).
    { unfold ps'. rewrite entry_upd, Nat.eqb_refl by exact HL. apply mark_clustered. }
    split; [exact Ci|]. destruct Hc as [->|Hc]; [exact Ci|now apply CL].
  - split; [exact H1|]. split; [now apply (occ_usable _ _ _ F)|]. intros Hne. destruct (H3 Hne). split; now apply CL.
Qed.

Lemma entry_marked ps i l : i < length ps ->
  clustered (entry (upd ps i (add_aflag af_cluster (with_aleader l (entry ps i)))) i) = true.
Proof. intros H. rewrite entry_upd, Nat.eqb_refl by exact H. apply mark_clustered. Qed.

Lemma siblings_loop p : forall n first l ps, linked ps -> usable ps p -> first + n <= length ps ->
  l <= p -> usable ps l -> clustered (entry ps l) = true ->
  exists l' ps', for_each sibling_step first n (l, ps) = Ok (l', ps') /\ linked ps' /\ only_leaders_changed ps ps' /\
    l' <= p /\ usable ps' l' /\ clustered (entry ps' l') = true.
Proof.
  intros n first l ps HK Hp HL Hl Hu Hc.
  destruct (for_each_inv sibling_step
    (fun _ (s : nat * list aproc) => let '(l', ps') := s in linked ps' /\ only_leaders_changed ps ps' /\
       l' <= p /\ usable ps' l' /\ clustered (entry ps' l') = true) n first (l, ps)) as ((l' & ps') & E & H).
  - split; [exact HK|]. split; [apply occ_refl|]. auto.
  - intros i (l1 & ps1) Hi (K1 & F1 & L1 & U1 & C1). unfold sibling_step.
    assert (Hlen : i < length ps1) by (destruct F1 as (-> & _); lia).
    rewrite rd_entry by exact Hlen. cbn [bind].
    destruct (a_valid (entry ps1 i)) eqn:V; cbn [negb]; [|eexists; split; [reflexivity|]; cbv beta iota; auto].
    rewrite wr_ok by exact Hlen. cbn [bind]. eexists. split; [reflexivity|].
    destruct (K1 i V) as (I1 & I2 & I3). fold (leader ps1 i).
    set (l2 := if leader ps1 i <? l1 then leader ps1 i else l1).
    assert (A : l2 <= i /\ l2 <= p /\ usable ps1 l2 /\ (l2 = i \/ clustered (entry ps1 l2) = true)).
    { unfold l2. destruct (Nat.ltb_spec (leader ps1 i) l1).
      - repeat split; auto; try lia. destruct (Nat.eq_dec (leader ps1 i) i); [now left|right]. now apply I3.
      - repeat split; auto; lia. }
    destruct A as (A1 & A2 & A3 & A4).
    assert (F2 : only_leaders_changed ps1 (upd ps1 i (add_aflag af_cluster (with_aleader l2 (entry ps1 i)))))
      by (apply occ_upd; [exact Hlen|apply oc_mark_leader]).
    split; [now apply linked_upd|]. split; [eapply occ_trans; [exact F1|exact F2]|]. split; [exact A2|].
    split; [now apply (occ_usable _ _ _ F2)|].
    destruct A4 as [->|A4]; [now apply entry_marked|apply (oc_marked _ _ (proj2 F2 l2)), A4].
  - exists l', ps'. auto.
Qed.

Lemma cluster_siblings_linked p first end_ ps : linked ps -> usable ps p -> end_ <= length ps ->
  exists ps', cluster_siblings p first end_ ps = Ok ps' /\ linked ps' /\ only_leaders_changed ps ps'.
Proof.
  intros HK Hp He. pose proof (usable_lt _ _ Hp) as HL. unfold cluster_siblings. rewrite modify_entry by exact HL. cbn [bind].
  set (ps1 := upd ps p (add_aflag af_cluster (entry ps p))).
  assert (L1 : length ps1 = length ps) by apply upd_length.
  assert (E1 : ps1 = upd ps p (add_aflag af_cluster (with_aleader (leader ps p) (entry ps p)))).
  { reflexivity. }
  destruct (HK p Hp) as (I1 & I2 & I3).
  assert (D : leader ps p = p \/ clustered (entry ps (leader ps p)) = true).
  { destruct (Nat.eq_dec (leader ps p) p); [now left|right]. now apply I3. }
  assert (K1 : linked ps1) by (rewrite E1; now apply linked_upd).
  assert (F1 : only_leaders_changed ps ps1) by (apply occ_upd; [exact HL|apply oc_mark]).
  rewrite rd_entry by lia. cbn [bind].
  assert (EL : a_leader (entry ps1 p) = leader ps p) by (unfold ps1; rewrite entry_upd, Nat.eqb_refl by exact HL; reflexivity).
  rewrite EL.
  destruct (Nat.le_gt_cases end_ first) as [Hf|Hf].
  - replace (end_ - first) with 0 by lia. cbn [for_each bind]. rewrite modify_entry by lia.
    eexists. split; [reflexivity|].
    replace (upd ps1 p (with_aleader (leader ps p) (entry ps1 p))) with ps1; [now split|].
    apply table_ext; [now rewrite upd_length|]. intros i Hi. rewrite entry_upd by lia. destruct (Nat.eqb_spec i p) as [->|]; [|reflexivity].
    rewrite <- EL. destruct (entry ps1 p). reflexivity.
  - destruct (siblings_loop p (end_ - first) first (leader ps p) ps1 K1) as (l & ps2 & E & K2 & F2 & J1 & J2 & J3).
    + now apply (occ_usable _ _ _ F1).
    + lia.
    + exact I1.
    + now apply (occ_usable _ _ _ F1).
    + unfold ps1. rewrite entry_upd by exact HL. destruct (Nat.eqb_spec (leader ps p) p) as [Ep|Np]; [apply mark_clustered|].
      destruct D; [contradiction|auto].
    + rewrite E. cbn [bind]. assert (L2 : length ps2 = length ps) by (destruct F2; lia). rewrite modify_entry by lia.
      eexists. split; [reflexivity|].
      assert (Cp : clustered (entry ps2 p) = true).
      { apply (oc_marked _ _ (proj2 F2 p)). unfold ps1. rewrite entry_upd, Nat.eqb_refl by exact HL. apply mark_clustered. }
      split.
      * intros j Hj. set (ps3 := upd ps2 p _) in *.
        assert (F3 : only_leaders_changed ps2 ps3) by (apply occ_upd; [lia|apply oc_leader]).
        assert (CL : forall x, clustered (entry ps2 x) = true -> clustered (entry ps3 x) = true) by (intros x; apply (oc_marked _ _ (proj2 F3 x))).
        apply (occ_usable _ _ _ F3) in Hj. destruct (K2 j Hj) as (H1 & H2 & H3).
        assert (E3 : leader ps3 j = if j =? p then l else leader ps2 j).
        { unfold leader, ps3. rewrite entry_upd by lia. destruct (Nat.eqb_spec j p); reflexivity. }
        rewrite E3. destruct (Nat.eqb_spec j p) as [->|N].
        -- split; [exact J1|]. split; [now apply (occ_usable _ _ _ F3)|]. intros _. split; now apply CL.
        -- split; [exact H1|]. split; [now apply (occ_usable _ _ _ F3)|]. intros Hne. destruct (H3 Hne). split; now apply CL.
      * eapply occ_trans; [exact F1|]. eapply occ_trans; [exact F2|]. apply occ_upd; [lia|apply oc_leader].
Qed.

(** One list, whatever it says. *)
Definition linked_from (ps : list aproc) (r : res (list aproc)) : Prop :=
  exists ps', r = Ok ps' /\ linked ps' /\ only_leaders_changed ps ps'.
Lemma list_keeps sg p ps f ok ps' : linked ps -> usable ps p ->
  detect_cluster_list sg (N.of_nat (length ps)) p f ps = Ok (ok, ps') -> linked ps' /\ only_leaders_changed ps ps'.
Proof.
  intros HK Hp E. unfold detect_cluster_list, detect_siblings in E.
  destruct (parse_cpulist _ _ _ _ _) as [(b & rp)| |] eqn:E1; try discriminate. cbn [bind] in E.
  apply (cpulist_invariant _ _ (linked_from ps)) in E1.
  - destruct E1 as (qs & -> & H). cbn [bind] in E. injection E as _ <-. exact H.
  - intros c x y (qs & -> & K & F). unfold siblings_parser, cluster_siblings_parser. cbn [snd bind].
    destruct (cluster_siblings_linked p (N.to_nat x)
      (N.to_nat (if (N.of_nat (length ps) <? y)%N then N.of_nat (length ps) else y)) qs K) as (rs & E' & K' & F').
    + now apply (occ_usable _ _ _ F).
    + destruct F as (-> & _). destruct (N.ltb_spec (N.of_nat (length ps)) y); lia.
    + exists rs. split; [exact E'|]. split; [exact K'|]. eapply occ_trans; eauto.
  - exists ps. split; [reflexivity|]. split; [exact HK|apply occ_refl].
Qed.
Lemma list_total sg p ps f : linked ps -> usable ps p -> commas (f_contents f) ->
  exists ok ps', detect_cluster_list sg (N.of_nat (length ps)) p f ps = Ok (ok, ps').
Proof.
  intros HK Hp HC. unfold detect_cluster_list, detect_siblings.
  destruct (cpulist_safe (siblings_parser (N.of_nat (length ps)) (cluster_siblings_parser p)) sg (f_contents f) (f_reads f) (Ok ps) HC)
    as ((b & rp) & E1). rewrite E1. cbn [bind].
  apply (cpulist_invariant _ _ (linked_from ps)) in E1.
  - destruct E1 as (qs & -> & H). cbn [bind]. eauto.
  - intros c x y (qs & -> & K & F). unfold siblings_parser, cluster_siblings_parser. cbn [snd bind].
    destruct (cluster_siblings_linked p (N.to_nat x)
      (N.to_nat (if (N.of_nat (length ps) <? y)%N then N.of_nat (length ps) else y)) qs K) as (rs & E' & K' & F').
    + now apply (occ_usable _ _ _ F).
    + destruct F as (-> & _). destruct (N.ltb_spec (N.of_nat (length ps)) y); lia.
    + exists rs. split; [exact E'|]. split; [exact K'|]. eapply occ_trans; eauto.
  - exists ps. split; [reflexivity|]. split; [exact HK|apply occ_refl].
Qed.

(** All lists. *)
Lemma lists_step_keeps sg files n i source ps s' : linked ps -> length ps = n -> i < n ->
  sibling_lists_step sg (N.of_nat n) files i (source, ps) = Ok s' -> linked (snd s') /\ only_leaders_changed ps (snd s').
Proof.
  intros HK HL Hi E. subst n. unfold sibling_lists_step in E. rewrite rd_entry in E by exact Hi. cbn [bind] in E.
  destruct (a_valid (entry ps i)) eqn:V; cbn [negb] in E; [|injection E as <-; split; [exact HK|apply occ_refl]].
  destruct (bitmask_all _ _); cbn [negb] in E; [|injection E as <-; split; [exact HK|apply occ_refl]].
  assert (G : forall f qs ok rs, linked qs -> only_leaders_changed ps qs ->
    detect_cluster_list sg (N.of_nat (length ps)) i f qs = Ok (ok, rs) -> linked rs /\ only_leaders_changed ps rs).
  { intros f qs ok rs K F X. rewrite <- (proj1 F) in X. apply list_keeps in X; [|exact K|now apply (occ_usable _ _ _ F)].
    destruct X as (X & Y). split; [exact X|]. eapply occ_trans; eauto. }
  destruct source.
  - destruct (detect_cluster_list sg _ i (sf_cluster_cpus (files i)) ps) as [(ok & qs)| |] eqn:E1; try discriminate. cbn [bind] in E.
    apply G in E1; [|exact HK|apply occ_refl]. destruct ok; [injection E as <-; exact E1|]. destruct E1 as (K1 & F1).
    destruct (detect_cluster_list sg _ i (sf_core_siblings (files i)) qs) as [(ok & rs)| |] eqn:E2; try discriminate. cbn [bind] in E.
    injection E as <-. exact (G _ _ _ _ K1 F1 E2).
  - destruct (detect_cluster_list sg _ i (sf_core_siblings (files i)) ps) as [(ok & rs)| |] eqn:E2; try discriminate. cbn [bind] in E.
    injection E as <-. exact (G _ _ _ _ HK (occ_refl _) E2).
  - destruct (detect_cluster_list sg _ i (sf_cluster_cpus (files i)) ps) as [(ok & rs)| |] eqn:E2; try discriminate. cbn [bind] in E.
    injection E as <-. exact (G _ _ _ _ HK (occ_refl _) E2).
Qed.
Lemma lists_step_total sg files n i source ps : linked ps -> length ps = n -> i < n ->
  commas (f_contents (sf_cluster_cpus (files i))) -> commas (f_contents (sf_core_siblings (files i))) ->
  exists s', sibling_lists_step sg (N.of_nat n) files i (source, ps) = Ok s'.
Proof.
  intros HK HL Hi C1 C2. subst n. unfold sibling_lists_step. rewrite rd_entry by exact Hi. cbn [bind].
  destruct (a_valid (entry ps i)) eqn:V; cbn [negb]; [|eauto].
  destruct (bitmask_all _ _); cbn [negb]; [|eauto].
  destruct source.
  - destruct (list_total sg i ps _ HK V C1) as (ok & qs & E). rewrite E. cbn [bind]. destruct ok; [eauto|].
    apply list_keeps in E; auto. destruct E as (K & F). rewrite <- (proj1 F).
    destruct (list_total sg i qs (sf_core_siblings (files i)) K (proj2 (occ_usable _ _ _ F) V) C2) as (ok & rs & E). rewrite E. cbn [bind]. eauto.
  - destruct (list_total sg i ps _ HK V C2) as (ok & qs & E). rewrite E. cbn [bind]. eauto.
  - destruct (list_total sg i ps _ HK V C1) as (ok & qs & E). rewrite E. cbn [bind]. eauto.
Qed.

Lemma leaders_self_entry ps i : i < length ps -> entry (leaders_are_self ps) i = with_aleader i (entry ps i).
Proof.
  intros H. unfold leaders_are_self, entry.
  set (f := fun ip : nat * aproc => let '(i, p) := ip in with_aleader i p).
  rewrite (nth_indep (map f _) aproc0 (f (0, aproc0))) by (rewrite map_length, combine_length, seq_length; lia).
  rewrite map_nth, combine_nth by apply seq_length. now rewrite seq_nth by exact H.
Qed.
Lemma leaders_self_length ps : length (leaders_are_self ps) = length ps.
Proof. unfold leaders_are_self. rewrite map_length, combine_length, seq_length. lia. Qed.
Lemma leaders_self_changed ps : only_leaders_changed ps (leaders_are_self ps).
Proof.
  split; [apply leaders_self_length|]. intros i. destruct (Nat.lt_ge_cases i (length ps)) as [L|L].
  - rewrite leaders_self_entry by exact L. apply oc_leader.
  - rewrite !entry_out; rewrite ?leaders_self_length; auto using oc_refl.
Qed.
Lemma leaders_self_leader ps i : i < length ps -> leader (leaders_are_self ps) i = i.
Proof. intros H. unfold leader. rewrite leaders_self_entry by exact H. reflexivity. Qed.
Lemma leaders_self_linked ps : linked (leaders_are_self ps).
Proof.
  intros i Hi. pose proof (usable_lt _ _ Hi) as L. rewrite leaders_self_length in L. rewrite leaders_self_leader by exact L.
  split; [lia|]. split; [exact Hi|congruence].
Qed.

(** ** Propagation *)
Definition propagated (n0 : nat) (ps0 : list aproc) (k : nat) (s : nat * list aproc) : Prop :=
  let '(n, ps) := s in
  only_leaders_changed ps0 ps /\
  (forall i, clustered (entry ps i) = clustered (entry ps0 i)) /\
  n = n0 + length (filter (fun i => a_valid (entry ps0 i) && clustered (entry ps0 i)) (seq 0 k)) /\
  (forall i, k <= i -> leader ps i = leader ps0 i) /\
  (forall i, i < k -> usable ps0 i -> leader ps i <= leader ps0 i /\ usable ps0 (leader ps i) /\
     leader ps (leader ps i) = leader ps i /\ (leader ps0 (leader ps0 i) = leader ps0 i -> leader ps i = leader ps0 i) /\
     (leader ps i <> i -> clustered (entry ps0 i) = true /\ clustered (entry ps0 (leader ps i)) = true)).

Lemma propagate_all ps0 : linked ps0 ->
  exists s', for_each propagate_step 0 (length ps0) (0, ps0) = Ok s' /\ propagated 0 ps0 (length ps0) s'.
Proof.
  intros HK. apply (for_each_inv propagate_step (propagated 0 ps0) (length ps0) 0 (0, ps0)).
  - cbn. repeat split; auto using oc_refl; intros; lia.
  - intros k (n & ps) Hk (F & CL & Hn & Hge & Hlt). cbn in Hk.
    assert (L : length ps = length ps0) by apply F.
    unfold propagate_step. rewrite rd_entry by lia. cbn [bind]. rewrite has_both.
    assert (V : a_valid (entry ps k) = a_valid (entry ps0 k)) by (apply oc_valid, F).
    assert (Ecount : length (filter (fun i => a_valid (entry ps0 i) && clustered (entry ps0 i)) (seq 0 (S k)))
      = length (filter (fun i => a_valid (entry ps0 i) && clustered (entry ps0 i)) (seq 0 k)) +
        (if a_valid (entry ps0 k) && clustered (entry ps0 k) then 1 else 0)).
    { rewrite seq_S, filter_app, app_length. cbn [plus filter]. destruct (a_valid (entry ps0 k) && clustered (entry ps0 k)); reflexivity. }
    rewrite V, CL. fold (leader ps k). rewrite (Hge k) by lia.
    destruct (a_valid (entry ps0 k)) eqn:V0.
    + destruct (HK k V0) as (I1 & I2 & I3). cbn [andb].
      destruct (clustered (entry ps0 k)) eqn:C0.
      * destruct (Nat.ltb_spec (leader ps0 k) k) as [Hlk|Hlk].
        -- rewrite rd_entry by lia. cbn [bind]. rewrite wr_ok by lia. cbn [bind]. eexists. split; [reflexivity|].
           fold (leader ps (leader ps0 k)). set (l := leader ps (leader ps0 k)).
           destruct (Hlt (leader ps0 k) Hlk I2) as (J1 & J2 & J3 & J5 & J4). fold l in J1, J2, J3.
           destruct (HK _ I2) as (M1 & _ & _).
           assert (EQ : forall i, leader (upd ps k (with_aleader l (entry ps k))) i = if i =? k then l else leader ps i).
           { intros i. unfold leader. rewrite entry_upd by lia. now destruct (Nat.eqb_spec i k). }
           split; [eapply occ_trans; [exact F|]; apply occ_upd; [lia|apply oc_leader]|].
           split. { intros i. rewrite entry_upd by lia. destruct (Nat.eqb_spec i k) as [->|]; [exact (CL k)|apply CL]. }
           split; [rewrite Ecount; cbn [andb]; lia|].
           split. { intros i Hi. rewrite EQ. destruct (Nat.eqb_spec i k); [lia|apply Hge; lia]. }
           intros i Hi Hu. rewrite !EQ. destruct (Nat.eqb_spec i k) as [->|Nik].
           ++ split; [unfold l; lia|]. split; [exact J2|]. split.
              ** destruct (Nat.eqb_spec l k); [lia|exact J3].
              ** split; [intros X; unfold l; rewrite J5; [exact X|now rewrite !X]|].
                 intros _. split; [exact C0|]. destruct (Nat.eq_dec l (leader ps0 k)) as [El|Nl].
                 --- rewrite El. apply (I3 ltac:(lia)).
                 --- apply (J4 Nl).
           ++ destruct (Hlt i ltac:(lia) Hu) as (N1 & N2 & N3 & N5 & N4). split; [exact N1|]. split; [exact N2|].
              destruct (HK i Hu) as (O1 & _ & _).
              split; [destruct (Nat.eqb_spec (leader ps i) k); [lia|exact N3]|]. split; [exact N5|exact N4].
        -- assert (El : leader ps0 k = k) by lia. eexists. split; [reflexivity|].
           split; [exact F|]. split; [exact CL|]. split; [rewrite Ecount; cbn [andb]; lia|].
           split; [intros i Hi; apply Hge; lia|]. intros i Hi Hu. destruct (Nat.eq_dec i k) as [->|].
           ++ rewrite (Hge k) by lia. rewrite El. split; [lia|]. split; [exact V0|]. split; [now rewrite (Hge k), El by lia|]. split; [reflexivity|congruence].
           ++ apply Hlt; [lia|exact Hu].
      * cbn [andb]. eexists. split; [reflexivity|].
        split; [exact F|]. split; [exact CL|]. split; [rewrite Ecount; cbn [andb]; lia|].
        split; [intros i Hi; apply Hge; lia|]. intros i Hi Hu. destruct (Nat.eq_dec i k) as [->|].
        -- assert (El : leader ps0 k = k). { destruct (Nat.eq_dec (leader ps0 k) k) as [e|ne]; [exact e|]. destruct (I3 ne). congruence. }
           rewrite (Hge k) by lia. rewrite El. split; [lia|]. split; [exact V0|]. split; [now rewrite (Hge k), El by lia|]. split; [reflexivity|congruence].
        -- apply Hlt; [lia|exact Hu].
    + cbn [andb]. eexists. split; [reflexivity|].
      split; [exact F|]. split; [exact CL|]. split; [rewrite Ecount; cbn [andb]; lia|].
      split; [intros i Hi; apply Hge; lia|]. intros i Hi Hu. destruct (Nat.eq_dec i k) as [->|].
      * unfold usable in Hu. congruence.
      * apply Hlt; [lia|exact Hu].
Qed.

(** How many processors the kernel has grouped. *)
Definition grouped_count (ps : list aproc) : nat :=
  length (filter (fun i => a_valid (entry ps i) && clustered (entry ps i)) (seq 0 (length ps))).

Lemma propagated_grouped ps0 n ps : linked ps0 -> propagated 0 ps0 (length ps0) (n, ps) ->
  only_leaders_changed ps0 ps /\ kernel_grouped ps /\ n = grouped_count ps.
Proof.
  intros HK (F & CL & Hn & Hge & Hlt). split; [exact F|]. split.
  - intros i Hi. apply (occ_usable _ _ _ F) in Hi. pose proof (usable_lt _ _ Hi) as L.
    destruct (Hlt i L Hi) as (H1 & H2 & H3 & _ & H4). destruct (HK i Hi) as (I1 & I2 & I3).
    rewrite CL. destruct (clustered (entry ps0 i)) eqn:C.
    + split; [lia|]. split; [now apply (occ_usable _ _ _ F)|]. split; [|exact H3].
      rewrite CL. destruct (Nat.eq_dec (leader ps i) i) as [->|Ne]; [exact C|now apply H4].
    + destruct (Nat.eq_dec (leader ps i) i) as [e|Ne]; [exact e|]. destruct (H4 Ne). congruence.
  - rewrite Hn. unfold grouped_count. rewrite (proj1 F). cbn [plus]. f_equal. apply filter_ext. intros i.
    now rewrite CL, (oc_valid _ _ (proj2 F i)).
Qed.

Lemma kernel_stage_inv sg files ps n ps' : clusters_from_kernel sg files ps = Ok (n, ps') ->
  only_leaders_changed ps ps' /\ kernel_grouped ps' /\ n = grouped_count ps'.
Proof.
  unfold clusters_from_kernel. intros E.
  destruct (for_each _ 0 (length ps) (Undecided, leaders_are_self ps)) as [(src & qs)| |] eqn:E1; try discriminate. cbn [bind snd] in E.
  assert (K : linked qs /\ only_leaders_changed ps qs).
  { apply (for_each_keeps _ (fun _ s => linked (snd s) /\ only_leaders_changed ps (snd s))) in E1; [exact E1| |].
    - split; [apply leaders_self_linked|apply leaders_self_changed].
    - intros i (s & rs) t Hi (K & F) X. cbn [snd] in K, F. apply lists_step_keeps in X; [|exact K|apply F|lia].
      destruct X as (X & Y). split; [exact X|]. eapply occ_trans; eauto. }
  destruct K as (K & F). destruct (propagate_all qs K) as ((m & rs) & E2 & P). rewrite (proj1 F) in E2. rewrite E2 in E. injection E as <- <-.
  apply propagated_grouped in P; [|exact K]. destruct P as (P1 & P2 & P3). split; [eapply occ_trans; eauto|]. now split.
Qed.
Lemma kernel_stage_total sg files ps :
  (forall i, commas (f_contents (sf_cluster_cpus (files i))) /\ commas (f_contents (sf_core_siblings (files i)))) ->
  exists n ps', clusters_from_kernel sg files ps = Ok (n, ps').
Proof.
  intros HC. unfold clusters_from_kernel.
  destruct (for_each_inv (sibling_lists_step sg (N.of_nat (length ps)) files)
    (fun _ s => linked (snd s) /\ only_leaders_changed ps (snd s)) (length ps) 0 (Undecided, leaders_are_self ps)) as ((src & qs) & E & K & F).
  - split; [apply leaders_self_linked|apply leaders_self_changed].
  - intros i (s & rs) Hi (K & F). cbn [snd] in K, F. destruct (HC i) as (C1 & C2).
    destruct (lists_step_total sg files (length ps) i s rs K (proj1 F) ltac:(lia) C1 C2) as (t & X). exists t. split; [exact X|].
    apply lists_step_keeps in X; [|exact K|apply F|lia]. destruct X as (X & Y). split; [exact X|]. eapply occ_trans; eauto.
  - rewrite E. cbn [bind snd]. cbn [snd] in K, F. destruct (propagate_all qs K) as ((m & rs) & E2 & P). rewrite (proj1 F) in E2. rewrite E2. eauto.
Qed.

(** ** Lists that describe the groups *)
Definition inside (x y j : nat) : bool := (x <=? j) && (j <? y).

Lemma siblings_exact m : forall n first ps, first + n <= length ps ->
  (forall j, usable ps j -> first <= j < first + n -> m <= leader ps j) ->
  exists ps', for_each sibling_step first n (m, ps) = Ok (m, ps') /\ only_leaders_changed ps ps' /\
    (forall j, leader ps' j = if a_valid (entry ps j) && inside first (first + n) j then m else leader ps j) /\
    (forall j, a_valid (entry ps j) && inside first (first + n) j = true -> clustered (entry ps' j) = true).
Proof.
  intros n first ps HL Hm.
  destruct (for_each_inv sibling_step
    (fun k (s : nat * list aproc) => fst s = m /\ only_leaders_changed ps (snd s) /\
      (forall j, leader (snd s) j = if a_valid (entry ps j) && inside first k j then m else leader ps j) /\
      (forall j, a_valid (entry ps j) && inside first k j = true -> clustered (entry (snd s) j) = true)) n first (m, ps))
    as ((m' & ps') & E & Em & F & H1 & H2).
  - cbn [fst snd]. split; [reflexivity|]. split; [apply occ_refl|]. split.
    + intros j. unfold inside. destruct (Nat.leb_spec first j), (Nat.ltb_spec j first); try lia; now rewrite andb_false_r.
    + intros j. unfold inside. destruct (Nat.leb_spec first j), (Nat.ltb_spec j first); try lia; now rewrite andb_false_r.
  - intros k (m' & ps1) Hk (Em & F & H1 & H2). cbn [fst snd] in *. subst m'.
    assert (L1 : length ps1 = length ps) by apply F.
    unfold sibling_step. rewrite rd_entry by lia. cbn [bind].
    assert (V : a_valid (entry ps1 k) = a_valid (entry ps k)) by (apply oc_valid, F). rewrite V.
    assert (IN : forall j, inside first (S k) j = inside first k j || (j =? k)).
    { intros j. unfold inside. destruct (Nat.leb_spec first j), (Nat.ltb_spec j k), (Nat.ltb_spec j (S k)), (Nat.eqb_spec j k); try lia; reflexivity. }
    destruct (a_valid (entry ps k)) eqn:V0; cbn [negb].
    + assert (Ek : (if a_leader (entry ps1 k) <? m then a_leader (entry ps1 k) else m) = m).
      { specialize (H1 k). unfold leader at 1 in H1. rewrite H1.
        destruct (a_valid (entry ps k) && inside first k k); [now destruct (m <? m)|].
        specialize (Hm k V0 Hk). destruct (Nat.ltb_spec (leader ps k) m); [lia|reflexivity]. }
      rewrite Ek. rewrite wr_ok by lia. cbn [bind]. eexists. split; [reflexivity|]. cbn [fst snd]. split; [reflexivity|].
      split; [eapply occ_trans; [exact F|]; apply occ_upd; [lia|apply oc_mark_leader]|]. split.
      * intros j. rewrite IN. unfold leader at 1. rewrite entry_upd by lia. destruct (Nat.eqb_spec j k) as [->|N].
        -- now rewrite V0, orb_true_r.
        -- rewrite orb_false_r. apply H1.
      * intros j. rewrite IN. rewrite entry_upd by lia. destruct (Nat.eqb_spec j k) as [->|N]; [intros _; apply mark_clustered|].
        rewrite orb_false_r. apply H2.
    + eexists. split; [reflexivity|]. cbn [fst snd]. split; [reflexivity|]. split; [exact F|]. split.
      * intros j. rewrite IN. destruct (Nat.eqb_spec j k) as [->|N]; [rewrite V0; cbn [andb]; rewrite H1, V0; reflexivity|].
        rewrite orb_false_r. apply H1.
      * intros j. rewrite IN. destruct (Nat.eqb_spec j k) as [->|N]; [rewrite V0; discriminate|]. rewrite orb_false_r. apply H2.
  - cbn [fst snd] in *. subst m'. exists ps'. auto.
Qed.

Lemma cluster_siblings_exact p m x y ps : usable ps p -> leader ps p = m -> y <= length ps ->
  (forall j, usable ps j -> x <= j < y -> m <= leader ps j) ->
  exists ps', cluster_siblings p x y ps = Ok ps' /\ only_leaders_changed ps ps' /\
    (forall j, leader ps' j = if a_valid (entry ps j) && inside x y j then m else leader ps j) /\
    (forall j, a_valid (entry ps j) && inside x y j = true -> clustered (entry ps' j) = true).
Proof.
  intros Hp Hm Hy Hj. pose proof (usable_lt _ _ Hp) as HL. unfold cluster_siblings. rewrite modify_entry by exact HL. cbn [bind].
  set (ps1 := upd ps p (add_aflag af_cluster (entry ps p))).
  assert (L1 : length ps1 = length ps) by apply upd_length.
  assert (F1 : only_leaders_changed ps ps1) by (apply occ_upd; [exact HL|apply oc_mark]).
  assert (E1 : forall j, leader ps1 j = leader ps j).
  { intros j. unfold leader, ps1. rewrite entry_upd by exact HL. destruct (Nat.eqb_spec j p) as [->|]; reflexivity. }
  assert (V1 : forall j, a_valid (entry ps1 j) = a_valid (entry ps j)) by (intros j; apply oc_valid, F1).
  rewrite rd_entry by lia. cbn [bind]. fold (leader ps1 p). rewrite E1, Hm.
  destruct (Nat.le_gt_cases y x) as [Hxy|Hxy].
  - replace (y - x) with 0 by lia. cbn [for_each bind]. rewrite modify_entry by lia. eexists. split; [reflexivity|].
    assert (Z : forall j, inside x y j = false) by (intros j; unfold inside; destruct (Nat.leb_spec x j), (Nat.ltb_spec j y); auto; lia).
    split; [eapply occ_trans; [exact F1|]; apply occ_upd; [lia|apply oc_leader]|]. split.
    + intros j. rewrite Z, andb_false_r. unfold leader at 1. rewrite entry_upd by lia. destruct (Nat.eqb_spec j p) as [->|]; [now rewrite Hm|].
      apply E1.
    + intros j. rewrite Z, andb_false_r. discriminate.
  - destruct (siblings_exact m (y - x) x ps1) as (ps2 & E & F2 & H1 & H2).
    + lia.
    + intros j Hu Hi. rewrite E1. apply Hj; [unfold usable in *; now rewrite <- V1|lia].
    + rewrite E. cbn [bind]. assert (L2 : length ps2 = length ps) by (destruct F2; lia).
      rewrite modify_entry by lia. eexists. split; [reflexivity|]. replace (x + (y - x)) with y in * by lia.
      assert (EQ : forall j, leader (upd ps2 p (with_aleader m (entry ps2 p))) j = leader ps2 j).
      { intros j. unfold leader. rewrite entry_upd by lia. destruct (Nat.eqb_spec j p) as [->|]; [|reflexivity].
        cbn [a_leader with_aleader]. fold (leader ps2 p). rewrite H1, E1, Hm. now destruct (_ && _). }
      split; [eapply occ_trans; [exact F1|]; eapply occ_trans; [exact F2|]; apply occ_upd; [lia|apply oc_leader]|]. split.
      * intros j. rewrite EQ, H1, V1, E1. reflexivity.
      * intros j Hi. rewrite <- V1 in Hi. apply H2 in Hi. rewrite entry_upd by lia. destruct (Nat.eqb_spec j p) as [->|]; exact Hi.
Qed.

Lemma no_list cb sg f ctx : X86LinuxSpec.list_says f None -> parse_cpulist (S := res (list aproc)) cb sg (f_contents f) (f_reads f) ctx = Ok (false, ctx).
Proof. intros H. inversion H as [|f' E]; subst. now rewrite E. Qed.

Definition in_ranges (rs : list (N * N)) (j : nat) : bool := existsb (fun r => (fst r <=? N.of_nat j)%N && (N.of_nat j <=? snd r)%N) rs.
Lemma in_ranges_listed rs j : in_ranges rs j = true <-> listed rs (N.of_nat j).
Proof.
  unfold in_ranges, listed. rewrite existsb_exists. split.
  - intros ((f & l) & Hi & H). exists f, l. split; [exact Hi|]. cbn [fst snd] in H. apply andb_true_iff in H.
    rewrite !N.leb_le in H. lia.
  - intros (f & l & Hi & H). exists (f, l). split; [exact Hi|]. cbn [fst snd]. apply andb_true_iff. rewrite !N.leb_le. lia.
Qed.

Lemma ranges_exact p m : forall rs ps, usable ps p -> leader ps p = m ->
  (forall j, usable ps j -> in_ranges rs j = true -> m <= leader ps j) ->
  exists ps', run_ranges (siblings_parser (N.of_nat (length ps)) (cluster_siblings_parser p)) true (Ok ps) (map Some rs) = (true, Ok ps') /\
    only_leaders_changed ps ps' /\
    (forall j, leader ps' j = if a_valid (entry ps j) && in_ranges rs j then m else leader ps j) /\
    (forall j, a_valid (entry ps j) && in_ranges rs j = true -> clustered (entry ps' j) = true).
Proof.
  induction rs as [|(f & l) rs IH]; intros ps Hp Hm Hj; cbn [map run_ranges].
  - exists ps. split; [reflexivity|]. split; [apply occ_refl|]. split; intros j; cbn; rewrite andb_false_r; [reflexivity|discriminate].
  - unfold siblings_parser at 1, cluster_siblings_parser at 1. cbn [andb bind].
    set (y := N.to_nat (if (N.of_nat (length ps) <? l + 1)%N then N.of_nat (length ps) else (l + 1)%N)).
    assert (HY : forall j, a_valid (entry ps j) && inside (N.to_nat f) y j = a_valid (entry ps j) && ((f <=? N.of_nat j)%N && (N.of_nat j <=? l)%N)).
    { intros j. destruct (a_valid (entry ps j)) eqn:V; [|reflexivity]. cbn [andb]. apply usable_lt in V. unfold inside, y.
      destruct (N.ltb_spec (N.of_nat (length ps)) (l + 1)), (Nat.leb_spec (N.to_nat f) j), (N.leb_spec f (N.of_nat j)), (N.leb_spec (N.of_nat j) l);
        try lia; cbn [andb]; try reflexivity; apply Nat.ltb_lt || apply Nat.ltb_ge; lia. }
    destruct (cluster_siblings_exact p m (N.to_nat f) y ps Hp Hm) as (ps1 & E1 & F1 & A1 & B1).
    { unfold y. destruct (N.ltb_spec (N.of_nat (length ps)) (l + 1)); lia. }
    { intros j Hu Hi. apply Hj; [exact Hu|]. cbn. specialize (HY j). unfold usable in Hu. rewrite Hu in HY. cbn [andb] in HY. rewrite <- HY.
      unfold inside. rewrite (proj2 (Nat.leb_le _ _) (proj1 Hi)), (proj2 (Nat.ltb_lt _ _) (proj2 Hi)). reflexivity. }
    rewrite E1.
    assert (V1 : forall j, a_valid (entry ps1 j) = a_valid (entry ps j)) by (intros j; apply oc_valid, F1).
    assert (A2 : forall j, leader ps1 j = if a_valid (entry ps j) && ((f <=? N.of_nat j)%N && (N.of_nat j <=? l)%N) then m else leader ps j).
    { intros j. now rewrite A1, HY. }
    destruct (IH ps1) as (ps2 & E2 & F2 & A3 & B3).
    + now apply (occ_usable _ _ _ F1).
    + rewrite A2, Hm. now destruct (_ && _).
    + intros j Hu Hr. rewrite A2. apply (occ_usable _ _ _ F1) in Hu. unfold usable in Hu. rewrite Hu. cbn [andb].
      destruct ((f <=? N.of_nat j)%N && (N.of_nat j <=? l)%N); [lia|]. apply Hj; [exact Hu|]. cbn. change (in_ranges rs j = true) in Hr.
      unfold in_ranges in Hr. rewrite Hr. apply orb_true_r.
    + rewrite (proj1 F1) in E2. rewrite E2. exists ps2. split; [reflexivity|]. split; [eapply occ_trans; eauto|]. split.
      * intros j. rewrite A3, V1, A2. cbn [in_ranges existsb fst snd]. fold (in_ranges rs j).
        destruct (a_valid (entry ps j)), ((f <=? N.of_nat j)%N && (N.of_nat j <=? l)%N), (in_ranges rs j); reflexivity.
      * intros j. cbn [in_ranges existsb fst snd]. fold (in_ranges rs j). intros H. apply andb_true_iff in H. destruct H as (Hv & H).
        apply orb_true_iff in H. destruct H as [H|H].
        -- apply (oc_marked _ _ (proj2 F2 j)), B1. rewrite HY, Hv. exact H.
        -- apply B3. rewrite V1, Hv. exact H.
Qed.

(** The lowest usable processor of the group of [i]. *)
Definition first_of (ps : list aproc) (group : nat -> nat) (i : nat) : nat :=
  hd i (filter (fun j => a_valid (entry ps j) && (group j =? group i)) (seq 0 (length ps))).
Lemma filter_hd (f : nat -> bool) : forall n from,
  match filter f (seq from n) with
  | [] => forall j, from <= j < from + n -> f j = false
  | a :: _ => from <= a < from + n /\ f a = true /\ forall j, from <= j < a -> f j = false
  end.
Proof.
  induction n as [|n IH]; intros from; cbn [seq filter]; [intros; lia|].
  destruct (f from) eqn:F.
  - split; [lia|]. split; [exact F|intros; lia].
  - specialize (IH (S from)). destruct (filter f (seq (S from) n)) as [|a r].
    + intros j Hj. destruct (Nat.eq_dec j from) as [->|]; [exact F|apply IH; lia].
    + destruct IH as (H1 & H2 & H3). split; [lia|]. split; [exact H2|]. intros j Hj. destruct (Nat.eq_dec j from) as [->|]; [exact F|apply H3; lia].
Qed.
Lemma first_of_spec ps group i : usable ps i -> is_first_of_group ps group i (first_of ps group i).
Proof.
  intros Hi. unfold first_of.
  pose proof (filter_hd (fun j => a_valid (entry ps j) && (group j =? group i)) (length ps) 0) as H.
  destruct (filter _ _) as [|a r]; cbn [hd].
  - specialize (H i ltac:(pose proof (usable_lt _ _ Hi); lia)). unfold usable in Hi. rewrite Hi, Nat.eqb_refl in H. discriminate.
  - destruct H as (H1 & H2 & H3). apply andb_true_iff in H2. destruct H2 as (H2 & H4). apply Nat.eqb_eq in H4.
    split; [exact H2|]. split; [exact H4|]. intros j Hu Hg. destruct (Nat.le_gt_cases a j); [lia|].
    specialize (H3 j ltac:(lia)). unfold usable in Hu. rewrite Hu, Hg, Nat.eqb_refl in H3. discriminate.
Qed.
Lemma first_unique ps group i a b : is_first_of_group ps group i a -> is_first_of_group ps group i b -> a = b.
Proof. intros (A1 & A2 & A3) (B1 & B2 & B3). apply Nat.le_antisymm; auto. Qed.

(** The table when the lists of the processors below [k] have been read. *)
Definition described (ps : list aproc) (group : nat -> nat) (k : nat) (qs : list aproc) : Prop :=
  only_leaders_changed ps qs /\
  forall j, usable ps j ->
    if first_of ps group j <? k then leader qs j = first_of ps group j /\ clustered (entry qs j) = true else leader qs j = j.

Lemma described_list sg f ps group k qs rs : described ps group k qs -> usable ps k ->
  X86LinuxSpec.list_says f (Some rs) -> (forall j, usable ps j -> (listed rs (N.of_nat j) <-> group j = group k)) ->
  exists qs', detect_cluster_list sg (N.of_nat (length qs)) k f qs = Ok (true, qs') /\ described ps group (S k) qs'.
Proof.
  intros (F & D) Hk HL HG. unfold detect_cluster_list, detect_siblings.
  assert (E := HL). inversion E as [f' contents rs' Hc Hw Hl E1 E2|]; subst. rewrite Hc.
  rewrite (cpu_list_file_parse _ _ _ _ _ _ Hw Hl). cbn [bind]. clear E Hc Hw Hl.
  set (m := first_of ps group k). destruct (first_of_spec ps group k Hk) as (M1 & M2 & M3). fold m in M1, M2, M3.
  assert (Hmk : m <= k) by (apply M3; auto).
  assert (Ek : leader qs k = m).
  { specialize (D k Hk). fold m in D. destruct (Nat.ltb_spec m k); [apply D|]. lia. }
  assert (V : forall j, a_valid (entry qs j) = a_valid (entry ps j)) by (intros j; apply oc_valid, F).
  assert (SAME : forall j, usable ps j -> group j = group k -> first_of ps group j = m).
  { intros j Hj Hg. apply (first_unique ps group k); [|now apply first_of_spec]. destruct (first_of_spec ps group j Hj) as (S1 & S2 & S3).
    split; [exact S1|]. split; [congruence|]. intros i Hi Hig. apply S3; congruence. }
  destruct (ranges_exact k m rs qs) as (qs' & E1 & F1 & A & B).
  - unfold usable in *. now rewrite V.
  - exact Ek.
  - intros j Hu Hr. unfold usable in Hu. rewrite V in Hu. apply in_ranges_listed, (HG j Hu) in Hr.
    specialize (D j Hu). rewrite (SAME j Hu Hr) in D. destruct (m <? k); [destruct D; lia|]. rewrite D. now apply M3.
  - rewrite E1. cbn [bind]. exists qs'. split; [reflexivity|]. split; [eapply occ_trans; eauto|].
    intros j Hu. rewrite A, V. assert (Hu' := Hu). unfold usable in Hu'. rewrite Hu'. cbn [andb].
    destruct (in_ranges rs j) eqn:R.
    + assert (G : group j = group k) by (apply (HG j Hu), in_ranges_listed, R). rewrite (SAME j Hu G).
      rewrite (proj2 (Nat.ltb_lt m (S k)) ltac:(lia)). split; [reflexivity|]. apply B. rewrite V, Hu', R. reflexivity.
    + assert (G : group j <> group k).
      { intros G. apply (HG j Hu), in_ranges_listed in G. congruence. }
      specialize (D j Hu). assert (NK : first_of ps group j <> k).
      { intros X. destruct (first_of_spec ps group j Hu) as (_ & S2 & _). rewrite X in S2. congruence. }
      destruct (Nat.ltb_spec (first_of ps group j) k), (Nat.ltb_spec (first_of ps group j) (S k)); try lia.
      destruct D as (D1 & D2). split; [exact D1|]. now apply (oc_marked _ _ (proj2 F1 j)).
Qed.

Lemma described_skip ps group k qs : described ps group k qs -> ~ usable ps k -> described ps group (S k) qs.
Proof.
  intros (F & D) Hk. split; [exact F|]. intros j Hu. specialize (D j Hu).
  assert (NK : first_of ps group j <> k).
  { intros X. destruct (first_of_spec ps group j Hu) as (S1 & _). rewrite X in S1. contradiction. }
  destruct (Nat.ltb_spec (first_of ps group j) k), (Nat.ltb_spec (first_of ps group j) (S k)); try lia; auto.
Qed.

(** Which list is in use. *)
Definition source_ok (ps : list aproc) (k : nat) (mine : sibling_source) (s : sibling_source) : Prop :=
  s = mine \/ (s = Undecided /\ forall j, j < k -> ~ usable ps j).

Lemma kernel_lists_described sg files ps group : kernel_lists ps files group ->
  exists s qs, for_each (sibling_lists_step sg (N.of_nat (length ps)) files) 0 (length ps) (Undecided, leaders_are_self ps) = Ok (s, qs) /\
    described ps group (length ps) qs.
Proof.
  intros [HP HLists].
  assert (D0 : described ps group 0 (leaders_are_self ps)).
  { split; [apply leaders_self_changed|]. intros j Hu. cbn. apply leaders_self_leader, (usable_lt _ _ Hu). }
  assert (PK : forall k qs, only_leaders_changed ps qs -> usable ps k -> bitmask_all (a_flags (entry qs k)) af_package_id = true).
  { intros k qs F Hu. unfold bitmask_all. rewrite (oc_flags _ _ (proj2 F k)) by reflexivity. now apply HP. }
  destruct HLists as [HG|(HN & HG)].
  - destruct (for_each_inv (sibling_lists_step sg (N.of_nat (length ps)) files)
      (fun k s => source_ok ps k Cluster_cpus (fst s) /\ described ps group k (snd s)) (length ps) 0 (Undecided, leaders_are_self ps))
      as ((s & qs) & E & _ & D).
    + split; [right; split; [reflexivity|lia]|exact D0].
    + intros k (s & qs) Hk (HS & D). cbn [fst snd] in *. unfold sibling_lists_step. destruct D as (F & D).
      rewrite rd_entry by (rewrite (proj1 F); lia). cbn [bind]. rewrite (oc_valid _ _ (proj2 F k)).
      destruct (a_valid (entry ps k)) eqn:V; cbn [negb].
      * rewrite (PK k qs F V). cbn [negb]. destruct (HG k V) as (rs & HL & HR).
        destruct (described_list sg _ ps group k qs rs (conj F D) V HL HR) as (qs' & E & D'). rewrite (proj1 F) in E.
        destruct HS as [->|(-> & _)]; rewrite E; cbn [bind snd]; eexists; (split; [reflexivity|]); (split; [now left|exact D']).
      * eexists. split; [reflexivity|]. cbn [fst snd]. assert (NU : ~ usable ps k) by (unfold usable; congruence). split.
        -- destruct HS as [->|(-> & HS)]; [now left|]. right. split; [reflexivity|]. intros j Hj. destruct (Nat.eq_dec j k) as [->|]; [exact NU|apply HS; lia].
        -- apply described_skip; [now split|exact NU].
    + exists s, qs. auto.
  - destruct (for_each_inv (sibling_lists_step sg (N.of_nat (length ps)) files)
      (fun k s => source_ok ps k Core_siblings (fst s) /\ described ps group k (snd s)) (length ps) 0 (Undecided, leaders_are_self ps))
      as ((s & qs) & E & _ & D).
    + split; [right; split; [reflexivity|lia]|exact D0].
    + intros k (s & qs) Hk (HS & D). cbn [fst snd] in *. unfold sibling_lists_step. destruct D as (F & D).
      rewrite rd_entry by (rewrite (proj1 F); lia). cbn [bind]. rewrite (oc_valid _ _ (proj2 F k)).
      destruct (a_valid (entry ps k)) eqn:V; cbn [negb].
      * rewrite (PK k qs F V). cbn [negb]. destruct (HG k V) as (rs & HL & HR).
        destruct (described_list sg _ ps group k qs rs (conj F D) V HL HR) as (qs' & E & D'). rewrite (proj1 F) in E.
        destruct HS as [->|(-> & HS)].
        -- rewrite E. cbn [bind snd]. eexists. split; [reflexivity|]. split; [now left|exact D'].
        -- unfold detect_cluster_list at 1, detect_siblings. rewrite no_list by (apply HN; assumption). cbn [bind].
           rewrite E. cbn [bind snd]. eexists. split; [reflexivity|]. split; [now left|exact D'].
      * eexists. split; [reflexivity|]. cbn [fst snd]. assert (NU : ~ usable ps k) by (unfold usable; congruence). split.
        -- destruct HS as [->|(-> & HS)]; [now left|]. right. split; [reflexivity|]. intros j Hj. destruct (Nat.eq_dec j k) as [->|]; [exact NU|apply HS; lia].
        -- apply described_skip; [now split|exact NU].
    + exists s, qs. auto.
Qed.


(** The leaders are the first processors of the groups and everything is marked. *)
Lemma kernel_stage_groups sg files ps group : kernel_lists ps files group ->
  exists qs, clusters_from_kernel sg files ps = Ok (usable_count ps, qs) /\ only_leaders_changed ps qs /\
    forall i, usable ps i -> leader qs i = first_of ps group i /\ clustered (entry qs i) = true.
Proof.
  intros HK. destruct (kernel_lists_described sg files ps group HK) as (s & qs & E & F & D).
  assert (D' : forall j, usable ps j -> leader qs j = first_of ps group j /\ clustered (entry qs j) = true).
  { intros j Hu. specialize (D j Hu). destruct (first_of_spec ps group j Hu) as (S1 & _). apply usable_lt in S1.
    now rewrite (proj2 (Nat.ltb_lt _ _) S1) in D. }
  assert (FF : forall j, usable ps j -> first_of ps group (first_of ps group j) = first_of ps group j).
  { intros j Hu. destruct (first_of_spec ps group j Hu) as (S1 & S2 & S3). apply (first_unique ps group j).
    - destruct (first_of_spec ps group _ S1) as (T1 & T2 & T3). split; [exact T1|]. split; [congruence|]. intros i Hi Hg. apply T3; congruence.
    - now split. }
  assert (K : linked qs).
  { intros i Hu. apply (occ_usable _ _ _ F) in Hu. destruct (D' i Hu) as (-> & C). destruct (first_of_spec ps group i Hu) as (S1 & S2 & S3).
    split; [now apply S3|]. split; [now apply (occ_usable _ _ _ F)|]. intros _. split; [exact C|now apply D']. }
  destruct (propagate_all qs K) as ((n & rs) & E2 & P). unfold clusters_from_kernel. rewrite E. cbn [bind snd].
  rewrite (proj1 F) in E2. rewrite E2. destruct P as (F2 & CL & Hn & _ & Hlt).
  assert (R : forall i, usable ps i -> leader rs i = first_of ps group i /\ clustered (entry rs i) = true).
  { intros i Hu. rewrite CL. destruct (D' i Hu) as (D1 & D2). split; [|exact D2].
    assert (Hu' : usable qs i) by now apply (occ_usable _ _ _ F).
    destruct (Hlt i (usable_lt _ _ Hu') Hu') as (_ & _ & _ & X & _). rewrite X; [exact D1|]. rewrite D1.
    destruct (first_of_spec ps group i Hu) as (S1 & _). destruct (D' _ S1) as (-> & _). now apply FF. }
  exists rs. split; [|split; [eapply occ_trans; eauto|exact R]].
  f_equal. f_equal. rewrite Hn. cbn [plus]. unfold usable_count, usable_below. rewrite (proj1 F). f_equal. apply filter_ext. intros i.
  rewrite (oc_valid _ _ (proj2 F i)). destruct (a_valid (entry ps i)) eqn:V; [|reflexivity]. now rewrite (proj2 (D' i V)).
Qed.
