(** Proofs about the main id registers of ARM clusters: which way is taken, and what
    every processor ends up with. *)
From Verif Require Import Base BaseProofs Loops ArmMidrModel ArmClustersModel ArmClustersSpec ArmClustersProofs
  ArmClusterMidrModel ArmClusterMidrSpec ArmClusterMidrProofs ArmMidrAssignProofs.
From Verif Require ArmMidrSpec ArmMidrProofs.
Open Scope nat_scope.

Lemma table_eq arm32 : cluster_table arm32 = filter (fun c => built arm32 (cc_for c)) cluster_configs.
Proof. reflexivity. Qed.
Lemma in_table arm32 cfg : In cfg (cluster_table arm32) <-> In cfg cluster_configs /\ built arm32 (cc_for cfg) = true.
Proof. rewrite table_eq. apply filter_In. Qed.
Lemma all_wide : forallb (fun cfg => (length (cc_cluster_cores cfg) =? clusters_max) && (length (cc_cluster_midr cfg) =? clusters_max)) cluster_configs = true.
Proof. vm_compute. reflexivity. Qed.
Lemma table_wide arm32 : Forall wide (cluster_table arm32).
Proof.
  apply Forall_forall. intros cfg H. apply in_table in H. destruct H as (H & _).
  pose proof (proj1 (forallb_forall _ _) all_wide cfg H) as X. cbv beta in X. apply andb_true_iff in X. rewrite !Nat.eqb_eq in X. exact X.
Qed.

(** ** Collected facts *)

Lemma gathered_same ps qs : gathered ps qs -> forall i,
  a_valid (entry qs i) = a_valid (entry ps i) /\ leader qs i = leader ps i /\ leads qs i = leads ps i /\
  a_count (entry qs i) = a_count (entry ps i).
Proof.
  intros G i. destruct (leads ps i) eqn:L.
  - destruct (ga_leader _ _ G i L) as (m & x & T).
    assert (V : a_valid (entry qs i) = a_valid (entry ps i)).
    { rewrite !valid_flags, (td_flags _ _ _ _ T). cbn [N.eqb Pos.eqb andb]. change (N.testbit af_midr 12) with false. cbn [andb]. now rewrite !orb_false_r. }
    assert (E : leader qs i = leader ps i) by (unfold leader; apply (td_leader _ _ _ _ T)).
    split; [exact V|]. split; [exact E|]. split; [|apply (td_count _ _ _ _ T)]. rewrite <- L. unfold leads. now rewrite V, E.
  - unfold leader, leads, leader. rewrite (ga_other _ _ G i L). repeat split; auto.
Qed.
Lemma gathered_leaders ps qs : gathered ps qs -> cluster_leaders qs = cluster_leaders ps.
Proof.
  intros G. unfold cluster_leaders. rewrite (ga_length _ _ G). apply filter_ext. intros i. apply (gathered_same _ _ G).
Qed.
Lemma leads_valid ps l : leads ps l = true -> usable ps l /\ leader ps l = l.
Proof. unfold leads. rewrite andb_true_iff, Nat.eqb_eq. auto. Qed.
Lemma leader_leads ps i : clusters_ok ps -> usable ps i -> leads ps (leader ps i) = true.
Proof. intros C H. destruct (C i H) as (_ & U & E). unfold leads. rewrite U, E, Nat.eqb_refl. reflexivity. Qed.

(** The condition of line 900. *)
Definition single_report (ps : list aproc) : bool :=
  (reporters ps =? 1) &&
  (last_below (fun i => a_valid (entry ps i) && in_cpuinfo (entry ps i)) (length ps) (length ps) =?
   last_below (fun i => a_valid (entry ps i) && names_core (entry ps i)) (length ps) (length ps)) &&
  (1 <? length (cluster_leaders ps)).

Lemma filter_one (f : nat -> bool) n r : r < n -> f r = true -> (forall j, j < n -> f j = true -> j = r) -> length (filter f (seq 0 n)) = 1.
Proof.
  intros Hr Fr U.
  assert (E : filter f (seq 0 n) = [r]); [|now rewrite E].
  replace n with (r + S (n - S r)) by lia. rewrite seq_app. cbn [seq plus]. rewrite filter_app. cbn [filter]. rewrite Fr.
  assert (Z : forall m from, (forall j, from <= j < from + m -> f j = false) -> filter f (seq from m) = []).
  { induction m as [|m IH]; intros from H; cbn [seq filter]; auto. rewrite H by lia. apply IH. intros j Hj. apply H. lia. }
  rewrite !Z; [reflexivity| |]; intros j Hj; destruct (f j) eqn:Fj; auto; apply U in Fj; lia.
Qed.
Lemma filter_one_inv (f : nat -> bool) n : length (filter f (seq 0 n)) = 1 -> exists r, r < n /\ f r = true /\ forall j, j < n -> f j = true -> j = r.
Proof.
  intros H. destruct (filter f (seq 0 n)) as [|r [|]] eqn:E; try discriminate H. exists r.
  assert (I : forall j, In j (filter f (seq 0 n)) <-> j = r) by (intros j; rewrite E; cbn; intuition).
  assert (R : In r (filter f (seq 0 n))) by now apply I. apply filter_In in R. destruct R as (R1 & R2). apply in_seq in R1.
  split; [lia|]. split; [exact R2|]. intros j Hj Fj. apply I, filter_In. split; [apply in_seq; lia|exact Fj].
Qed.

Lemma single_report_iff ps : single_report ps = true <-> unattributable ps.
Proof.
  unfold single_report, unattributable. rewrite !andb_true_iff, !Nat.eqb_eq, Nat.ltb_lt.
  set (fl := fun i => a_valid (entry ps i) && in_cpuinfo (entry ps i)).
  set (fm := fun i => a_valid (entry ps i) && names_core (entry ps i)). split.
  - intros ((H1 & H2) & H3). split; [lia|]. apply filter_one_inv in H1. destruct H1 as (r & R1 & R2 & R3).
    assert (EM : last_below fm (length ps) (length ps) = r).
    { destruct (last_below_spec fm (length ps) (length ps)) as [(_ & X)|(q & EQ & Q1 & Q2 & _)]; [unfold fm in X; rewrite X in R2; [discriminate|exact R1]|].
      rewrite EQ. now apply R3. }
    rewrite EM in H2. apply andb_true_iff in R2. destruct R2 as (R2 & R4).
    destruct (last_below_spec fl (length ps) (length ps)) as [(X & _)|(q & EQ & Q1 & Q2 & Q3)]; [lia|].
    assert (QR : q = r) by congruence. clear EQ. subst q. unfold fl in Q2. apply andb_true_iff in Q2. destruct Q2 as (_ & Q2).
    exists r. split; [exact R2|]. split; [exact R4|]. split; [exact Q2|]. intros j HJ. split.
    + intros N. apply R3; [now apply (usable_lt ps)|]. rewrite HJ. exact N.
    + intros I. destruct (Nat.le_gt_cases j r) as [|G]; [auto|]. pose proof (usable_lt _ _ HJ) as LJ.
      assert (X : fl j = false) by (apply Q3; lia). unfold fl in X. rewrite HJ, I in X. discriminate.
  - intros (H1 & r & U & N & I & A). split; [|lia]. pose proof (usable_lt _ _ U) as LR. split.
    + apply (filter_one _ _ r LR); [now rewrite U|]. intros j _ Hj. apply andb_true_iff in Hj. destruct Hj as (V & X). now apply (A j V).
    + assert (E1 : last_below fl (length ps) (length ps) = r).
      { destruct (last_below_spec fl (length ps) (length ps)) as [(_ & X)|(q & EQ & Q1 & Q2 & Q3)].
        - exfalso. specialize (X r LR). unfold fl in X. rewrite U, I in X. discriminate.
        - rewrite EQ. unfold fl in Q2. apply andb_true_iff in Q2. destruct Q2 as (V & X). apply (A q V) in X.
          destruct (Nat.eq_dec q r); [auto|]. exfalso. assert (Y : fl r = false) by (apply Q3; lia). unfold fl in Y. rewrite U, I in Y. discriminate. }
      assert (E2 : last_below fm (length ps) (length ps) = r).
      { destruct (last_below_spec fm (length ps) (length ps)) as [(_ & X)|(q & EQ & Q1 & Q2 & Q3)].
        - exfalso. specialize (X r LR). unfold fm in X. rewrite U, N in X. discriminate.
        - rewrite EQ. unfold fm in Q2. apply andb_true_iff in Q2. destruct Q2 as (V & X). now apply (A q V) in X. }
      congruence.
Qed.

(** The last processor with a report. *)
Definition is_last_reporter (ps : list aproc) (r : nat) : Prop :=
  usable ps r /\ names_core (entry ps r) = true /\ forall j, usable ps j -> names_core (entry ps j) = true -> j <= r.
Lemma last_reporter_spec ps : let r := last_below (fun i => a_valid (entry ps i) && names_core (entry ps i)) (length ps) (length ps) in
  if r =? length ps then reporters ps = 0 else is_last_reporter ps r.
Proof.
  intros r. destruct (last_below_spec (fun i => a_valid (entry ps i) && names_core (entry ps i)) (length ps) (length ps)) as [(E & X)|(q & EQ & Q1 & Q2 & Q3)].
  - unfold r. rewrite E, Nat.eqb_refl. unfold reporters.
    assert (Z : forall n from, from + n <= length ps -> filter (fun i => a_valid (entry ps i) && names_core (entry ps i)) (seq from n) = []).
    { induction n as [|n IH]; intros from B; cbn [seq filter]; auto. rewrite X by lia. apply IH. lia. }
    now rewrite Z.
  - unfold r. rewrite EQ. destruct (Nat.eqb_spec q (length ps)); [lia|]. apply andb_true_iff in Q2. destruct Q2 as (V & N). repeat split; auto.
    intros j Hj Nj. pose proof (usable_lt _ _ Hj). destruct (Nat.le_gt_cases j q); auto.
    assert (Y := Q3 j ltac:(lia)). cbv beta in Y. rewrite Hj, Nj in Y. discriminate.
Qed.

(** ** What is decided *)

Definition all_reported (qs : list aproc) : Prop := forall l, leads qs l = true -> reports (entry qs l) = true.

Lemma all_reported_iff qs : (clusters_with_midr qs <? length (cluster_leaders qs)) = false <-> all_reported qs.
Proof.
  unfold clusters_with_midr.
  assert (E : filter (fun i => match nth_error qs i with Some p => leads_with_midr i p | None => false end) (seq 0 (length qs)) =
              filter (fun i => reports (entry qs i)) (cluster_leaders qs)).
  { unfold cluster_leaders.
    assert (F : forall l, filter (fun i => reports (entry qs i)) (filter (leads qs) l) = filter (fun i => leads qs i && reports (entry qs i)) l).
    { induction l as [|x l IH]; cbn [filter]; auto. destruct (leads qs x); cbn [filter andb]; [destruct (reports (entry qs x)); now rewrite IH|exact IH]. }
    rewrite F. apply filter_ext_in. intros i Hi. apply in_seq in Hi. destruct (nth_error_lt _ qs i ltac:(lia)) as (p & Ep). rewrite Ep.
    rewrite leads_flags. unfold leads, leader, entry. rewrite (nth_error_nth _ _ aproc0 Ep).
    destruct (a_valid p), (reports p), (a_leader p =? i); reflexivity. }
  rewrite E, Nat.ltb_ge. unfold all_reported. split.
  - intros H l Hl. apply leaders_in in Hl. destruct (reports (entry qs l)) eqn:R; [reflexivity|]. exfalso.
    revert H Hl R. generalize (cluster_leaders qs) as ls. clear. intros ls.
    assert (X : forall m, length (filter (fun i => reports (entry qs i)) m) <= length m).
    { induction m as [|a m IH]; cbn [filter]; auto. destruct (reports (entry qs a)); cbn [length]; lia. }
    induction ls as [|a ls IH]; intros H Hl R; [destruct Hl|]. cbn [filter] in H. destruct Hl as [->|Hl].
    + rewrite R in H. cbn [length] in H. specialize (X ls). lia.
    + destruct (reports (entry qs a)); cbn [length] in H; [apply IH; auto; lia|specialize (X ls); lia].
  - intros H. assert (A : forall l, In l (cluster_leaders qs) -> reports (entry qs l) = true) by (intros l Hl; apply H, leaders_in, Hl).
    revert A. generalize (cluster_leaders qs) as ls. clear. induction ls as [|a ls IH]; intros A; cbn [filter]; auto.
    rewrite (A a) by now left. cbn [length]. specialize (IH (fun l Hl => A l (or_intror Hl))). lia.
Qed.

Inductive decided (arm32 : bool) (chip : chipset) (usable : nat) (ps qs : list aproc) : list aproc -> Prop :=
| Dec_table u cfg rs : single_report ps = u -> (u = false -> reporters ps < usable /\ ~ all_reported qs) ->
    table_hit (cluster_table arm32) chip qs (cluster_leaders ps) usable (negb u) = Some cfg ->
    tabulated qs (cluster_leaders ps) cfg rs -> decided arm32 chip usable ps qs rs
| Dec_guess u r first other rs : single_report ps = u -> (u = false -> reporters ps < usable /\ ~ all_reported qs) ->
    table_hit (cluster_table arm32) chip qs (cluster_leaders ps) usable (negb u) = None ->
    is_last_reporter ps r -> reporters ps = 1 -> cluster_leaders ps = [first; other] ->
    (u = false -> guess_fits qs first other (a_midr (entry qs (leader ps r))) = true) ->
    guessed qs first other (a_midr (entry qs (leader ps r))) (N.land (a_flags (entry qs (leader ps r))) af_midr) rs ->
    decided arm32 chip usable ps qs rs
| Dec_scan u r rs : single_report ps = u -> (u = false -> reporters ps < usable /\ ~ all_reported qs) ->
    table_hit (cluster_table arm32) chip qs (cluster_leaders ps) usable (negb u) = None ->
    is_last_reporter ps r ->
    (forall first other, cluster_leaders ps = [first; other] -> reporters ps = 1 ->
       u = false /\ guess_fits qs first other (a_midr (entry qs (leader ps r))) = false) ->
    scanned_over qs (a_midr (entry qs (leader ps r))) rs -> decided arm32 chip usable ps qs rs
| Dec_nothing : single_report ps = false ->
    (reporters ps < usable -> all_reported qs \/ reporters ps = 0) -> decided arm32 chip usable ps qs qs.

Lemma detect_decided arm32 chip usable ps : clusters_ok ps ->
  exists qs rs, gathered ps qs /\ detect_cluster_midr arm32 chip usable ps = Ok (length (cluster_leaders ps), rs) /\
    decided arm32 chip usable ps qs rs.
Proof.
  intros C. destruct (collect_all ps C) as (s & E & CD). pose proof (collected_gathered ps s C CD) as G.
  unfold detect_cluster_midr. rewrite E. cbn [bind]. destruct CD as [L1 L2 L3 L4 L5 _].
  fold (cluster_leaders ps) in L1. fold (reporters ps) in L4. rewrite L1, L4. set (qs := co_procs s) in *. exists qs.
  set (ls := cluster_leaders ps) in *.
  assert (ND : NoDup ls) by apply leaders_nodup.
  assert (HF : Forall (fun l => l < length qs) ls).
  { apply Forall_forall. intros l Hl. rewrite (ga_length _ _ G). apply leaders_in, leads_valid in Hl. now apply usable_lt. }
  pose proof (gathered_leaders _ _ G) as GL. fold ls in GL.
  pose proof (last_reporter_spec ps) as LR. rewrite <- L3 in LR. cbv zeta in LR. set (last := co_last_midr s) in *.
  assert (U : (reporters ps =? 1) && (co_last_listed s =? last) && (1 <? length ls) = single_report ps).
  { unfold single_report. now rewrite L2, L3. }
  rewrite U.
  assert (RL : last =? length ps = false -> last < length qs /\ leader qs last < length qs /\ leader qs last = leader ps last).
  { intros N. rewrite N in LR. destruct LR as (LU & _). destruct (gathered_same _ _ G last) as (_ & EL & _).
    rewrite EL, (ga_length _ _ G). split; [now apply usable_lt|]. split; [|reflexivity]. now apply usable_lt, C. }
  assert (SC : last =? length ps = false -> exists rs, (do p <- rd qs last; do l <- rd qs (a_leader p); do ps' <- midr_by_scan (a_midr l) qs; Ok (length ls, ps')) = Ok (length ls, rs) /\
     scanned_over qs (a_midr (entry qs (leader ps last))) rs).
  { intros N. destruct (RL N) as (N1 & N2 & N3). rewrite rd_entry by exact N1. cbn [bind]. fold (leader qs last). rewrite rd_entry by exact N2. cbn [bind].
    rewrite N3. destruct (by_scan_spec qs (a_midr (entry qs (leader ps last)))) as (rs & ES & SO). rewrite ES. cbn [bind]. eauto. }
  destruct (single_report ps) eqn:SR.
  - pose proof SR as SR'. unfold single_report in SR'. rewrite !andb_true_iff in SR'. destruct SR' as ((R1 & _) & _). apply Nat.eqb_eq in R1.
    assert (N : last =? length ps = false). { destruct (last =? length ps); [lia|reflexivity]. }
    pose proof (by_chipset_spec (cluster_table arm32) chip qs ls usable false (table_wide arm32) ND HF) as BC.
    destruct (table_hit (cluster_table arm32) chip qs ls usable false) as [cfg|] eqn:TH.
    + destruct BC as (rs & EB & T). exists rs. rewrite EB. cbn [bind fst snd]. split; [exact G|]. split; [reflexivity|].
      eapply Dec_table with (u := true); eauto. discriminate.
    + rewrite BC. cbn [bind fst snd]. destruct (RL N) as (N1 & N2 & N3). rewrite N in LR.
      pose proof (by_big_little_spec qs ls 1 last false ND HF N1 N2) as BL. rewrite N3 in BL.
      destruct ls as [|first [|other [|x rest]]] eqn:EL.
      * rewrite BL. cbn [bind fst]. destruct (SC N) as (rs & ES & SO). exists rs. split; [exact G|]. split; [exact ES|].
        eapply Dec_scan with (u := true); eauto; try discriminate; unfold ls in EL; rewrite ?EL; auto; congruence.
      * rewrite BL. cbn [bind fst]. destruct (SC N) as (rs & ES & SO). exists rs. split; [exact G|]. split; [exact ES|].
        eapply Dec_scan with (u := true); eauto; try discriminate; unfold ls in EL; rewrite ?EL; auto; congruence.
      * cbn [Nat.eqb negb orb] in BL. destruct BL as (rs & EB & GS). exists rs. rewrite EB. cbn [bind fst snd]. split; [exact G|]. split; [reflexivity|].
        eapply Dec_guess with (u := true) (r := last); eauto; try discriminate; unfold ls in EL; rewrite ?EL; auto.
      * rewrite BL. cbn [bind fst]. destruct (SC N) as (rs & ES & SO). exists rs. split; [exact G|]. split; [exact ES|].
        eapply Dec_scan with (u := true); eauto; try discriminate; unfold ls in EL; rewrite ?EL; auto; congruence.
  - destruct (Nat.ltb_spec (reporters ps) usable) as [RU|RU]; [|exists qs; split; [exact G|]; split; [reflexivity|]; apply Dec_nothing; auto; lia].
    destruct (clusters_with_midr qs <? length ls) eqn:CW.
    2:{ exists qs. split; [exact G|]. split; [reflexivity|]. apply Dec_nothing; auto. intros _. left. apply all_reported_iff. now rewrite GL. }
    assert (NA : ~ all_reported qs). { intros A. apply all_reported_iff in A. rewrite GL in A. congruence. }
    pose proof (by_chipset_spec (cluster_table arm32) chip qs ls usable true (table_wide arm32) ND HF) as BC.
    destruct (table_hit (cluster_table arm32) chip qs ls usable true) as [cfg|] eqn:TH.
    + destruct BC as (rs & EB & T). exists rs. rewrite EB. cbn [bind fst snd]. split; [exact G|]. split; [reflexivity|].
      eapply Dec_table with (u := false); eauto.
    + rewrite BC. cbn [bind fst snd]. destruct (last =? length ps) eqn:N.
      * exists qs. split; [exact G|]. split; [reflexivity|]. apply Dec_nothing; auto.
      * destruct (RL eq_refl) as (N1 & N2 & N3). destruct (SC eq_refl) as (rs & ES & SO).
        pose proof (by_big_little_spec qs ls (reporters ps) last true ND HF N1 N2) as BL. rewrite N3 in BL.
        assert (OTHER : midr_by_big_little (length ls) (reporters ps) last (firstn clusters_max ls) qs true = Ok (false, qs) ->
          (forall first other, cluster_leaders ps = [first; other] -> reporters ps = 1 ->
             guess_fits qs first other (a_midr (entry qs (leader ps last))) = false) ->
          exists rs : list aproc, gathered ps qs /\
            (do r <- midr_by_big_little (length ls) (reporters ps) last (firstn clusters_max ls) qs true;
             (if fst r then Ok (length ls, snd r) else do p <- rd qs last; do l <- rd qs (a_leader p); do ps' <- midr_by_scan (a_midr l) qs; Ok (length ls, ps'))) =
            Ok (length ls, rs) /\ decided arm32 chip usable ps qs rs).
        { intros EB NG. exists rs. rewrite EB. cbn [bind fst]. split; [exact G|]. split; [exact ES|]. eapply Dec_scan with (u := false); eauto. }
        destruct ls as [|first [|other [|x rest]]] eqn:EL; unfold ls in EL.
        -- apply OTHER; [exact BL|]. intros; congruence.
        -- apply OTHER; [exact BL|]. intros; congruence.
        -- destruct (Nat.eqb_spec (reporters ps) 1) as [R1|R1]; [|apply OTHER; [exact BL|]; intros; congruence].
           cbv zeta in BL. cbn [negb orb] in BL. destruct (guess_fits qs first other _) eqn:GF.
           ++ destruct BL as (rs' & EB & GS). exists rs'. rewrite EB. cbn [bind fst snd]. split; [exact G|]. split; [reflexivity|].
              eapply Dec_guess with (u := false) (r := last); eauto; rewrite ?EL; auto.
           ++ apply OTHER; [exact BL|]. intros f o EO _. rewrite EL in EO. injection EO as <- <-. exact GF.
        -- apply OTHER; [exact BL|]. intros; congruence.
Qed.

Lemma decided_given arm32 chip usable ps qs rs : gathered ps qs -> decided arm32 chip usable ps qs rs -> leaders_given qs rs.
Proof.
  intros G D. pose proof (gathered_leaders _ _ G) as GL. destruct D as [u cfg rs _ _ _ (T1 & T2 & T3)|u r first other rs _ _ _ _ _ EL _ (T1 & T2 & T3)|u r rs _ _ _ _ _ (T1 & T2)| _ _].
  - constructor; auto.
    + intros i Hi. apply T3. rewrite <- GL, leaders_in. congruence.
    + intros i Hi. apply leaders_in in Hi. rewrite GL in Hi. apply In_nth_error in Hi. destruct Hi as (c & Ec).
      rewrite (T2 c i Ec). apply given_full.
  - assert (LI : forall i, leads qs i = true <-> i = first \/ i = other).
    { intros i. rewrite <- leaders_in, GL, EL. cbn [In]. intuition. }
    constructor; auto.
    + intros i Hi. apply T3; intros ->; [assert (X : leads qs first = true) by (apply LI; auto)|assert (X : leads qs other = true) by (apply LI; auto)]; congruence.
    + intros i Hi. apply LI in Hi. rewrite (T2 i Hi). destruct (reports (entry qs i)); [apply given_refl|].
      eexists _, _. split; [reflexivity|]. intros b. rewrite N.land_spec, andb_true_iff. tauto.
  - constructor; auto.
    + intros i Hi. now rewrite T2, Hi.
    + intros i Hi. rewrite T2, Hi. destruct (reports (entry qs i)); [apply given_refl|apply given_full].
  - apply leaders_given_refl.
Qed.

(** ** What the processors take from their leaders *)

Definition decoded (decode : N -> bool -> N * N) (p : aproc) : aproc :=
  let d := decode (a_midr p) (any_flag (ar_features (a_report p)) feature_vfpv4) in with_avendor_uarch (fst d) (snd d) p.
Definition follower (l p : aproc) : aproc :=
  with_amax (a_max l) (with_avendor_uarch (a_vendor l) (a_uarch l) (with_amidr (a_midr l)
                (add_aflag (N.land (a_flags l) (N.lor af_midr af_max_frequency)) p))).
Definition settled (decode : N -> bool -> N * N) (rs : list aproc) (i : nat) : aproc :=
  if a_valid (entry rs i) then
    if leader rs i =? i then decoded decode (entry rs i) else follower (decoded decode (entry rs (leader rs i))) (entry rs i)
  else entry rs i.

Lemma follow_all decode rs : clusters_ok rs -> exists ss, for_each (follow_step decode) 0 (length rs) rs = Ok ss /\
  length ss = length rs /\ forall i, entry ss i = settled decode rs i.
Proof.
  intros C.
  destruct (for_each_inv (follow_step decode) (fun k ss => length ss = length rs /\
     forall i, entry ss i = if i <? k then settled decode rs i else entry rs i) (length rs) 0 rs) as (ss & E & H1 & H2).
  - split; reflexivity.
  - intros k ss Hk (L & H). unfold follow_step. rewrite rd_entry by lia. cbn [bind].
    assert (EK : entry ss k = entry rs k) by (rewrite H, Nat.ltb_irrefl; reflexivity). rewrite EK. fold (leader rs k).
    assert (SK : forall i, i <> k -> (i <? S k) = (i <? k)).
    { intros i N. destruct (Nat.ltb_spec i k), (Nat.ltb_spec i (S k)); auto; lia. }
    assert (W : forall x, x = settled decode rs k -> exists s', wr ss k x = Ok s' /\ (length s' = length rs /\
       forall i, entry s' i = if i <? S k then settled decode rs i else entry rs i)).
    { intros x ->. rewrite wr_ok by lia. eexists. split; [reflexivity|]. split; [now rewrite upd_length|]. intros i.
      rewrite entry_upd by lia. destruct (Nat.eqb_spec i k) as [->|N].
      - now rewrite (proj2 (Nat.ltb_lt k (S k)) ltac:(lia)).
      - now rewrite H, SK. }
    destruct (a_valid (entry rs k)) eqn:V; [destruct (Nat.eqb_spec (leader rs k) k) as [LK|LK]|].
    + destruct (decode (a_midr (entry rs k)) _) as (v & u) eqn:ED. apply W. unfold settled. rewrite V, LK, Nat.eqb_refl.
      unfold decoded. now rewrite ED.
    + destruct (C k V) as (C1 & C2 & C3). rewrite rd_entry by lia. cbn [bind]. apply W.
      unfold settled. rewrite V. destruct (Nat.eqb_spec (leader rs k) k); [contradiction|]. unfold follower.
      rewrite (H (leader rs k)), (proj2 (Nat.ltb_lt (leader rs k) k) ltac:(lia)). unfold settled. rewrite C2, C3, Nat.eqb_refl. reflexivity.
    + exists ss. split; [reflexivity|]. split; [exact L|]. intros i. destruct (Nat.eq_dec i k) as [->|N]; [|now rewrite H, SK].
      rewrite (proj2 (Nat.ltb_lt k (S k)) ltac:(lia)), EK. unfold settled. now rewrite V.
  - exists ss. split; [exact E|]. split; [exact H1|]. intros i. rewrite H2. cbn [plus]. destruct (Nat.ltb_spec i (length rs)) as [|G]; [reflexivity|].
    unfold settled. rewrite entry_out by exact G. reflexivity.
Qed.

(** ** Everything together *)

Lemma given_same qs rs : leaders_given qs rs -> forall i,
  a_valid (entry rs i) = a_valid (entry qs i) /\ leader rs i = leader qs i /\ leads rs i = leads qs i.
Proof.
  intros H i. destruct (leads qs i) eqn:L.
  - destruct (lg_leader _ _ H i L) as (m & f & E & F).
    assert (V : a_valid (entry rs i) = a_valid (entry qs i)).
    { rewrite !valid_flags, E. cbn [a_flags with_amidr with_aflags]. rewrite N.lor_spec. destruct (N.testbit f 12) eqn:T; [|apply orb_false_r].
      apply F in T. discriminate. }
    assert (EL : leader rs i = leader qs i) by (unfold leader; now rewrite E).
    split; [exact V|]. split; [exact EL|]. rewrite <- L. unfold leads. now rewrite V, EL.
  - unfold leader, leads, leader. rewrite (lg_other _ _ H i L). repeat split; auto.
Qed.

Record assigned (arm32 : bool) (decode : N -> bool -> N * N) (chip : chipset) (usable : nat) (ps : list aproc) (ss : list aproc) : Prop := {
  ag_parts : exists qs rs, gathered ps qs /\ decided arm32 chip usable ps qs rs /\ leaders_given qs rs /\
    length ss = length ps /\ (forall i, entry ss i = settled decode rs i) /\
    (forall i, a_valid (entry rs i) = a_valid (entry ps i) /\ leader rs i = leader ps i /\ leads rs i = leads ps i)
}.
Lemma assign_midrs_spec arm32 decode chip usable ps : clusters_ok ps ->
  exists ss, assign_midrs arm32 decode chip usable ps = Ok (length (cluster_leaders ps), ss) /\ assigned arm32 decode chip usable ps ss.
Proof.
  intros C. destruct (detect_decided arm32 chip usable ps C) as (qs & rs & G & E & D). unfold assign_midrs. rewrite E. cbn [bind].
  pose proof (decided_given _ _ _ _ _ _ G D) as GV.
  assert (SM : forall i, a_valid (entry rs i) = a_valid (entry ps i) /\ leader rs i = leader ps i /\ leads rs i = leads ps i).
  { intros i. destruct (gathered_same _ _ G i) as (A1 & A2 & A3 & _), (given_same _ _ GV i) as (B1 & B2 & B3). repeat split; congruence. }
  assert (CR : clusters_ok rs).
  { intros i Hi. unfold ArmClustersSpec.usable in *. destruct (SM i) as (S1 & S2 & _). rewrite S1 in Hi. destruct (C i Hi) as (C1 & C2 & C3).
    rewrite S2. destruct (SM (leader ps i)) as (T1 & T2 & _). rewrite T1, T2. auto. }
  destruct (follow_all decode rs CR) as (ss & ES & HL & HS). rewrite ES. cbn [bind]. exists ss. split; [reflexivity|].
  constructor. exists qs, rs. rewrite HL, (lg_length _ _ GV). split; [exact G|]. split; [exact D|]. split; [exact GV|]. split; [exact (ga_length _ _ G)|]. split; [exact HS|exact SM].
Qed.
