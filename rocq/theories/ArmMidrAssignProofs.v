(** Proofs about the main id registers of ARM clusters: the three ways to assign them. *)
From Verif Require Import Base BaseProofs Loops ArmMidrModel ArmClustersModel ArmClustersSpec ArmClustersProofs
  ArmClusterMidrModel ArmClusterMidrSpec ArmClusterMidrProofs.
Open Scope nat_scope.

(** ** Tables that differ in the MIDR of leaders *)

Definition midr_given (q r : aproc) : Prop :=
  exists m f, r = with_amidr m (with_aflags (N.lor (a_flags q) f) q) /\ forall b, N.testbit f b = true -> N.testbit af_midr b = true.
Lemma given_refl q : midr_given q q.
Proof. exists (a_midr q), 0%N. rewrite N.lor_0_r. split; [now destruct q|]. intros b H. now rewrite N.bits_0 in H. Qed.
Lemma given_full q m : midr_given q (add_aflag af_midr (with_amidr m q)).
Proof. exists m, af_midr. split; [reflexivity|auto]. Qed.
Record leaders_given (qs rs : list aproc) : Prop := {
  lg_length : length rs = length qs;
  lg_other : forall i, leads qs i = false -> entry rs i = entry qs i;
  lg_leader : forall i, leads qs i = true -> midr_given (entry qs i) (entry rs i)
}.
Lemma leaders_given_refl qs : leaders_given qs qs.
Proof. constructor; auto using given_refl. Qed.

Lemma leaders_in ps l : In l (cluster_leaders ps) <-> leads ps l = true.
Proof.
  unfold cluster_leaders. rewrite filter_In, in_seq. split; [tauto|]. intros H. split; [|exact H].
  unfold leads in H. apply andb_true_iff in H. destruct H as (H & _). apply (usable_lt ps) in H. lia.
Qed.
Lemma leaders_nodup ps : NoDup (cluster_leaders ps).
Proof. apply NoDup_filter, seq_NoDup. Qed.
Lemma leaders_lt ps c l : nth_error (cluster_leaders ps) c = Some l -> l < length ps /\ leads ps l = true.
Proof.
  intros H. apply nth_error_In in H. apply leaders_in in H. split; [|exact H]. unfold leads in H. apply andb_true_iff in H.
  destruct H as (H & _). now apply (usable_lt ps).
Qed.

(** ** Loops over the clusters *)

Lemma check_clusters_ok ok f n : (forall c, c < n -> ok c = Ok (f c)) -> check_clusters ok n = Ok (forallb f (seq 0 n)).
Proof.
  intros H. unfold check_clusters.
  assert (G : forall m from b, from + m <= n ->
    for_each (fun c so_far => if so_far : bool then ok c else Ok false) from m b = Ok (b && forallb f (seq from m))).
  { induction m as [|m IH]; intros from b B; cbn [for_each seq forallb]; [now rewrite andb_true_r|].
    destruct b; cbn [andb].
    - rewrite H by lia. cbn [bind]. rewrite IH by lia. reflexivity.
    - cbn [bind]. rewrite IH by lia. reflexivity. }
  now apply (G n 0 true).
Qed.

Lemma assign_loop (ls : list nat) (body : nat -> list aproc -> res (list aproc)) (g : nat -> aproc -> aproc) ps : NoDup ls ->
  Forall (fun l => l < length ps) ls ->
  (forall c l qs, nth_error ls c = Some l -> length qs = length ps ->
     exists qs', body c qs = Ok qs' /\ length qs' = length qs /\
       forall j, entry qs' j = if j =? l then g c (entry qs l) else entry qs j) ->
  exists rs, for_each body 0 (length ls) ps = Ok rs /\ length rs = length ps /\
    (forall c l, nth_error ls c = Some l -> entry rs l = g c (entry ps l)) /\
    (forall j, ~ In j ls -> entry rs j = entry ps j).
Proof.
  intros ND HF HB.
  destruct (for_each_inv body (fun k rs => length rs = length ps /\
     (forall c l, nth_error ls c = Some l -> entry rs l = if c <? k then g c (entry ps l) else entry ps l) /\
     (forall j, ~ In j ls -> entry rs j = entry ps j)) (length ls) 0 ps) as (rs & E & H1 & H2 & H3).
  - repeat split; auto.
  - intros k qs Hk (L & H2 & H3). destruct (nth_error_lt _ ls k ltac:(lia)) as (l & El).
    destruct (HB k l qs El L) as (qs' & Eb & L' & Hq). exists qs'. split; [exact Eb|]. split; [congruence|]. split.
    + intros c l' Ec. rewrite Hq. destruct (Nat.eqb_spec l' l) as [->|N].
      * assert (c = k) by (eapply NoDup_nth_error; [exact ND|apply nth_error_Some; congruence|congruence]). subst c.
        rewrite (proj2 (Nat.ltb_lt k (S k)) ltac:(lia)). rewrite (H2 k l El), Nat.ltb_irrefl. reflexivity.
      * rewrite (H2 c l' Ec). assert (c <> k) by (intros ->; congruence).
        destruct (Nat.ltb_spec c k), (Nat.ltb_spec c (S k)); auto; lia.
    + intros j Hj. rewrite Hq. destruct (Nat.eqb_spec j l) as [->|]; [|auto]. exfalso. apply Hj. eapply nth_error_In, El.
  - exists rs. repeat split; auto. intros c l Ec. rewrite (H2 c l Ec). cbn [plus].
    apply nth_error_some_lt in Ec. now rewrite (proj2 (Nat.ltb_lt c _) Ec).
Qed.

(** ** By chipset *)

Definition table_fits (qs : list aproc) (ls : list nat) (usable : nat) (verify : bool) (cfg : cluster_config) : bool :=
  (cc_cores cfg =? usable) && (cc_clusters cfg =? length ls) &&
  forallb (fun c => nth c (cc_cluster_cores cfg) 0 =? a_count (entry qs (nth c ls 0))) (seq 0 (length ls)) &&
  (negb verify || forallb (fun c => midr_agrees (entry qs (nth c ls 0)) (nth c (cc_cluster_midr cfg) 0%N)) (seq 0 (length ls))).
Definition table_entry (table : list cluster_config) (chip : chipset) : option cluster_config :=
  find (fun cfg => (cc_model cfg =? ch_model chip)%N && (cc_series cfg =? ch_series chip)%N) table.
Definition table_hit (table : list cluster_config) (chip : chipset) (qs : list aproc) (ls : list nat) (usable : nat) (verify : bool)
  : option cluster_config :=
  if length ls <=? clusters_max then
    match table_entry table chip with
    | Some cfg => if table_fits qs ls usable verify cfg then Some cfg else None
    | None => None
    end
  else None.
(** The entries of the arrays. *)
Definition wide (cfg : cluster_config) : Prop := length (cc_cluster_cores cfg) = clusters_max /\ length (cc_cluster_midr cfg) = clusters_max.

Definition tabulated (qs : list aproc) (ls : list nat) (cfg : cluster_config) (rs : list aproc) : Prop :=
  length rs = length qs /\
  (forall c l, nth_error ls c = Some l -> entry rs l = add_aflag af_midr (with_amidr (nth c (cc_cluster_midr cfg) 0%N) (entry qs l))) /\
  (forall j, ~ In j ls -> entry rs j = entry qs j).

Lemma rd_nth {A} (l : list A) c d : c < length l -> rd l c = Ok (nth c l d).
Proof. intros H. unfold rd. rewrite (nth_error_nth' l d) by exact H. reflexivity. Qed.

Lemma by_chipset_spec table chip qs ls usable verify :
  Forall wide table -> NoDup ls -> Forall (fun l => l < length qs) ls ->
  match table_hit table chip qs ls usable verify with
  | Some cfg => exists rs, midr_by_chipset table chip (length ls) (firstn clusters_max ls) usable qs verify = Ok (true, rs) /\ tabulated qs ls cfg rs
  | None => midr_by_chipset table chip (length ls) (firstn clusters_max ls) usable qs verify = Ok (false, qs)
  end.
Proof.
  intros HW ND HF. unfold table_hit, midr_by_chipset, table_entry. destruct (Nat.leb_spec (length ls) clusters_max) as [L|L]; [|reflexivity].
  destruct (find _ table) as [cfg|] eqn:EF; [|reflexivity].
  apply find_some in EF. destruct EF as (EF & _). rewrite Forall_forall in HW. destruct (HW cfg EF) as (W1 & W2).
  rewrite firstn_all2 by exact L. unfold table_fits.
  destruct (cc_cores cfg =? usable); cbn [negb orb andb]; [|reflexivity].
  destruct (cc_clusters cfg =? length ls); cbn [negb orb andb]; [|reflexivity].
  rewrite Forall_forall in HF.
  assert (IN : forall c, c < length ls -> nth c ls 0 < length qs) by (intros c Hc; apply HF, nth_In, Hc).
  rewrite (check_clusters_ok _ (fun c => nth c (cc_cluster_cores cfg) 0 =? a_count (entry qs (nth c ls 0)))).
  2:{ intros c Hc. unfold size_matches. rewrite (rd_nth ls c 0) by exact Hc. cbn [bind].
      rewrite (rd_nth _ c 0) by (unfold clusters_max in *; lia). cbn [bind]. rewrite rd_entry by auto. reflexivity. }
  cbn [bind]. destruct (forallb _ (seq 0 (length ls))) eqn:FS; cbn [negb andb]; [|reflexivity].
  assert (EM : check_clusters (midr_matches ls cfg qs) (length ls) =
    Ok (forallb (fun c => midr_agrees (entry qs (nth c ls 0)) (nth c (cc_cluster_midr cfg) 0%N)) (seq 0 (length ls)))).
  { apply check_clusters_ok. intros c Hc. unfold midr_matches. rewrite (rd_nth ls c 0) by exact Hc. cbn [bind].
    rewrite (rd_nth _ c 0%N) by (unfold clusters_max in *; lia). cbn [bind]. rewrite rd_entry by auto. reflexivity. }
  rewrite EM.
  assert (AS : exists rs, for_each (assign_tabulated ls cfg) 0 (length ls) qs = Ok rs /\ tabulated qs ls cfg rs).
  { destruct (assign_loop ls (assign_tabulated ls cfg) (fun c p => add_aflag af_midr (with_amidr (nth c (cc_cluster_midr cfg) 0%N) p)) qs ND)
      as (rs & E & H1 & H2 & H3).
    - now apply Forall_forall.
    - intros c l rs Ec Lr. pose proof (nth_error_some_lt _ _ _ _ Ec) as Hc. unfold assign_tabulated, rd at 1. rewrite Ec. cbn [bind].
      rewrite (rd_nth _ c 0%N) by (unfold clusters_max in *; lia). cbn [bind].
      assert (Ll : l < length rs) by (rewrite Lr; apply HF; eapply nth_error_In, Ec).
      rewrite modify_entry by exact Ll. eexists. split; [reflexivity|]. split; [apply upd_length|]. intros j. now rewrite entry_upd.
    - exists rs. split; [exact E|]. repeat split; auto. }
  destruct verify; cbn [negb orb bind].
  - destruct (forallb _ (seq 0 (length ls))) in |- *; cbn [negb]; [|reflexivity].
    destruct AS as (rs & E & T). exists rs. rewrite E. split; [reflexivity|exact T].
  - destruct AS as (rs & E & T). exists rs. rewrite E. split; [reflexivity|exact T].
Qed.

(** ** big.LITTLE *)

Definition slower (qs : list aproc) (first other : nat) : nat :=
  if knows_max (entry qs first) && knows_max (entry qs other) && (a_max (entry qs other) <? a_max (entry qs first))%N then other else first.
Definition guess_for (qs : list aproc) (first other : nat) (big : N) (l : nat) : N :=
  if l =? slower qs first other then midr_little_core_for_big big else big.
Definition guess_fits (qs : list aproc) (first other : nat) (big : N) : bool :=
  midr_agrees (entry qs first) (guess_for qs first other big first) && midr_agrees (entry qs other) (guess_for qs first other big other).
Definition guessed (qs : list aproc) (first other : nat) (big flags : N) (rs : list aproc) : Prop :=
  length rs = length qs /\
  (forall l, l = first \/ l = other -> entry rs l =
     if reports (entry qs l) then entry qs l else add_aflag flags (with_amidr (guess_for qs first other big l) (entry qs l))) /\
  (forall j, j <> first -> j <> other -> entry rs j = entry qs j).

Lemma by_big_little_spec qs ls with_midr last verify : NoDup ls -> Forall (fun l => l < length qs) ls ->
  last < length qs -> leader qs last < length qs ->
  match ls with
  | [first; other] =>
      if with_midr =? 1 then
        let big := a_midr (entry qs (leader qs last)) in
        if negb verify || guess_fits qs first other big then
          exists rs, midr_by_big_little (length ls) with_midr last (firstn clusters_max ls) qs verify = Ok (true, rs) /\
            guessed qs first other big (N.land (a_flags (entry qs (leader qs last))) af_midr) rs
        else midr_by_big_little (length ls) with_midr last (firstn clusters_max ls) qs verify = Ok (false, qs)
      else midr_by_big_little (length ls) with_midr last (firstn clusters_max ls) qs verify = Ok (false, qs)
  | _ => midr_by_big_little (length ls) with_midr last (firstn clusters_max ls) qs verify = Ok (false, qs)
  end.
Proof.
  intros ND HF HL HLL. destruct ls as [|first [|other [|x r]]]; try reflexivity.
  unfold midr_by_big_little. destruct (with_midr =? 1) eqn:E1; cbn [length Nat.eqb negb orb]; [|reflexivity]. cbv zeta.
  rewrite rd_entry by exact HL. cbn [bind]. rewrite rd_entry by exact HLL. cbn [bind]. fold (leader qs last).
  set (big := a_midr (entry qs (leader qs last))). set (flags := N.land _ af_midr).
  rewrite !Forall_cons_iff in HF. destruct HF as (H0 & H1 & _).
  change (rd (firstn clusters_max [first; other]) 0) with (Ok first). change (rd (firstn clusters_max [first; other]) 1) with (Ok other).
  cbn [bind]. rewrite rd_entry by exact H0. cbn [bind]. rewrite rd_entry by exact H1. cbn [bind].
  change (firstn clusters_max [first; other]) with [first; other].
  match goal with |- context [guess_matches _ ?g _] => set (guess := g) end.
  assert (EG : forall l, guess l = guess_for qs first other big l).
  { intros l. unfold guess, guess_for, slower. change af_max_frequency with (2 ^ 2)%N. rewrite ArmScanProofs.any_flag_bit, N.land_spec.
    fold (knows_max (entry qs first)). fold (knows_max (entry qs other)). destruct (knows_max (entry qs first) && knows_max (entry qs other)); reflexivity. }
  assert (EC : check_clusters (guess_matches [first; other] guess qs) 2 = Ok (guess_fits qs first other big)).
  { rewrite (check_clusters_ok _ (fun c => midr_agrees (entry qs (nth c [first; other] 0)) (guess (nth c [first; other] 0)))).
    - unfold guess_fits. cbn [seq forallb nth]. now rewrite !EG, andb_true_r.
    - intros c Hc. unfold guess_matches. rewrite (rd_nth _ c 0) by exact Hc. cbn [bind]. rewrite rd_entry; [reflexivity|].
      destruct c as [|[|c]]; cbn; auto; lia. }
  assert (AS : exists rs, for_each (assign_guess [first; other] guess flags) 0 2 qs = Ok rs /\ guessed qs first other big flags rs).
  { destruct (assign_loop [first; other] (assign_guess [first; other] guess flags)
        (fun c p => if reports p then p else add_aflag flags (with_amidr (guess (nth c [first; other] 0)) p)) qs ND) as (rs & E & L & H2 & H3).
    - repeat constructor; auto.
    - intros c l rs Ec Lr. unfold assign_guess, rd at 1. rewrite Ec. cbn [bind].
      assert (Ll : l < length rs) by (rewrite Lr; apply nth_error_In in Ec; cbn [In] in Ec; intuition congruence).
      rewrite rd_entry by exact Ll. cbn [bind]. rewrite reports_flags. rewrite (nth_error_nth _ _ 0 Ec).
      destruct (reports (entry rs l)) eqn:R.
      + exists rs. repeat split. intros j. destruct (Nat.eqb_spec j l) as [->|]; reflexivity.
      + rewrite wr_ok by exact Ll. eexists. split; [reflexivity|]. split; [apply upd_length|]. intros j. now rewrite entry_upd.
    - exists rs. split; [exact E|]. split; [exact L|]. split.
      + intros l [-> | ->]; [rewrite (H2 0 first eq_refl)|rewrite (H2 1 other eq_refl)]; cbn [nth]; now rewrite EG.
      + intros j J1 J2. apply H3. cbn [In]. intuition congruence. }
  destruct AS as (rs & E & G). destruct verify; cbn [negb orb].
  - rewrite EC. cbn [bind]. destruct (guess_fits qs first other big); cbn [negb]; [|reflexivity].
    exists rs. rewrite E. split; [reflexivity|exact G].
  - cbn [bind negb]. exists rs. rewrite E. split; [reflexivity|exact G].
Qed.

(** ** The scan *)

Fixpoint running (qs : list aproc) (d : N) (k : nat) : N :=
  match k with O => d | S k' => if leads qs k' && reports (entry qs k') then a_midr (entry qs k') else running qs d k' end.
Definition scanned_over (qs : list aproc) (d : N) (rs : list aproc) : Prop :=
  length rs = length qs /\
  forall i, entry rs i = if leads qs i && negb (reports (entry qs i))
                         then add_aflag af_midr (with_amidr (running qs d i) (entry qs i)) else entry qs i.

Lemma by_scan_spec qs d : exists rs, midr_by_scan d qs = Ok rs /\ scanned_over qs d rs.
Proof.
  unfold midr_by_scan.
  destruct (for_each_inv midr_scan_step (fun k s => fst s = running qs d k /\ length (snd s) = length qs /\
     forall i, entry (snd s) i = if (i <? k) && leads qs i && negb (reports (entry qs i))
                         then add_aflag af_midr (with_amidr (running qs d i) (entry qs i)) else entry qs i) (length qs) 0 (d, qs))
    as ((m & rs) & E & H1 & H2 & H3).
  - repeat split.
  - intros k (m & rs) Hk (H1 & H2 & H3). cbn [fst snd] in *. unfold midr_scan_step. rewrite rd_entry by lia. cbn [bind].
    assert (EK : entry rs k = entry qs k) by (rewrite (H3 k), Nat.ltb_irrefl; reflexivity). rewrite EK.
    fold (leader qs k). fold (leads qs k). rewrite reports_flags.
    assert (SK : forall i, i <> k -> (i <? S k) = (i <? k)).
    { intros i N. destruct (Nat.ltb_spec i k), (Nat.ltb_spec i (S k)); auto; lia. }
    destruct (leads qs k) eqn:LK; [destruct (reports (entry qs k)) eqn:RK|].
    + eexists. split; [reflexivity|]. cbn [fst snd running]. rewrite LK, RK. repeat split; auto. intros i. rewrite H3.
      destruct (Nat.eq_dec i k) as [->|N]; [rewrite LK, RK; cbn [negb]; now rewrite !andb_false_r|now rewrite SK].
    + rewrite wr_ok by lia. eexists. split; [reflexivity|]. cbn [fst snd running]. rewrite LK, RK. split; [exact H1|].
      split; [now rewrite upd_length|]. intros i. rewrite entry_upd by lia. destruct (Nat.eqb_spec i k) as [->|N].
      * rewrite LK, RK, (proj2 (Nat.ltb_lt k (S k)) ltac:(lia)), H1. reflexivity.
      * now rewrite H3, SK.
    + eexists. split; [reflexivity|]. cbn [fst snd running]. rewrite LK. repeat split; auto. intros i. rewrite H3.
      destruct (Nat.eq_dec i k) as [->|N]; [rewrite LK; now rewrite !andb_false_r|now rewrite SK].
  - cbn [fst snd plus] in *. exists rs. rewrite E. split; [reflexivity|]. split; [exact H2|]. intros i. rewrite H3.
    destruct (Nat.ltb_spec i (length qs)) as [L|L]; [reflexivity|]. cbn [andb].
    destruct (leads qs i) eqn:LI; [|reflexivity]. exfalso. apply leaders_in in LI. unfold cluster_leaders in LI.
    apply filter_In in LI. destruct LI as (LI & _). apply in_seq in LI. lia.
Qed.
