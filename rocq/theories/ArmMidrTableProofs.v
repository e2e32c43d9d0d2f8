(** Proofs about the table of chipsets with known clusters. *)
From Verif Require Import Base BaseProofs ArmMidrModel ArmMidrSpec ArmMidrProofs ArmClustersModel ArmClustersSpec ArmClustersProofs
  ArmClusterMidrModel ArmClusterMidrSpec ArmClusterMidrProofs ArmMidrAssignProofs ArmMidrDecideProofs ArmMidrResultProofs ArmMidrRuleProofs.
Open Scope nat_scope.

(** ** The members of all clusters are the usable processors *)

Lemma sum_zero {A} (f : A -> nat) l : (forall x, In x l -> f x = 0) -> list_sum (map f l) = 0.
Proof.
  induction l as [|x l IH]; intros H; [reflexivity|]. change (f x + list_sum (map f l) = 0). rewrite (H x), IH; auto; cbn; auto.
  intros y Hy. apply H. now right.
Qed.
Lemma sum_add {A} (f g : A -> nat) l : list_sum (map (fun x => f x + g x) l) = list_sum (map f l) + list_sum (map g l).
Proof.
  induction l as [|x l IH]; [reflexivity|].
  change (f x + g x + list_sum (map (fun x => f x + g x) l) = (f x + list_sum (map f l)) + (g x + list_sum (map g l))). lia.
Qed.
Lemma sum_one l k : NoDup l -> In k l -> list_sum (map (fun x => if k =? x then 1 else 0) l) = 1.
Proof.
  induction l as [|x l IH]; intros ND I; [destruct I|]. apply NoDup_cons_iff in ND. destruct ND as (N & ND).
  change ((if k =? x then 1 else 0) + list_sum (map (fun x => if k =? x then 1 else 0) l) = 1). destruct (Nat.eqb_spec k x) as [->|NE].
  - rewrite sum_zero; [reflexivity|]. intros y Hy. destruct (Nat.eqb_spec x y); [congruence|reflexivity].
  - rewrite IH; auto. destruct I; [congruence|assumption].
Qed.
Lemma members_total ps : clusters_ok ps -> list_sum (map (fun l => length (cluster_members ps l)) (cluster_leaders ps)) = usable_count ps.
Proof.
  intros C. unfold cluster_members, usable_count, usable_below. set (ls := cluster_leaders ps).
  enough (H : forall is, list_sum (map (fun l => length (filter (fun j => a_valid (entry ps j) && (leader ps j =? l)) is)) ls) =
     length (filter (fun i => a_valid (entry ps i)) is)) by apply H.
  induction is as [|i is IH]; [apply sum_zero; reflexivity|]. cbn [filter]. destruct (a_valid (entry ps i)) eqn:V.
  - cbn [andb length]. rewrite <- IH.
    transitivity (list_sum (map (fun l => (if leader ps i =? l then 1 else 0) + length (filter (fun j => a_valid (entry ps j) && (leader ps j =? l)) is)) ls)).
    + f_equal. apply map_ext. intros l. destruct (leader ps i =? l); reflexivity.
    + rewrite sum_add, sum_one; [reflexivity|apply leaders_nodup|]. apply leaders_in. now apply leader_leads.
  - cbn [andb]. exact IH.
Qed.

Lemma sum_firstn_nth (l : list nat) n : n <= length l -> list_sum (firstn n l) = list_sum (map (fun c => nth c l 0) (seq 0 n)).
Proof.
  revert n. induction l as [|x l IH]; intros [|n] L; cbn [length] in L; try lia; [reflexivity|reflexivity|]. cbn [firstn seq map nth].
  change (x + list_sum (firstn n l) = x + list_sum (map (fun c => nth c (x :: l) 0) (seq 1 n))). rewrite IH, <- seq_shift, map_map by lia. reflexivity.
Qed.
Lemma map_nth_seq {A} (f : nat -> A) (l : list nat) : map (fun c => f (nth c l 0)) (seq 0 (length l)) = map f l.
Proof.
  induction l as [|x l IH]; [reflexivity|]. cbn [length seq map nth]. f_equal. rewrite <- seq_shift, map_map. exact IH.
Qed.

(** An entry that is used describes as many cores as there are usable processors. *)
Lemma hit_sum arm32 chip ps qs listed verify cfg : clusters_ok ps -> sizes_ok ps -> gathered ps qs ->
  table_hit (cluster_table arm32) chip qs (cluster_leaders ps) listed verify = Some cfg ->
  cc_cores cfg = listed /\ list_sum (firstn (cc_clusters cfg) (cc_cluster_cores cfg)) = usable_count ps.
Proof.
  intros C SZ G H. pose proof H as H'. apply table_hit_in in H'. destruct H' as (I & _ & _ & F). unfold table_fits in F. rewrite !andb_true_iff in F.
  destruct F as (((F1 & F2) & F3) & _). apply Nat.eqb_eq in F1, F2. split; [exact F1|].
  pose proof (table_wide arm32) as TW. rewrite Forall_forall in TW. destruct (TW cfg I) as (W & _). unfold clusters_max in W.
  assert (L : length (cluster_leaders ps) <= 3).
  { unfold table_hit in H. destruct (Nat.leb_spec (length (cluster_leaders ps)) clusters_max) as [X|]; [exact X|discriminate]. }
  rewrite F2, sum_firstn_nth by lia. rewrite <- (members_total ps C), <- (map_nth_seq (fun l => length (cluster_members ps l))). f_equal.
  apply map_ext_in. intros c Hc. rewrite forallb_forall in F3. specialize (F3 c Hc). apply Nat.eqb_eq in F3. rewrite F3.
  apply in_seq in Hc. assert (LD : leads ps (nth c (cluster_leaders ps) 0) = true) by (apply leaders_in, nth_In; lia).
  destruct (leads_valid _ _ LD) as (U & EL). destruct (gathered_same _ _ G (nth c (cluster_leaders ps) 0)) as (_ & _ & _ & ->).
  rewrite (SZ _ U), EL. reflexivity.
Qed.

(** ** The table itself *)

Definition same_chip (a b : cluster_config) : bool := (cc_model a =? cc_model b)%N && (cc_series a =? cc_series b)%N.
Lemma table_distinct : forallb (fun arm32 => forallb (fun cfg =>
    match find (fun c => same_chip c cfg) (cluster_table arm32) with
    | Some c => (cc_cores c =? cc_cores cfg) && (cc_clusters c =? cc_clusters cfg) &&
        (if list_eq_dec Nat.eq_dec (cc_cluster_cores c) (cc_cluster_cores cfg) then true else false) &&
        (if list_eq_dec N.eq_dec (cc_cluster_midr c) (cc_cluster_midr cfg) then true else false) &&
        match cc_for c, cc_for cfg with On_both, On_both | On_arm32, On_arm32 | On_arm64, On_arm64 => true | _, _ => false end
    | None => false
    end) (cluster_table arm32)) [true; false] = true.
Proof. vm_compute. reflexivity. Qed.
Lemma table_unique arm32 cfg chip : In cfg (cluster_table arm32) -> cc_series cfg = ch_series chip -> cc_model cfg = ch_model chip ->
  table_entry (cluster_table arm32) chip = Some cfg.
Proof.
  intros I ES EM. pose proof table_distinct as D. rewrite forallb_forall in D. specialize (D arm32 ltac:(destruct arm32; cbn; auto)).
  rewrite forallb_forall in D. specialize (D cfg I). unfold table_entry. rewrite <- ES, <- EM.
  change (find (fun c => (cc_model c =? cc_model cfg)%N && (cc_series c =? cc_series cfg)%N) (cluster_table arm32))
    with (find (fun c => same_chip c cfg) (cluster_table arm32)).
  destruct (find (fun c => same_chip c cfg) (cluster_table arm32)) as [c|] eqn:F; [|discriminate].
  apply find_some in F. destruct F as (_ & F). unfold same_chip in F. apply andb_true_iff in F. rewrite !N.eqb_eq in F. destruct F as (F1 & F2).
  rewrite !andb_true_iff, !Nat.eqb_eq in D. destruct D as ((((D1 & D2) & D3) & D4) & D5).
  destruct (list_eq_dec Nat.eq_dec _ _) as [D3'|]; [|discriminate]. destruct (list_eq_dec N.eq_dec _ _) as [D4'|]; [|discriminate].
  f_equal. clear I D3 D4. revert F1 F2 D1 D2 D3' D4' D5. clear. destruct c as [c1 c2 c3 c4 c5 c6 c7], cfg as [g1 g2 g3 g4 g5 g6 g7].
  cbn [cc_for cc_series cc_model cc_cores cc_clusters cc_cluster_cores cc_cluster_midr]. intros -> -> -> -> -> -> H.
  destruct c1, g1; congruence.
Qed.

(** Entry by entry: at least one cluster and at most three, every cluster has cores,
    and is built of a design with a rank not above that of the next. *)
Definition ascending (arm32 : bool) (cfg : cluster_config) : bool :=
  forallb (fun c => (midr_score_core arm32 (nth c (cc_cluster_midr cfg) 0) <=? midr_score_core arm32 (nth (S c) (cc_cluster_midr cfg) 0))%N)
    (seq 0 (cc_clusters cfg - 1)).
Definition entry_sound (arm32 : bool) (cfg : cluster_config) : bool :=
  (1 <=? cc_clusters cfg) && (cc_clusters cfg <=? 3) && forallb (Nat.leb 1) (firstn (cc_clusters cfg) (cc_cluster_cores cfg)) &&
  forallb (Nat.eqb 0) (skipn (cc_clusters cfg) (cc_cluster_cores cfg)) && ascending arm32 cfg &&
  ((cc_series cfg =? series_mt)%N && (cc_model cfg =? 6592)%N || (list_sum (cc_cluster_cores cfg) =? cc_cores cfg)).
Lemma table_sound_computed : forallb (fun arm32 => forallb (entry_sound arm32) (cluster_table arm32)) [true; false] = true.
Proof. vm_compute. reflexivity. Qed.
Lemma table_sound arm32 cfg : In cfg (cluster_table arm32) ->
  1 <= cc_clusters cfg <= 3 /\ length (cc_cluster_cores cfg) = 3 /\ length (cc_cluster_midr cfg) = 3 /\
  (forall c n, nth_error (cc_cluster_cores cfg) c = Some n -> (n = 0 <-> cc_clusters cfg <= c)) /\
  (forall c m m', S c < cc_clusters cfg -> nth_error (cc_cluster_midr cfg) c = Some m -> nth_error (cc_cluster_midr cfg) (S c) = Some m' ->
     (midr_score_core arm32 m <= midr_score_core arm32 m')%N) /\
  (forall other, In other (cluster_table arm32) -> cc_series other = cc_series cfg -> cc_model other = cc_model cfg -> other = cfg) /\
  (~ (cc_series cfg = 5%N /\ cc_model cfg = 6592%N) -> list_sum (cc_cluster_cores cfg) = cc_cores cfg).
Proof.
  intros I. pose proof table_sound_computed as D. rewrite forallb_forall in D. specialize (D arm32 ltac:(destruct arm32; cbn; auto)).
  rewrite forallb_forall in D. specialize (D cfg I). unfold entry_sound in D. rewrite !andb_true_iff, !Nat.leb_le in D.
  destruct D as (((((D1 & D2) & D3) & D4) & D5) & D6). pose proof (table_wide arm32) as TW. rewrite Forall_forall in TW. destruct (TW cfg I) as (W1 & W2).
  split; [lia|]. split; [exact W1|]. split; [exact W2|]. split; [|split; [|split]].
  - intros c n E. rewrite forallb_forall in D3, D4. split.
    + intros ->. destruct (Nat.lt_ge_cases c (cc_clusters cfg)) as [L|L]; [|exact L]. exfalso.
      assert (X : nth_error (firstn (cc_clusters cfg) (cc_cluster_cores cfg)) c = Some 0).
      { rewrite <- (firstn_skipn (cc_clusters cfg) (cc_cluster_cores cfg)), nth_error_app1 in E; [exact E|].
        rewrite firstn_length, W1. unfold clusters_max. lia. }
      apply nth_error_In, D3 in X. discriminate.
    + intros L. assert (X : nth_error (skipn (cc_clusters cfg) (cc_cluster_cores cfg)) (c - cc_clusters cfg) = Some n).
      { assert (LF : length (firstn (cc_clusters cfg) (cc_cluster_cores cfg)) = cc_clusters cfg) by (rewrite firstn_length, W1; unfold clusters_max; lia).
        rewrite <- (firstn_skipn (cc_clusters cfg) (cc_cluster_cores cfg)), nth_error_app2, LF in E by lia. exact E. }
      apply nth_error_In, D4 in X. apply Nat.eqb_eq in X. auto.
  - intros c m m' L E1 E2. unfold ascending in D5. rewrite forallb_forall in D5. specialize (D5 c ltac:(apply in_seq; lia)).
    rewrite (nth_error_nth _ _ _ E1), (nth_error_nth _ _ _ E2) in D5. now apply N.leb_le.
  - intros other IO ES EM. pose proof (table_unique arm32 cfg (Chipset 0 (cc_series cfg) (cc_model cfg)) I eq_refl eq_refl) as T1.
    rewrite (table_unique arm32 other (Chipset 0 (cc_series cfg) (cc_model cfg)) IO ES EM) in T1. congruence.
  - intros N. apply orb_true_iff in D6. destruct D6 as [D6|D6]; [|now apply Nat.eqb_eq]. exfalso. apply N.
    apply andb_true_iff in D6. rewrite !N.eqb_eq in D6. exact D6.
Qed.

(** ** Two chipsets that the table does not tell apart *)

Lemma detect_same arm32 chip chip' listed ps : clusters_ok ps ->
  (forall qs verify, gathered ps qs -> table_hit (cluster_table arm32) chip qs (cluster_leaders ps) listed verify = None) ->
  (forall qs verify, gathered ps qs -> table_hit (cluster_table arm32) chip' qs (cluster_leaders ps) listed verify = None) ->
  detect_cluster_midr arm32 chip listed ps = detect_cluster_midr arm32 chip' listed ps.
Proof.
  intros C H H'. destruct (collect_all ps C) as (s & E & CD). pose proof (collected_gathered ps s C CD) as G.
  assert (HF : Forall (fun l => l < length (co_procs s)) (cluster_leaders ps)).
  { apply Forall_forall. intros l Hl. rewrite (ga_length _ _ G). apply leaders_in, leads_valid in Hl. now apply usable_lt. }
  assert (X : forall verify, midr_by_chipset (cluster_table arm32) chip (length (co_leaders s)) (firstn clusters_max (co_leaders s)) listed (co_procs s) verify =
    midr_by_chipset (cluster_table arm32) chip' (length (co_leaders s)) (firstn clusters_max (co_leaders s)) listed (co_procs s) verify).
  { intros verify. destruct CD as [L1 _ _ _ _ _]. fold (cluster_leaders ps) in L1. rewrite L1.
    pose proof (by_chipset_spec (cluster_table arm32) chip (co_procs s) (cluster_leaders ps) listed verify (table_wide arm32) (leaders_nodup ps) HF) as B.
    pose proof (by_chipset_spec (cluster_table arm32) chip' (co_procs s) (cluster_leaders ps) listed verify (table_wide arm32) (leaders_nodup ps) HF) as B'.
    rewrite H in B by exact G. rewrite H' in B' by exact G. congruence. }
  unfold detect_cluster_midr. rewrite E. cbn [bind]. rewrite !X. reflexivity.
Qed.
Lemma mt6592_entry : forallb (fun arm32 => forallb (fun cfg =>
    negb ((cc_series cfg =? 5)%N && (cc_model cfg =? 6592)%N) || (cc_cores cfg =? 4) && (list_sum (firstn (cc_clusters cfg) (cc_cluster_cores cfg)) =? 8))
  (cluster_table arm32)) [true; false] = true.
Proof. vm_compute. reflexivity. Qed.
Lemma mt6592_same arm32 decode vendor chip ps : clusters_ok ps -> sizes_ok ps -> @not_tabulated arm32 chip ->
  assign_midrs arm32 decode (Chipset vendor 5 6592) (usable_count ps) ps = assign_midrs arm32 decode chip (usable_count ps) ps.
Proof.
  intros C SZ NT. unfold assign_midrs. rewrite (detect_same arm32 (Chipset vendor 5 6592) chip); [reflexivity|exact C| |].
  - intros qs verify G. destruct (table_hit _ _ _ _ _ _) as [cfg|] eqn:TH; [|reflexivity]. exfalso.
    destruct (hit_sum _ _ _ _ _ _ _ C SZ G TH) as (H1 & H2). apply table_hit_in in TH. destruct TH as (I & E1 & E2 & _). cbn [ch_model ch_series] in E1, E2.
    pose proof mt6592_entry as D. rewrite forallb_forall in D. specialize (D arm32 ltac:(destruct arm32; cbn; auto)).
    rewrite forallb_forall in D. specialize (D cfg I). rewrite E1, E2, !N.eqb_refl in D. cbn [andb negb orb] in D.
    apply andb_true_iff in D. rewrite !Nat.eqb_eq in D. lia.
  - intros qs verify _. now apply no_hit.
Qed.

(** ** In terms of the result *)

Lemma result_assigned arm32 decode chip listed ps n ss : clusters_ok ps -> assign_midrs arm32 decode chip listed ps = Ok (n, ss) ->
  n = length (cluster_leaders ps) /\ assigned arm32 decode chip listed ps ss.
Proof. intros C E. destruct (assign_midrs_spec arm32 decode chip listed ps C) as (ss' & E' & A). rewrite E in E'. injection E' as -> ->. auto. Qed.

Lemma assign_midrs_total arm32 decode chip listed ps : clusters_ok ps ->
  exists ss, assign_midrs arm32 decode chip listed ps = Ok (length (cluster_leaders ps), ss) /\ length ss = length ps /\
    (forall i, only_midr_differs (entry ps i) (entry ss i)) /\ (forall i, ~ usable ps i -> entry ss i = entry ps i) /\
    (forall i, usable ps i -> follows_leader (entry ss (leader ps i)) (entry ss i) /\
       (a_vendor (entry ss i), a_uarch (entry ss i)) =
         decode (a_midr (entry ss i)) (any_flag (ar_features (a_report (entry ps (leader ps i)))) feature_vfpv4)) /\
    (forall i x, usable ps i -> cluster_max ps (leader ps i) = Some x -> knows_max (entry ss i) = true /\ a_max (entry ss i) = x) /\
    (forall i, usable ps i -> cluster_max ps (leader ps i) = None -> a_max (entry ss i) = a_max (entry ps (leader ps i))).
Proof.
  intros C. destruct (assign_midrs_spec arm32 decode chip listed ps C) as (ss & E & A). exists ss. split; [exact E|].
  destruct (entry_changes A) as (HL & HE). split; [exact HL|]. split; [intros i; apply HE|]. split; [intros i; apply HE|]. split.
  - intros i U. destruct (all_follow C A i U) as (F & D). split; [exact F|]. rewrite D. now rewrite (fl_midr _ _ F).
  - split; [intros i x U; exact (max_exact C A i x U)|intros i U; exact (max_unknown C A i U)].
Qed.

Section Restated.
  Context (arm32 : bool) (decode : N -> bool -> N * N) (chip : chipset) (listed : nat) (ps ss : list aproc) (n : nat).
  Context (C : clusters_ok ps) (E : assign_midrs arm32 decode chip listed ps = Ok (n, ss)).
  Let A := proj2 (result_assigned _ _ _ _ _ _ _ C E).

  Lemma kept_of_cluster i m : ~ unattributable ps -> usable ps i -> cluster_midr ps (leader ps i) = Some m -> same_core m (a_midr (entry ss i)).
  Proof. exact (report_kept C A i m). Qed.
  Lemma kept_of_processor i : ~ unattributable ps -> reports_agree ps -> usable ps i -> reports (entry ps i) = true ->
    same_core (a_midr (entry ps i)) (a_midr (entry ss i)).
  Proof. exact (own_report_kept C A i). Qed.
  Lemma known_everywhere : (forall i, usable ps i -> all_or_nothing (entry ps i)) -> (exists r, usable ps r /\ reports (entry ps r) = true) ->
    usable_count ps <= listed -> forall i, usable ps i -> reports (entry ss i) = true.
  Proof.
    intros AN (r & U & R). apply (every_cluster_known C A AN). unfold reporters.
    assert (X : In r (filter (fun i => a_valid (entry ps i) && names_core (entry ps i)) (seq 0 (length ps)))).
    { apply filter_In. split; [apply in_seq; apply usable_lt in U; lia|]. unfold usable in U. rewrite U, (reports_names _ R). reflexivity. }
    destruct (filter _ _); [destruct X|cbn [length]; lia].
  Qed.
  Lemma companion_guessed first other r big little :
    (forall cfg, In cfg (cluster_table arm32) -> cc_series cfg = ch_series chip -> cc_model cfg = ch_model chip -> False) ->
    cluster_leaders ps = [first; other] -> 2 <= listed -> (forall i, usable ps i -> all_or_nothing (entry ps i)) ->
    usable ps r -> reports (entry ps r) = true -> (forall j, usable ps j -> names_core (entry ps j) = true -> j = r) ->
    leader ps r <> slower_of ps first other ->
    field_of Architecture (a_midr (entry ps r)) = 0xF%N -> In (big, little) pairs -> big <> kryo_280_gold -> design (a_midr (entry ps r)) = big ->
    forall i, usable ps i ->
      if leader ps i =? slower_of ps first other then design (a_midr (entry ss i)) = little else a_midr (entry ss i) = a_midr (entry ps r).
  Proof.
    intros NT EL L2 AN U R ONE NS HA HI HK HD i UI. pose proof (little_guessed C A first other r NT EL L2 AN U R ONE NS i UI) as H.
    destruct (leader ps i =? slower_of ps first other); [|exact H]. rewrite H. now destruct (companion true _ _ _ HA HI HD HK).
  Qed.
  Lemma scan_result :
    (forall cfg, In cfg (cluster_table arm32) -> cc_series cfg = ch_series chip -> cc_model cfg = ch_model chip -> False) ->
    (forall i, usable ps i -> all_or_nothing (entry ps i)) -> 1 <= reporters ps -> reporters ps < listed ->
    ~ (length (cluster_leaders ps) = 2 /\ reporters ps = 1) -> forall i, usable ps i -> filled_in ps (leader ps i) (a_midr (entry ss i)).
  Proof. exact (scan_fills C A). Qed.
  Lemma table_result cfg : unattributable ps -> sizes_ok ps ->
    In cfg (cluster_table arm32) -> cc_series cfg = ch_series chip -> cc_model cfg = ch_model chip -> listed = cc_cores cfg ->
    length (cluster_leaders ps) = cc_clusters cfg ->
    (forall c l, nth_error (cluster_leaders ps) c = Some l -> nth_error (cc_cluster_cores cfg) c = Some (length (cluster_members ps l))) ->
    forall c l i, nth_error (cluster_leaders ps) c = Some l -> usable ps i -> leader ps i = l ->
      nth_error (cc_cluster_midr cfg) c = Some (a_midr (entry ss i)).
  Proof.
    intros UN SZ I ES EM EC EL HC. apply (table_used C A cfg UN SZ I ES EM EC EL); auto.
    - now destruct (table_sound arm32 cfg I).
    - now apply table_unique.
  Qed.
End Restated.
