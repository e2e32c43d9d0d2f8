(** Proofs about the main id registers of ARM clusters, collection and assignment. *)
From Verif Require Import Base BaseProofs Loops ArmMidrModel ArmClustersModel ArmClustersSpec ArmClustersProofs
  ArmClusterMidrModel ArmClusterMidrSpec.
From Verif Require ArmScanProofs ArmMidrSpec ArmMidrProofs.
Open Scope nat_scope.

(** ** Flags *)

Lemma bitmask_all_spec f m : bitmask_all f m = true <-> forall b, N.testbit m b = true -> N.testbit f b = true.
Proof.
  unfold bitmask_all. rewrite N.eqb_eq. split.
  - intros E b H. assert (X : N.testbit (N.land f m) b = true) by now rewrite E. rewrite N.land_spec in X.
    apply andb_true_iff in X. tauto.
  - intros H. apply N.bits_inj. intros b. rewrite N.land_spec. specialize (H b). destruct (N.testbit m b); [rewrite H; auto|apply andb_false_r].
Qed.
Lemma bitmask_all_lor f a b : bitmask_all f (N.lor a b) = bitmask_all f a && bitmask_all f b.
Proof.
  apply eq_true_iff_eq. rewrite andb_true_iff, !bitmask_all_spec. split.
  - intros H. split; intros k Hk; apply H; rewrite N.lor_spec, Hk; auto using orb_true_r.
  - intros (A & B) k Hk. rewrite N.lor_spec in Hk. apply orb_true_iff in Hk. destruct Hk; auto.
Qed.
Lemma bitmask_all_bit f k : bitmask_all f (2 ^ k) = N.testbit f k.
Proof.
  apply eq_true_iff_eq. rewrite bitmask_all_spec. split.
  - intros H. apply H. apply N.pow2_bits_true.
  - intros H b Hb. rewrite N.pow2_bits_eqb in Hb. apply N.eqb_eq in Hb. now subst.
Qed.
Lemma reports_flags p : bitmask_all (a_flags p) af_midr = reports p.
Proof.
  change af_midr with (N.lor (2 ^ 16) (N.lor (2 ^ 17) (N.lor (2 ^ 18) (N.lor (2 ^ 19) (N.lor (2 ^ 20) (2 ^ 21))))))%N.
  rewrite !bitmask_all_lor, !bitmask_all_bit. unfold reports. cbn [forallb]. now rewrite andb_true_r.
Qed.
Lemma names_flags p : bitmask_all (a_flags p) (N.lor af_implementer af_part) = names_core p.
Proof. rewrite bitmask_all_lor. change af_implementer with (2 ^ 17)%N. change af_part with (2 ^ 19)%N. now rewrite !bitmask_all_bit. Qed.
Lemma listed_flags p : any_flag (a_flags p) af_processor = in_cpuinfo p.
Proof. change af_processor with (2 ^ 21)%N. apply ArmScanProofs.any_flag_bit. Qed.
Lemma valid_flags p : a_valid p = N.testbit (a_flags p) 12.
Proof. unfold a_valid. change af_valid with (2 ^ 12)%N. apply bitmask_all_bit. Qed.
Lemma knows_flags p : any_flag (a_flags p) af_max_frequency = knows_max p.
Proof. change af_max_frequency with (2 ^ 2)%N. apply ArmScanProofs.any_flag_bit. Qed.
Lemma learns_max p q : any_flag (N.land (a_flags p) (N.ldiff af_max_frequency (a_flags q))) af_max_frequency = knows_max p && negb (knows_max q).
Proof.
  change af_max_frequency with (2 ^ 2)%N. rewrite ArmScanProofs.any_flag_bit, N.land_spec, N.ldiff_spec, N.pow2_bits_true. reflexivity.
Qed.
Lemma leads_flags i p : leads_with_midr i p = a_valid p && reports p && (a_leader p =? i).
Proof. unfold leads_with_midr. rewrite bitmask_all_lor, reports_flags. reflexivity. Qed.

Lemma reports_names p : reports p = true -> names_core p = true.
Proof. unfold reports, names_core. cbn [forallb]. rewrite !andb_true_iff. tauto. Qed.
Lemma reports_lor f p : reports (with_aflags (N.lor f af_midr) p) = true.
Proof. rewrite <- reports_flags, bitmask_all_spec. intros b H. cbn [a_flags with_aflags]. rewrite N.lor_spec, H. apply orb_true_r. Qed.
Lemma midr_bit b : N.testbit af_midr b = true <-> (16 <= b <= 21)%N.
Proof.
  split.
  - intros H. destruct (N.lt_ge_cases b 22) as [L|L].
    + assert (X : forallb (fun k => negb (N.testbit af_midr k) || (16 <=? k)%N) (map N.of_nat (seq 0 22)) = true) by reflexivity.
      rewrite forallb_forall in X. specialize (X b). rewrite H in X. cbn [negb orb] in X. rewrite N.leb_le in X. split; [|lia].
      apply X. rewrite <- (N2Nat.id b). apply in_map, in_seq. lia.
    + rewrite N.bits_above_log2 in H; [discriminate|]. change (N.log2 af_midr) with 21%N. lia.
  - intros H. assert (X : forallb (N.testbit af_midr) [16; 17; 18; 19; 20; 21]%N = true) by reflexivity. rewrite forallb_forall in X.
    apply X. assert (C : (b = 16 \/ b = 17 \/ b = 18 \/ b = 19 \/ b = 20 \/ b = 21)%N) by lia. cbn [In]. intuition.
Qed.

(** ** Counting *)

Fixpoint last_below (f : nat -> bool) (k d : nat) : nat :=
  match k with O => d | S k' => if f k' then k' else last_below f k' d end.
Lemma last_below_spec f d : forall k,
  (last_below f k d = d /\ (forall j, j < k -> f j = false)) \/
  (exists r, last_below f k d = r /\ r < k /\ f r = true /\ forall j, r < j < k -> f j = false).
Proof.
  induction k as [|k IH]; cbn [last_below].
  - left. split; [reflexivity|]. intros; lia.
  - destruct (f k) eqn:F; [right; exists k; repeat split; auto; intros; lia|].
    destruct IH as [(E & H)|(r & E & L & FR & H)].
    + left. split; [exact E|]. intros j Hj. destruct (Nat.eq_dec j k); [now subst|apply H; lia].
    + right. exists r. repeat split; auto. intros j Hj. destruct (Nat.eq_dec j k); [now subst|apply H; lia].
Qed.
Lemma last_below_ext f g d : forall k, (forall j, j < k -> f j = g j) -> last_below f k d = last_below g k d.
Proof. induction k as [|k IH]; intros H; cbn [last_below]; auto. rewrite H by lia. now rewrite IH by auto with arith. Qed.

(** ** Collection *)

(** The members that have told their leader what they know. *)
Definition informants (ps : list aproc) (l k : nat) : list nat :=
  filter (fun j => a_valid (entry ps j) && (leader ps j =? l) && negb (j =? l)) (seq 0 k).
Definition informed (ps : list aproc) (l k : nat) : aproc :=
  fold_left (fun q j => inform_leader (entry ps j) q) (informants ps l k) (entry ps l).

Record collected (ps : list aproc) (k : nat) (s : collect) : Prop := {
  cd_leaders : co_leaders s = filter (leads ps) (seq 0 k);
  cd_listed : co_last_listed s = last_below (fun i => a_valid (entry ps i) && in_cpuinfo (entry ps i)) k (length ps);
  cd_last : co_last_midr s = last_below (fun i => a_valid (entry ps i) && names_core (entry ps i)) k (length ps);
  cd_count : co_with_midr s = length (filter (fun i => a_valid (entry ps i) && names_core (entry ps i)) (seq 0 k));
  cd_length : length (co_procs s) = length ps;
  cd_entry : forall i, entry (co_procs s) i = informed ps i k
}.

Lemma informants_S ps l k : informants ps l (S k) =
  informants ps l k ++ if a_valid (entry ps k) && (leader ps k =? l) && negb (k =? l) then [k] else [].
Proof. unfold informants. rewrite seq_S, filter_app. cbn [filter plus]. now destruct (_ && _ && _). Qed.
Lemma informed_S ps l k : informed ps l (S k) =
  if a_valid (entry ps k) && (leader ps k =? l) && negb (k =? l) then inform_leader (entry ps k) (informed ps l k) else informed ps l k.
Proof. unfold informed. rewrite informants_S, fold_left_app. now destruct (_ && _ && _). Qed.
Lemma informants_in ps l k j : In j (informants ps l k) <-> j < k /\ usable ps j /\ leader ps j = l /\ j <> l.
Proof.
  unfold informants. rewrite filter_In, in_seq, !andb_true_iff, negb_true_iff, Nat.eqb_eq, Nat.eqb_neq. unfold usable. intuition lia.
Qed.
Lemma informants_low ps l k : clusters_ok ps -> k <= S l -> informants ps l k = [].
Proof.
  intros C H. destruct (informants ps l k) as [|j r] eqn:E; [reflexivity|].
  assert (X : In j (informants ps l k)) by (rewrite E; now left). apply informants_in in X. destruct X as (X1 & X2 & X3 & X4).
  destruct (C j X2) as (X5 & _). lia.
Qed.
Lemma informed_low ps l k : clusters_ok ps -> k <= S l -> informed ps l k = entry ps l.
Proof. intros C H. unfold informed. now rewrite informants_low. Qed.
Lemma informed_other ps l k : clusters_ok ps -> leads ps l = false -> informed ps l k = entry ps l.
Proof.
  intros C H. unfold informed. destruct (informants ps l k) as [|j r] eqn:E; [reflexivity|].
  assert (X : In j (informants ps l k)) by (rewrite E; now left). apply informants_in in X. destruct X as (X1 & X2 & X3 & X4).
  destruct (C j X2) as (_ & X6 & X7). rewrite X3 in X6, X7. unfold leads, usable in *. rewrite X6, X7, Nat.eqb_refl in H. discriminate.
Qed.

Lemma collect_all ps : clusters_ok ps ->
  exists s, for_each collect_step 0 (length ps) (Collect [] (length ps) (length ps) 0 ps) = Ok s /\ collected ps (length ps) s.
Proof.
  intros C. destruct (for_each_inv collect_step (collected ps) (length ps) 0 (Collect [] (length ps) (length ps) 0 ps)) as (s & E & H).
  - constructor; reflexivity.
  - intros i s Hi [L1 L2 L3 L4 L5 L6]. unfold collect_step. rewrite rd_entry by lia. cbn [bind].
    rewrite (L6 i), informed_low by (auto; lia).
    destruct (a_valid (entry ps i)) eqn:V.
    + rewrite listed_flags, names_flags. fold (leader ps i).
      assert (SL : forall f, filter f (seq 0 (S i)) = filter f (seq 0 i) ++ if f i then [i] else []).
      { intros f. rewrite seq_S, filter_app. cbn [filter plus]. now destruct (f i). }
      destruct (Nat.eqb_spec (leader ps i) i) as [LI|LI].
      * eexists. split; [reflexivity|]. constructor; cbn [co_leaders co_last_listed co_last_midr co_with_midr co_procs].
        -- rewrite SL, L1. unfold leads at 3. rewrite V, LI, Nat.eqb_refl. reflexivity.
        -- cbn [last_below]. rewrite V. cbn [andb]. destruct (in_cpuinfo (entry ps i)); [reflexivity|exact L2].
        -- cbn [last_below]. rewrite V. cbn [andb]. destruct (names_core (entry ps i)); [reflexivity|exact L3].
        -- rewrite SL, V. cbn [andb]. destruct (names_core (entry ps i)); rewrite app_length, L4; cbn [length]; lia.
        -- exact L5.
        -- intros j. rewrite informed_S, V. cbn [andb]. destruct (Nat.eqb_spec (leader ps i) j) as [<-|]; [|exact (L6 j)].
           rewrite LI, Nat.eqb_refl. cbn [negb andb]. exact (L6 i).
      * destruct (C i V) as (C1 & C2 & C3). pose proof (usable_lt _ _ C2) as C4.
        rewrite rd_entry by lia. cbn [bind]. rewrite wr_ok by lia. cbn [bind].
        eexists. split; [reflexivity|]. constructor; cbn [co_leaders co_last_listed co_last_midr co_with_midr co_procs].
        -- rewrite SL, L1. unfold leads at 3. rewrite V. cbn [andb]. destruct (Nat.eqb_spec (leader ps i) i); [contradiction|].
           now rewrite app_nil_r.
        -- cbn [last_below]. rewrite V. cbn [andb]. destruct (in_cpuinfo (entry ps i)); [reflexivity|exact L2].
        -- cbn [last_below]. rewrite V. cbn [andb]. destruct (names_core (entry ps i)); [reflexivity|exact L3].
        -- rewrite SL, V. cbn [andb]. destruct (names_core (entry ps i)); rewrite app_length, L4; cbn [length]; lia.
        -- now rewrite upd_length.
        -- intros j. rewrite entry_upd by lia. rewrite informed_S, V. cbn [andb]. rewrite (Nat.eqb_sym j).
           destruct (Nat.eqb_spec (leader ps i) j) as [<-|]; [|exact (L6 j)].
           destruct (Nat.eqb_spec i (leader ps i)); [congruence|]. cbn [negb andb]. now rewrite L6.
    + eexists. split; [reflexivity|].
      assert (SL : forall f, f i = false -> filter f (seq 0 (S i)) = filter f (seq 0 i)).
      { intros f Hf. rewrite seq_S, filter_app. cbn [filter plus]. rewrite Hf. apply app_nil_r. }
      constructor; cbn [last_below]; rewrite ?V; cbn [andb]; auto.
      * rewrite SL; [exact L1|]. unfold leads. now rewrite V.
      * rewrite SL; [exact L4|]. now rewrite V.
      * intros j. rewrite informed_S, V. exact (L6 j).
  - exists s. split; [exact E|exact H].
Qed.

(** What a leader is told. *)
Definition first_report (ps : list aproc) (js : list nat) : option N :=
  option_map (fun i => a_midr (entry ps i)) (find (fun i => reports (entry ps i)) js).
Definition first_max (ps : list aproc) (js : list nat) : option N :=
  option_map (fun i => a_max (entry ps i)) (find (fun i => knows_max (entry ps i)) js).

(** [q] is [p] told [midr] and [max]. *)
Record told (p : aproc) (midr max : option N) (q : aproc) : Prop := {
  td_flags : forall b, N.testbit (a_flags q) b = N.testbit (a_flags p) b ||
     ((b =? 2)%N && match max with Some _ => true | None => false end) ||
     (N.testbit af_midr b && match midr with Some _ => true | None => false end);
  td_midr : a_midr q = match midr with Some m => m | None => a_midr p end;
  td_max : a_max q = match max with Some m => m | None => a_max p end;
  td_min : a_min q = a_min p;
  td_leader : a_leader q = a_leader p;
  td_count : a_count q = a_count p;
  td_id : a_id q = a_id p;
  td_uarch_index : a_uarch_index q = a_uarch_index p;
  td_report : a_report q = a_report p
}.
Lemma told_reports p m x q : told p m x q -> reports q = reports p || match m with Some _ => true | None => false end.
Proof.
  intros T. destruct m as [m|].
  - rewrite orb_true_r. unfold reports. apply forallb_forall. intros b Hb. rewrite (td_flags _ _ _ _ T), andb_true_r.
    assert (X : N.testbit af_midr b = true) by (apply midr_bit; cbn [In] in Hb; intuition lia). rewrite X. apply orb_true_r.
  - rewrite orb_false_r. unfold reports. cbn [forallb]. rewrite !(td_flags _ _ _ _ T). cbn [N.eqb Pos.eqb andb orb]. rewrite !andb_false_r, !orb_false_r. reflexivity.
Qed.
Lemma told_knows p m x q : told p m x q -> knows_max q = knows_max p || match x with Some _ => true | None => false end.
Proof. intros T. unfold knows_max. rewrite (td_flags _ _ _ _ T). cbn [N.eqb Pos.eqb andb]. change (N.testbit af_midr 2) with false. cbn [andb]. apply orb_false_r. Qed.

Lemma inform_told p q : told q (if reports q then None else if reports p then Some (a_midr p) else None)
  (if knows_max q then None else if knows_max p then Some (a_max p) else None) (inform_leader p q).
Proof.
  unfold inform_leader. rewrite learns_max.
  assert (R : reports (if knows_max p && negb (knows_max q) then add_aflag af_max_frequency (with_amax (a_max p) q) else q) = reports q).
  { destruct (knows_max p && negb (knows_max q)); [|reflexivity]. unfold reports, add_aflag. cbn [forallb a_flags with_aflags with_amax].
    rewrite !N.lor_spec. cbn. now rewrite !orb_false_r. }
  rewrite !reports_flags, R.
  destruct (knows_max q), (knows_max p), (reports q), (reports p); cbn [andb negb]; constructor; auto; intros b;
    unfold add_aflag; cbn [a_flags with_aflags with_amax with_amidr];
    rewrite ?N.lor_spec, ?andb_false_r, ?andb_true_r, ?orb_false_r; auto;
    change af_max_frequency with (2 ^ 2)%N; rewrite N.pow2_bits_eqb, (N.eqb_sym 2 b); reflexivity.
Qed.

Lemma informed_told ps : forall js q, exists m x, told q m x (fold_left (fun q j => inform_leader (entry ps j) q) js q) /\
  m = (if reports q then None else first_report ps js) /\ x = (if knows_max q then None else first_max ps js).
Proof.
  induction js as [|j js IH]; intros q; cbn [fold_left].
  - exists None, None. split; [|destruct (reports q), (knows_max q); split; reflexivity]. constructor; auto. intros b.
    now rewrite !andb_false_r, !orb_false_r.
  - destruct (IH (inform_leader (entry ps j) q)) as (m & x & T & EM & EX). pose proof (inform_told (entry ps j) q) as T1.
    rewrite (told_reports _ _ _ _ T1) in EM. rewrite (told_knows _ _ _ _ T1) in EX.
    eexists _, _. split; [|split; reflexivity]. unfold first_report, first_max. cbn [find].
    destruct T as [F1 F2 F3 F4 F5 F6 F7 F8 F9], T1 as [G1 G2 G3 G4 G5 G6 G7 G8 G9].
    constructor; try congruence.
    + intros b. rewrite F1, G1, EM, EX. unfold first_report, first_max.
      destruct (reports q), (reports (entry ps j)), (knows_max q), (knows_max (entry ps j)); cbn [orb option_map];
        rewrite ?andb_false_r, ?andb_true_r, ?orb_false_r; auto;
        try (destruct (find _ js); cbn [option_map]; rewrite ?andb_false_r, ?andb_true_r, ?orb_false_r; auto);
        try (destruct (find _ js); cbn [option_map]; rewrite ?andb_false_r, ?andb_true_r, ?orb_false_r; auto);
        try (rewrite <- !orb_assoc; f_equal; apply orb_comm);
        destruct (N.testbit (a_flags q) b), (N.eqb b 2), (N.testbit af_midr b); reflexivity.
    + rewrite F2, G2, EM. destruct (reports q), (reports (entry ps j)); cbn [orb option_map]; auto.
    + rewrite F3, G3, EX. destruct (knows_max q), (knows_max (entry ps j)); cbn [orb option_map]; auto.
Qed.

Lemma members_cons ps l : clusters_ok ps -> leads ps l = true -> cluster_members ps l = l :: informants ps l (length ps).
Proof.
  intros C H. unfold cluster_members, informants.
  unfold leads in H. apply andb_true_iff in H. destruct H as (V & E). apply Nat.eqb_eq in E.
  assert (L : l < length ps) by (apply usable_lt; exact V).
  replace (seq 0 (length ps)) with (seq 0 l ++ l :: seq (S l) (length ps - S l)).
  2:{ replace (length ps) with (l + S (length ps - S l)) at 2 by lia. rewrite seq_app. reflexivity. }
  assert (Z : forall f, (forall j, j < l -> f j = false) -> filter f (seq 0 l) = []).
  { intros f Hf. clear -Hf. assert (X : forall n from, from + n <= l -> filter f (seq from n) = []).
    { induction n as [|n IH]; intros from B; cbn [seq filter]; auto. rewrite Hf by lia. apply IH. lia. }
    now apply X. }
  assert (B : forall j, j < l -> a_valid (entry ps j) && (leader ps j =? l) = false).
  { intros j Hj. destruct (a_valid (entry ps j)) eqn:Vj; [|reflexivity]. destruct (C j Vj) as (C1 & _).
    destruct (Nat.eqb_spec (leader ps j) l); [lia|reflexivity]. }
  rewrite !filter_app, !Z; [|intros j Hj; rewrite (B j Hj); reflexivity|exact B]. cbn [app filter].
  rewrite V, E, Nat.eqb_refl. cbn [andb negb]. f_equal. apply filter_ext_in. intros j Hj. apply in_seq in Hj.
  destruct (Nat.eqb_spec j l); [lia|]. now rewrite andb_true_r.
Qed.

(** The table after collection. *)
Record gathered (ps qs : list aproc) : Prop := {
  ga_length : length qs = length ps;
  ga_other : forall i, leads ps i = false -> entry qs i = entry ps i;
  ga_leader : forall l, leads ps l = true -> exists m x, told (entry ps l) m x (entry qs l);
  ga_midr : forall l, leads ps l = true -> match cluster_midr ps l with
      | Some m => reports (entry qs l) = true /\ a_midr (entry qs l) = m
      | None => reports (entry qs l) = false /\ told (entry ps l) None None (with_aflags (a_flags (entry ps l)) (with_amax (a_max (entry ps l)) (entry qs l))) /\
                forall b, b <> 2%N -> N.testbit (a_flags (entry qs l)) b = N.testbit (a_flags (entry ps l)) b
      end;
  ga_max : forall l, leads ps l = true -> match cluster_max ps l with
      | Some x => knows_max (entry qs l) = true /\ a_max (entry qs l) = x
      | None => knows_max (entry qs l) = false /\ a_max (entry qs l) = a_max (entry ps l)
      end
}.
Lemma collected_gathered ps s : clusters_ok ps -> collected ps (length ps) s -> gathered ps (co_procs s).
Proof.
  intros C [L1 L2 L3 L4 L5 L6]. constructor; auto.
  - intros i H. rewrite L6. now apply informed_other.
  - intros l H. rewrite L6. destruct (informed_told ps (informants ps l (length ps)) (entry ps l)) as (m & x & T & _). eauto.
  - intros l H. rewrite L6. destruct (informed_told ps (informants ps l (length ps)) (entry ps l)) as (m & x & T & EM & EX).
    fold (informed ps l (length ps)) in T. unfold cluster_midr. rewrite members_cons by auto. cbn [find].
    rewrite (told_reports _ _ _ _ T), (td_midr _ _ _ _ T). unfold first_report in EM.
    destruct (reports (entry ps l)) eqn:R; cbn [option_map]; [subst m; auto|].
    destruct (find _ (informants ps l (length ps))); cbn [option_map] in *; subst m; [auto|]. split; [reflexivity|].
    destruct T as [F1 F2 F3 F4 F5 F6 F7 F8 F9]. split.
    + constructor; cbn; auto. intros b. now rewrite !andb_false_r, !orb_false_r.
    + intros b Hb. rewrite F1. destruct (N.eqb_spec b 2); [contradiction|]. cbn [andb]. now rewrite andb_false_r, !orb_false_r.
  - intros l H. rewrite L6. destruct (informed_told ps (informants ps l (length ps)) (entry ps l)) as (m & x & T & EM & EX).
    fold (informed ps l (length ps)) in T. unfold cluster_max. rewrite members_cons by auto. cbn [find].
    rewrite (told_knows _ _ _ _ T), (td_max _ _ _ _ T). unfold first_max in EX.
    destruct (knows_max (entry ps l)) eqn:R; cbn [option_map]; [subst x; auto|].
    destruct (find _ (informants ps l (length ps))); cbn [option_map] in *; subst x; auto.
Qed.
