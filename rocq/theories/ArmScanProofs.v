(** Lemmas about the sequential scan, the layout heuristic and the counting of
    cluster members. *)
From Verif Require Import Base BaseProofs Loops Masks LinuxTextModel X86DetectProofs ArmMidrModel.
From Verif Require ArmMidrSpec ArmMidrProofs.
From Verif Require Import ArmClustersModel ArmClustersSpec ArmClustersProofs.
Open Scope nat_scope.

(** ** Attributes *)
Definition k_has (k : known) (a : attribute) : bool := any_flag (k_flags k) (attribute_flag a).
Definition p_has (p : aproc) (a : attribute) : bool := any_flag (a_flags p) (attribute_flag a).

Lemma any_flag_bit f k : any_flag f (2 ^ k) = N.testbit f k.
Proof.
  unfold any_flag. destruct (N.testbit f k) eqn:T.
  - apply negb_true_iff, N.eqb_neq. intros E. assert (X : N.testbit (N.land f (2 ^ k)) k = true) by (rewrite N.land_spec, T, N.pow2_bits_true; reflexivity).
    rewrite E in X. now rewrite N.bits_0 in X.
  - apply negb_false_iff, N.eqb_eq. apply N.bits_inj_0. intros b. rewrite N.land_spec, N.pow2_bits_eqb.
    destruct (N.eqb_spec k b) as [<-|]; [now rewrite T|apply andb_false_r].
Qed.
Definition abit (a : attribute) : N :=
  match a with Max_frequency => 2 | Min_frequency => 3 | Implementer => 17 | Variant => 18 | Part => 19 | Revision => 20 end%N.
Lemma attribute_flag_bit a : attribute_flag a = (2 ^ abit a)%N.
Proof. now destruct a. Qed.
Lemma p_has_knows p a : p_has p a = true <-> knows a p.
Proof. unfold p_has, knows. rewrite attribute_flag_bit, any_flag_bit. now destruct a. Qed.
Definition attribute_dec : forall a b : attribute, {a = b} + {a <> b}.
Proof. decide equality. Defined.
Lemma abit_inj a b : abit a = abit b -> a = b.
Proof. destruct a, b; intros H; try reflexivity; discriminate. Qed.

Lemma covers_all : ArmMidrProofs.covers implementer_mask ArmMidrSpec.Implementer /\ ArmMidrProofs.covers variant_mask ArmMidrSpec.Variant /\
  ArmMidrProofs.covers part_mask ArmMidrSpec.PartNumber /\ ArmMidrProofs.covers revision_mask ArmMidrSpec.Revision.
Proof. repeat split. Qed.
Lemma value_attribute p q a : processor_value a p = processor_value a q <-> attribute_of a p = attribute_of a q.
Proof.
  unfold processor_value, attribute_of. destruct covers_all as (H1 & H2 & H3 & H4).
  assert (X : forall x y k, (x * 2 ^ k = y * 2 ^ k)%N <-> x = y).
  { intros x y k. apply N.mul_cancel_r. apply N.pow_nonzero. discriminate. }
  destruct a; cbn [attribute_value]; try reflexivity.
  - rewrite !(ArmMidrProofs.land_field _ _ _ H1), X, !N.shiftr_div_pow2. reflexivity.
  - rewrite !(ArmMidrProofs.land_field _ _ _ H2), X, !N.shiftr_div_pow2. reflexivity.
  - rewrite !(ArmMidrProofs.land_field _ _ _ H3), X, !N.shiftr_div_pow2. reflexivity.
  - rewrite !(ArmMidrProofs.land_field _ _ _ H4), X. unfold ArmMidrSpec.field_of. cbn [ArmMidrSpec.lowest_bit ArmMidrSpec.field_width].
    change (2 ^ 0)%N with 1%N. now rewrite !N.div_1_r.
Qed.

Lemma copy_same mask m y : N.land (copy_field mask m y) mask = N.land y mask.
Proof.
  apply N.bits_inj. intros b. unfold copy_field. rewrite N.land_spec, N.lor_spec, !N.land_spec, not32_bit.
  destruct (N.testbit mask b); rewrite ?andb_false_r, ?andb_true_r; reflexivity.
Qed.
Lemma copy_other mask other m y : N.land mask other = 0%N -> is_u32 other -> N.land (copy_field mask m y) other = N.land m other.
Proof.
  intros H Hu. apply N.bits_inj. intros b. unfold copy_field. rewrite N.land_spec, N.lor_spec, !N.land_spec, not32_bit.
  assert (D : N.testbit mask b && N.testbit other b = false) by (rewrite <- N.land_spec, H; apply N.bits_0).
  destruct (N.testbit other b) eqn:O; rewrite ?andb_false_r, ?andb_true_r; [|reflexivity]. rewrite andb_true_r in D.
  rewrite D, andb_false_r, orb_false_r. destruct (N.ltb_spec b 32) as [L|L]; [apply andb_true_r|].
  exfalso. assert (X : N.testbit other b = false).
  { destruct (N.eq_dec other 0) as [->|Z]; [apply N.bits_0|]. apply N.bits_above_log2. apply N.log2_lt_pow2; [lia|].
    unfold is_u32 in Hu. rewrite two32_pow in Hu. eapply N.lt_le_trans; [exact Hu|]. apply N.pow_le_mono_r; lia. }
  congruence.
Qed.
Lemma learn_has a p k b : k_has (learn a p k) b = if attribute_dec b a then true else k_has k b.
Proof.
  unfold k_has. replace (k_flags (learn a p k)) with (N.lor (k_flags k) (attribute_flag a)) by now destruct a.
  rewrite !attribute_flag_bit, !any_flag_bit, N.lor_spec, N.pow2_bits_eqb. destruct (attribute_dec b a) as [->|N].
  - rewrite N.eqb_refl. apply orb_true_r.
  - destruct (N.eqb_spec (abit a) (abit b)) as [E|]; [apply abit_inj in E; congruence|apply orb_false_r].
Qed.
Lemma learn_value a p k b : cluster_value b (learn a p k) = if attribute_dec b a then processor_value a p else cluster_value b k.
Proof.
  destruct (attribute_dec b a) as [->|N].
  - destruct a; unfold cluster_value, processor_value; cbn [learn k_midr k_max k_min attribute_value]; try reflexivity; apply copy_same.
  - destruct a, b; try congruence; unfold cluster_value; cbn [learn k_midr k_max k_min attribute_value]; try reflexivity;
      apply copy_other; reflexivity.
Qed.

(** What is known after a processor that fits, and when it fits. *)
Lemma check_some p k k' : check_processor p k = Some k' ->
  (forall a, p_has p a = true -> k_has k a = true -> cluster_value a k = processor_value a p) /\
  (forall a, k_has k' a = k_has k a || p_has p a) /\
  (forall a, cluster_value a k' = if p_has p a && negb (k_has k a) then processor_value a p else cluster_value a k).
Proof.
  unfold check_processor. intros E.
  assert (G : forall l k0 k', NoDup l -> fold_left (check_attribute p) l (Some k0) = Some k' ->
    (forall a, In a l -> p_has p a = true -> k_has k0 a = true -> cluster_value a k0 = processor_value a p) /\
    (forall a, k_has k' a = k_has k0 a || ((if in_dec attribute_dec a l then true else false) && p_has p a)) /\
    (forall a, cluster_value a k' = if (if in_dec attribute_dec a l then true else false) && p_has p a && negb (k_has k0 a) then processor_value a p else cluster_value a k0)).
  { clear k k' E. assert (NN : forall l, fold_left (check_attribute p) l None = None) by (induction l; auto).
    induction l as [|x l IH]; intros k k' HN E; cbn [fold_left] in E.
    - injection E as <-. split; [intros a []|]. split; intros a; cbn; [now rewrite orb_false_r|reflexivity].
    - apply NoDup_cons_iff in HN. destruct HN as (Hx & HN). unfold check_attribute at 2 in E. fold (p_has p x) in E. fold (k_has k x) in E.
      destruct (p_has p x) eqn:P; [destruct (k_has k x) eqn:K; [destruct (N.eqb_spec (cluster_value x k) (processor_value x p)) as [V|V]|]|].
      + destruct (IH k k' HN E) as (I1 & I2 & I3). split; [|split].
        * intros a [->|Ha]; [auto|now apply I1].
        * intros a. rewrite I2. destruct (in_dec attribute_dec a l) as [il|il], (in_dec attribute_dec a (x :: l)) as [i|i]; auto.
          -- exfalso. apply i. now right.
          -- destruct i as [->|]; [rewrite K; reflexivity|contradiction].
        * intros a. rewrite I3. destruct (in_dec attribute_dec a l) as [il|il], (in_dec attribute_dec a (x :: l)) as [i|i]; auto.
          -- exfalso. apply i. now right.
          -- destruct i as [->|]; [rewrite K; cbn [andb negb]; rewrite ?andb_false_r; reflexivity|contradiction].
      + rewrite NN in E. discriminate.
      + destruct (IH _ k' HN E) as (I1 & I2 & I3). split; [|split].
        * intros a [->|Ha] Hp Hk; [congruence|]. specialize (I1 a Ha Hp). rewrite learn_has, learn_value in I1.
          destruct (attribute_dec a x) as [->|]; [contradiction|auto].
        * intros a. rewrite I2, learn_has. destruct (attribute_dec a x) as [->|N].
          -- destruct (in_dec attribute_dec x (x :: l)) as [i|i]; [rewrite P, orb_true_r; reflexivity|exfalso; apply i; now left].
          -- destruct (in_dec attribute_dec a l) as [il|il], (in_dec attribute_dec a (x :: l)) as [i|i]; auto.
             ++ exfalso. apply i. now right.
             ++ destruct i; [congruence|contradiction].
        * intros a. rewrite I3, learn_has, learn_value. destruct (attribute_dec a x) as [->|N].
          -- destruct (in_dec attribute_dec x (x :: l)) as [i|i]; [rewrite P, K; cbn [andb negb]; rewrite ?andb_false_r; reflexivity|exfalso; apply i; now left].
          -- destruct (in_dec attribute_dec a l) as [il|il], (in_dec attribute_dec a (x :: l)) as [i|i]; auto.
             ++ exfalso. apply i. now right.
             ++ destruct i; [congruence|contradiction].
      + destruct (IH k k' HN E) as (I1 & I2 & I3). split; [|split].
        * intros a [->|Ha]; [congruence|now apply I1].
        * intros a. rewrite I2. destruct (in_dec attribute_dec a l) as [il|il], (in_dec attribute_dec a (x :: l)) as [i|i]; auto.
          -- exfalso. apply i. now right.
          -- destruct i as [->|]; [rewrite P; reflexivity|contradiction].
        * intros a. rewrite I3. destruct (in_dec attribute_dec a l) as [il|il], (in_dec attribute_dec a (x :: l)) as [i|i]; auto.
          -- exfalso. apply i. now right.
          -- destruct i as [->|]; [rewrite P; reflexivity|contradiction]. }
  assert (ND : NoDup attributes) by (repeat constructor; cbn; intuition discriminate).
  assert (AL : forall a, In a attributes) by (intros []; cbn; tauto).
  destruct (G _ _ _ ND E) as (G1 & G2 & G3). split; [intros a; apply G1, AL|]. split; intros a.
  - rewrite G2. now destruct (in_dec attribute_dec a attributes) as [|n]; [|specialize (n (AL a))].
  - rewrite G3. now destruct (in_dec attribute_dec a attributes) as [|n]; [|specialize (n (AL a))].
Qed.
Lemma check_none p k : check_processor p k = None ->
  exists a, p_has p a = true /\ k_has k a = true /\ cluster_value a k <> processor_value a p.
Proof.
  unfold check_processor. intros E.
  assert (G : forall l k0, NoDup l -> fold_left (check_attribute p) l (Some k0) = None ->
    exists a, In a l /\ p_has p a = true /\ k_has k0 a = true /\ cluster_value a k0 <> processor_value a p).
  { clear k E. induction l as [|x l IH]; intros k HN E; cbn [fold_left] in E; [discriminate|].
    apply NoDup_cons_iff in HN. destruct HN as (Hx & HN). unfold check_attribute at 2 in E. fold (p_has p x) in E. fold (k_has k x) in E.
    destruct (p_has p x) eqn:P; [destruct (k_has k x) eqn:K; [destruct (N.eqb_spec (cluster_value x k) (processor_value x p)) as [V|V]|]|].
    - destruct (IH k HN E) as (a & H1 & H2). exists a. split; [now right|exact H2].
    - exists x. split; [now left|]. auto.
    - destruct (IH _ HN E) as (a & H1 & H2 & H3 & H4). assert (N : a <> x) by (intros ->; contradiction).
      rewrite learn_has in H3. rewrite learn_value in H4. destruct (attribute_dec a x); [contradiction|]. exists a. split; [now right|]. auto.
    - destruct (IH k HN E) as (a & H1 & H2). exists a. split; [now right|exact H2]. }
  assert (ND : NoDup attributes) by (repeat constructor; cbn; intuition discriminate).
  destruct (G _ _ ND E) as (a & _ & H). now exists a.
Qed.
Lemma start_spec p old : (forall a, k_has (start_known p old) a = p_has p a) /\
  (forall a, p_has p a = true -> cluster_value a (start_known p old) = processor_value a p).
Proof.
  unfold start_known.
  assert (G : forall l k0, (forall a, k_has (fold_left (learn_if_known p) l k0) a = k_has k0 a || ((if in_dec attribute_dec a l then true else false) && p_has p a)) /\
    (forall a, p_has p a = true -> In a l \/ cluster_value a k0 = processor_value a p -> cluster_value a (fold_left (learn_if_known p) l k0) = processor_value a p)).
  { induction l as [|x l IH]; intros k; cbn [fold_left].
    - split; [intros a; cbn; now rewrite orb_false_r|]. intros a _ [[]|H]; exact H.
    - destruct (IH (learn_if_known p k x)) as (I1 & I2). unfold learn_if_known in I1, I2 |- *. fold (p_has p x) in I1, I2 |- *.
      destruct (p_has p x) eqn:P; split.
      + intros a. rewrite I1, learn_has. destruct (attribute_dec a x) as [->|N].
        * destruct (in_dec attribute_dec x (x :: l)) as [i|i]; [rewrite P, orb_true_r; reflexivity|exfalso; apply i; now left].
        * destruct (in_dec attribute_dec a l) as [il|il], (in_dec attribute_dec a (x :: l)) as [i|i]; auto.
          -- exfalso. apply i. now right.
          -- destruct i; [congruence|contradiction].
      + intros a Ha Hi. apply I2; [exact Ha|]. rewrite learn_value. destruct (attribute_dec a x) as [->|N]; [now right|].
        destruct Hi as [[->|Hi]|Hi]; [congruence|now left|now right].
      + intros a. rewrite I1. destruct (in_dec attribute_dec a l) as [il|il], (in_dec attribute_dec a (x :: l)) as [i|i]; auto.
        * exfalso. apply i. now right.
        * destruct i as [->|]; [rewrite P; reflexivity|contradiction].
      + intros a Ha Hi. apply I2; [exact Ha|]. destruct Hi as [[->|Hi]|Hi]; [congruence|now left|now right]. }
  assert (AL : forall a, In a attributes) by (intros []; cbn; tauto).
  destruct (G attributes (Known 0 (k_midr old) (k_max old) (k_min old))) as (G1 & G2). split.
  - intros a. rewrite G1. destruct (in_dec attribute_dec a attributes) as [|n]; [reflexivity|specialize (n (AL a)); contradiction].
  - intros a Ha. apply G2; [exact Ha|left; apply AL].
Qed.

(** What is recorded about the processors [ms]. *)
Definition summarises (k : known) (ms : aproc -> Prop) : Prop :=
  (forall a, k_has k a = true <-> exists m, ms m /\ p_has m a = true) /\
  (forall m a, ms m -> p_has m a = true -> cluster_value a k = processor_value a m).

Lemma summary_fits k ms p k' : summarises k ms -> check_processor p k = Some k' ->
  summarises k' (fun m => ms m \/ m = p) /\ forall m, ms m -> compatible m p.
Proof.
  intros (S1 & S2) E. apply check_some in E. destruct E as (C1 & C2 & C3). split.
  - split.
    + intros a. rewrite C2, orb_true_iff, S1. split.
      * intros [(m & Hm & H)|H]; [exists m; auto|exists p; auto].
      * intros (m & [Hm| ->] & H); [left; exists m; auto|now right].
    + intros m a Hm H. rewrite C3. destruct (k_has k a) eqn:K.
      * rewrite andb_false_r. destruct Hm as [Hm| ->]; [now apply S2|now apply C1].
      * destruct Hm as [Hm| ->].
        -- exfalso. assert (X : k_has k a = true) by (apply S1; now exists m). congruence.
        -- now rewrite H.
  - intros m Hm a H1 H2. apply p_has_knows in H1, H2. apply value_attribute. rewrite <- (S2 m a Hm H1).
    apply C1; [exact H2|]. apply S1. now exists m.
Qed.
Lemma summary_differs k ms p : summarises k ms -> check_processor p k = None -> exists m, ms m /\ ~ compatible m p.
Proof.
  intros (S1 & S2) E. apply check_none in E. destruct E as (a & H1 & H2 & H3). apply S1 in H2. destruct H2 as (m & Hm & H2).
  exists m. split; [exact Hm|]. intros C. apply H3. rewrite (S2 m a Hm H2). apply value_attribute, C; now apply p_has_knows.
Qed.
Lemma summary_start p old : summarises (start_known p old) (fun m => m = p).
Proof.
  destruct (start_spec p old) as (S1 & S2). split.
  - intros a. rewrite S1. split; [intros H; now exists p|intros (m & -> & H); exact H].
  - intros m a -> H. now apply S2.
Qed.
Lemma summary_ext k ms ms' : (forall m, ms m <-> ms' m) -> summarises k ms -> summarises k ms'.
Proof.
  intros H (S1 & S2). split.
  - intros a. rewrite S1. split; intros (m & Hm & X); exists m; split; auto; now apply H.
  - intros m a Hm. apply S2. now apply H.
Qed.
Lemma summary_nothing m x y : summarises (Known 0 m x y) (fun _ => False).
Proof.
  split.
  - intros a. unfold k_has, any_flag. cbn [k_flags]. rewrite N.land_0_l. split; [discriminate|intros (? & [] & _)].
  - intros ? ? [].
Qed.
Lemma compatible_sym p q : compatible p q -> compatible q p.
Proof. intros H a H1 H2. symmetry. now apply H. Qed.
Lemma compatible_refl p : compatible p p.
Proof. now intros a. Qed.

(** ** The scan *)

(** The table of the scan: [L] tells the leader of the processors it places. *)
Record scanned (ps : list aproc) (k : nat) (qs : list aproc) : Prop := {
  sc_length : length qs = length ps;
  sc_kept : forall j, k <= j \/ ~ unplaced ps j -> entry qs j = entry ps j;
  sc_placed : forall j, j < k -> unplaced ps j -> exists l, entry qs j = add_aflag af_cluster (with_aleader l (entry ps j));
  sc_leads : forall j, j < k -> unplaced ps j -> leader qs j <= j /\ unplaced ps (leader qs j) /\ leader qs (leader qs j) = leader qs j;
  sc_fit : forall i j, i < k -> j < k -> unplaced ps i -> unplaced ps j -> leader qs i = leader qs j ->
    compatible (entry ps i) (entry ps j);
  sc_next : forall i j, j < k -> unplaced ps j -> previous_unplaced ps i j -> leader qs j = leader qs i \/
    (leader qs j = j /\ exists m, m < j /\ unplaced ps m /\ leader qs m = leader qs i /\ ~ compatible (entry ps m) (entry ps j))
}.
Definition scan_ready (ps : list aproc) (k : nat) (s : scan) : Prop :=
  scanned ps k (s_procs s) /\
  if s_processors s =? 0 then forall j, j < k -> ~ unplaced ps j
  else s_start s < k /\ unplaced ps (s_start s) /\ leader (s_procs s) (s_start s) = s_start s /\
       (forall i, previous_unplaced ps i k -> leader (s_procs s) i = s_start s) /\
       summarises (s_known s) (fun m => exists j, j < k /\ unplaced ps j /\ leader (s_procs s) j = s_start s /\ m = entry ps j).

Lemma unplaced_flags p : (N.land (a_flags p) (N.lor af_valid af_cluster) =? af_valid)%N = true <-> a_valid p = true /\ clustered p = false.
Proof. rewrite to_scan, andb_true_iff, negb_true_iff. reflexivity. Qed.
Lemma unplaced_dec ps i : {unplaced ps i} + {~ unplaced ps i}.
Proof.
  unfold unplaced, usable. destruct (a_valid (entry ps i)), (clustered (entry ps i)); (left; now split) || (right; intros (? & ?); congruence).
Qed.
Lemma previous_skip ps i k : ~ unplaced ps k -> previous_unplaced ps i (S k) -> previous_unplaced ps i k.
Proof.
  intros H (P1 & P2 & P3). assert (i <> k) by (intros ->; contradiction). split; [exact P1|]. split; [lia|]. intros m Hm. apply P3. lia.
Qed.
Lemma previous_self ps i k : unplaced ps k -> previous_unplaced ps i (S k) -> i = k.
Proof.
  intros H (P1 & P2 & P3). destruct (Nat.eq_dec i k); [auto|]. exfalso. apply (P3 k); [lia|exact H].
Qed.

(** Placing [k] under [l]: either an older cluster of compatible processors or a
    cluster of its own. *)
Lemma scanned_place ps k qs l : scanned ps k qs -> unplaced ps k ->
  (l = k \/ l < k /\ unplaced ps l /\ leader qs l = l) ->
  (forall i, i < k -> unplaced ps i -> leader qs i = l -> compatible (entry ps i) (entry ps k)) ->
  (forall i, previous_unplaced ps i k -> l = leader qs i \/
     (l = k /\ exists m, m < k /\ unplaced ps m /\ leader qs m = leader qs i /\ ~ compatible (entry ps m) (entry ps k))) ->
  scanned ps (S k) (upd qs k (add_aflag af_cluster (with_aleader l (entry ps k)))).
Proof.
  intros SC Hk Hl Hc Hn. assert (KL : k < length qs) by (rewrite (sc_length _ _ _ SC); apply (usable_lt ps), Hk).
  set (rs := upd qs k _).
  assert (E : forall j, entry rs j = if j =? k then add_aflag af_cluster (with_aleader l (entry ps k)) else entry qs j) by (intros j; now apply entry_upd).
  assert (EL : forall j, leader rs j = if j =? k then l else leader qs j) by (intros j; unfold leader; rewrite E; now destruct (j =? k)).
  assert (LK : forall j, j < k -> unplaced ps j -> leader qs j <> k).
  { intros j Hj Hu. destruct (sc_leads _ _ _ SC j Hj Hu). lia. }
  constructor.
  - unfold rs. rewrite upd_length. apply (sc_length _ _ _ SC).
  - intros j Hj. rewrite E. destruct (Nat.eqb_spec j k) as [->|N]; [destruct Hj; [lia|contradiction]|].
    apply (sc_kept _ _ _ SC). destruct Hj; [left; lia|now right].
  - intros j Hj Hu. rewrite E. destruct (Nat.eqb_spec j k) as [->|N]; [now exists l|]. apply (sc_placed _ _ _ SC); [lia|exact Hu].
  - intros j Hj Hu. rewrite (EL j). destruct (Nat.eqb_spec j k) as [->|N].
    + rewrite EL. destruct Hl as [->|(H1 & H2 & H3)].
      * rewrite Nat.eqb_refl. auto.
      * destruct (Nat.eqb_spec l k); [lia|]. split; [lia|]. auto.
    + assert (Hj' : j < k) by lia. destruct (sc_leads _ _ _ SC j Hj' Hu) as (H1 & H2 & H3). rewrite EL.
      destruct (Nat.eqb_spec (leader qs j) k); [lia|]. auto.
  - intros i j Hi Hj Hui Huj. rewrite !EL. destruct (Nat.eqb_spec i k) as [->|Ni], (Nat.eqb_spec j k) as [->|Nj]; intros X.
    + apply compatible_refl.
    + apply compatible_sym, Hc; [lia|exact Huj|congruence].
    + apply Hc; [lia|exact Hui|congruence].
    + apply (sc_fit _ _ _ SC); auto; lia.
  - intros i j Hj Hu HP. assert (HP' := HP). destruct HP' as (P1 & P2 & P3). rewrite (EL j). destruct (Nat.eqb_spec j k) as [->|Nj].
    + rewrite (EL i). destruct (Nat.eqb_spec i k); [lia|]. destruct (Hn i HP) as [H|(H & m & M1 & M2 & M3 & M4)]; [now left|]. right.
      split; [exact H|]. exists m. rewrite EL. destruct (Nat.eqb_spec m k); [lia|]. auto.
    + rewrite (EL i). destruct (Nat.eqb_spec i k); [lia|].
      destruct (sc_next _ _ _ SC i j ltac:(lia) Hu HP) as [H|(H & m & M1 & M2 & M3 & M4)]; [now left|]. right.
      split; [exact H|]. exists m. rewrite EL. destruct (Nat.eqb_spec m k); [lia|]. auto.
Qed.

Lemma scan_step_ready ps k s : k < length ps -> scan_ready ps k s -> exists s', scan_step k s = Ok s' /\ scan_ready ps (S k) s'.
Proof.
  intros HK (SC & HS). set (qs := s_procs s) in *.
  assert (KL : k < length qs) by (rewrite (sc_length _ _ _ SC); exact HK).
  unfold scan_step. fold qs. rewrite rd_entry by exact KL. cbn [bind].
  rewrite (sc_kept _ _ _ SC k) by (left; lia).
  destruct (N.land (a_flags (entry ps k)) (N.lor af_valid af_cluster) =? af_valid)%N eqn:U; cbn [negb].
  - apply unplaced_flags in U. assert (Hk : unplaced ps k) by exact U. clear U.
    destruct (if s_processors s =? 0 then None else check_processor (entry ps k) (s_known s)) as [k'|] eqn:C.
    + destruct (Nat.eqb_spec (s_processors s) 0) as [|Z]; [discriminate|]. destruct HS as (H1 & H2 & H3 & H4 & H5).
      rewrite wr_ok by exact KL. cbn [bind]. eexists. split; [reflexivity|].
      destruct (summary_fits _ _ _ _ H5 C) as (S1 & S2).
      assert (NEW : scanned ps (S k) (upd qs k (add_aflag af_cluster (with_aleader (s_start s) (entry ps k))))).
      { apply scanned_place; auto.
        - intros i Hi Hu He. apply S2. exists i. auto.
        - intros i Hp. left. symmetry. now apply H4. }
      split; [exact NEW|]. cbn [s_processors s_start s_procs s_known].
      assert (EL : forall j, leader (upd qs k (add_aflag af_cluster (with_aleader (s_start s) (entry ps k)))) j = if j =? k then s_start s else leader qs j).
      { intros j. unfold leader. rewrite entry_upd by exact KL. now destruct (j =? k). }
      split; [lia|]. split; [exact H2|]. split; [rewrite EL; destruct (Nat.eqb_spec (s_start s) k); [reflexivity|exact H3]|]. split.
      * intros i Hp. apply (previous_self _ _ _ Hk) in Hp. subst i. now rewrite EL, Nat.eqb_refl.
      * refine (summary_ext _ _ _ _ S1). intros m. split.
        -- intros [(j & J1 & J2 & J3 & J4)| ->].
           ++ exists j. rewrite EL. destruct (Nat.eqb_spec j k); [lia|]. auto.
           ++ exists k. rewrite EL, Nat.eqb_refl. auto.
        -- intros (j & J1 & J2 & J3 & J4). rewrite EL in J3. destruct (Nat.eqb_spec j k) as [->|]; [now right|]. left. exists j. split; [lia|]. auto.
    + rewrite wr_ok by exact KL. cbn [bind]. eexists. split; [reflexivity|].
      assert (NEW : scanned ps (S k) (upd qs k (add_aflag af_cluster (with_aleader k (entry ps k))))).
      { apply scanned_place; auto.
        - intros i Hi Hu He. destruct (sc_leads _ _ _ SC i Hi Hu). lia.
        - intros i Hp. destruct (Nat.eqb_spec (s_processors s) 0) as [Z|Z].
          + destruct Hp as (P1 & P2 & _). exfalso. exact (HS i P2 P1).
          + destruct HS as (H1 & H2 & H3 & H4 & H5). right. split; [reflexivity|].
            destruct (summary_differs _ _ _ H5 C) as (m & (j & J1 & J2 & J3 & ->) & M). exists j. rewrite (H4 i Hp). auto. }
      split; [exact NEW|]. cbn [s_processors s_start s_procs s_known].
      assert (EL : forall j, leader (upd qs k (add_aflag af_cluster (with_aleader k (entry ps k)))) j = if j =? k then k else leader qs j).
      { intros j. unfold leader. rewrite entry_upd by exact KL. now destruct (j =? k). }
      change (1 =? 0) with false. cbv iota.
      split; [lia|]. split; [exact Hk|]. split; [now rewrite EL, Nat.eqb_refl|]. split.
      * intros i Hp. apply (previous_self _ _ _ Hk) in Hp. subst i. now rewrite EL, Nat.eqb_refl.
      * refine (summary_ext _ _ _ _ (summary_start (entry ps k) (s_known s))). intros m. split.
        -- intros ->. exists k. rewrite EL, Nat.eqb_refl. auto.
        -- intros (j & J1 & J2 & J3 & ->). rewrite EL in J3. destruct (Nat.eqb_spec j k) as [->|]; [reflexivity|].
           exfalso. destruct (sc_leads _ _ _ SC j ltac:(lia) J2). lia.
  - assert (Hk : ~ unplaced ps k) by (intros X; apply unplaced_flags in X; congruence).
    eexists. split; [reflexivity|]. split.
    + destruct SC as [C1 C2 C3 C4 C5 C6]. fold qs.
      assert (LT : forall j, j < S k -> unplaced ps j -> j < k) by (intros j Hj Hu; assert (j <> k) by (intros ->; contradiction); lia).
      constructor; auto.
      * intros j [Hj|Hj]; apply C2; [left; lia|now right].
    + destruct (s_processors s =? 0).
      * intros j Hj Hu. apply (HS j); [|exact Hu]. assert (j <> k) by (intros ->; contradiction). lia.
      * destruct HS as (H1 & H2 & H3 & H4 & H5). split; [lia|]. split; [exact H2|]. split; [exact H3|]. split.
        -- intros i Hp. apply H4, previous_skip; auto.
        -- refine (summary_ext _ _ _ _ H5). intros m. split.
           ++ intros (j & J1 & J2). exists j. split; [lia|exact J2].
           ++ intros (j & J1 & J2 & J3). exists j. split; [|now split]. assert (j <> k) by (intros ->; contradiction). lia.
Qed.

Lemma scan_all garbage ps : exists qs, clusters_by_scan garbage ps = Ok qs /\ scanned ps (length ps) qs.
Proof.
  destruct (for_each_inv scan_step (scan_ready ps) (length ps) 0 (Scan 0 0 (Known 0 (k_midr garbage) (k_max garbage) (k_min garbage)) ps))
    as (s & E & SC & _).
  - split; [|cbn; intros; lia]. cbn [s_procs]. constructor; auto; intros; lia.
  - intros k s Hk HS. apply scan_step_ready; [lia|exact HS].
  - unfold clusters_by_scan. rewrite E. cbn [bind]. now exists (s_procs s).
Qed.
Lemma scanned_changed ps qs : scanned ps (length ps) qs -> only_leaders_changed ps qs.
Proof.
  intros SC. split; [apply (sc_length _ _ _ SC)|]. intros i. destruct (unplaced_dec ps i) as [U|U].
  - destruct (sc_placed _ _ _ SC i) as (l & ->); auto using oc_mark_leader. apply (usable_lt ps), U.
  - rewrite (sc_kept _ _ _ SC) by now right. apply oc_refl.
Qed.
Lemma scanned_ok ps qs : kernel_grouped ps -> scanned ps (length ps) qs -> clusters_ok qs.
Proof.
  intros KG SC i Hi. pose proof (scanned_changed _ _ SC) as F. apply (occ_usable _ _ _ F) in Hi.
  destruct (unplaced_dec ps i) as [U|U].
  - destruct (sc_leads _ _ _ SC i (usable_lt _ _ Hi) U) as (H1 & (H2 & _) & H3). split; [exact H1|]. split; [now apply (occ_usable _ _ _ F)|exact H3].
  - assert (C : clustered (entry ps i) = true) by (destruct (clustered (entry ps i)) eqn:C; [reflexivity|exfalso; apply U; now split]).
    assert (E : leader qs i = leader ps i) by (unfold leader; now rewrite (sc_kept _ _ _ SC i) by now right).
    rewrite E. specialize (KG i Hi). rewrite C in KG. destruct KG as (G1 & G2 & G3 & G4). split; [exact G1|].
    split; [now apply (occ_usable _ _ _ F)|].
    unfold leader at 1. rewrite (sc_kept _ _ _ SC); [exact G4|]. right. intros (_ & X). congruence.
Qed.

(** The uninitialised variables do not matter. *)
Definition same_known (k k' : known) : Prop :=
  forall a, k_has k a = k_has k' a /\ (k_has k a = true -> cluster_value a k = cluster_value a k').
Lemma same_check p k k' : same_known k k' ->
  match check_processor p k, check_processor p k' with
  | Some r, Some r' => same_known r r'
  | None, None => True
  | _, _ => False
  end.
Proof.
  intros H. destruct (check_processor p k) as [r|] eqn:E, (check_processor p k') as [r'|] eqn:E'; auto.
  - apply check_some in E, E'. destruct E as (_ & E1 & E2), E' as (_ & E1' & E2'). intros a. destruct (H a) as (H1 & H2).
    rewrite E1, E1', E2, E2', H1. split; [reflexivity|]. intros HA. rewrite H1 in H2.
    destruct (k_has k' a); cbn [orb negb] in *; [rewrite !andb_false_r; auto|]. now rewrite HA.
  - apply check_some in E. apply check_none in E'. destruct E as (E & _ & _), E' as (a & H1 & H2 & H3). destruct (H a) as (A1 & A2).
    rewrite <- A1 in H2. rewrite <- (A2 H2) in H3. now apply H3, E.
  - apply check_none in E. apply check_some in E'. destruct E' as (E' & _ & _), E as (a & H1 & H2 & H3). destruct (H a) as (A1 & A2).
    rewrite (A2 H2) in H3. rewrite A1 in H2. now apply H3, E'.
Qed.
Lemma same_start p k k' : same_known (start_known p k) (start_known p k').
Proof.
  intros a. destruct (start_spec p k) as (S1 & S2), (start_spec p k') as (S1' & S2'). rewrite S1, S1'. split; [reflexivity|].
  intros H. now rewrite S2, S2' by exact H.
Qed.
Lemma same_nothing k k' : same_known (Known 0 (k_midr k) (k_max k) (k_min k)) (Known 0 (k_midr k') (k_max k') (k_min k')).
Proof. intros a. split; [reflexivity|]. unfold k_has, any_flag. cbn [k_flags]. rewrite N.land_0_l. discriminate. Qed.

(** Two loops in step. *)
Lemma for_each_related {A B} (R : A -> B -> Prop) f g : (forall i s t, R s t ->
    match f i s, g i t with Ok s', Ok t' => R s' t' | UB, UB => True | Hang, Hang => True | _, _ => False end) ->
  forall n from s t, R s t ->
    match for_each f from n s, for_each g from n t with Ok s', Ok t' => R s' t' | UB, UB => True | Hang, Hang => True | _, _ => False end.
Proof.
  intros H. induction n as [|n IH]; intros from s t HR; cbn [for_each]; [exact HR|].
  specialize (H from s t HR). destruct (f from s), (g from t); cbn [bind]; try exact I; try contradiction. now apply IH.
Qed.

Definition same_scan (s t : scan) : Prop :=
  s_processors s = s_processors t /\ s_start s = s_start t /\ s_procs s = s_procs t /\ same_known (s_known s) (s_known t).
Lemma scan_ignores_old_values g g' ps : clusters_by_scan g ps = clusters_by_scan g' ps.
Proof.
  unfold clusters_by_scan.
  pose proof (for_each_related same_scan scan_step scan_step) as H.
  assert (ST : forall i s t, same_scan s t ->
    match scan_step i s, scan_step i t with Ok s', Ok t' => same_scan s' t' | UB, UB => True | Hang, Hang => True | _, _ => False end).
  { intros i s t (S1 & S2 & S3 & S4). unfold scan_step. rewrite <- S3, <- S1, <- S2.
    destruct (rd (s_procs s) i) as [p| |]; cbn [bind]; auto. destruct (negb _); [now split|].
    destruct (s_processors s =? 0).
    - destruct (wr _ _ _); cbn [bind]; auto. split; [reflexivity|]. split; [reflexivity|]. split; [reflexivity|]. apply same_start.
    - pose proof (same_check p _ _ S4) as C. destruct (check_processor p (s_known s)), (check_processor p (s_known t)); try contradiction;
        destruct (wr _ _ _); cbn [bind]; auto; (split; [reflexivity|]); (split; [reflexivity|]); (split; [reflexivity|]); [exact C|apply same_start]. }
  specialize (H ST (length ps) 0 (Scan 0 0 (Known 0 (k_midr g) (k_max g) (k_min g)) ps) (Scan 0 0 (Known 0 (k_midr g') (k_max g') (k_min g')) ps)).
  destruct (for_each scan_step 0 (length ps) (Scan 0 0 (Known 0 (k_midr g) (k_max g) (k_min g)) ps)),
    (for_each scan_step 0 (length ps) (Scan 0 0 (Known 0 (k_midr g') (k_max g') (k_min g')) ps));
    cbn [bind]; try reflexivity; specialize (H ltac:(split; [reflexivity|]; split; [reflexivity|]; split; [reflexivity|apply same_nothing])); try contradiction.
  destruct H as (_ & _ & -> & _). reflexivity.
Qed.

(** ** The heuristic *)
Lemma usable_below_S ps k : usable_below ps (S k) = usable_below ps k + if a_valid (entry ps k) then 1 else 0.
Proof. unfold usable_below. rewrite seq_S, filter_app, app_length. cbn [plus filter]. now destruct (a_valid (entry ps k)). Qed.
Lemma usable_below_le ps k : k <= length ps -> usable_below ps k <= usable_count ps.
Proof.
  intros H. unfold usable_count, usable_below. replace (length ps) with (k + (length ps - k)) by lia.
  rewrite seq_app, filter_app, app_length. lia.
Qed.
Lemma layout_spec arm32 valid layout : cluster_layout arm32 valid = Some layout -> list_sum layout = valid /\ Forall (fun n => 1 <= n) layout.
Proof.
  unfold cluster_layout. destruct (Nat.eqb_spec valid 10) as [->|]; [intros E; injection E as <-; split; [reflexivity|repeat constructor]|].
  destruct (Nat.eqb_spec valid 8) as [->|]; [intros E; injection E as <-; split; [reflexivity|repeat constructor]|].
  destruct (Nat.eqb_spec valid 6) as [->|]; [intros E; injection E as <-; split; [reflexivity|repeat constructor]|].
  destruct arm32; cbn [andb]; [|discriminate].
  destruct (Nat.eqb_spec valid 5) as [->|]; [intros E; injection E as <-; split; [reflexivity|repeat constructor]|discriminate].
Qed.
Lemma firstn_S_sum layout k n : nth_error layout k = Some n -> list_sum (firstn (S k) layout) = list_sum (firstn k layout) + n.
Proof.
  revert k. induction layout as [|x l IH]; intros [|k] E; try discriminate.
  - injection E as ->. cbn. lia.
  - change (x + list_sum (firstn (S k) l) = x + list_sum (firstn k l) + n). rewrite (IH k E). lia.
Qed.


(** The members of the cluster that starts at [st], other than the first. *)
Definition follower (ps qs : list aproc) (k st : nat) (m : aproc) : Prop :=
  exists j, j < k /\ j <> st /\ unplaced ps j /\ leader qs j = st /\ m = entry ps j.

Record hplaced (layout : list nat) (ps : list aproc) (k : nat) (qs : list aproc) : Prop := {
  hp_changed : only_leaders_changed ps qs;
  hp_kept : forall j, k <= j \/ ~ usable ps j -> entry qs j = entry ps j;
  hp_ok : forall j, j < k -> usable ps j -> leader qs j <= j /\ usable ps (leader qs j) /\ leader qs (leader qs j) = leader qs j;
  hp_kernel : forall j, j < k -> usable ps j -> clustered (entry ps j) = true -> leader qs j = leader ps j;
  hp_apart : forall j, j < k -> unplaced ps j -> unplaced ps (leader qs j);
  hp_fit : forall i j, i < k -> j < k -> unplaced ps i -> unplaced ps j -> leader qs i = leader qs j -> i <> leader qs i -> j <> leader qs j ->
    compatible (entry ps i) (entry ps j);
  hp_dealt : forall j, j < k -> usable ps j -> dealt layout ps (leader qs j) j
}.
Definition hready (layout : list nat) (ps : list aproc) (k : nat) (h : hscan) (s : assign) : Prop :=
  as_cluster s = h_cluster h /\ as_expected s = h_expected h /\ hplaced layout ps k (as_procs s) /\
  usable_below ps k + h_expected h = list_sum (firstn (h_cluster h) layout) /\
  if h_expected h =? 0 then True
  else as_start s = h_start h /\ h_start h < k /\ usable ps (h_start h) /\ leader (as_procs s) (h_start h) = h_start h /\
       h_exists h = clustered (entry ps (h_start h)) /\
       (exists c n, h_cluster h = S c /\ nth_error layout c = Some n /\ usable_below ps (h_start h) = list_sum (firstn c layout)) /\
       (h_exists h = false -> summarises (h_known h) (follower ps (as_procs s) k (h_start h))).

Lemma hplaced_skip layout ps k qs : hplaced layout ps k qs -> ~ usable ps k -> hplaced layout ps (S k) qs.
Proof.
  intros [F1 F2 F3 F4 F5 F6 F7] Hk.
  assert (LT : forall j, j < S k -> usable ps j -> j < k) by (intros j Hj Hu; assert (j <> k) by (intros ->; contradiction); lia).
  constructor; auto.
  - intros j [Hj|Hj]; apply F2; [left; lia|now right].
  - intros j Hj Hu. apply F5; [apply LT; [exact Hj|apply Hu]|exact Hu].
  - intros i j Hi Hj Hu Hv. apply F6; auto; apply LT; auto; [apply Hu|apply Hv].
Qed.

(** A processor that starts a cluster. *)
Lemma hplaced_start layout ps k qs : hplaced layout ps k qs -> usable ps k -> leader ps k = k -> dealt layout ps k k -> hplaced layout ps (S k) qs.
Proof.
  intros [F1 F2 F3 F4 F5 F6 F7] Hk HL HD.
  assert (EK : entry qs k = entry ps k) by (apply F2; left; lia).
  assert (LK : leader qs k = k) by (unfold leader; rewrite EK; exact HL).
  constructor; auto.
  - intros j [Hj|Hj]; apply F2; [left; lia|now right].
  - intros j Hj Hu. destruct (Nat.eq_dec j k) as [->|]; [rewrite !LK; auto|apply F3; [lia|exact Hu]].
  - intros j Hj Hu HC. destruct (Nat.eq_dec j k) as [->|]; [congruence|apply F4; auto; lia].
  - intros j Hj Hu. destruct (Nat.eq_dec j k) as [->|]; [now rewrite LK|apply F5; auto; lia].
  - intros i j Hi Hj Hu Hv X Y Z. destruct (Nat.eq_dec i k) as [->|]; [congruence|]. destruct (Nat.eq_dec j k) as [->|]; [congruence|].
    apply F6; auto; lia.
  - intros j Hj Hu. destruct (Nat.eq_dec j k) as [->|]; [now rewrite LK|apply F7; auto; lia].
Qed.

(** A processor that follows. *)
Lemma hplaced_follow layout ps k qs st : dealt layout ps st k -> hplaced layout ps k qs -> usable ps k -> st < k -> usable ps st -> leader qs st = st ->
  (clustered (entry ps k) = true -> leader ps k = st) ->
  (unplaced ps k -> unplaced ps st /\ forall j, j < k -> unplaced ps j -> leader qs j = st -> j <> st -> compatible (entry ps j) (entry ps k)) ->
  hplaced layout ps (S k) (upd qs k (add_aflag af_cluster (with_aleader st (entry ps k)))).
Proof.
  intros HD [F1 F2 F3 F4 F5 F6 F7] Hk Hst Hu Hs HC HU. assert (KL : k < length qs) by (rewrite (proj1 F1); now apply usable_lt).
  set (rs := upd qs k _).
  assert (E : forall j, entry rs j = if j =? k then add_aflag af_cluster (with_aleader st (entry ps k)) else entry qs j) by (intros j; now apply entry_upd).
  assert (EL : forall j, leader rs j = if j =? k then st else leader qs j) by (intros j; unfold leader; rewrite E; now destruct (j =? k)).
  constructor.
  - eapply occ_trans; [exact F1|]. apply occ_upd; [exact KL|]. rewrite F2 by (left; lia). apply oc_mark_leader.
  - intros j Hj. rewrite E. destruct (Nat.eqb_spec j k) as [->|]; [destruct Hj; [lia|contradiction]|]. apply F2. destruct Hj; [left; lia|now right].
  - intros j Hj Huj. rewrite (EL j). destruct (Nat.eqb_spec j k) as [->|N].
    + rewrite EL. destruct (Nat.eqb_spec st k); [lia|]. split; [lia|]. auto.
    + destruct (F3 j ltac:(lia) Huj) as (H1 & H2 & H3). rewrite EL. destruct (Nat.eqb_spec (leader qs j) k); [lia|]. auto.
  - intros j Hj Huj HCj. rewrite EL. destruct (Nat.eqb_spec j k) as [->|N]; [symmetry; auto|]. apply F4; auto; lia.
  - intros j Hj Huj. rewrite EL. destruct (Nat.eqb_spec j k) as [->|N]; [now apply HU|]. apply F5; auto; lia.
  - intros i j Hi Hj Hui Huj. rewrite !EL. destruct (Nat.eqb_spec i k) as [->|Ni], (Nat.eqb_spec j k) as [->|Nj]; intros X Y Z.
    + apply compatible_refl.
    + apply compatible_sym, HU; auto; [lia|congruence].
    + apply HU; auto; lia.
    + apply F6; auto; lia.
  - intros j Hj Huj. rewrite EL. destruct (Nat.eqb_spec j k) as [->|N]; [exact HD|]. apply F7; auto; lia.
Qed.

Lemma heuristic_step layout ps k h s h' : kernel_grouped ps -> Forall (fun n => 1 <= n) layout -> k < length ps -> hready layout ps k h s ->
  heuristic_check_step layout ps k (Some h) = Ok (Some h') ->
  exists s', heuristic_assign_step layout k s = Ok s' /\ hready layout ps (S k) h' s'.
Proof.
  intros KG POS HK (A1 & A2 & HP & A4 & A3) E. pose proof (usable_below_S ps k) as US. assert (KL : k < length (as_procs s)) by (rewrite (proj1 (hp_changed _ _ _ _ HP)); exact HK).
  unfold heuristic_check_step in E. rewrite rd_entry in E by exact HK. cbn [bind] in E.
  unfold heuristic_assign_step. rewrite rd_entry by exact KL. cbn [bind]. rewrite (hp_kept _ _ _ _ HP k) by (left; lia).
  destruct (a_valid (entry ps k)) eqn:V; cbn [negb] in *.
  2:{ injection E as <-. eexists. split; [reflexivity|]. assert (NU : ~ usable ps k) by (unfold usable; congruence).
      split; [exact A1|]. split; [exact A2|]. split; [now apply hplaced_skip|]. split; [lia|]. destruct (h_expected h =? 0); [exact I|].
      destruct A3 as (B1 & B2 & B3 & B4 & B5 & B7 & B6). split; [exact B1|]. split; [lia|]. split; [exact B3|]. split; [exact B4|]. split; [exact B5|]. split; [exact B7|].
      intros X. refine (summary_ext _ _ _ _ (B6 X)). intros m. split.
      - intros (j & J1 & J2). exists j. split; [lia|exact J2].
      - intros (j & J1 & J2 & J3). exists j. assert (j <> k) by (intros ->; apply NU, J3). split; [lia|]. now split. }
  rewrite A2. destruct (Nat.eqb_spec (h_expected h) 0) as [EX|EX].
  - rewrite A1. unfold rd in *. destruct (nth_error layout (h_cluster h)) as [n|] eqn:EN; try discriminate. cbn [bind] in E |- *.
    destruct (clustered (entry ps k) && negb (a_leader (entry ps k) =? k)) eqn:LD; [discriminate|]. injection E as <-.
    assert (LK : leader ps k = k).
    { specialize (KG k V). unfold leader at 1 2 in KG. destruct (clustered (entry ps k)); [|exact KG]. cbn [andb] in LD. apply negb_false_iff, Nat.eqb_eq in LD. exact LD. }
    assert (N1 : 1 <= n) by (rewrite Forall_forall in POS; apply POS; eapply nth_error_In; eauto).
    eexists. split; [reflexivity|]. split; [reflexivity|]. split; [reflexivity|]. cbn [as_procs as_start h_expected h_cluster h_start h_exists h_known].
    split; [apply hplaced_start; auto; exists (h_cluster h), n; split; [exact EN|]; lia|].
    split; [rewrite (firstn_S_sum _ _ _ EN); lia|]. destruct (n - 1 =? 0); [exact I|].
    split; [reflexivity|]. split; [lia|]. split; [exact V|]. split; [unfold leader; rewrite (hp_kept _ _ _ _ HP k) by (left; lia); exact LK|].
    split; [reflexivity|]. split; [exists (h_cluster h), n; split; [reflexivity|]; split; [exact EN|lia]|]. intros C. rewrite C. refine (summary_ext _ _ _ _ (summary_nothing _ _ _)). intros m. split; [intros []|].
    intros (j & J1 & J2 & J3 & J4 & _). assert (j < k) by lia. destruct (hp_ok _ _ _ _ HP j ltac:(lia) (proj1 J3)). lia.
  - destruct A3 as (B1 & B2 & B3 & B4 & B5 & B7 & B6). rewrite B1.
    assert (HD : dealt layout ps (h_start h) k).
    { destruct B7 as (c & n & C1 & C2 & C3). exists c, n. rewrite C1, (firstn_S_sum _ _ _ C2) in A4. split; [exact C2|]. split; [exact C3|].
      assert (usable_below ps (h_start h) <= usable_below ps k).
      { unfold usable_below. replace k with (h_start h + (k - h_start h)) by lia. rewrite seq_app, filter_app, app_length. lia. }
      lia. }
    assert (KEEP : forall P1, hplaced layout ps (S k) (upd (as_procs s) k (add_aflag af_cluster (with_aleader (h_start h) (entry ps k)))) ->
      (h_exists h = false -> clustered (entry ps k) = false /\ summarises P1 (fun m => follower ps (as_procs s) k (h_start h) m \/ m = entry ps k)) ->
      hready layout ps (S k) (HScan (h_cluster h) (h_expected h - 1) (h_exists h) (h_start h) P1)
        (Assign (as_cluster s) (h_expected h - 1) (h_start h) (upd (as_procs s) k (add_aflag af_cluster (with_aleader (h_start h) (entry ps k)))))).
    { intros k1 H1 H2. split; [exact A1|]. split; [reflexivity|]. split; [exact H1|]. split; [cbn [h_expected h_cluster]; lia|]. cbn [h_expected as_start h_start as_procs h_exists h_known].
      destruct (h_expected h - 1 =? 0); [exact I|]. split; [reflexivity|]. split; [lia|]. split; [exact B3|].
      assert (EL : forall j, leader (upd (as_procs s) k (add_aflag af_cluster (with_aleader (h_start h) (entry ps k)))) j = if j =? k then h_start h else leader (as_procs s) j).
      { intros j. unfold leader. rewrite entry_upd by exact KL. now destruct (j =? k). }
      split; [rewrite EL; destruct (Nat.eqb_spec (h_start h) k); [lia|exact B4]|]. split; [exact B5|]. split; [exact B7|].
      intros X. destruct (H2 X) as (H3 & H4). refine (summary_ext _ _ _ _ H4). intros m. split.
      - intros [(j & J1 & J2 & J3 & J4 & J5)| ->].
        + exists j. rewrite EL. destruct (Nat.eqb_spec j k); [lia|]. split; [lia|]. auto.
        + exists k. rewrite EL, Nat.eqb_refl. split; [lia|]. split; [lia|]. split; [now split|]. auto.
      - intros (j & J1 & J2 & J3 & J4 & J5). rewrite EL in J4. destruct (Nat.eqb_spec j k) as [->|]; [now right|]. left. exists j. split; [lia|]. auto. }
    rewrite wr_ok by exact KL. cbn [bind]. eexists. split; [reflexivity|].
    destruct (h_exists h) eqn:HE.
    + destruct (clustered (entry ps k)) eqn:C; cbn [negb] in E; [|discriminate].
      destruct (Nat.eqb_spec (a_leader (entry ps k)) (h_start h)) as [LD|]; cbn [negb] in E; [|discriminate]. injection E as <-.
      apply KEEP; [|discriminate]. apply hplaced_follow; auto. intros (_ & X). congruence.
    + destruct (clustered (entry ps k)) eqn:C; [discriminate|].
      destruct (check_processor (entry ps k) (h_known h)) as [k1|] eqn:CH; [|discriminate]. injection E as <-.
      destruct (summary_fits _ _ _ _ (B6 eq_refl) CH) as (S1 & S2).
      apply KEEP; [|intros _; split; [reflexivity|exact S1]]. apply hplaced_follow; auto; [congruence|]. intros _. split; [split; [exact B3|congruence]|].
      intros j J1 J2 J3 J4. apply S2. exists j. auto.
Qed.

Lemma check_stays_none layout ps : forall n from, for_each (heuristic_check_step layout ps) from n None = Ok None.
Proof. induction n as [|n IH]; intros from; cbn [for_each]; [reflexivity|]. cbn [heuristic_check_step bind]. apply IH. Qed.

Lemma heuristic_loops layout ps h' : kernel_grouped ps -> Forall (fun n => 1 <= n) layout -> forall n from h s, from + n = length ps -> hready layout ps from h s ->
  for_each (heuristic_check_step layout ps) from n (Some h) = Ok (Some h') ->
  exists s', for_each (heuristic_assign_step layout) from n s = Ok s' /\ hready layout ps (length ps) h' s'.
Proof.
  intros KG POS. induction n as [|n IH]; intros from h s HL HR E; cbn [for_each] in E |- *.
  - injection E as <-. exists s. split; [reflexivity|]. now replace (length ps) with from by lia.
  - destruct (heuristic_check_step layout ps from (Some h)) as [[h1|]| |] eqn:E1; try discriminate; cbn [bind] in E.
    + destruct (heuristic_step layout ps from h s h1 KG POS ltac:(lia) HR E1) as (s1 & E2 & HR1). rewrite E2. cbn [bind]. apply (IH _ h1); auto. lia.
    + rewrite check_stays_none in E. discriminate.
Qed.

Lemma hplaced_nothing layout ps : hplaced layout ps 0 ps.
Proof. constructor; auto using occ_refl; intros; lia. Qed.

Lemma heuristic_inv arm32 garbage valid ps ok qs : kernel_grouped ps -> clusters_by_heuristic arm32 garbage valid ps = Ok (ok, qs) ->
  if ok then exists layout, cluster_layout arm32 valid = Some layout /\ hplaced layout ps (length ps) qs else qs = ps.
Proof.
  intros KG. unfold clusters_by_heuristic. destruct (cluster_layout arm32 valid) as [layout|] eqn:EL; [|intros E; injection E as <- <-; reflexivity].
  destruct (for_each (heuristic_check_step layout ps) 0 (length ps) _) as [[h|]| |] eqn:E1; try discriminate; cbn [bind]; intros E.
  - destruct (heuristic_loops layout ps h KG (proj2 (layout_spec _ _ _ EL)) (length ps) 0 (HScan 0 0 false 0 garbage) (Assign 0 0 0 ps) eq_refl) with (2 := E1) as (s & E2 & HR).
    + split; [reflexivity|]. split; [reflexivity|]. split; [apply hplaced_nothing|]. split; [reflexivity|exact I].
    + rewrite E2 in E. cbn [bind] in E. injection E as <- <-. exists layout. split; [reflexivity|apply HR].
  - injection E as <- <-. reflexivity.
Qed.
Lemma hplaced_clusters_ok layout ps qs : hplaced layout ps (length ps) qs -> clusters_ok qs.
Proof.
  intros HP i Hi. pose proof (hp_changed _ _ _ _ HP) as F. apply (occ_usable _ _ _ F) in Hi.
  destruct (hp_ok _ _ _ _ HP i (usable_lt _ _ Hi) Hi) as (H1 & H2 & H3). split; [exact H1|]. split; [now apply (occ_usable _ _ _ F)|exact H3].
Qed.

(** It stays within the layout if no more processors are usable than the layout holds. *)
Lemma heuristic_total arm32 garbage valid ps : kernel_grouped ps -> usable_count ps <= valid ->
  exists ok qs, clusters_by_heuristic arm32 garbage valid ps = Ok (ok, qs).
Proof.
  intros KG HV. unfold clusters_by_heuristic. destruct (cluster_layout arm32 valid) as [layout|] eqn:EL; [|eauto].
  destruct (layout_spec _ _ _ EL) as (SUM & POS).
  destruct (for_each_inv (heuristic_check_step layout ps)
    (fun k s => match s with None => True | Some h => usable_below ps k + h_expected h = list_sum (firstn (h_cluster h) layout) end)
    (length ps) 0 (Some (HScan 0 0 false 0 garbage))) as ([h|] & E & _).
  - reflexivity.
  - intros k [h|] Hk HI; [|exists None; auto]. unfold heuristic_check_step. rewrite rd_entry by lia. cbn [bind].
    destruct (a_valid (entry ps k)) eqn:V; cbn [negb].
    2:{ eexists. split; [reflexivity|]. cbv iota. rewrite usable_below_S, V. lia. }
    pose proof (usable_below_S ps k) as US. rewrite V in US.
    destruct (Nat.eqb_spec (h_expected h) 0) as [Z|Z].
    + assert (L : h_cluster h < length layout).
      { destruct (Nat.lt_ge_cases (h_cluster h) (length layout)) as [L|L]; [exact L|]. exfalso. rewrite firstn_all2 in HI by exact L.
        assert (usable_below ps (S k) <= usable_count ps) by (apply usable_below_le; lia). lia. }
      destruct (nth_error_lt _ _ _ L) as (n & En). unfold rd. rewrite En. cbn [bind].
      destruct (_ && _); eexists; (split; [reflexivity|]); [exact I|]. cbn [h_expected h_cluster].
      rewrite (firstn_S_sum _ _ _ En), US. rewrite Forall_forall in POS. assert (1 <= n) by (apply POS; eapply nth_error_In; eauto). lia.
    + destruct (h_exists h).
      * destruct (negb (clustered (entry ps k))); [eexists; split; [reflexivity|exact I]|].
        destruct (negb _); [eexists; split; [reflexivity|exact I]|]. eexists. split; [reflexivity|]. cbn [h_expected h_cluster]. lia.
      * destruct (clustered (entry ps k)); [eexists; split; [reflexivity|exact I]|].
        destruct (check_processor _ _); [|eexists; split; [reflexivity|exact I]]. eexists. split; [reflexivity|]. cbn [h_expected h_cluster]. lia.
  - rewrite E. cbn [bind].
    destruct (heuristic_loops layout ps h KG POS (length ps) 0 (HScan 0 0 false 0 garbage) (Assign 0 0 0 ps) eq_refl) with (2 := E) as (s & E2 & HR).
    + split; [reflexivity|]. split; [reflexivity|]. split; [apply hplaced_nothing|]. split; [reflexivity|exact I].
    + rewrite E2. cbn [bind]. eauto.
  - rewrite E. cbn [bind]. eauto.
Qed.

(** ** Counting *)
Definition counts_to (ps : list aproc) (c : nat -> nat) (qs : list aproc) : Prop :=
  length qs = length ps /\ forall j, entry qs j = with_acount (if j <? length ps then c j else 0) (entry ps j).
Definition members_below (ps : list aproc) (k l : nat) : nat :=
  length (filter (fun j => a_valid (entry ps j) && (leader ps j =? l)) (seq 0 k)).
Lemma members_below_S ps k l : members_below ps (S k) l = members_below ps k l + if a_valid (entry ps k) && (leader ps k =? l) then 1 else 0.
Proof. unfold members_below. rewrite seq_S, filter_app, app_length. cbn [plus filter]. now destruct (_ && _). Qed.

Lemma counts_upd ps c qs i v : i < length ps -> counts_to ps c qs ->
  counts_to ps (fun j => if j =? i then v else c j) (upd qs i (with_acount v (entry qs i))).
Proof.
  intros H (L & E). split; [rewrite upd_length; exact L|]. intros j. rewrite entry_upd by lia. rewrite !E.
  destruct (Nat.eqb_spec j i) as [->|]; [|reflexivity]. now rewrite (proj2 (Nat.ltb_lt _ _) H).
Qed.
Lemma counts_ext ps c d qs : (forall j, j < length ps -> c j = d j) -> counts_to ps c qs -> counts_to ps d qs.
Proof.
  intros H (L & E). split; [exact L|]. intros j. rewrite E. destruct (Nat.ltb_spec j (length ps)); [now rewrite H|reflexivity].
Qed.
Lemma counts_leader ps c qs j : counts_to ps c qs -> leader qs j = leader ps j.
Proof. intros (_ & E). unfold leader. now rewrite E. Qed.
Lemma counts_changed ps c qs : counts_to ps c qs -> only_clusters_changed ps qs.
Proof. intros (L & E). split; [exact L|]. intros i. rewrite E. apply oc_count. Qed.
Lemma counts_usable ps c qs i : counts_to ps c qs -> usable qs i <-> usable ps i.
Proof. intros (_ & E). unfold usable. now rewrite E. Qed.

Lemma count_members ps : clusters_ok ps -> (forall i, a_count (entry ps i) = 0) ->
  exists qs, count_cluster_processors ps = Ok qs /\ only_clusters_changed ps qs /\
    (forall i, leader qs i = leader ps i /\ clustered (entry qs i) = clustered (entry ps i)) /\ sizes_ok qs.
Proof.
  intros OK Z. unfold count_cluster_processors.
  destruct (for_each_inv count_step (fun k qs => counts_to ps (members_below ps k) qs) (length ps) 0 ps) as (qs & E & C).
  - split; [reflexivity|]. intros j. change (members_below ps 0 j) with 0. assert (X : entry ps j = with_acount 0 (entry ps j)) by (specialize (Z j); destruct (entry ps j); cbn in *; now subst).
    destruct (j <? length ps); exact X.
  - intros k qs Hk C. unfold count_step. destruct C as (L & C). rewrite rd_entry by lia. cbn [bind].
    assert (V : a_valid (entry qs k) = a_valid (entry ps k)) by now rewrite C. rewrite V.
    assert (LE : a_leader (entry qs k) = leader ps k) by (rewrite C; reflexivity). rewrite LE.
    destruct (a_valid (entry ps k)) eqn:VK.
    + destruct (OK k VK) as (O1 & O2 & O3). assert (LL : leader ps k < length ps) by now apply usable_lt.
      rewrite modify_entry by lia. eexists. split; [reflexivity|].
      eapply counts_ext; [|apply counts_upd; [exact LL|split; [exact L|exact C]]]. intros j Hj. cbv beta. rewrite members_below_S, VK. cbn [andb].
      rewrite C, (proj2 (Nat.ltb_lt _ _) LL). cbn [a_count with_acount]. rewrite (Nat.eqb_sym (leader ps k) j).
      destruct (Nat.eqb_spec j (leader ps k)) as [->|]; lia.
    + eexists. split; [reflexivity|]. eapply counts_ext; [|split; [exact L|exact C]]. intros j Hj. rewrite members_below_S, VK. cbn [andb]. lia.
  - cbn [plus] in C. rewrite E. cbn [bind]. assert (L : length qs = length ps) by apply C. rewrite L.
    set (m := members_below ps (length ps)) in *.
    assert (OL : forall j, usable ps j -> leader ps j < length ps) by (intros j Hj; apply (usable_lt ps), OK, Hj).
    destruct (for_each_inv copy_count_step
      (fun k rs => counts_to ps (fun j => if (j <? k) && a_valid (entry ps j) then m (leader ps j) else m j) rs) (length ps) 0 qs) as (rs & E2 & R).
    + cbn [Nat.ltb Nat.leb andb]. exact C.
    + intros k rs Hk (L1 & R). unfold copy_count_step. rewrite rd_entry by lia. cbn [bind].
      assert (V : a_valid (entry rs k) = a_valid (entry ps k)) by now rewrite R. rewrite V.
      assert (LE : a_leader (entry rs k) = leader ps k) by (rewrite R; reflexivity). rewrite LE.
      destruct (a_valid (entry ps k)) eqn:VK.
      * pose proof (OL k VK) as LL. rewrite rd_entry by lia. cbn [bind]. rewrite wr_ok by lia. eexists. split; [reflexivity|].
        eapply counts_ext; [|apply counts_upd; [|split; [exact L1|exact R]]; lia]. intros j Hj. cbv beta.
        destruct (OK k VK) as (O1 & O2 & O3).
        rewrite R, (proj2 (Nat.ltb_lt _ _) LL). cbn [a_count with_acount].
        destruct (Nat.eqb_spec j k) as [->|N].
        -- rewrite (proj2 (Nat.ltb_lt k (S k)) ltac:(lia)), VK. cbn [andb]. rewrite O3. now destruct (_ && _).
        -- destruct (Nat.ltb_spec j k), (Nat.ltb_spec j (S k)); try lia; reflexivity.
      * eexists. split; [reflexivity|]. eapply counts_ext; [|split; [exact L1|exact R]]. intros j Hj. cbv beta.
        destruct (Nat.ltb_spec j k), (Nat.ltb_spec j (S k)); try lia; auto. assert (j = k) by lia. subst j. now rewrite VK.
    + exists rs. split; [exact E2|]. pose proof (counts_changed _ _ _ R) as F. split; [exact F|]. split.
      * intros i. split; [now apply (counts_leader _ _ _ _ R)|]. destruct R as (_ & R). now rewrite R.
      * intros i Hi. apply (counts_usable _ _ _ _ R) in Hi. pose proof (usable_lt _ _ Hi) as Li. rewrite (counts_leader _ _ _ i R).
        assert (R' := R). destruct R' as (_ & R'). rewrite R'. cbn [plus]. rewrite (proj2 (Nat.ltb_lt _ _) Li). cbn [a_count with_acount andb].
        unfold usable in Hi. rewrite Hi. unfold m, members_below, cluster_members. rewrite (proj1 F). f_equal. apply filter_ext. intros j.
        rewrite (counts_leader _ _ _ j R), R'. reflexivity.
Qed.

(** ** The whole *)
Lemma kernel_grouped_ok ps : kernel_grouped ps -> clusters_ok ps.
Proof.
  intros KG i Hi. specialize (KG i Hi) as K. destruct (clustered (entry ps i)); [destruct K as (K1 & K2 & _ & K4); auto|].
  rewrite !K. auto.
Qed.


Lemma changed_zero ps qs : only_leaders_changed ps qs -> (forall i, a_count (entry ps i) = 0) -> forall i, a_count (entry qs i) = 0.
Proof. intros (_ & F) Z i. rewrite (oc_size _ _ (F i)). apply Z. Qed.
Lemma changed_both ps qs rs : only_leaders_changed ps qs -> only_clusters_changed qs rs -> only_clusters_changed ps rs.
Proof.
  intros (L1 & F1) (L2 & F2). split; [congruence|]. intros i. specialize (F1 i). specialize (F2 i). rewrite (oc_size _ _ F1) in F2.
  eapply oc_trans; eauto.
Qed.

(** The fallbacks, on a table grouped by the kernel as far as it goes. *)
Definition fallback (arm32 : bool) (garbage : known) (n valid : nat) (ps : list aproc) : res (list aproc) :=
  if n =? valid then Ok ps
  else do h <- clusters_by_heuristic arm32 garbage valid ps;
       if fst h then Ok (snd h) else clusters_by_scan garbage (snd h).
Lemma fallback_inv arm32 garbage n valid ps qs : kernel_grouped ps -> fallback arm32 garbage n valid ps = Ok qs ->
  only_leaders_changed ps qs /\ clusters_ok qs /\
  (forall i, usable ps i -> clustered (entry ps i) = true -> leader qs i = leader ps i) /\
  (forall i, unplaced ps i -> unplaced ps (leader qs i)).
Proof.
  intros KG. unfold fallback. destruct (n =? valid).
  - intros E. injection E as <-. split; [apply occ_refl|]. split; [now apply kernel_grouped_ok|]. split; [auto|].
    intros i Hi. assert (Hi' := Hi). destruct Hi' as (U & C). specialize (KG i U). rewrite C in KG. now rewrite KG.
  - destruct (clusters_by_heuristic arm32 garbage valid ps) as [([|] & hs)| |] eqn:E1; try discriminate; cbn [bind fst snd]; intros E.
    + apply heuristic_inv in E1; [|exact KG]. destruct E1 as (layout & _ & HP). injection E as <-.
      split; [apply (hp_changed _ _ _ _ HP)|]. split; [eapply hplaced_clusters_ok; eauto|]. split.
      * intros i Hu Hc. apply (hp_kernel _ _ _ _ HP); auto. now apply usable_lt.
      * intros i Hu. apply (hp_apart _ _ _ _ HP); auto. apply (usable_lt ps), Hu.
    + apply heuristic_inv in E1; [|exact KG]. subst hs. destruct (scan_all garbage ps) as (rs & E2 & SC). rewrite E2 in E. injection E as <-.
      split; [now apply scanned_changed|]. split; [eapply scanned_ok; eauto|]. split.
      * intros i Hu Hc. unfold leader. rewrite (sc_kept _ _ _ SC); [reflexivity|]. right. intros (_ & X). congruence.
      * intros i Hu. apply (sc_leads _ _ _ SC i); [apply (usable_lt ps), Hu|exact Hu].
Qed.
Lemma fallback_total arm32 garbage n valid ps : kernel_grouped ps -> usable_count ps <= valid \/ ~ In valid [5; 6; 8; 10] ->
  exists qs, fallback arm32 garbage n valid ps = Ok qs.
Proof.
  intros KG HV. unfold fallback. destruct (n =? valid); [eauto|].
  assert (H : exists ok hs, clusters_by_heuristic arm32 garbage valid ps = Ok (ok, hs)).
  { destruct HV as [HV|HV]; [now apply heuristic_total|]. unfold clusters_by_heuristic, cluster_layout.
    destruct (Nat.eqb_spec valid 10) as [->|]; [cbn in HV; tauto|]. destruct (Nat.eqb_spec valid 8) as [->|]; [cbn in HV; tauto|].
    destruct (Nat.eqb_spec valid 6) as [->|]; [cbn in HV; tauto|]. destruct (Nat.eqb_spec valid 5) as [->|]; [cbn in HV; tauto|].
    rewrite andb_false_r. eauto. }
  destruct H as ([|] & hs & E); rewrite E; cbn [bind fst snd]; [eauto|].
  destruct (scan_all garbage hs) as (rs & E2 & _). eauto.
Qed.

Lemma detect_clusters_split sg arm32 garbage files valid ps qs : detect_clusters sg arm32 garbage files valid ps = Ok qs ->
  exists n ps1 ps2, clusters_from_kernel sg files ps = Ok (n, ps1) /\ fallback arm32 garbage n valid ps1 = Ok ps2 /\ count_cluster_processors ps2 = Ok qs.
Proof.
  unfold detect_clusters. fold (fallback arm32 garbage). intros E.
  destruct (clusters_from_kernel sg files ps) as [(n & ps1)| |]; try discriminate. cbn [bind] in E. change (bind (fallback arm32 garbage n valid ps1) count_cluster_processors = Ok qs) in E.
  destruct (fallback arm32 garbage n valid ps1) as [ps2| |] eqn:E2; try discriminate. exists n, ps1, ps2. auto.
Qed.

Lemma every_core_clustered sg arm32 garbage files valid ps qs : (forall i, a_count (entry ps i) = 0) ->
  detect_clusters sg arm32 garbage files valid ps = Ok qs -> clusters_ok qs /\ sizes_ok qs /\ only_clusters_changed ps qs.
Proof.
  intros Z E. apply detect_clusters_split in E. destruct E as (n & ps1 & ps2 & E1 & E2 & E3).
  apply kernel_stage_inv in E1. destruct E1 as (F1 & KG & _). apply fallback_inv in E2; [|exact KG]. destruct E2 as (F2 & OK & _).
  assert (F : only_leaders_changed ps ps2) by (eapply occ_trans; eauto).
  destruct (count_members ps2 OK (changed_zero _ _ F Z)) as (rs & E & F3 & HL & SZ). rewrite E in E3. injection E3 as <-.
  split; [|split; [exact SZ|eapply changed_both; eauto]].
  intros i Hi. assert (V : forall j, usable rs j <-> usable ps2 j).
  { intros j. destruct F3 as (_ & F3). specialize (F3 j). unfold usable. apply oc_valid in F3. change (a_valid (entry rs j) = a_valid (entry ps2 j)) in F3. now rewrite F3. }
  rewrite !(proj1 (HL _)), V. apply OK, V, Hi.
Qed.

Lemma clusters_total sg arm32 garbage files valid ps : (forall i, a_count (entry ps i) = 0) ->
  (forall i, commas (f_contents (sf_cluster_cpus (files i))) /\ commas (f_contents (sf_core_siblings (files i)))) ->
  usable_count ps <= valid \/ ~ In valid [5; 6; 8; 10] ->
  exists qs, detect_clusters sg arm32 garbage files valid ps = Ok qs.
Proof.
  intros Z HC HV. unfold detect_clusters. destruct (kernel_stage_total sg files ps HC) as (n & ps1 & E1). rewrite E1. cbn [bind].
  apply kernel_stage_inv in E1. destruct E1 as (F1 & KG & _).
  assert (UC : usable_count ps1 = usable_count ps).
  { unfold usable_count, usable_below. rewrite (proj1 F1). f_equal. apply filter_ext. intros i. apply oc_valid, F1. }
  rewrite <- UC in HV. destruct (fallback_total arm32 garbage n valid ps1 KG HV) as (ps2 & E2).
  change (exists qs, bind (fallback arm32 garbage n valid ps1) count_cluster_processors = Ok qs). rewrite E2. cbn [bind].
  apply fallback_inv in E2; [|exact KG]. destruct E2 as (F2 & OK & _).
  assert (F : only_leaders_changed ps ps2) by (eapply occ_trans; eauto).
  destruct (count_members ps2 OK (changed_zero _ _ F Z)) as (rs & E & _). eauto.
Qed.

(** The clusters of the kernel are final. *)
Lemma kernel_clusters_kept sg arm32 garbage files valid ps n ps1 qs : (forall i, a_count (entry ps i) = 0) ->
  clusters_from_kernel sg files ps = Ok (n, ps1) -> detect_clusters sg arm32 garbage files valid ps = Ok qs ->
  forall i, usable ps i ->
    (clustered (entry ps1 i) = true -> leader qs i = leader ps1 i) /\
    (clustered (entry ps1 i) = false -> clustered (entry ps1 (leader qs i)) = false).
Proof.
  intros Z E1 E i Hi. apply detect_clusters_split in E. destruct E as (n' & ps1' & ps2 & E1' & E2 & E3). rewrite E1 in E1'. injection E1' as <- <-.
  apply kernel_stage_inv in E1. destruct E1 as (F1 & KG & _). apply fallback_inv in E2; [|exact KG]. destruct E2 as (F2 & OK & K1 & K2).
  assert (F : only_leaders_changed ps ps2) by (eapply occ_trans; eauto).
  destruct (count_members ps2 OK (changed_zero _ _ F Z)) as (rs & E & F3 & HL & SZ). rewrite E in E3. injection E3 as <-.
  rewrite !(proj1 (HL _)). apply (occ_usable _ _ _ F1) in Hi. split.
  - intros C. now apply K1.
  - intros C. apply (K2 i). now split.
Qed.

Lemma kernel_lists_clusters sg arm32 garbage files valid ps group qs : (forall i, a_count (entry ps i) = 0) ->
  kernel_lists ps files group -> detect_clusters sg arm32 garbage files valid ps = Ok qs ->
  forall i, usable ps i -> is_first_of_group ps group i (leader qs i).
Proof.
  intros Z HK E i Hi. destruct (kernel_stage_groups sg files ps group HK) as (ps1 & E1 & F1 & D).
  destruct (D i Hi) as (D1 & D2). destruct (kernel_clusters_kept _ _ _ _ _ _ _ _ _ Z E1 E i Hi) as (K & _).
  rewrite (K D2), D1. now apply first_of_spec.
Qed.
Lemma kernel_lists_total sg arm32 garbage files ps group : (forall i, a_count (entry ps i) = 0) ->
  kernel_lists ps files group -> exists qs, detect_clusters sg arm32 garbage files (usable_count ps) ps = Ok qs.
Proof.
  intros Z HK. destruct (kernel_stage_groups sg files ps group HK) as (ps1 & E1 & F1 & D).
  unfold detect_clusters. rewrite E1. cbn [bind]. rewrite Nat.eqb_refl. cbn [bind].
  apply kernel_stage_inv in E1. destruct E1 as (_ & KG & _). apply kernel_grouped_ok in KG.
  destruct (count_members ps1 KG (changed_zero _ _ F1 Z)) as (rs & E & _). eauto.
Qed.
Lemma same_cluster_iff ps group i j li lj : usable ps i -> usable ps j ->
  is_first_of_group ps group i li -> is_first_of_group ps group j lj -> li = lj <-> group i = group j.
Proof.
  intros Ui Uj (A1 & A2 & A3) (B1 & B2 & B3). split; [intros ->; congruence|]. intros G. apply Nat.le_antisymm; [apply A3|apply B3]; congruence.
Qed.

Lemma scan_exact garbage ps : kernel_grouped ps ->
  exists qs, clusters_by_scan garbage ps = Ok qs /\ clusters_ok qs /\
    (forall i, ~ unplaced ps i -> entry qs i = entry ps i) /\
    (forall i j, unplaced ps i -> unplaced ps j -> leader qs i = leader qs j -> compatible (entry ps i) (entry ps j)) /\
    (forall i j, unplaced ps j -> previous_unplaced ps i j -> leader qs j = leader qs i \/
       leader qs j = j /\ exists m, m < j /\ unplaced ps m /\ leader qs m = leader qs i /\ ~ compatible (entry ps m) (entry ps j)) /\
    (forall other, clusters_by_scan other ps = Ok qs).
Proof.
  intros KG. destruct (scan_all garbage ps) as (qs & E & SC). exists qs. split; [exact E|]. split; [eapply scanned_ok; eauto|].
  assert (L : forall j, unplaced ps j -> j < length ps) by (intros j Hj; apply (usable_lt ps), Hj).
  split; [intros i Hi; apply (sc_kept _ _ _ SC); now right|]. split; [intros i j Hi Hj; apply (sc_fit _ _ _ SC); auto|].
  split; [intros i j Hj; apply (sc_next _ _ _ SC); auto|]. intros other. rewrite <- E. apply scan_ignores_old_values.
Qed.

Lemma heuristic_exact arm32 garbage valid ps qs : kernel_grouped ps -> clusters_by_heuristic arm32 garbage valid ps = Ok (true, qs) ->
  exists layout, In (valid, layout) [(5, [4; 1]); (6, [4; 2]); (8, [4; 4]); (10, [4; 4; 2])] /\ (valid = 5 -> arm32 = true) /\
    clusters_ok qs /\ only_leaders_changed ps qs /\
    (forall i, usable ps i -> dealt layout ps (leader qs i) i) /\
    (forall i, usable ps i -> clustered (entry ps i) = true -> leader qs i = leader ps i) /\
    (forall i j, unplaced ps i -> unplaced ps j -> leader qs i = leader qs j -> i <> leader qs i -> j <> leader qs j ->
       compatible (entry ps i) (entry ps j)).
Proof.
  intros KG E. apply heuristic_inv in E; [|exact KG]. destruct E as (layout & EL & HP). exists layout.
  assert (L : forall j, unplaced ps j -> j < length ps) by (intros j Hj; apply (usable_lt ps), Hj).
  assert (X : In (valid, layout) [(5, [4; 1]); (6, [4; 2]); (8, [4; 4]); (10, [4; 4; 2])] /\ (valid = 5 -> arm32 = true)).
  { unfold cluster_layout in EL. destruct (Nat.eqb_spec valid 10) as [->|]; [injection EL as <-; split; [cbn; tauto|discriminate]|].
    destruct (Nat.eqb_spec valid 8) as [->|]; [injection EL as <-; split; [cbn; tauto|discriminate]|].
    destruct (Nat.eqb_spec valid 6) as [->|]; [injection EL as <-; split; [cbn; tauto|discriminate]|].
    destruct arm32; [|discriminate]. cbn [andb] in EL.
    destruct (Nat.eqb_spec valid 5) as [->|]; [injection EL as <-; split; [cbn; tauto|reflexivity]|discriminate]. }
  destruct X as (X1 & X2). split; [exact X1|]. split; [exact X2|]. split; [eapply hplaced_clusters_ok; eauto|].
  split; [apply (hp_changed _ _ _ _ HP)|]. split; [intros i Hi; apply (hp_dealt _ _ _ _ HP); auto; now apply usable_lt|].
  split; [intros i Hi; apply (hp_kernel _ _ _ _ HP); auto; now apply usable_lt|].
  intros i j Hi Hj. apply (hp_fit _ _ _ _ HP); auto.
Qed.
Lemma heuristic_declines arm32 garbage valid ps qs : kernel_grouped ps -> clusters_by_heuristic arm32 garbage valid ps = Ok (false, qs) -> qs = ps.
Proof. intros KG E. now apply heuristic_inv in E. Qed.
