(** Proofs about the main id registers of ARM clusters: the results. *)
From Verif Require Import Base BaseProofs Loops Masks ArmMidrModel ArmMidrSpec ArmMidrProofs ArmClustersModel ArmClustersSpec ArmClustersProofs
  ArmClusterMidrModel ArmClusterMidrSpec ArmClusterMidrProofs ArmMidrAssignProofs ArmMidrDecideProofs.
Open Scope nat_scope.

Lemma knows_lor f g p : knows_max (with_aflags (N.lor f g) p) = N.testbit f 2 || N.testbit g 2.
Proof. apply N.lor_spec. Qed.

(** ** What no assignment touches *)

Lemma om_refl p : only_midr_differs p p.
Proof. constructor; auto. Qed.
Lemma om_trans p q r : only_midr_differs p q -> only_midr_differs q r -> only_midr_differs p r.
Proof.
  intros A B. constructor; try (destruct A, B; congruence).
  - intros b H1 H2. now rewrite (om_flags _ _ B b H1 H2), (om_flags _ _ A b H1 H2).
  - intros b H. now apply (om_flags_kept _ _ B), (om_flags_kept _ _ A).
Qed.
Lemma om_told p m x q : told p m x q -> only_midr_differs p q.
Proof.
  intros T. destruct T as [F1 F2 F3 F4 F5 F6 F7 F8 F9]. constructor; auto.
  - intros b H1 H2. rewrite F1. destruct (N.eqb_spec b 2); [contradiction|]. destruct (N.testbit af_midr b) eqn:M; [apply midr_bit in M; contradiction|].
    cbn [andb]. now rewrite !orb_false_r.
  - intros b H. now rewrite F1, H.
Qed.
Lemma om_given q r : midr_given q r -> only_midr_differs q r.
Proof.
  intros (m & f & -> & F). constructor; auto.
  - intros b H1 H2. cbn [a_flags with_amidr with_aflags]. rewrite N.lor_spec. destruct (N.testbit f b) eqn:T; [|apply orb_false_r].
    apply F, midr_bit in T. contradiction.
  - intros b H. cbn [a_flags with_amidr with_aflags]. now rewrite N.lor_spec, H.
Qed.
Lemma om_decoded decode p : only_midr_differs p (decoded decode p).
Proof. constructor; auto. Qed.
Lemma om_follower l p : only_midr_differs p (follower l p).
Proof.
  constructor; auto.
  - intros b H1 H2. unfold follower, add_aflag. cbn [a_flags with_amax with_avendor_uarch with_amidr with_aflags].
    rewrite N.lor_spec, N.land_spec, N.lor_spec. change af_max_frequency with (2 ^ 2)%N. rewrite N.pow2_bits_eqb.
    destruct (N.eqb_spec 2 b); [congruence|]. destruct (N.testbit af_midr b) eqn:M; [apply midr_bit in M; contradiction|].
    cbn [orb]. now rewrite andb_false_r, orb_false_r.
  - intros b H. unfold follower, add_aflag. cbn [a_flags with_amax with_avendor_uarch with_amidr with_aflags]. now rewrite N.lor_spec, H.
Qed.

Section Results.
  Context {arm32 : bool} {decode : N -> bool -> N * N} {chip : chipset} {listed : nat} {ps ss : list aproc}.
  Context (C : clusters_ok ps).
  Context (A : assigned arm32 decode chip listed ps ss).

  Lemma entry_changes : length ss = length ps /\ forall i, only_midr_differs (entry ps i) (entry ss i) /\ (~ usable ps i -> entry ss i = entry ps i).
  Proof.
    destruct A as [(qs & rs & G & D & GV & HL & HS & SM)]. split; [exact HL|]. intros i.
    assert (X : only_midr_differs (entry ps i) (entry rs i)).
    { apply om_trans with (entry qs i).
      - destruct (leads ps i) eqn:L; [destruct (ga_leader _ _ G i L) as (m & x & T); eapply om_told, T|].
        rewrite (ga_other _ _ G i L). apply om_refl.
      - destruct (leads qs i) eqn:L; [apply om_given, (lg_leader _ _ GV i L)|]. rewrite (lg_other _ _ GV i L). apply om_refl. }
    split.
    - eapply om_trans; [exact X|]. rewrite HS. unfold settled. destruct (a_valid (entry rs i)); [|apply om_refl].
      destruct (leader rs i =? i); [apply om_decoded|apply om_follower].
    - intros N. destruct (SM i) as (S1 & _). rewrite HS. unfold settled, usable in *. rewrite S1. destruct (a_valid (entry ps i)) eqn:V; [congruence|].
      assert (L1 : leads ps i = false) by (unfold leads; now rewrite V).
      assert (L2 : leads qs i = false) by (destruct (gathered_same _ _ G i) as (_ & _ & E & _); congruence).
      now rewrite (lg_other _ _ GV i L2), (ga_other _ _ G i L1).
  Qed.

  (** The entry of a leader at the end, and that of the processors it leads. *)
  Lemma leader_entry l : leads ps l = true -> exists rl, entry ss l = decoded decode rl /\
    (forall i, usable ps i -> leader ps i = l -> i <> l -> exists ri, entry ss i = follower (decoded decode rl) ri) /\
    exists qs rs, gathered ps qs /\ decided arm32 chip listed ps qs rs /\ leaders_given qs rs /\ rl = entry rs l.
  Proof.
    intros L. destruct A as [(qs & rs & G & D & GV & HL & HS & SM)]. pose proof (leads_valid _ _ L) as (U & E).
    assert (UR : forall i, usable ps i -> a_valid (entry rs i) = true) by (intros i Hi; rewrite (proj1 (SM i)); exact Hi).
    assert (LR : forall i, leader rs i = leader ps i) by (intros i; apply SM).
    exists (entry rs l). split; [rewrite HS; unfold settled; now rewrite (UR l U), LR, E, Nat.eqb_refl|]. split.
    - intros i Hi Li N. exists (entry rs i). rewrite HS. unfold settled. rewrite (UR i Hi), LR, Li.
      destruct (Nat.eqb_spec l i); [congruence|reflexivity].
    - exists qs, rs. auto.
  Qed.
  Lemma leader_midr i : usable ps i -> exists qs rs, gathered ps qs /\ decided arm32 chip listed ps qs rs /\ leaders_given qs rs /\
    a_midr (entry ss i) = a_midr (entry rs (leader ps i)) /\ a_max (entry ss i) = a_max (entry rs (leader ps i)) /\
    (forall b, (16 <= b <= 21)%N \/ b = 2%N -> N.testbit (a_flags (entry rs (leader ps i))) b = true -> N.testbit (a_flags (entry ss i)) b = true).
  Proof.
    intros U. pose proof (leader_leads _ _ C U) as L. destruct (leader_entry _ L) as (rl & E & F & qs & rs & G & D & GV & R).
    exists qs, rs. subst rl. split; [exact G|]. split; [exact D|]. split; [exact GV|].
    destruct (Nat.eq_dec i (leader ps i)) as [EI|NI].
    - rewrite <- EI in E |- *. rewrite E. repeat split; auto.
    - destruct (F i U eq_refl NI) as (ri & EF). rewrite EF. repeat split; auto. intros b Hb T.
      unfold follower, add_aflag, decoded. cbn [a_flags with_amax with_avendor_uarch with_amidr with_aflags].
      rewrite N.lor_spec, N.land_spec, T. cbn [andb]. rewrite N.lor_spec.
      destruct Hb as [Hb| ->]; [apply midr_bit in Hb; rewrite Hb; cbn [orb]; apply orb_true_r|]. apply orb_true_r.
  Qed.

  Lemma all_follow i : usable ps i -> follows_leader (entry ss (leader ps i)) (entry ss i) /\
    (a_vendor (entry ss i), a_uarch (entry ss i)) =
      decode (a_midr (entry ss (leader ps i))) (any_flag (ar_features (a_report (entry ps (leader ps i)))) feature_vfpv4).
  Proof.
    intros U. pose proof (leader_leads _ _ C U) as L. destruct (leader_entry _ L) as (rl & E & F & _).
    assert (X : (a_vendor (entry ss (leader ps i)), a_uarch (entry ss (leader ps i))) =
      decode (a_midr (entry ss (leader ps i))) (any_flag (ar_features (a_report (entry ps (leader ps i)))) feature_vfpv4)).
    { destruct (entry_changes) as (_ & EC). destruct (EC (leader ps i)) as (OM & _). rewrite <- (om_report _ _ OM).
      rewrite E. unfold decoded. cbn [a_vendor a_uarch a_midr a_report with_avendor_uarch]. now destruct (decode _ _). }
    destruct (Nat.eq_dec i (leader ps i)) as [EI|NI].
    - rewrite <- EI in *. split; [constructor; auto|exact X].
    - destruct (F i U eq_refl NI) as (ri & EF). split.
      + rewrite EF, E. constructor; auto.
        * unfold knows_max, follower, add_aflag. cbn [a_flags with_amax with_avendor_uarch with_amidr with_aflags]. intros H.
          rewrite N.lor_spec, N.land_spec, H. apply orb_true_r.
        * unfold reports. rewrite !forallb_forall. intros H b Hb. specialize (H b Hb).
          unfold follower, add_aflag. cbn [a_flags with_amax with_avendor_uarch with_amidr with_aflags]. rewrite N.lor_spec, N.land_spec, H, N.lor_spec.
          assert (M : N.testbit af_midr b = true) by (apply midr_bit; cbn [In] in Hb; intuition lia). rewrite M. apply orb_true_r.
      + rewrite EF. cbn [follower a_vendor a_uarch with_amax with_avendor_uarch]. rewrite <- E. exact X.
  Qed.

  Lemma max_exact i x : usable ps i -> cluster_max ps (leader ps i) = Some x -> knows_max (entry ss i) = true /\ a_max (entry ss i) = x.
  Proof.
    intros U H. pose proof (leader_leads _ _ C U) as L. destruct (leader_midr i U) as (qs & rs & G & D & GV & _ & EM & EF).
    pose proof (ga_max _ _ G _ L) as M. rewrite H in M. destruct M as (M1 & M2).
    assert (LQ : leads qs (leader ps i) = true) by (destruct (gathered_same _ _ G (leader ps i)) as (_ & _ & X & _); congruence).
    destruct (lg_leader _ _ GV _ LQ) as (m & f & E & _). split.
    - apply EF; [auto|]. rewrite E. cbn [a_flags with_amidr with_aflags]. rewrite N.lor_spec. unfold knows_max in M1. now rewrite M1.
    - rewrite EM, E. exact M2.
  Qed.

  Lemma max_unknown i : usable ps i -> cluster_max ps (leader ps i) = None -> a_max (entry ss i) = a_max (entry ps (leader ps i)).
  Proof.
    intros U H. pose proof (leader_leads _ _ C U) as L. destruct (leader_midr i U) as (qs & rs & G & D & GV & _ & EM & EF).
    pose proof (ga_max _ _ G _ L) as M. rewrite H in M. destruct M as (M1 & M2).
    assert (LQ : leads qs (leader ps i) = true) by (destruct (gathered_same _ _ G (leader ps i)) as (_ & _ & X & _); congruence).
    destruct (lg_leader _ _ GV _ LQ) as (m & f & E & _). rewrite EM, E. exact M2.
  Qed.
End Results.
