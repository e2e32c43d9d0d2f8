(** ARM Linux: the numbers of the CPUs do not matter where the kernel tells the groups. *)
From Coq Require Import NArith List Lia Bool Arith.
From Verif Require Import Base Sorting TopologySpec ArmClustersModel ArmClusterMidrModel ArmLinuxModel ArmLinuxSpec ArmInitProofs ArmCoresSpec
  ArmMidrSpec ArmRenumberSpec.
Import ListNotations.
Open Scope nat_scope.

Lemma inject_length (R : nat -> nat -> Prop) : forall l l', NoDup l -> (forall a, In a l -> exists b, In b l' /\ R a b) ->
  (forall a a' b, In a l -> In a' l -> R a b -> R a' b -> a = a') -> length l <= length l'.
Proof.
  induction l as [|a l IH]; intros l' D H J; cbn; [lia|]. inversion D; subst.
  destruct (H a (or_introl eq_refl)) as (b & Hb & Rb). apply in_split in Hb. destruct Hb as (l1 & l2 & ->).
  rewrite app_length. cbn. assert (length l <= length (l1 ++ l2)); [|rewrite app_length in *; lia].
  apply IH; auto.
  - intros c Hc. destruct (H c (or_intror Hc)) as (d & Hd & Rd). exists d. split; [|exact Rd].
    apply in_app_iff in Hd. apply in_or_app. destruct Hd as [Hd|[<-|Hd]]; auto.
    exfalso. apply H2. rewrite (J a c b); auto; [now left|now right].
  - intros c c' d Hc Hc'. apply J; now right.
Qed.

(** What is used of the tables: every processor has a cluster, and a cluster's range of cores holds those that point to it. *)
Definition cluster_at (t : arm_tables) (i : nat) : option nat := match nth_error (at_processors t) i with Some p => p_cluster p | None => None end.
Record shaped (t : arm_tables) : Prop := {
  sh_owner : forall i, i < length (at_processors t) -> exists k, cluster_at t i = Some k /\ k < length (at_clusters t);
  sh_used : forall k, k < length (at_clusters t) -> exists i, i < length (at_processors t) /\ cluster_at t i = Some k;
  sh_range : forall k l, nth_error (at_clusters t) k = Some l -> forall i,
    cl_core_start l <= i < cl_core_start l + cl_core_count l <-> i < length (at_processors t) /\ cluster_at t i = Some k
}.

Lemma topology_shaped usable t : arm_topology usable t -> shaped t.
Proof.
  intros [T1 T2 [C1 C2 C3 C4 C5 C6 C7 C8] T4 T5 T6].
  destruct C2 as (ow & E & (TI & G)). destruct C4 as (oc & Ec & (_ & Gc)). destruct C1 as (oo & Eo & (TO & Go)).
  assert (CA : forall i k, cluster_at t i = Some k <-> nth_error ow i = Some k).
  { intros i k. unfold cluster_at. pose proof (f_equal (fun l => nth_error l i) E) as EE. cbn in EE. rewrite !nth_error_map in EE.
    destruct (nth_error (at_processors t) i) as [p|], (nth_error ow i) as [o|]; cbn in EE; try discriminate; [injection EE as ->|]; split; congruence. }
  assert (LO : length ow = length (at_processors t)) by (rewrite <- (map_length Some ow), <- E; apply map_length).
  assert (RU : forall k l, nth_error (at_clusters t) k = Some l -> nth_error (map cluster_processors (at_clusters t)) k = Some (cl_processor_start l, cl_processor_count l))
    by (intros k l H; now rewrite nth_error_map, H).
  assert (PO : forall rs from to k s c, tiles from rs to -> nth_error rs k = Some (s, c) -> 0 < c /\ s + c <= to).
  { induction rs as [|(s0, c0) rs IH]; intros from to [|k] s c TT H; cbn in *; try discriminate; destruct TT as (-> & P0 & TT).
    - injection H as <- <-. split; [exact P0|]. clear -TT. revert TT. generalize (from + c0). induction rs as [|(s1, c1) rs IH]; intros m TT; cbn in TT; [lia|].
      destruct TT as (-> & P1 & TT). apply IH in TT. lia.
    - eapply IH; eauto. }
  (* the core of processor i is core i *)
  assert (CC : forall i, i < length (at_processors t) -> exists p c, nth_error (at_processors t) i = Some p /\ nth_error (at_cores t) i = Some c /\ p_cluster p = c_cluster c).
  { intros i Hi. destruct (nth_error (at_processors t) i) as [p|] eqn:Ep; [|apply nth_error_None in Ep; lia].
    pose proof (T5 i p Ep) as Pc. pose proof (f_equal (fun l => nth_error l i) Eo) as EE. cbn in EE. rewrite !nth_error_map, Ep in EE. cbn in EE.
    destruct (nth_error oo i) as [o|] eqn:Eoo; cbn in EE; [|discriminate]. rewrite Pc in EE. injection EE as <-.
    apply Go in Eoo. destruct Eoo as (s & c & H & _). rewrite nth_error_map in H. destruct (nth_error (at_cores t) i) as [co|] eqn:Eco; [|discriminate].
    exists p, co. split; [reflexivity|]. split; [reflexivity|]. eapply C7; eauto. }
  split.
  - intros i Hi. destruct (nth_error ow i) as [k|] eqn:Ek; [|apply nth_error_None in Ek; lia]. exists k. split; [now apply CA|].
    apply G in Ek. destruct Ek as (s & c & H & _). rewrite <- (map_length cluster_processors). apply nth_error_Some. congruence.
  - intros k Hk. destruct (nth_error (at_clusters t) k) as [l|] eqn:El; [|apply nth_error_None in El; lia].
    specialize (RU k l El). destruct (PO _ _ _ _ _ _ TI RU) as (P & Q). exists (cl_processor_start l). split; [lia|]. apply CA, G. exists (cl_processor_start l), (cl_processor_count l). split; [exact RU|lia].
  - intros k l El i.
    assert (RC : nth_error (map cluster_cores (at_clusters t)) k = Some (cl_core_start l, cl_core_count l)) by now rewrite nth_error_map, El.
    assert (KC : nth_error oc i = Some k <-> cl_core_start l <= i < cl_core_start l + cl_core_count l).
    { rewrite Gc. split; [intros (s & c & H & B); rewrite RC in H; injection H as <- <-; exact B|intros B; eauto]. }
    rewrite <- KC. pose proof (f_equal (fun l => nth_error l i) Ec) as EE. cbn in EE. rewrite !nth_error_map in EE. split.
    + intros H. rewrite H in EE. cbn in EE. destruct (nth_error (at_cores t) i) as [co|] eqn:Eco; [|discriminate]. cbn in EE. injection EE as EE.
      assert (Hi : i < length (at_processors t)).
      { destruct (Nat.lt_ge_cases i (length (at_processors t))) as [|GE]; [assumption|exfalso].
        (* a core holds processors, which have their own number as that of their core *)
        assert (Ri : nth_error (map core_processors (at_cores t)) i = Some (c_processor_start co, c_processor_count co)) by now rewrite nth_error_map, Eco.
        destruct (PO _ _ _ _ _ _ TO Ri) as (P & Q).
        assert (O : nth_error oo (c_processor_start co) = Some i) by (apply Go; do 2 eexists; split; [exact Ri|lia]).
        pose proof (f_equal (fun l => nth_error l (c_processor_start co)) Eo) as EF. cbn in EF. rewrite !nth_error_map, O in EF.
        destruct (nth_error (at_processors t) (c_processor_start co)) as [p|] eqn:Ep; [|discriminate]. cbn in EF.
        rewrite (T5 _ _ Ep) in EF. injection EF as EF. assert (c_processor_start co < length (at_processors t)) by (apply nth_error_Some; congruence). lia. }
      split; [exact Hi|]. destruct (CC i Hi) as (p & c & Ep & Ec2 & Epc). unfold cluster_at. rewrite Ep. congruence.
    + intros (Hi & H). destruct (CC i Hi) as (p & c & Ep & Ec2 & Epc). unfold cluster_at in H. rewrite Ep in H. rewrite Ec2 in EE. cbn in EE.
      destruct (nth_error oc i) as [o|]; cbn in EE; congruence.
Qed.

(** ** Two tables *)

Section Compare.
  Context (t t' : arm_tables) (R : nat -> nat -> Prop).
  Hypothesis S : shaped t.
  Hypothesis S' : shaped t'.
  Hypothesis R_all : forall i, i < length (at_processors t) -> exists j, j < length (at_processors t') /\ R i j.
  Hypothesis R_once : forall i i' j, R i j -> R i' j -> i = i'.
  Hypothesis R_together : forall i i' j j', R i j -> R i' j' -> (cluster_at t i = cluster_at t i' <-> cluster_at t' j = cluster_at t' j').

  Lemma processors_le : length (at_processors t) <= length (at_processors t').
  Proof.
    rewrite <- (seq_length (length (at_processors t)) 0), <- (seq_length (length (at_processors t')) 0). apply (inject_length R).
    - apply seq_NoDup.
    - intros i Hi. apply in_seq in Hi. destruct (R_all i) as (j & Hj & Rj); [lia|]. exists j. split; [apply in_seq; lia|exact Rj].
    - intros i i' j _ _. apply R_once.
  Qed.
  Lemma clusters_le : length (at_clusters t) <= length (at_clusters t').
  Proof.
    rewrite <- (seq_length (length (at_clusters t)) 0), <- (seq_length (length (at_clusters t')) 0).
    apply (inject_length (fun k k' => exists i j, R i j /\ cluster_at t i = Some k /\ cluster_at t' j = Some k')).
    - apply seq_NoDup.
    - intros k Hk. apply in_seq in Hk. destruct (sh_used _ S k) as (i & Hi & Ei); [lia|]. destruct (R_all i Hi) as (j & Hj & Rj).
      destruct (sh_owner _ S' j Hj) as (k' & Ek & Lk). exists k'. split; [apply in_seq; lia|]. eauto.
    - intros k k1 k' _ _ (i & j & Rj & E1 & E2) (i1 & j1 & Rj1 & E3 & E4).
      assert (cluster_at t i = cluster_at t i1) by (apply (R_together _ _ _ _ Rj Rj1); congruence). congruence.
  Qed.
  Lemma cores_le k k' l l' i j : R i j -> cluster_at t i = Some k -> cluster_at t' j = Some k' ->
    nth_error (at_clusters t) k = Some l -> nth_error (at_clusters t') k' = Some l' -> cl_core_count l <= cl_core_count l'.
  Proof.
    intros Rij E E' El El'. rewrite <- (seq_length (cl_core_count l) (cl_core_start l)), <- (seq_length (cl_core_count l') (cl_core_start l')).
    apply (inject_length R).
    - apply seq_NoDup.
    - intros a Ha. apply in_seq in Ha. apply (sh_range _ S k l El) in Ha. destruct Ha as (La & Ea). destruct (R_all a La) as (b & Lb & Rab).
      exists b. split; [|exact Rab]. apply in_seq, (sh_range _ S' k' l' El'). split; [exact Lb|].
      rewrite <- E'. apply (R_together _ _ _ _ Rab Rij). congruence.
    - intros a a' b _ _. apply R_once.
  Qed.
End Compare.

Lemma listed_bound t cpu i : listed_at t cpu i -> i < length (at_processors t).
Proof. intros (p & H & _). apply nth_error_Some. congruence. Qed.
Lemma listed_once usable t a i j : arm_topology usable t -> listed_at t a i -> listed_at t a j -> i = j.
Proof.
  intros T (p & Hp & Ep) (q & Hq & Eq). assert (i < length (map p_linux_id (at_processors t))) by (rewrite map_length; apply nth_error_Some; congruence).
  apply (proj1 (NoDup_nth_error _) (ap_once _ _ T) i j); auto. rewrite !nth_error_map, Hp, Hq. cbn. congruence.
Qed.
Lemma listed_cpu t a b i : listed_at t a i -> listed_at t b i -> a = b.
Proof. intros (p & Hp & Ep) (q & Hq & Eq). assert (p = q) by congruence. subst. rewrite Ep in Eq. lia. Qed.
Lemma usable_listed usable t cpu : arm_topology usable t -> usable cpu -> exists i, listed_at t cpu i.
Proof. intros T H. apply (ap_cpus _ _ T) in H. destruct H as (p & Hp & Ep). apply In_nth_error in Hp. destruct Hp as (i & Hi). exists i, p. auto. Qed.
Lemma listed_usable usable t i : arm_topology usable t -> i < length (at_processors t) -> exists cpu, usable cpu /\ listed_at t cpu i.
Proof.
  intros T Hi. destruct (nth_error (at_processors t) i) as [p|] eqn:Ep; [|apply nth_error_None in Ep; lia].
  exists (N.to_nat (p_linux_id p)). split; [|exists p; split; [exact Ep|now rewrite N2Nat.id]].
  apply (ap_cpus _ _ T). exists p. split; [now apply nth_error_In in Ep|now rewrite N2Nat.id].
Qed.
Lemma same_cluster_at t i j : i < length (at_processors t) -> j < length (at_processors t) -> (same_cluster t i j <-> cluster_at t i = cluster_at t j).
Proof.
  intros Hi Hj. unfold same_cluster, cluster_at. destruct (nth_error (at_processors t) i) as [p|] eqn:Ep; [|apply nth_error_None in Ep; lia].
  destruct (nth_error (at_processors t) j) as [q|] eqn:Eq; [|apply nth_error_None in Eq; lia].
  split; [intros (a & b & A & B & C); congruence|intros E; eauto].
Qed.
Lemma follow_at t group a b i j : clusters_follow t group -> listed_at t a i -> listed_at t b j -> (cluster_at t i = cluster_at t j <-> group a = group b).
Proof.
  intros F (p & Hp & Ep) (q & Hq & Eq). unfold cluster_at. rewrite Hp, Hq. rewrite (F p q); [|now apply nth_error_In in Hp|now apply nth_error_In in Hq].
  now rewrite Ep, Eq, !Nat2N.id.
Qed.

Lemma tables_alike f usable group midr usable' group' midr' t t' : arm_renumbered f usable group midr usable' group' midr' ->
  arm_topology usable t -> arm_topology usable' t' -> clusters_follow t group -> clusters_follow t' group' -> midrs_follow t midr -> midrs_follow t' midr' ->
  arm_alike f usable t t'.
Proof.
  intros [A1 A2 A3 A4] T T' F F' M M'. pose proof (topology_shaped _ _ T) as S. pose proof (topology_shaped _ _ T') as S'.
  set (R := fun i j => exists cpu, usable cpu /\ listed_at t cpu i /\ listed_at t' (f cpu) j).
  assert (R1 : forall i, i < length (at_processors t) -> exists j, j < length (at_processors t') /\ R i j).
  { intros i Hi. destruct (listed_usable _ _ _ T Hi) as (cpu & U & L). destruct (usable_listed _ _ _ T' (proj1 (A1 _ U))) as (j & Lj).
    exists j. split; [exact (listed_bound _ _ _ Lj)|]. exists cpu. auto. }
  assert (R2 : forall j, j < length (at_processors t') -> exists i, i < length (at_processors t) /\ R i j).
  { intros j Hj. destruct (listed_usable _ _ _ T' Hj) as (cpu' & U' & L'). destruct (A2 _ U') as (cpu & U & <-). destruct (usable_listed _ _ _ T U) as (i & L).
    exists i. split; [exact (listed_bound _ _ _ L)|]. exists cpu. auto. }
  assert (O1 : forall i i' j, R i j -> R i' j -> i = i').
  { intros i i' j (a & Ua & La & La') (b & Ub & Lb & Lb'). assert (a = b) by (apply A3; auto; exact (listed_cpu _ _ _ _ La' Lb')). subst b. exact (listed_once _ _ _ _ _ T La Lb). }
  assert (O2 : forall i j j', R i j -> R i j' -> j = j').
  { intros i j j' (a & Ua & La & La') (b & Ub & Lb & Lb'). assert (a = b) by exact (listed_cpu _ _ _ _ La Lb). subst b. exact (listed_once _ _ _ _ _ T' La' Lb'). }
  assert (G1 : forall i i' j j', R i j -> R i' j' -> (cluster_at t i = cluster_at t i' <-> cluster_at t' j = cluster_at t' j')).
  { intros i i' j j' (a & Ua & La & La') (b & Ub & Lb & Lb'). rewrite (follow_at _ _ _ _ _ _ F La Lb), (follow_at _ _ _ _ _ _ F' La' Lb'). symmetry. now apply A4. }
  assert (G2 : forall j j' i i', R i j -> R i' j' -> (cluster_at t' j = cluster_at t' j' <-> cluster_at t i = cluster_at t i')) by (intros; symmetry; now apply G1).
  constructor.
  - pose proof (processors_le t t' R R1 O1). pose proof (processors_le t' t (fun j i => R i j) R2 (fun j j' i => O2 i j j')). lia.
  - pose proof (clusters_le t t' R S S' R1 O1 G1). pose proof (clusters_le t' t (fun j i => R i j) S' S R2 (fun j j' i => O2 i j j') G2). lia.
  - intros cpu U. destruct (usable_listed _ _ _ T U) as (i & L). destruct (usable_listed _ _ _ T' (proj1 (A1 _ U))) as (j & L').
    assert (Rij : R i j) by (exists cpu; auto). pose proof (listed_bound _ _ _ L) as Bi. pose proof (listed_bound _ _ _ L') as Bj.
    exists i, j. split; [exact L|]. split; [exact L'|]. split; [intros k Lk; exact (listed_once _ _ _ _ _ T Lk L)|].
    split; [intros k Lk; exact (listed_once _ _ _ _ _ T' Lk L')|]. split.
    + assert (CO : forall us tt c k, arm_topology us tt -> listed_at tt c k -> exists co, nth_error (at_cores tt) k = Some co).
      { clear. intros us tt c k TT (p & Hp & _). destruct (ap_consistent _ _ TT) as [(oo & Eo & (_ & Go)) _ _ _ _ _ _ _].
        pose proof (f_equal (fun l => nth_error l k) Eo) as EE. cbn in EE. rewrite !nth_error_map, Hp in EE. cbn in EE. rewrite (ap_own_core _ _ TT _ _ Hp) in EE.
        destruct (nth_error oo k) as [o|] eqn:Eoo; [|discriminate]. cbn in EE. injection EE as <-. apply Go in Eoo. destruct Eoo as (s & n & H & _).
        rewrite nth_error_map in H. destruct (nth_error (at_cores tt) k); [eauto|discriminate]. }
      destruct (CO _ _ _ _ T L) as (c & Ec). destruct (CO _ _ _ _ T' L') as (c' & Ec'). exists c, c'. split; [exact Ec|]. split; [exact Ec'|].
      intros field NA. destruct L as (p & Hp & Ep), L' as (p' & Hp' & Ep'). rewrite (M' _ _ _ Hp' Ec' field NA), (M _ _ _ Hp Ec field NA).
      rewrite Ep, Ep', !Nat2N.id. now rewrite (proj2 (A1 _ U)).
    + destruct (sh_owner _ S i Bi) as (k & Ek & Lk). destruct (sh_owner _ S' j Bj) as (k' & Ek' & Lk').
      destruct (nth_error (at_clusters t) k) as [l|] eqn:El; [|apply nth_error_None in El; lia].
      destruct (nth_error (at_clusters t') k') as [l'|] eqn:El'; [|apply nth_error_None in El'; lia].
      pose proof (cores_le t t' R S S' R1 O1 G1 k k' l l' i j Rij Ek Ek' El El').
      pose proof (cores_le t' t (fun j i => R i j) S' S R2 (fun j j' i => O2 i j j') G2 k' k l' l j i Rij Ek' Ek El' El).
      exists (cl_core_count l). unfold cluster_at in Ek, Ek'. unfold cluster_cores_of.
      destruct (nth_error (at_processors t) i) as [p|]; [|discriminate]. destruct (nth_error (at_processors t') j) as [p'|]; [|discriminate].
      split; [exists p, k, l; auto|exists p', k', l'; repeat split; auto; lia].
  - intros a b i1 i2 j1 j2 Ua Ub L1 L2 L1' L2'.
    rewrite (same_cluster_at t i1 i2), (same_cluster_at t' j1 j2) by eauto using listed_bound. apply G1; [exists a|exists b]; auto.
Qed.

Lemma arm_linux_renumber arm32 d d' char_signed char_signed' android android' garbage garbage' default default' sorter sorter' calloc_ok calloc_ok'
  fs fs' f max possible present ms version group midr max' possible' present' ms' version' group' midr' o t o' t' :
  arm_files_say arm32 default fs max possible present ms -> all_online (arm_usable max possible present) ms version -> decoders_answer d ms ->
  groups_say (arm_usable max possible present) fs group -> midrs_given (arm_usable max possible present) ms group midr ->
  arm_files_say arm32 default' fs' max' possible' present' ms' -> all_online (arm_usable max' possible' present') ms' version' -> decoders_answer d' ms' ->
  groups_say (arm_usable max' possible' present') fs' group' -> midrs_given (arm_usable max' possible' present') ms' group' midr' ->
  sorts (cmp_arm_linux_processor arm32) sorter -> sorts (cmp_arm_linux_processor arm32) sorter' ->
  arm_renumbered f (arm_usable max possible present) group midr (arm_usable max' possible' present') group' midr' ->
  arm_linux_init char_signed arm32 android garbage default sorter calloc_ok d fs = Ok o -> ao_published o = Some t ->
  arm_linux_init char_signed' arm32 android' garbage' default' sorter' calloc_ok' d' fs' = Ok o' -> ao_published o' = Some t' ->
  arm_alike f (arm_usable max possible present) t t'.
Proof.
  intros FS ON DA G MI FS' ON' DA' G' MI' SO SO' AR E P E' P'.
  pose proof (init_reports _ _ _ _ _ _ _ _ _ _ _ _ _ _ FS ON DA SO _ E) as RE. rewrite P in RE.
  pose proof (init_reports _ _ _ _ _ _ _ _ _ _ _ _ _ _ FS' ON' DA' SO' _ E') as RE'. rewrite P' in RE'.
  destruct (init_groups _ _ _ _ _ _ _ _ _ _ _ _ _ _ FS ON DA SO _ _ _ G E P) as (CF & MF).
  destruct (init_groups _ _ _ _ _ _ _ _ _ _ _ _ _ _ FS' ON' DA' SO' _ _ _ G' E' P') as (CF' & MF').
  eapply tables_alike; eauto; [apply (rp_topology _ _ _ _ _ _ RE)|apply (rp_topology _ _ _ _ _ _ RE')].
Qed.
