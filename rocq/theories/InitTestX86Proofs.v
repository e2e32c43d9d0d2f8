(** x86 Linux detection passes the tests on ordinary machines. *)
From Verif Require Import Base BaseProofs TopologySpec X86LinuxModel X86LinuxSpec X86FinalProofs InitTestModel InitTestSpec InitTestProofs InitTestCacheProofs.
From Verif Require ArmLinuxSpec.
From Coq Require Import String List. Import ListNotations.
Open Scope nat_scope.

Lemma agree_higher a b x y : (a <= b)%N -> agree_above a x y -> agree_above b x y.
Proof.
  unfold agree_above. intros L E. replace b with (a + (b - a))%N by lia. rewrite N.pow_add_r, <- !N.div_div by (apply N.pow_nonzero; lia). now rewrite E.
Qed.

Lemma reported_agrees g bits ps of cs n : level_reported g bits ps of cs n ->
  ArmLinuxSpec.ranges_agree of cs /\ length of = length ps /\ (plausible g \/ g_size g = 0%N -> Forall (fun c => plausible (ca_geometry c)) cs) /\
  Forall (fun c => ca_geometry c = g) cs.
Proof.
  intros (_ & L & Z & P). destruct (N.eq_dec (g_size g) 0) as [E|E].
  - destruct (Z E) as (-> & F). split; [|repeat split; auto]. split; [|intros [|k] c H; discriminate H]. intros i k H. apply nth_error_In in H. rewrite Forall_forall in F.
    specialize (F _ H). discriminate F.
  - destruct (P E) as (P1 & P2 & _). split; [now apply points_agree|]. split; [exact L|]. split; [|exact P2]. intros [G|G]; [|contradiction].
    eapply Forall_impl; [|exact P2]. cbn. intros c ->. exact G.
Qed.
Lemma reported_some g bits ps of cs n : level_reported g bits ps of cs n -> ps <> [] -> g_size g <> 0%N -> cs <> [] /\
  forall i, i < length ps -> exists k, nth_error of i = Some (Some k).
Proof.
  intros (_ & L & _ & P) N0 E. destruct (P E) as ((o & -> & T & G) & _). rewrite map_length in L.
  assert (S : forall i, i < length ps -> exists k, nth_error o i = Some k).
  { intros i I. destruct (nth_error o i) eqn:X; [eauto|]. apply nth_error_None in X. lia. }
  split.
  - intros ->. destruct ps as [|p ps]; [congruence|]. destruct (S 0 ltac:(cbn; lia)) as (k & K). apply G in K. destruct K as (s & c & K & _). now destruct k.
  - intros i I. destruct (S i I) as (k & K). exists k. now apply map_nth_error.
Qed.
Lemma reported_below v a b ga gb ba bb na nb :
  level_reported ga ba (v_processors v) (v_cache_of v a) (v_caches v a) na -> level_reported gb bb (v_processors v) (v_cache_of v b) (v_caches v b) nb ->
  v_processors v <> [] -> (g_size gb <> 0%N -> g_size ga <> 0%N /\ (ba <= bb)%N) -> below v a b.
Proof.
  intros A B N0 H. pose proof A as (_ & LA & ZA & PA). pose proof B as (_ & LB & ZB & PB). destruct (N.eq_dec (g_size gb) 0) as [E|E].
  - destruct (ZB E) as (_ & F). rewrite Forall_forall in F. split.
    + intros i k K. specialize (F _ (nth_error_In _ _ K)). discriminate F.
    + intros i i' j X Y. apply nth_error_some_lt in X. apply nth_error_some_lt in Y. rewrite LA, <- LB in X, Y.
      destruct (nth_error (v_cache_of v b) i) as [p|] eqn:P; [|apply nth_error_None in P; lia]. destruct (nth_error (v_cache_of v b) i') as [q|] eqn:Q; [|apply nth_error_None in Q; lia].
      now rewrite (F p (nth_error_In _ _ P)), (F q (nth_error_In _ _ Q)).
  - destruct (H E) as (EA & BITS). destruct (PA EA) as (_ & _ & SA). destruct (PB E) as (_ & _ & SB). split.
    + intros i k K. apply nth_error_some_lt in K. rewrite LB in K. exact (proj2 (reported_some _ _ _ _ _ _ A N0 EA) i K).
    + intros i i' j X Y. pose proof (nth_error_some_lt _ _ _ _ X) as I. pose proof (nth_error_some_lt _ _ _ _ Y) as J. rewrite LA in I, J.
      destruct (nth_error (v_processors v) i) as [p|] eqn:P; [|apply nth_error_None in P; lia]. destruct (nth_error (v_processors v) i') as [q|] eqn:Q; [|apply nth_error_None in Q; lia].
      apply (SB i i' p q P Q). apply (agree_higher ba); [exact BITS|]. apply (SA i i' p q P Q). congruence.
Qed.

Lemma x86_linux_passes char_signed default sorter calloc_ok x files o t test :
  qsort_contract sorter -> threads_share_last_level x -> ordinary x -> widening x ->
  x86_linux_init char_signed default sorter calloc_ok x files = Ok o -> o_published o = Some t ->
  In test init_tests -> passes (view_of t) test.
Proof.
  intros Q T [O1 O2 O3 O4 O6] O5 I P. pose proof (published_consistent _ _ _ _ _ _ _ _ Q T I P) as (N0 & C). pose proof (published_ids _ _ _ _ _ _ _ _ Q T I P) as IDS.
  pose proof (published_caches _ _ _ _ _ _ _ _ Q I P) as (R1 & R2 & R3 & R4 & R5). pose proof (published_uarch _ _ _ _ _ _ _ _ Q I P) as (_ & _ & U1 & U2).
  destruct (published_good _ _ _ _ _ _ _ _ Q I P) as (procs & mask & _ & G). pose proof (count_uarch _ _ (gt_lists _ _ _ G)) as (UP & UC).
  rewrite Forall_forall in U1, U2.
  assert (PL : forall c, In c [xi_l1i x; xi_l1d x; xi_l2 x; xi_l3 x; xi_l4 x] -> plausible (xc_geometry c) \/ g_size (xc_geometry c) = 0%N).
  { intros c H. destruct (N.eq_dec (g_size (xc_geometry c)) 0); [now right|left; now apply O1]. }
  assert (RA := reported_agrees _ _ _ _ _ _ R1). assert (RB := reported_agrees _ _ _ _ _ _ R2). assert (RC := reported_agrees _ _ _ _ _ _ R3).
  assert (RD := reported_agrees _ _ _ _ _ _ R4). assert (RE := reported_agrees _ _ _ _ _ _ R5).
  apply all_pass; cbn [view_of v_processors v_cores v_clusters v_packages v_uarchs]; auto.
  - intros []; cbn [view_of v_cache_of v_caches by_level]; [apply RA|apply RB|apply RC|apply RD|apply RE].
  - intros []; cbn [view_of v_cache_of v_caches by_level]; [apply RA|apply RB|apply RC|apply RD|apply RE].
  - intros []; cbn [view_of v_cache_of v_caches by_level]; [apply RA|apply RB|apply RC|apply RD|apply RE]; apply PL; cbn [In]; tauto.
  - cbn [view_of v_caches by_level].
    split; [|split]; [eapply reported_some; [exact R1|..]|eapply reported_some; [exact R2|..]|eapply reported_some; [exact R3|..]]; auto; apply O2; cbn [In]; tauto.
  - cbn [view_of v_caches by_level]. destruct O4 as (I1 & I2). split.
    + eapply Forall_impl; [|apply RA]. cbn. intros c ->. exact I1.
    + eapply Forall_impl; [|apply RB]. cbn. intros c ->. exact I2.
  - split; [|split; [|split]].
    + eapply (reported_below (view_of t) L1I L2); [exact R1|exact R3|exact N0|]. intros _. split; [apply O2; cbn; tauto|apply O5; [cbn; tauto|apply O2; cbn; tauto]].
    + eapply (reported_below (view_of t) L1D L2); [exact R2|exact R3|exact N0|]. intros _. split; [apply O2; cbn; tauto|apply O5; [cbn; tauto|apply O2; cbn; tauto]].
    + eapply (reported_below (view_of t) L2 L3); [exact R3|exact R4|exact N0|]. intros E. split; [apply O2; cbn; tauto|apply O5; [cbn; tauto|exact E]].
    + eapply (reported_below (view_of t) L3 L4); [exact R4|exact R5|exact N0|]. intros E. split; [now apply O3|apply O5; [cbn; tauto|exact E]].
  - apply Forall_forall. intros c H. destruct (U1 c H) as (-> & -> & _). exact O6.
  - intros i c j l H1 _ H2. destruct (U1 c (nth_error_In _ _ H1)) as (-> & -> & ->). exact (U2 l (nth_error_In _ _ H2)).
  - split; [discriminate|]. constructor; [|constructor]. cbn [fst snd]. rewrite UP, UC.
    assert (NC : t_cores t <> []) by (exact (some_too _ _ _ _ (processors_in_cores _ _ _ _ C) N0)).
    destruct (t_processors t), (t_cores t); try congruence; cbn; lia.
Qed.
