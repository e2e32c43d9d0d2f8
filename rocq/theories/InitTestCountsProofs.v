(** Detection from counts, as on Mach and FreeBSD, passes the tests on ordinary machines. *)
From Verif Require Import Base BaseProofs TopologySpec X86LinuxModel X86CountsSpec InitTestModel InitTestSpec InitTestProofs InitTestCacheProofs.
From Verif Require ArmLinuxSpec.
From Coq Require Import String List. Import ListNotations.
Open Scope nat_scope.

Lemma equal_tiles w rs : forall from to, tiles from rs to -> Forall (fun r => snd r = w) rs ->
  forall j s c, nth_error rs j = Some (s, c) -> s = from + j * w /\ c = w.
Proof.
  induction rs as [|(s0, c0) rs IH]; intros from to T F j s c N; [now destruct j|]. inversion_clear F as [|r rs' E F']. cbn in E. destruct T as (-> & C & T).
  destruct j; cbn in N; [injection N as <- <-; split; [lia|exact E]|]. destruct (IH _ _ T F' j s c N) as (-> & ->). split; [|reflexivity]. rewrite E. lia.
Qed.

Lemma shared_agrees g n w of cs count : level_shared g n w of cs count ->
  ArmLinuxSpec.ranges_agree of cs /\ length of = n /\ (plausible g \/ g_size g = 0%N -> Forall (fun c => plausible (ca_geometry c)) cs) /\
  Forall (fun c => ca_geometry c = g) cs.
Proof.
  intros (L & Z & P). destruct (N.eq_dec (g_size g) 0) as [E|E].
  - destruct (Z E) as (-> & F). split; [|repeat split; auto]. split; [|intros [|k] c H; discriminate H]. intros i k H. apply nth_error_In in H. rewrite Forall_forall in F.
    specialize (F _ H). discriminate F.
  - destruct (P E) as (P1 & _ & P2). assert (P3 : Forall (fun c => ca_geometry c = g) cs) by (eapply Forall_impl; [|exact P2]; cbn; tauto).
    split; [now apply points_agree|]. split; [exact L|]. split; [|exact P3]. intros [G|G]; [|contradiction].
    eapply Forall_impl; [|exact P3]. cbn. intros c ->. exact G.
Qed.
Lemma shared_at g n w of cs count : level_shared g n w of cs count -> g_size g <> 0%N -> forall i, i < n -> 0 < w /\ nth_error of i = Some (Some (i / w)).
Proof.
  intros (L & _ & P) E i I. destruct (P E) as ((o & -> & T & G) & _ & F). rewrite map_length in L.
  destruct (nth_error o i) as [k|] eqn:X; [|apply nth_error_None in X; lia]. pose proof (proj1 (G i k) X) as (s & c & Y & B).
  assert (F' : Forall (fun r => snd r = w) (map cache_processors cs)).
  { apply Forall_forall. intros r R. apply in_map_iff in R. destruct R as (ca & <- & R). rewrite Forall_forall in F. apply (F ca R). }
  destruct (equal_tiles w _ _ _ T F' k s c Y) as (-> & ->). split; [lia|]. rewrite (map_nth_error _ _ _ X). f_equal. f_equal.
  apply Nat.div_unique with (i - (0 + k * w)); lia.
Qed.
Lemma shared_below v a b ga gb wa wb na nb n : n = length (v_processors v) ->
  level_shared ga n wa (v_cache_of v a) (v_caches v a) na -> level_shared gb n wb (v_cache_of v b) (v_caches v b) nb ->
  (g_size gb <> 0%N -> g_size ga <> 0%N /\ Nat.divide wa wb) -> below v a b.
Proof.
  intros -> A B H. pose proof A as (LA & ZA & _). pose proof B as (LB & ZB & _). destruct (N.eq_dec (g_size gb) 0) as [E|E].
  - destruct (ZB E) as (_ & F). rewrite Forall_forall in F. split.
    + intros i k K. specialize (F _ (nth_error_In _ _ K)). discriminate F.
    + intros i i' j X Y. apply nth_error_some_lt in X. apply nth_error_some_lt in Y. rewrite LA, <- LB in X, Y.
      destruct (nth_error (v_cache_of v b) i) as [p|] eqn:P; [|apply nth_error_None in P; lia]. destruct (nth_error (v_cache_of v b) i') as [q|] eqn:Q; [|apply nth_error_None in Q; lia].
      now rewrite (F p (nth_error_In _ _ P)), (F q (nth_error_In _ _ Q)).
  - destruct (H E) as (EA & m & W). pose proof (shared_at _ _ _ _ _ _ A EA) as SA. pose proof (shared_at _ _ _ _ _ _ B E) as SB. split.
    + intros i k K. apply nth_error_some_lt in K. rewrite LB in K. destruct (SA i K). eauto.
    + intros i i' j X Y. pose proof (nth_error_some_lt _ _ _ _ X) as I. pose proof (nth_error_some_lt _ _ _ _ Y) as J. rewrite LA in I, J.
      destruct (SA i I) as (W0 & SI), (SA i' J) as (_ & SJ), (SB i I) as (W1 & TI), (SB i' J) as (_ & TJ). rewrite X in SI. rewrite Y in SJ. rewrite TI, TJ.
      injection SI as SI. injection SJ as SJ. assert (EQ : i / wa = i' / wa) by congruence. subst wb.
      assert (m <> 0) by (intros ->; cbn in W1; lia). rewrite (Nat.mul_comm m wa), <- !Nat.div_div by lia. now rewrite EQ.
Qed.
Lemma shared_some g n w of cs count : level_shared g n w of cs count -> 0 < n -> g_size g <> 0%N -> cs <> [].
Proof.
  intros S I E. pose proof (shared_at _ _ _ _ _ _ S E 0 I) as (_ & X). pose proof (shared_agrees _ _ _ _ _ _ S) as ((R & _) & _). apply R in X. now destruct cs.
Qed.

Lemma counted_passes packages cpp tpc reported x t test : 0 < packages -> 0 < cpp -> 0 < tpc ->
  describes packages cpp tpc x t -> caches_described packages cpp tpc reported x t -> ordinary x -> widening_counts packages cpp tpc reported x ->
  In test init_tests -> passes (view_of t) test.
Proof.
  intros Z1 Z2 Z3 [D1 D2 _ _ _ _ _ C IDS U1 U2 UA] [R1 R2 R3 R4 R5 _] [O1 O2 O3 O4 O6] (W1 & W2 & W3).
  assert (POS : 0 < packages * cpp) by now apply Nat.mul_pos_pos. assert (POS' : 0 < packages * cpp * tpc) by now apply Nat.mul_pos_pos.
  assert (N0 : t_processors t <> []) by (intros E; rewrite E in D1; cbn [Datatypes.length] in D1; lia).
  rewrite Forall_forall in U1, U2.
  assert (PL : forall c, In c [xi_l1i x; xi_l1d x; xi_l2 x; xi_l3 x; xi_l4 x] -> plausible (xc_geometry c) \/ g_size (xc_geometry c) = 0%N).
  { intros c H. destruct (N.eq_dec (g_size (xc_geometry c)) 0); [now right|left; now apply O1]. }
  assert (RA := shared_agrees _ _ _ _ _ _ R1). assert (RB := shared_agrees _ _ _ _ _ _ R2). assert (RC := shared_agrees _ _ _ _ _ _ R3).
  assert (RD := shared_agrees _ _ _ _ _ _ R4). assert (RE := shared_agrees _ _ _ _ _ _ R5).
  apply all_pass; cbn [view_of v_processors v_cores v_clusters v_packages v_uarchs]; auto.
  - intros []; cbn [view_of v_cache_of v_caches by_level]; [apply RA|apply RB|apply RC|apply RD|apply RE].
  - rewrite D1. intros []; cbn [view_of v_cache_of v_caches by_level]; [apply RA|apply RB|apply RC|apply RD|apply RE].
  - intros []; cbn [view_of v_cache_of v_caches by_level]; [apply RA|apply RB|apply RC|apply RD|apply RE]; apply PL; cbn [In]; tauto.
  - cbn [view_of v_caches by_level].
    split; [|split]; [eapply shared_some; [exact R1|..]|eapply shared_some; [exact R2|..]|eapply shared_some; [exact R3|..]]; auto; apply O2; cbn [In]; tauto.
  - cbn [view_of v_caches by_level]. destruct O4 as (I1 & I2). split.
    + eapply Forall_impl; [|apply RA]. cbn. intros c ->. exact I1.
    + eapply Forall_impl; [|apply RB]. cbn. intros c ->. exact I2.
  - symmetry in D1. split; [|split; [|split]].
    + eapply (shared_below (view_of t) L1I L2); [exact D1|exact R1|exact R3|]. intros _. split; [apply O2; cbn; tauto|exact W1].
    + eapply (shared_below (view_of t) L1D L2); [exact D1|exact R2|exact R3|]. intros _. split; [apply O2; cbn; tauto|exact W1].
    + eapply (shared_below (view_of t) L2 L3); [exact D1|exact R3|exact R4|]. intros E. split; [apply O2; cbn; tauto|now apply W2].
    + eapply (shared_below (view_of t) L3 L4); [exact D1|exact R4|exact R5|]. intros E. split; [now apply O3|now apply W3].
  - apply Forall_forall. intros c H. specialize (U1 c H). cbn beta in U1. injection U1 as -> -> _. exact O6.
  - intros i c j l H1 _ H2. specialize (U1 c (nth_error_In _ _ H1)). specialize (U2 l (nth_error_In _ _ H2)). cbn beta in U1, U2. injection U1 as -> -> ->. injection U2 as -> -> ->. auto.
  - split; [discriminate|]. constructor; [|constructor]. cbn [fst snd]. injection UA as _ _ -> ->. rewrite D1, D2. lia.
Qed.

Lemma unreported_widens packages cpp tpc x : widening_counts packages cpp tpc (fun _ => 0) x.
Proof.
  unfold widening_counts, l1_width, l2_width, l3_width, l4_width, shared_by. cbn [Nat.eqb]. split; [|split].
  - destruct (g_size (xc_geometry (xi_l3 x)) =? 0)%N; [exists cpp; reflexivity|exists 1; lia].
  - intros E. destruct (N.eqb_spec (g_size (xc_geometry (xi_l3 x))) 0); [contradiction|]. exists cpp. reflexivity.
  - intros _. exists packages. lia.
Qed.
