(** Tables with caches as expected pass the tests. *)
From Verif Require Import Base BaseProofs TopologySpec InitTestModel InitTestSpec InitTestProofs.
From Verif Require ArmLinuxSpec.
Import ArmLinuxSpec(ranges_agree).
From Coq Require Import String List. Import ListNotations.
Open Scope nat_scope.

Lemma points_agree pointers caches : points_to pointers (map cache_processors caches) -> ranges_agree pointers caches.
Proof.
  intros (o & -> & T & G). rewrite <- (map_length Some o) in T. split.
  - intros i k H. apply nth_error_map_inv in H. destruct H as (j & H & E). injection E as ->. apply G in H. destruct H as (s & c & H & _).
    apply nth_error_some_lt in H. now rewrite map_length in H.
  - intros k c H. assert (M : nth_error (map cache_processors caches) k = Some (cache_processors c)) by now apply map_nth_error.
    destruct (tiles_inside _ _ _ _ _ _ T M) as (_ & P & B). split; [exact P|]. split; [exact B|]. intros i. split.
    + intros X. apply nth_error_map_inv in X. destruct X as (j & X & E). injection E as <-. apply G in X. destruct X as (s & n & X & I).
      rewrite M in X. injection X as <- <-. exact I.
    + intros X. apply map_nth_error. apply G. eauto.
Qed.

Section Level.
  Variables (v : view) (l : level) (name : string).
  Hypothesis R : ranges_agree (v_cache_of v l) (v_caches v l).
  Hypothesis L : length (v_cache_of v l) = length (v_processors v).
  Hypothesis G : Forall (fun c => plausible (ca_geometry c)) (v_caches v l).

  Lemma cached_processors : consistent_cache l v = true.
  Proof using R L.
    apply each_spec. intros i p P. destruct (nth_error (v_cache_of v l) i) as [[k|]|] eqn:E; auto. destruct R as (R1 & R2).
    pose proof (R1 i k E) as B. unfold at_pointer. destruct (nth_error (v_caches v l) k) as [c|] eqn:K; [|apply nth_error_None in K; lia].
    apply inside_spec. now apply (R2 k c K).
  Qed.
  Lemma ranges_pass t : In t (range_tests l name) -> passes v t.
  Proof using R L.
    destruct R as (R1 & R2). unfold passes. intros [<-|[<-|[<-|[]]]]; cbn [snd named].
    - apply each_spec. intros k c K. destruct (R2 k c K) as (P & _). destruct (Nat.eqb_spec (ca_processor_count c) 0); [lia|reflexivity].
    - apply each_spec. intros k c K. destruct (R2 k c K) as (P & B & _). apply fits_spec. lia.
    - apply each_spec. intros k c K. destruct (R2 k c K) as (P & B & I). apply over_spec. intros i H. exists (Some k). split; [now apply I|]. apply Nat.eqb_refl.
  Qed.
  Lemma geometry_pass t : In t (geometry_tests l name) -> passes v t.
  Proof using G. clear R L.
    rewrite Forall_forall in G. assert (E : forall f, (forall g, plausible g -> f g = true) -> each_cache l f v = true).
    { intros f H. apply each_spec. intros k c K. apply H, G. eapply nth_error_In; eassumption. }
    assert (LINE : forall g, plausible g -> exists k, g_line_size g = (2 ^ k)%N /\ In k [4; 5; 6; 7]%N).
    { intros g [_ _ (k & K & B) _]. exists k. split; [exact K|]. cbn. lia. }
    unfold passes. cbn [geometry_tests In].
    repeat match goal with |- _ \/ _ -> _ => intros [<-|X]; [|revert X] | |- False -> _ => intros [] end; cbn [snd named]; apply E; intros g [P1 P2 P3 P4] || idtac.
    - destruct (N.eqb_spec (g_size g) 0); [lia|reflexivity].
    - rewrite <- P2. unfold u32. rewrite N.mod_small by (unfold two32; lia). apply N.eqb_refl.
    - destruct (N.eqb_spec (g_associativity g) 0) as [Z|]; [rewrite Z in P2; cbn in P2; lia|reflexivity].
    - destruct (N.eqb_spec (g_partitions g) 0) as [Z|]; [rewrite Z, N.mul_0_r in P2; cbn in P2; lia|reflexivity].
    - destruct (N.eqb_spec (g_line_size g) 0) as [Z|]; [rewrite Z, N.mul_0_r in P2; lia|reflexivity].
    - destruct (LINE g (Build_plausible g P1 P2 P3 P4)) as (k & -> & I). cbn in I. destruct I as [<-|[<-|[<-|[<-|[]]]]]; reflexivity.
    - destruct (LINE g (Build_plausible g P1 P2 P3 P4)) as (k & -> & I). cbn in I. destruct I as [<-|[<-|[<-|[<-|[]]]]]; reflexivity.
    - apply N.eqb_eq. apply N.bits_inj_0. intros b. rewrite N.ldiff_spec. destruct (N.testbit (g_flags g) b) eqn:B; [|reflexivity]. apply P4 in B.
      assert (C : b = 0%N \/ b = 1%N \/ b = 2%N) by lia. destruct C as [->|[->| ->]]; reflexivity.
  Qed.
  Lemma inclusive_pass t : Forall (fun c => ~ inclusive (ca_geometry c)) (v_caches v l) -> In t (inclusive_tests l name) -> passes v t.
  Proof using.
    intros F [<-|[]]. unfold passes. cbn [snd named]. apply each_spec. intros k c K. rewrite Forall_forall in F. specialize (F c (nth_error_In _ _ K)).
    unfold inclusive in F. destruct (N.eqb_spec (N.land (g_flags (ca_geometry c)) 2) 2) as [E|]; [|reflexivity]. exfalso. apply F.
    apply (f_equal (fun x => N.testbit x 1)) in E. rewrite N.land_spec in E. cbn in E. now rewrite andb_true_r in E.
  Qed.
  Lemma few_caches : at_most_processors l v = true.
  Proof using R L.
    apply leb_true. rewrite <- L. destruct R as (_ & R2). unfold count. set (cs := v_caches v l) in *. set (ps := v_cache_of v l) in *.
    assert (X : incl (map ca_processor_start cs) (seq 0 (length ps))).
    { intros s S. apply in_map_iff in S. destruct S as (c & <- & S). apply In_nth_error in S. destruct S as (k & S). destruct (R2 k c S). apply in_seq. lia. }
    assert (Y : NoDup (map ca_processor_start cs)).
    { apply NoDup_nth_error. intros i j Hi E. rewrite map_length in Hi. destruct (nth_error cs i) as [c|] eqn:Ci; [|apply nth_error_None in Ci; lia].
      rewrite (map_nth_error _ _ _ Ci) in E. symmetry in E. apply nth_error_map_inv in E. destruct E as (c' & Cj & E).
      destruct (R2 i c Ci) as (P1 & _ & I1), (R2 j c' Cj) as (P2 & _ & I2).
      assert (Q1 : nth_error ps (ca_processor_start c) = Some (Some i)) by (apply I1; lia).
      assert (Q2 : nth_error ps (ca_processor_start c) = Some (Some j)) by (apply I2; lia). congruence. }
    pose proof (NoDup_incl_length Y X) as Z. rewrite map_length, seq_length in Z. exact Z.
  Qed.
End Level.

(** Every sharer of a cache at the lower level shares one at the upper level, if there is one. *)
Definition below (v : view) (a b : level) : Prop :=
  (forall i k, nth_error (v_cache_of v b) i = Some (Some k) -> exists j, nth_error (v_cache_of v a) i = Some (Some j)) /\
  forall i i' j, nth_error (v_cache_of v a) i = Some (Some j) -> nth_error (v_cache_of v a) i' = Some (Some j) ->
    nth_error (v_cache_of v b) i = nth_error (v_cache_of v b) i'.
Lemma fewer_above v a b : ranges_agree (v_cache_of v a) (v_caches v a) -> ranges_agree (v_cache_of v b) (v_caches v b) -> below v a b ->
  (count v b <=? count v a) = true.
Proof.
  intros (A1 & _) (_ & B2) (D1 & D2). apply leb_true. unfold count.
  set (f c := match nth_error (v_cache_of v a) (ca_processor_start c) with Some (Some j) => j | _ => 0 end).
  assert (F : forall k c, nth_error (v_caches v b) k = Some c -> nth_error (v_cache_of v b) (ca_processor_start c) = Some (Some k) /\
    nth_error (v_cache_of v a) (ca_processor_start c) = Some (Some (f c))).
  { intros k c K. destruct (B2 k c K) as (P & _ & I). assert (Q : nth_error (v_cache_of v b) (ca_processor_start c) = Some (Some k)) by (apply I; lia).
    split; [exact Q|]. destruct (D1 _ _ Q) as (j & J). unfold f. now rewrite J. }
  assert (X : incl (map f (v_caches v b)) (seq 0 (length (v_caches v a)))).
  { intros s S. apply in_map_iff in S. destruct S as (c & <- & S). apply In_nth_error in S. destruct S as (k & S). destruct (F k c S) as (_ & Q).
    apply A1 in Q. apply in_seq. lia. }
  assert (Y : NoDup (map f (v_caches v b))).
  { apply NoDup_nth_error. intros i j Hi E. rewrite map_length in Hi. destruct (nth_error (v_caches v b) i) as [c|] eqn:Ci; [|apply nth_error_None in Ci; lia].
    rewrite (map_nth_error _ _ _ Ci) in E. symmetry in E. apply nth_error_map_inv in E. destruct E as (c' & Cj & E).
    destruct (F i c Ci) as (P1 & P2), (F j c' Cj) as (Q1 & Q2). rewrite <- E in Q2. pose proof (D2 _ _ _ P2 Q2) as D. rewrite P1, Q1 in D. now injection D. }
  pose proof (NoDup_incl_length Y X) as Z. rewrite map_length, seq_length in Z. exact Z.
Qed.

Section All.
  Variable v : view.
  Hypothesis C : consistent (v_processors v) (v_cores v) (v_clusters v) (v_packages v).
  Hypothesis O : ids_are_offsets (v_processors v) (v_cores v) (v_clusters v) (v_packages v).
  Hypothesis N0 : v_processors v <> [].
  Hypothesis R : forall l, ranges_agree (v_cache_of v l) (v_caches v l).
  Hypothesis L : forall l, length (v_cache_of v l) = length (v_processors v).
  Hypothesis G : forall l, Forall (fun c => plausible (ca_geometry c)) (v_caches v l).
  Hypothesis P : v_caches v L1I <> [] /\ v_caches v L1D <> [] /\ v_caches v L2 <> [].
  Hypothesis I : Forall (fun c => ~ inclusive (ca_geometry c)) (v_caches v L1I) /\ Forall (fun c => ~ inclusive (ca_geometry c)) (v_caches v L1D).
  Hypothesis D : below v L1I L2 /\ below v L1D L2 /\ below v L2 L3 /\ below v L3 L4.
  Hypothesis K : Forall (fun c => c_vendor c <> 0%N /\ c_uarch c <> 0%N) (v_cores v).
  Hypothesis S : forall i c j l, nth_error (v_cores v) i = Some c -> c_cluster c = Some j -> nth_error (v_clusters v) j = Some l ->
    cl_vendor l = c_vendor c /\ cl_uarch l = c_uarch c /\ cl_cpuid l = c_cpuid c.
  Hypothesis U : v_uarchs v <> [] /\ Forall (fun u => 0 < fst u <= length (v_processors v) /\ 0 < snd u <= length (v_cores v)) (v_uarchs v).

  Lemma known_pass t : In t known_tests -> passes v t.
  Proof using K.
    clear C O N0 R L G P I D S U.
    rewrite Forall_forall in K. unfold passes. intros [<-|[<-|[]]]; cbn [snd named]; apply each_spec; intros i c E; destruct (K c (nth_error_In _ _ E)) as (K1 & K2).
    - now apply negb_true_iff, N.eqb_neq.
    - now apply negb_true_iff, N.eqb_neq.
  Qed.
  Lemma kinds_pass t : In t kind_tests -> passes v t.
  Proof using C S.
    clear O N0 R L G P I D K U.
    assert (E : forall f g, (forall l c, cl_vendor l = c_vendor c /\ cl_uarch l = c_uarch c /\ cl_cpuid l = c_cpuid c -> f l = g c) -> alike f g v = true).
    { intros f g H. apply each_spec. intros j l J. apply over_spec. intros i X. destruct (down _ _ _ _ (cores_in_clusters _ _ _ _ C) j l J) as (_ & _ & Z).
      destruct (Z i X) as (c & Ec & Ej). exists c. split; [exact Ec|]. apply N.eqb_eq, H. eapply S; eassumption. }
    unfold passes. intros [<-|[<-|[<-|[]]]]; cbn [snd named]; apply E; tauto.
  Qed.
  Lemma uarchs_pass t : In t uarch_tests -> passes v t.
  Proof using C N0 U.
    clear O R L G P I D K S.
    destruct U as (U1 & U2). rewrite Forall_forall in U2. pose proof (packages_bound v C). pose proof (clusters_bound v C). pose proof (cores_bound v C).
    unfold passes. cbn [uarch_tests In].
    repeat match goal with |- _ \/ _ -> _ => intros [<-|X]; [|revert X] | |- False -> _ => intros [] end; cbn [snd named].
    - rewrite !andb_true_iff. repeat split; [now apply filled_spec|apply leb_true; lia|apply leb_true; lia].
    - now apply filled_spec.
    - apply each_spec. intros i u E. destruct (U2 u (nth_error_In _ _ E)). destruct (Nat.eqb_spec (fst u) 0); [lia|reflexivity].
    - apply each_spec. intros i u E. destruct (U2 u (nth_error_In _ _ E)). apply leb_true. lia.
    - apply each_spec. intros i u E. destruct (U2 u (nth_error_In _ _ E)). destruct (Nat.eqb_spec (snd u) 0); [lia|reflexivity].
    - apply each_spec. intros i u E. destruct (U2 u (nth_error_In _ _ E)). apply leb_true. lia.
  Qed.
  Lemma counts_pass t : In t count_tests -> passes v t.
  Proof using R L P D.
    clear C O N0 G I K S U.
    destruct P as (P1 & P2 & P3). destruct D as (D1 & D2 & D3 & D4). unfold passes. cbn [count_tests In].
    assert (F : forall l, at_most_processors l v = true) by (intros l; now apply few_caches).
    repeat match goal with |- _ \/ _ -> _ => intros [<-|X]; [|revert X] | |- False -> _ => intros [] end; cbn [snd named]; rewrite ?F, ?(proj2 (filled_spec _)) by assumption; auto.
    - rewrite (fewer_above v L1D L2), (fewer_above v L1I L2); auto.
    - rewrite (fewer_above v L2 L3); auto.
    - rewrite (fewer_above v L3 L4); auto.
  Qed.
  Lemma all_pass t : In t init_tests -> passes v t.
  Proof using C O N0 R L G P I D K S U.
    unfold init_tests. rewrite !in_app_iff. intros [H|[H|[H|[H|[H|[H|[H|[H|H]]]]]]]].
    - now apply topology_pass.
    - cbn [processor_cache_tests In] in H. unfold passes. repeat destruct H as [<-|H]; cbn [snd named]; try now apply cached_processors. destruct H.
    - now apply known_pass.
    - now apply kinds_pass.
    - now apply uarchs_pass.
    - now apply counts_pass.
    - unfold level_tests in H. apply in_flat_map in H. destruct H as ((l, name) & _ & H). cbn [fst snd] in H. apply in_app_iff in H. destruct H as [H|H].
      + exact (geometry_pass v l name (G l) t H).
      + exact (ranges_pass v l name (R l) (L l) t H).
    - exact (inclusive_pass v L1I _ t (proj1 I) H).
    - exact (inclusive_pass v L1D _ t (proj2 I) H).
  Qed.
End All.
