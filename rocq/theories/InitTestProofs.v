(** Consistent tables pass the tests. *)
From Verif Require Import Base BaseProofs TopologySpec InitTestModel.
From Coq Require Import String List. Import ListNotations.
Open Scope nat_scope.

Lemma nth_error_map_inv {A B} (f : A -> B) l i y : nth_error (map f l) i = Some y -> exists x, nth_error l i = Some x /\ y = f x.
Proof. rewrite nth_error_map. destruct (nth_error l i) as [x|]; cbn; intros H; [injection H as <-; eauto|discriminate]. Qed.
Lemma each_spec {A} (l : list A) f : each l f = true <-> forall i x, nth_error l i = Some x -> f i x = true.
Proof.
  unfold each. rewrite forallb_forall. assert (E : forall m s (l : list A), length l = m -> forall i x, In (i, x) (combine (seq s m) l) <-> s <= i /\ nth_error l (i - s) = Some x).
  { induction m; intros s [|a l'] L; try discriminate L; intros i x; cbn.
    - split; [contradiction|]. intros (_ & H). now destruct (i - s).
    - injection L as L. rewrite (IHm (S s) l' L). split.
      + intros [H|(H1 & H2)]; [injection H as <- <-; rewrite Nat.sub_diag; auto|]. split; [lia|]. replace (i - s) with (S (i - S s)) by lia. exact H2.
      + intros (H1 & H2). destruct (Nat.eq_dec i s) as [->|D].
        * left. rewrite Nat.sub_diag in H2. cbn in H2. congruence.
        * right. split; [lia|]. replace (i - s) with (S (i - S s)) in H2 by lia. exact H2. }
  split.
  - intros H i x N. apply (H (i, x)). apply (E _ 0 l eq_refl). rewrite Nat.sub_0_r. split; [lia|exact N].
  - intros H (i, x) N. cbn. apply (E _ 0 l eq_refl) in N. rewrite Nat.sub_0_r in N. now apply H.
Qed.
Lemma over_spec {A} (l : list A) s c f : over l (s, c) f = true <-> forall i, s <= i < s + c -> exists x, nth_error l i = Some x /\ f i x = true.
Proof.
  unfold over. cbn [fst snd]. rewrite forallb_forall. split; intros H i Hi.
  - specialize (H i). rewrite in_seq in H. specialize (H Hi). destruct (nth_error l i) as [x|]; [eauto|discriminate].
  - apply in_seq in Hi. destruct (H i Hi) as (x & -> & E). exact E.
Qed.
Lemma inside_spec s c i : inside (s, c) i = true <-> s <= i < s + c.
Proof. unfold inside. cbn [fst snd]. rewrite andb_true_iff, Nat.leb_le, Nat.ltb_lt. reflexivity. Qed.
Lemma fits_spec s c n : fits (s, c) n = true <-> s < n /\ s + c <= n.
Proof. unfold fits. cbn [fst snd]. rewrite andb_true_iff, Nat.leb_le, Nat.ltb_lt. reflexivity. Qed.
Lemma filled_spec {A} (l : list A) : filled l = true <-> l <> [].
Proof. unfold filled. destruct l; cbn; split; intros; congruence. Qed.

Lemma tiles_inside rs : forall from to j s c, tiles from rs to -> nth_error rs j = Some (s, c) -> from <= s /\ 0 < c /\ s + c <= to.
Proof.
  induction rs as [|(s0, c0) rs IH]; intros from to j s c T N; [now destruct j|]. destruct T as (-> & C & T). destruct j; cbn in N.
  - injection N as <- <-. split; [lia|]. split; [exact C|]. clear -T. revert T. generalize (from + c0) as f. induction rs as [|(a, b) rs IH]; cbn; intros f T; [lia|].
    destruct T as (-> & B & T). apply IH in T. lia.
  - destruct (IH _ _ _ _ _ T N). lia.
Qed.
Lemma tiles_count rs : forall from to, tiles from rs to -> from + length rs <= to.
Proof. induction rs as [|(s, c) rs IH]; cbn; intros from to T; [lia|]. destruct T as (-> & B & T). apply IH in T. lia. Qed.

Section Pointers.
  Context {A B : Type} (xs : list A) (ys : list B) (ptr : A -> option nat) (rng : B -> nat * nat).
  Hypothesis P : points_to (map ptr xs) (map rng ys).
  Lemma up i x : nth_error xs i = Some x -> exists j y, ptr x = Some j /\ nth_error ys j = Some y /\ inside (rng y) i = true.
  Proof using P.
    destruct P as (o & E & T & G). intros N. assert (M : nth_error (map ptr xs) i = Some (ptr x)) by now apply map_nth_error.
    rewrite E in M. apply nth_error_map_inv in M. destruct M as (j & Nj & Ej). destruct (proj1 (G i j) Nj) as (s & c & R & I).
    apply nth_error_map_inv in R. destruct R as (y & Ny & Ey). exists j, y. split; [congruence|]. split; [exact Ny|]. rewrite <- Ey. now apply inside_spec.
  Qed.
  Lemma down j y : nth_error ys j = Some y -> 0 < snd (rng y) /\ fst (rng y) + snd (rng y) <= length xs /\
    forall i, fst (rng y) <= i < fst (rng y) + snd (rng y) -> exists x, nth_error xs i = Some x /\ ptr x = Some j.
  Proof using P.
    destruct P as (o & E & T & G). intros N. assert (M : nth_error (map rng ys) j = Some (rng y)) by now apply map_nth_error.
    destruct (rng y) as (s, c) eqn:R. cbn [fst snd]. assert (L : length o = length xs) by (rewrite <- (map_length ptr), E; now rewrite map_length).
    rewrite L in T. destruct (tiles_inside _ _ _ _ _ _ T M) as (_ & C & Z). split; [exact C|]. split; [exact Z|]. intros i I.
    assert (O : nth_error o i = Some j) by (apply G; eauto). assert (Q : nth_error (map ptr xs) i = Some (Some j)) by (rewrite E; now apply map_nth_error).
    apply nth_error_map_inv in Q. destruct Q as (x & Nx & Ex). eauto.
  Qed.
  Lemma no_more : length ys <= length xs.
  Proof using P.
    destruct P as (o & E & T & G). apply tiles_count in T. rewrite map_length in T. rewrite <- (map_length ptr), E, map_length. exact T.
  Qed.
  Lemma some_too : xs <> [] -> ys <> [].
  Proof using P.
    intros N. assert (X : exists x, nth_error xs 0 = Some x) by (clear P; destruct xs; [congruence|eexists; reflexivity]).
    destruct X as (x & X). destruct (up 0 x X) as (j & y & _ & Y & _). intros E. rewrite E in Y. now destruct j.
  Qed.
End Pointers.

(** ** Processors, cores, clusters and packages *)

Lemma at_pointer_up {A B} (xs : list A) (ys : list B) ptr rng (f : nat -> A -> B -> bool) : points_to (map ptr xs) (map rng ys) ->
  (forall i x j y, nth_error xs i = Some x -> ptr x = Some j -> nth_error ys j = Some y -> inside (rng y) i = true -> f i x y = true) ->
  each xs (fun i x => at_pointer (ptr x) ys (f i x)) = true.
Proof.
  intros P H. apply each_spec. intros i x N. destruct (up _ _ _ _ P i x N) as (j & y & E & Y & I). unfold at_pointer. rewrite E, Y. eapply H; eassumption.
Qed.
Lemma is_pointer_up {A B} (xs : list A) (ys : list B) ptr rng : points_to (map ptr xs) (map rng ys) ->
  each xs (fun _ x => is_pointer (ptr x)) = true.
Proof. intros P. apply each_spec. intros i x N. destruct (up _ _ _ _ P i x N) as (j & y & E & _). now rewrite E. Qed.
Lemma consistent_down {A B} (xs : list A) (ys : list B) ptr rng : points_to (map ptr xs) (map rng ys) ->
  each ys (fun j y => over xs (rng y) (fun _ x => is_at (ptr x) j)) = true.
Proof.
  intros P. apply each_spec. intros j y N. destruct (down _ _ _ _ P j y N) as (_ & _ & D). destruct (rng y) as (s, c). apply over_spec. intros i I.
  destruct (D i I) as (x & X & E). exists x. rewrite E. split; [exact X|]. apply Nat.eqb_refl.
Qed.
Lemma non_zero_down {A B} (xs : list A) (ys : list B) ptr rng : points_to (map ptr xs) (map rng ys) ->
  each ys (fun _ y => negb (snd (rng y) =? 0)) = true.
Proof. intros P. apply each_spec. intros j y N. destruct (down _ _ _ _ P j y N) as (Z & _). destruct (Nat.eqb_spec (snd (rng y)) 0); [lia|reflexivity]. Qed.
Lemma fits_down {A B} (xs : list A) (ys : list B) ptr rng : points_to (map ptr xs) (map rng ys) ->
  each ys (fun _ y => fits (rng y) (length xs)) = true.
Proof. intros P. apply each_spec. intros j y N. destruct (down _ _ _ _ P j y N) as (Z & F & _). destruct (rng y) as (s, c). cbn in *. apply fits_spec. lia. Qed.
Lemma leb_true a b : a <= b -> (a <=? b) = true. Proof. apply Nat.leb_le. Qed.

Section Topology.
  Variable v : view.
  Hypothesis C : consistent (v_processors v) (v_cores v) (v_clusters v) (v_packages v).
  Hypothesis O : ids_are_offsets (v_processors v) (v_cores v) (v_clusters v) (v_packages v).
  Hypothesis N0 : v_processors v <> [].

  Lemma cores_too : v_cores v <> []. Proof using C N0. exact (some_too _ _ _ _ (processors_in_cores _ _ _ _ C) N0). Qed.
  Lemma clusters_too : v_clusters v <> []. Proof using C N0. exact (some_too _ _ _ _ (processors_in_clusters _ _ _ _ C) N0). Qed.
  Lemma packages_too : v_packages v <> []. Proof using C N0. exact (some_too _ _ _ _ (processors_in_packages _ _ _ _ C) N0). Qed.
  Lemma cores_bound : length (v_cores v) <= length (v_processors v). Proof using C. exact (no_more _ _ _ _ (processors_in_cores _ _ _ _ C)). Qed.
  Lemma clusters_bound : length (v_clusters v) <= length (v_cores v). Proof using C. exact (no_more _ _ _ _ (cores_in_clusters _ _ _ _ C)). Qed.
  Lemma packages_bound : length (v_packages v) <= length (v_clusters v). Proof using C. exact (no_more _ _ _ _ (clusters_in_packages _ _ _ _ C)). Qed.

  Ltac bound := apply leb_true; pose proof cores_bound; pose proof clusters_bound; pose proof packages_bound; lia.
  Ltac one := intros H; destruct H as [<-|H]; [cbn [snd named passes]; unfold passes, named; cbn [snd]|revert H].
  Lemma processors_pass t : In t processor_tests -> passes v t.
  Proof using C O N0.
    unfold processor_tests; repeat one; [..|contradiction].
    - now apply filled_spec.
    - now apply filled_spec.
    - apply (at_pointer_up _ _ p_core core_processors (fun _ p c => p_smt_id p <? c_processor_count c) (processors_in_cores _ _ _ _ C)).
      intros i p j c P J K _. apply Nat.ltb_lt. exact (proj2 (smt_ids _ _ _ _ O i p j c P J K)).
    - exact (is_pointer_up _ _ _ _ (processors_in_cores _ _ _ _ C)).
    - apply (at_pointer_up _ _ p_core core_processors (fun i _ c => inside (core_processors c) i) (processors_in_cores _ _ _ _ C)). auto.
    - exact (is_pointer_up _ _ _ _ (processors_in_clusters _ _ _ _ C)).
    - apply (at_pointer_up _ _ p_cluster cluster_processors (fun i _ c => inside (cluster_processors c) i) (processors_in_clusters _ _ _ _ C)). auto.
    - exact (is_pointer_up _ _ _ _ (processors_in_packages _ _ _ _ C)).
    - apply (at_pointer_up _ _ p_package package_processors (fun i _ c => inside (package_processors c) i) (processors_in_packages _ _ _ _ C)). auto.
  Qed.
  Lemma cores_pass t : In t core_tests -> passes v t.
  Proof using C O N0.
    unfold core_tests; repeat one; [..|contradiction].
    - rewrite !andb_true_iff. repeat split; [apply filled_spec, cores_too|bound|bound].
    - apply filled_spec, cores_too.
    - exact (non_zero_down _ _ _ _ (processors_in_cores _ _ _ _ C)).
    - exact (consistent_down _ _ _ _ (processors_in_cores _ _ _ _ C)).
    - apply (at_pointer_up _ _ c_package package_cores (fun _ c k => c_core_id c <? pk_core_count k) (cores_in_packages _ _ _ _ C)).
      intros i c j k P J K _. apply Nat.ltb_lt. exact (proj2 (core_ids _ _ _ _ O i c j k P J K)).
    - exact (is_pointer_up _ _ _ _ (cores_in_clusters _ _ _ _ C)).
    - apply (at_pointer_up _ _ c_cluster cluster_cores (fun i _ c => inside (cluster_cores c) i) (cores_in_clusters _ _ _ _ C)). auto.
    - exact (is_pointer_up _ _ _ _ (cores_in_packages _ _ _ _ C)).
    - apply (at_pointer_up _ _ c_package package_cores (fun i _ c => inside (package_cores c) i) (cores_in_packages _ _ _ _ C)). auto.
  Qed.
  Lemma clusters_pass t : In t cluster_tests -> passes v t.
  Proof using C O N0.
    unfold cluster_tests; repeat one; [..|contradiction].
    - rewrite !andb_true_iff. repeat split; [apply filled_spec, clusters_too|bound|bound|bound].
    - apply filled_spec, clusters_too.
    - exact (non_zero_down _ _ _ _ (processors_in_clusters _ _ _ _ C)).
    - exact (fits_down _ _ _ _ (processors_in_clusters _ _ _ _ C)).
    - exact (consistent_down _ _ _ _ (processors_in_clusters _ _ _ _ C)).
    - exact (non_zero_down _ _ _ _ (cores_in_clusters _ _ _ _ C)).
    - exact (fits_down _ _ _ _ (cores_in_clusters _ _ _ _ C)).
    - exact (consistent_down _ _ _ _ (cores_in_clusters _ _ _ _ C)).
    - apply each_spec. intros i l L. apply orb_true_iff. left.
      assert (A : each (v_clusters v) (fun _ l => at_pointer (cl_package l) (v_packages v) (fun k => cl_cluster_id l <? pk_cluster_count k)) = true).
      { apply (at_pointer_up _ _ cl_package package_clusters (fun _ l k => cl_cluster_id l <? pk_cluster_count k) (clusters_in_packages _ _ _ _ C)).
        intros a c j k P J K _. apply Nat.ltb_lt. exact (proj2 (cluster_ids _ _ _ _ O a c j k P J K)). }
      exact (proj1 (each_spec _ _) A i l L).
    - exact (is_pointer_up _ _ _ _ (clusters_in_packages _ _ _ _ C)).
    - apply (at_pointer_up _ _ cl_package package_clusters (fun i _ c => inside (package_clusters c) i) (clusters_in_packages _ _ _ _ C)). auto.
  Qed.
  Lemma packages_pass t : In t package_tests -> passes v t.
  Proof using C O N0.
    unfold package_tests; repeat one; [..|contradiction].
    - rewrite !andb_true_iff. repeat split; [apply filled_spec, packages_too|bound|bound].
    - apply filled_spec, packages_too.
    - exact (non_zero_down _ _ _ _ (processors_in_packages _ _ _ _ C)).
    - exact (fits_down _ _ _ _ (processors_in_packages _ _ _ _ C)).
    - exact (consistent_down _ _ _ _ (processors_in_packages _ _ _ _ C)).
    - exact (non_zero_down _ _ _ _ (cores_in_packages _ _ _ _ C)).
    - exact (fits_down _ _ _ _ (cores_in_packages _ _ _ _ C)).
    - exact (consistent_down _ _ _ _ (cores_in_packages _ _ _ _ C)).
    - exact (non_zero_down _ _ _ _ (clusters_in_packages _ _ _ _ C)).
    - exact (fits_down _ _ _ _ (clusters_in_packages _ _ _ _ C)).
    - exact (consistent_down _ _ _ _ (clusters_in_packages _ _ _ _ C)).
  Qed.
  Lemma topology_pass t : In t topology_tests -> passes v t.
  Proof using C O N0.
    unfold topology_tests. rewrite !in_app_iff. intros [H|[H|[H|H]]]; [now apply processors_pass|now apply cores_pass|now apply clusters_pass|now apply packages_pass].
  Qed.
End Topology.
