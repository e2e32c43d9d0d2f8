(** Linux publishes the tables written out, if it finds the threads of a machine of equal packages. *)
From Coq Require Import NArith List Lia Bool Arith Sorting.Permutation Sorting.Sorted.
From Verif Require Import Base BaseProofs Sorting TopologySpec Fill X86CpuinfoSpec X86LinuxModel X86LinuxSpec X86OfflineSpec X86CountsSpec SameMachineSpec SameMachineProofs.
From Verif Require X86LinuxProps.
Import ListNotations.
Open Scope nat_scope.

(** ** Lists in order *)
Lemma strictly_sorted l : StronglySorted N.le l -> NoDup l -> StronglySorted N.lt l.
Proof.
  induction 1 as [|a l S IH F]; intros ND; constructor; inversion_clear ND as [|? ? NI ND']; [now apply IH|].
  rewrite Forall_forall in *. intros b Hb. specialize (F b Hb). destruct (N.eq_dec a b) as [->|]; [contradiction|lia].
Qed.
Lemma sorted_same l : forall l', StronglySorted N.lt l -> StronglySorted N.lt l' -> (forall a, In a l <-> In a l') -> l = l'.
Proof.
  induction l as [|a l IH]; intros l' S S' E.
  - destruct l' as [|b l']; [reflexivity|]. destruct (proj2 (E b) (or_introl eq_refl)).
  - destruct l' as [|b l']; [destruct (proj1 (E a) (or_introl eq_refl))|].
    apply StronglySorted_inv in S. destruct S as (S & F). apply StronglySorted_inv in S'. destruct S' as (S' & F'). rewrite Forall_forall in F, F'.
    assert (a = b).
    { destruct (proj1 (E a) (or_introl eq_refl)) as [X|X]; [easy|]. destruct (proj2 (E b) (or_introl eq_refl)) as [Y|Y]; [easy|].
      specialize (F _ Y). specialize (F' _ X). lia. }
    subst b. f_equal. apply IH; auto. intros c. split; intros H.
    + destruct (proj1 (E c) (or_intror H)) as [<-|X]; [specialize (F _ H); lia|exact X].
    + destruct (proj2 (E c) (or_intror H)) as [<-|X]; [specialize (F' _ H); lia|exact X].
Qed.
Lemma table_sorted (f : nat -> N) : (forall i j, i < j -> (f i < f j)%N) -> forall n from, StronglySorted N.lt (map f (seq from n)).
Proof.
  intros M. induction n as [|n IH]; intros from; cbn [seq map]; constructor; [apply IH|].
  apply Forall_forall. intros b Hb. apply in_map_iff in Hb. destruct Hb as (i & <- & Hi). apply in_seq in Hi. apply M. lia.
Qed.

(** ** Numbers side by side *)
Definition beside (D : N) (d : nat) (f : nat -> N) (i : nat) : N := (f (i / d)%nat * D + N.of_nat (i mod d))%N.
Lemma beside_mono D d f : 0 < d -> (N.of_nat d <= D)%N -> (forall i j, i < j -> (f i < f j)%N) -> forall i j, i < j -> (beside D d f i < beside D d f j)%N.
Proof.
  intros Hd HD M i j H. unfold beside. pose proof (Nat.div_mod i d ltac:(lia)). pose proof (Nat.div_mod j d ltac:(lia)).
  pose proof (Nat.mod_upper_bound i d ltac:(lia)). pose proof (Nat.mod_upper_bound j d ltac:(lia)).
  destruct (Nat.eq_dec (i / d) (j / d)) as [E|E]; [rewrite E in *; lia|].
  assert (X : i / d < j / d) by nia. specialize (M _ _ X). nia.
Qed.
Lemma beside_div D d f i : 0 < d -> (N.of_nat d <= D)%N -> (beside D d f i / D)%N = f (i / d).
Proof.
  intros Hd HD. unfold beside. pose proof (Nat.mod_upper_bound i d ltac:(lia)). symmetry. apply N.div_unique with (N.of_nat (i mod d)); lia.
Qed.

Section LINUX.
Variables (P cpp tpc : nat) (x : xinfo).
Hypothesis Hc : 0 < cpp.
Hypothesis Ht : 0 < tpc.
Hypothesis FH : fields_hold x cpp tpc.
Let n := P * cpp * tpc.
Let w := cpp * tpc.
Definition apic (i : nat) : N := apic_of x (i / (cpp * tpc)) (i / tpc mod cpp) (i mod tpc).
Let A := (2 ^ xi_core_length x)%N.
Let B := (2 ^ xi_thread_length x)%N.
Definition core_number : nat -> N := beside A cpp N.of_nat.

Lemma div_w i : i / w = i / tpc / cpp.
Proof. unfold w. rewrite Nat.div_div by lia. now rewrite (Nat.mul_comm tpc). Qed.
Lemma apic_beside i : apic i = beside B tpc core_number i.
Proof.
  unfold apic, apic_of, beside, core_number, beside. fold w A B. rewrite div_w, N.pow_add_r. fold A B. lia.
Qed.
Lemma apic_mono i j : i < j -> (apic i < apic j)%N.
Proof.
  rewrite !apic_beside. apply beside_mono; [exact Ht|apply FH|]. intros a b. apply beside_mono; [exact Hc|apply FH|lia].
Qed.
Lemma apic_same i j : apic i = apic j -> i = j.
Proof. intros E. destruct (Nat.lt_trichotomy i j) as [H|[H|H]]; [|exact H|]; apply apic_mono in H; lia. Qed.
Lemma core_number_same i j : core_number i = core_number j -> i = j.
Proof.
  intros E. destruct (Nat.lt_trichotomy i j) as [H|[H|H]]; [|exact H|];
    apply (beside_mono A cpp N.of_nat Hc (proj2 (proj2 FH)) ltac:(lia)) in H; unfold core_number in E; lia.
Qed.
Lemma apic_cores i j : agree_above (xi_thread_length x) (apic i) (apic j) <-> i / tpc = j / tpc.
Proof.
  unfold agree_above. rewrite !apic_beside. fold B. rewrite !beside_div by (exact Ht || apply FH). split; [apply core_number_same|congruence].
Qed.
Lemma apic_packages i j : agree_above (xi_thread_length x + xi_core_length x) (apic i) (apic j) <-> i / w = j / w.
Proof.
  assert (Q : forall k, (apic k / 2 ^ (xi_thread_length x + xi_core_length x))%N = N.of_nat (k / w)).
  { intros k. rewrite N.pow_add_r, <- N.div_div by (apply N.pow_nonzero; lia). fold A B. rewrite apic_beside, beside_div by (exact Ht || apply FH).
    unfold core_number. rewrite beside_div by (exact Hc || apply FH). now rewrite div_w. }
  unfold agree_above. rewrite !Q. lia.
Qed.

Hypothesis HP : 0 < P.

(** Every thread has its position. *)
Lemma position k c j : k < P -> c < cpp -> j < tpc -> exists i, i < n /\ apic i = apic_of x k c j.
Proof.
  intros Hk Hcc Hj. exists ((k * cpp + c) * tpc + j). split; [unfold n; nia|]. unfold apic.
  assert (E1 : ((k * cpp + c) * tpc + j) / tpc = k * cpp + c) by (symmetry; apply Nat.div_unique with j; lia).
  assert (E2 : ((k * cpp + c) * tpc + j) mod tpc = j) by (symmetry; apply Nat.mod_unique with (k * cpp + c); lia).
  fold w. rewrite div_w, E1, E2. f_equal; [symmetry; apply Nat.div_unique with c; lia|symmetry; apply Nat.mod_unique with k; lia].
Qed.

Variables (is_cpu : N -> Prop) (ms : list meaning) (t : tables).
Hypothesis LM : linux_machine x P cpp tpc is_cpu ms.
Hypothesis LI : lists_cpus (fun cpu a => is_cpu cpu /\ a = apic_id_of ms cpu) t.

Lemma linux_apic_ids : map p_apic_id (t_processors t) = map apic (seq 0 n).
Proof.
  assert (U : forall p, In p (t_processors t) -> is_cpu (p_linux_id p) /\ p_apic_id p = apic_id_of ms (p_linux_id p)).
  { intros p Hp. apply (lists_exactly _ _ LI). apply in_map_iff. now exists p. }
  apply sorted_same.
  - apply strictly_sorted; [apply (lists_sorted _ _ LI)|]. pose proof (lists_once _ _ LI) as ND. clear LI.
    induction (t_processors t) as [|p ps IH]; cbn [map] in *; constructor; inversion_clear ND as [|? ? NI ND'].
    + intros H. apply in_map_iff in H. destruct H as (q & E & Hq). apply NI. apply in_map_iff. exists q. split; [|exact Hq].
      destruct (U p (or_introl eq_refl)) as (Up & Ep). destruct (U q (or_intror Hq)) as (Uq & Eq).
      apply (lm_once _ _ _ _ _ _ LM); congruence.
    + apply IH; [|exact ND']. intros q Hq. apply U. now right.
  - apply table_sorted. apply apic_mono.
  - intros a. split; intros H.
    + apply in_map_iff in H. destruct H as (p & <- & Hp). destruct (U p Hp) as (Up & ->).
      destruct (lm_only _ _ _ _ _ _ LM _ Up) as (k & c & j & Hk & Hcc & Hj & ->). destruct (position k c j Hk Hcc Hj) as (i & Hi & <-).
      apply in_map. apply in_seq. lia.
    + apply in_map_iff in H. destruct H as (i & <- & Hi). apply in_seq in Hi. unfold apic.
      assert (i / tpc < P * cpp) by (apply Nat.div_lt_upper_bound; [lia|unfold n in Hi; lia]).
      destruct (lm_each _ _ _ _ _ _ LM (i / (cpp * tpc)) (i / tpc mod cpp) (i mod tpc)) as (cpu & Uc & E).
      * fold w. rewrite div_w. apply Nat.div_lt_upper_bound; lia.
      * apply Nat.mod_upper_bound. lia.
      * apply Nat.mod_upper_bound. lia.
      * rewrite <- E. pose proof (proj2 (lists_exactly _ _ LI cpu (apic_id_of ms cpu)) (conj Uc eq_refl)) as X.
        apply in_map_iff in X. destruct X as (p & X & Hp). injection X as _ <-. now apply in_map.
Qed.

Lemma linux_length : length (t_processors t) = n.
Proof. pose proof linux_apic_ids as E. apply (f_equal (@length _)) in E. now rewrite !map_length, seq_length in E. Qed.
Lemma linux_apic i p : nth_error (t_processors t) i = Some p -> p_apic_id p = apic i.
Proof.
  intros H. assert (X : nth_error (map p_apic_id (t_processors t)) i = Some (p_apic_id p)) by now rewrite nth_error_map, H.
  rewrite linux_apic_ids in X. apply table_some in X. tauto.
Qed.

End LINUX.

(** A level, if the APIC ids are those. *)
Lemma apic_level P cpp tpc x t g bits k m pointers caches count : let n := P * cpp * tpc in
  length (t_processors t) = n -> (forall i p, nth_error (t_processors t) i = Some p -> p_apic_id p = apic cpp tpc x i) ->
  level_reported g bits (t_processors t) pointers caches count -> 0 < k -> n = m * k ->
  (g_size g <> 0%N -> forall i j, agree_above bits (apic cpp tpc x i) (apic cpp tpc x j) <-> i / k = j / k) -> level_written g n k pointers caches.
Proof.
  intros n Ln AP (_ & L & Z & F) K En S. unfold level_written. rewrite Ln in L. destruct (N.eqb_spec (g_size g) 0) as [E|E].
  - destruct (Z E) as (-> & X). split; [reflexivity|]. now apply all_none.
  - destruct (F E) as (X & Y & W). destruct (by_pointers k m pointers (map cache_processors caches) K) as (R & Q); [congruence|exact X| |].
    { intros i j Hi Hj. rewrite <- En in Hi, Hj. rewrite <- (S E). destruct (nth_error (t_processors t) i) as [p|] eqn:Ep; [|apply nth_error_None in Ep; rewrite Ln in Ep; lia].
      destruct (nth_error (t_processors t) j) as [q|] eqn:Eq; [|apply nth_error_None in Eq; rewrite Ln in Eq; lia].
      rewrite (W i j p q Ep Eq), (AP i p Ep), (AP j q Eq). reflexivity. }
    rewrite En, Nat.div_mul by lia. split; [|exact Q]. rewrite (cache_table caches g _ R Y), map_map. reflexivity.
Qed.

Lemma usual_last x : usual_sharing x -> last_level_bits x = (xi_thread_length x + xi_core_length x)%N.
Proof.
  intros [U1 U2 U3 U4 U5 U6]. unfold last_level_bits, last_level. cbn [find]. rewrite U5. cbn [N.eqb negb].
  destruct (N.eqb_spec (g_size (xc_geometry (xi_l3 x))) 0) as [E3|E3]; cbn [negb]; [|now apply U4].
  destruct (N.eqb_spec (g_size (xc_geometry (xi_l2 x))) 0) as [E2|E2]; cbn [negb]; [destruct U6; contradiction|]. now apply U3.
Qed.

(** The caches, if the APIC ids are those. *)
Lemma apic_caches P cpp tpc x t : 0 < P -> 0 < cpp -> 0 < tpc -> fields_hold x cpp tpc ->
  length (t_processors t) = P * cpp * tpc -> (forall i p, nth_error (t_processors t) i = Some p -> p_apic_id p = apic cpp tpc x i) ->
  level_reported (xc_geometry (xi_l1i x)) (xc_apic_bits (xi_l1i x)) (t_processors t) (t_l1i_of t) (t_l1i t) (t_l1i_count t) /\
  level_reported (xc_geometry (xi_l1d x)) (xc_apic_bits (xi_l1d x)) (t_processors t) (t_l1d_of t) (t_l1d t) (t_l1d_count t) /\
  level_reported (xc_geometry (xi_l2 x)) (xc_apic_bits (xi_l2 x)) (t_processors t) (t_l2_of t) (t_l2 t) (t_l2_count t) /\
  level_reported (xc_geometry (xi_l3 x)) (xc_apic_bits (xi_l3 x)) (t_processors t) (t_l3_of t) (t_l3 t) (t_l3_count t) /\
  level_reported (xc_geometry (xi_l4 x)) (xc_apic_bits (xi_l4 x)) (t_processors t) (t_l4_of t) (t_l4 t) (t_l4_count t) ->
  t_max_cache_size t = last_level_size x -> usual_sharing x -> written_caches P cpp tpc x t.
Proof.
  intros HP Hc Ht FH Ln AP (R1 & R2 & R3 & R4 & R5) MX U.
  assert (W : 0 < cpp * tpc) by nia.
  assert (SC : forall i j, agree_above (xi_thread_length x) (apic cpp tpc x i) (apic cpp tpc x j) <-> i / tpc = j / tpc) by apply (apic_cores P cpp tpc x Hc Ht FH).
  assert (SP : forall i j, agree_above (xi_thread_length x + xi_core_length x) (apic cpp tpc x i) (apic cpp tpc x j) <-> i / (cpp * tpc) = j / (cpp * tpc))
    by apply (apic_packages P cpp tpc x Hc Ht FH).
  destruct U as [U1 U2 U3 U4 U5 U6].
  pose proof (apic_level P cpp tpc x t) as LV.
  constructor.
  + eapply (LV _ _ tpc (P * cpp)); [exact Ln|exact AP|exact R1|exact Ht|reflexivity|]. intros Z. now rewrite (U1 Z).
  + eapply (LV _ _ tpc (P * cpp)); [exact Ln|exact AP|exact R2|exact Ht|reflexivity|]. intros Z. now rewrite (U2 Z).
  + destruct (_ =? 0)%N.
    * eapply (LV _ _ (cpp * tpc) P); [exact Ln|exact AP|exact R3|exact W|nia|]. intros Z. now rewrite (U3 Z).
    * eapply (LV _ _ tpc (P * cpp)); [exact Ln|exact AP|exact R3|exact Ht|reflexivity|]. intros Z. now rewrite (U3 Z).
  + eapply (LV _ _ (cpp * tpc) P); [exact Ln|exact AP|exact R4|exact W|nia|]. intros Z. now rewrite (U4 Z).
  + destruct R5 as (_ & L & Z & _). destruct (Z U5) as (-> & X). split; [reflexivity|]. apply all_none; [congruence|exact X].
  + exact MX.
Qed.

Lemma linux_written sg default sorter calloc_ok x fs max po pr ms P cpp tpc o t :
  0 < P -> 0 < cpp -> 0 < tpc -> fields_hold x cpp tpc -> (xi_thread_length x + xi_core_length x <= last_level_bits x)%N -> qsort_contract sorter ->
  files_say default fs max po pr ms -> linux_machine x P cpp tpc (usable max po pr ms) ms ->
  x86_linux_init sg default sorter calloc_ok x fs = Ok o -> o_published o = Some t ->
  written P cpp tpc x t /\ apic_ids_written x P cpp tpc t /\ (usual_sharing x -> written_caches P cpp tpc x t).
Proof.
  intros HP Hc Ht FH LB Q FS LM E Hp.
  pose proof (X86LinuxProps.x86_linux_lists_usable_cpus sg default sorter calloc_ok x fs max po pr ms o t Q FS E Hp) as LI.
  destruct (FH) as (AF & _).
  assert (TS : threads_share_last_level x) by (unfold threads_share_last_level; destruct AF as (-> & _); lia).
  destruct (X86LinuxProps.x86_linux_topology_consistent sg default sorter calloc_ok x fs o t Q TS E Hp) as (_ & C).
  pose proof (X86LinuxProps.x86_linux_ids_are_offsets sg default sorter calloc_ok x fs o t Q TS E Hp) as I.
  destruct (X86LinuxProps.x86_linux_grouping_follows_apic_id sg default sorter calloc_ok x fs o t Q AF E Hp) as (GC & GK & GL).
  destruct (X86LinuxProps.x86_linux_uarch sg default sorter calloc_ok x fs o t Q E Hp) as (_ & _ & KC & KL).
  rewrite N.min_r in GL by exact LB.
  pose proof (linux_length P cpp tpc x Hc Ht FH HP _ ms t LM LI) as Ln.
  pose proof (linux_apic P cpp tpc x Hc Ht FH HP _ ms t LM LI) as AP.
  split; [|split].
  - apply write; auto.
    + eapply Forall_impl; [|exact KC]. intros c (-> & -> & ->). reflexivity.
    + eapply Forall_impl; [|exact KL]. intros c (-> & -> & ->). reflexivity.
    + intros i j p q Hi Hj. pose proof (nth_error_In _ _ Hi) as Ip. pose proof (nth_error_In _ _ Hj) as Iq.
      rewrite (GC p q Ip Iq), (GK p q Ip Iq), (GL p q Ip Iq), (AP i p Hi), (AP j q Hj).
      rewrite (apic_cores P cpp tpc x Hc Ht FH), (apic_packages P cpp tpc x Hc Ht FH). tauto.
    + destruct LI as [_ _ _ L1 L2 L3 L4 _]. now rewrite L1, L2, L3, L4.
  - exact (linux_apic_ids P cpp tpc x Hc Ht FH HP _ ms t LM LI).
  - intros U. eapply apic_caches; eauto; [apply (X86LinuxProps.x86_linux_caches sg default sorter calloc_ok x fs o t Q E Hp)|].
    apply (X86LinuxProps.x86_linux_max_cache_size sg default sorter calloc_ok x fs o t Q E Hp).
Qed.
