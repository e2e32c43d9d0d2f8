(** x86 Linux: the numbers of the CPUs do not matter. *)
From Coq Require Import NArith List Lia Bool Arith Sorting.Permutation Sorting.Sorted.
From Verif Require Import Base BaseProofs Sorting TopologySpec X86CpuinfoModel X86CpuinfoSpec X86LinuxModel X86LinuxSpec X86DetectProofs
  X86InitProofs X86FinalProofs X86OfflineSpec SameSortProofs RenumberSpec.
Import ListNotations.
Open Scope nat_scope.

Lemma sorted_same_elements : forall l l', StronglySorted N.le l -> StronglySorted N.le l' -> NoDup l -> NoDup l' ->
  (forall a, In a l <-> In a l') -> l = l'.
Proof.
  induction l as [|a l IH]; intros l' S S' D D' H.
  - destruct l' as [|b l']; [reflexivity|]. destruct (proj2 (H b)). now left.
  - destruct l' as [|b l']; [destruct (proj1 (H a)); now left|].
    apply StronglySorted_inv in S, S'. destruct S as (S & A), S' as (S' & B). rewrite Forall_forall in A, B.
    inversion D; inversion D'; subst.
    assert (E : a = b).
    { destruct (proj1 (H a)) as [E|Ia]; [now left|congruence|]. destruct (proj2 (H b)) as [E|Ib]; [now left|congruence|].
      specialize (A _ Ib). specialize (B _ Ia). lia. }
    subst b. f_equal. apply IH; auto. intros c. split; intros Hc.
    + destruct (proj1 (H c)) as [->|]; [now right|contradiction|assumption].
    + destruct (proj2 (H c)) as [->|]; [now right|contradiction|assumption].
Qed.

(** ** The loop in step *)

Definition nameless (p : processor) : processor := with_number (fun _ => 0%N) p.

Record lsim (n' : nat) (s s' : lstate) : Prop := {
  ls_processors : map nameless (s_processors s') = map nameless (s_processors s);
  ls_tables : (s_cores s', s_clusters s', s_packages s') = (s_cores s, s_clusters s, s_packages s);
  ls_index : (s_processor_index s', s_core_index s', s_cluster_index s', s_package_index s') =
             (s_processor_index s, s_core_index s, s_cluster_index s, s_package_index s);
  ls_ids : (s_cluster_id s', s_core_id s', s_smt_id s') = (s_cluster_id s, s_core_id s, s_smt_id s);
  ls_last : (s_last_core s', s_last_cluster s', s_last_package s') = (s_last_core s, s_last_cluster s, s_last_package s);
  ls_maps : length (s_processor_map s') = n' /\ length (s_core_map s') = n'
}.

Lemma map_upd {A B} (f : A -> B) : forall l i a, map f (upd l i a) = upd (map f l) i (f a).
Proof. induction l as [|b l IH]; intros [|i] a; cbn [upd map]; f_equal; auto. Qed.

Lemma wr_sim {A B} (f : A -> B) l l' i a a' r : map f l' = map f l -> f a' = f a -> wr l i a = Ok r ->
  exists r', wr l' i a' = Ok r' /\ map f r' = map f r.
Proof.
  unfold wr. intros E F H. assert (L : length l' = length l) by (rewrite <- (map_length f l'), E; apply map_length).
  rewrite L. destruct (i <? length l); [|discriminate]. injection H as <-. eexists. split; [reflexivity|]. rewrite !map_upd. congruence.
Qed.
Lemma wr_inside {A} (l : list A) i a : i < length l -> exists r, wr l i a = Ok r /\ length r = length l.
Proof. intros H. unfold wr. rewrite (proj2 (Nat.ltb_lt _ _) H). eexists. split; [reflexivity|]. apply upd_length. Qed.

Lemma topology_sim x masks n' p q s s' r : lsim n' s s' -> x_apic_id q = x_apic_id p -> N.to_nat (x_linux_id q) < n' ->
  topology_step x masks p s = Ok r -> exists r', topology_step x masks q s' = Ok r' /\ lsim n' r r'.
Proof.
  intros [H1 H2 H3 H4 H5 (H6 & H7)] E Q. destruct masks as ((cm, pm), lm). unfold topology_step. cbv zeta. rewrite E.
  injection H2 as -> -> ->. injection H3 as -> -> -> ->. injection H4 as -> -> ->. injection H5 as -> -> ->.
  destruct (index_value (incr_index (s_processor_index s))) as [pin| |]; cbn [bind]; try discriminate.
  match goal with |- bind (wr (s_processors s) ?i ?a) _ = _ -> exists r', bind (wr (s_processors s') ?i ?a') _ = _ /\ _ =>
    destruct (wr (s_processors s) i a) as [ps| |] eqn:EW; cbn [bind]; try discriminate;
    destruct (wr_sim nameless _ (s_processors s') i a a' ps H1 eq_refl EW) as (ps' & -> & EP) end.
  cbn [bind].
  match goal with |- bind ?y _ = _ -> _ => destruct y as [((cores, clusters), packages)| |]; cbn [bind]; try discriminate end.
  match goal with |- bind ?y _ = _ -> _ => destruct y as [cin| |]; cbn [bind]; try discriminate end.
  match goal with |- bind ?y _ = _ -> _ => destruct y as [(clusters', packages')| |]; cbn [bind]; try discriminate end.
  match goal with |- bind ?y _ = _ -> _ => destruct y as [lin| |]; cbn [bind]; try discriminate end.
  match goal with |- bind ?y _ = _ -> _ => destruct y as [packages2| |]; cbn [bind]; try discriminate end.
  match goal with |- bind ?y _ = _ -> _ => destruct y as [m1| |]; cbn [bind]; try discriminate end.
  match goal with |- bind ?y _ = _ -> _ => destruct y as [m2| |]; cbn [bind]; try discriminate end.
  intros R. injection R as <-.
  match goal with |- exists r', bind (wr _ _ ?a) _ = _ /\ _ =>
    destruct (wr_inside (s_processor_map s') (N.to_nat (x_linux_id q)) a) as (m1' & -> & L1); [lia|] end. cbn [bind].
  match goal with |- exists r', bind (wr _ _ ?a) _ = _ /\ _ =>
    destruct (wr_inside (s_core_map s') (N.to_nat (x_linux_id q)) a) as (m2' & -> & L2); [lia|] end. cbn [bind].
  eexists. split; [reflexivity|]. constructor; cbn; auto. split; congruence.
Qed.

Record msim (n' : nat) (s s' : mstate) : Prop := {
  ms_topology : lsim n' (m_topology s) (m_topology s');
  ms_caches : (m_l1i s', m_l1d s', m_l2 s', m_l3 s', m_l4 s') = (m_l1i s, m_l1d s, m_l2 s, m_l3 s, m_l4 s)
}.

Definition alike (n' : nat) (p q : xproc) : Prop :=
  x_apic_id q = x_apic_id p /\ is_valid p = true /\ is_valid q = true /\ N.to_nat (x_linux_id q) < n'.

Lemma main_sim x masks n' i p q s s' r : msim n' s s' -> alike n' p q ->
  main_step x masks i p s = Ok r -> exists r', main_step x masks i q s' = Ok r' /\ msim n' r r'.
Proof.
  intros [T C] (E & V & V' & Q). unfold main_step. unfold is_valid in V, V'. rewrite V, V', E. injection C as -> -> -> -> ->.
  destruct (topology_step x masks p (m_topology s)) as [t| |] eqn:ET; cbn [bind]; try discriminate.
  destruct (topology_sim _ _ _ _ _ _ _ _ T E Q ET) as (t' & -> & T'). cbn [bind].
  pose proof (ls_index _ _ _ T') as EI. injection EI as -> _ _ _.
  do 6 (match goal with |- bind ?y _ = _ -> _ => destruct y; cbn [bind]; try discriminate end).
  intros R. injection R as <-. eexists. split; [reflexivity|]. now constructor.
Qed.

Lemma loop_sim x masks n' : forall V V' i s s' r, Forall2 (alike n') V V' -> msim n' s s' ->
  main_loop x masks i V s = Ok r -> exists r', main_loop x masks i V' s' = Ok r' /\ msim n' r r'.
Proof.
  intros V V' i s s' r F. revert i s s'. induction F as [|p q V V' A F IH]; intros i s s' M; cbn [main_loop].
  - intros E. injection E as <-. eauto.
  - destruct (main_step x masks i p s) as [s1| |] eqn:ES; cbn [bind]; try discriminate.
    destruct (main_sim _ _ _ _ _ _ _ _ _ M A ES) as (s1' & -> & M'). cbn [bind]. now apply IH.
Qed.

(** ** The counters *)

Lemma count_keys_sim mask mask' key : forall V V' last n,
  Forall2 (fun p q => x_apic_id q = x_apic_id p /\ bitmask_all (x_flags p) mask = true /\ bitmask_all (x_flags q) mask' = true) V V' ->
  count_keys mask' key V' last n = count_keys mask key V last n.
Proof.
  intros V V' last n F. revert last n. induction F as [|p q V V' (E & A & B) F IH]; intros last n; cbn [count_keys]; [reflexivity|].
  rewrite A, B, E. cbv zeta. destruct (_ =? _)%N; apply IH.
Qed.

(** ** Everything *)

Record tsim (t t' : tables) : Prop := {
  ts_processors : map nameless (t_processors t') = map nameless (t_processors t);
  ts_topology : (t_cores t', t_clusters t', t_packages t') = (t_cores t, t_clusters t, t_packages t);
  ts_caches : (t_l1i t', t_l1d t', t_l2 t', t_l3 t', t_l4 t') = (t_l1i t, t_l1d t, t_l2 t, t_l3 t, t_l4 t);
  ts_pointers : (t_l1i_of t', t_l1d_of t', t_l2_of t', t_l3_of t', t_l4_of t') = (t_l1i_of t, t_l1d_of t, t_l2_of t, t_l3_of t, t_l4_of t);
  ts_counts : (t_processors_count t', t_cores_count t', t_clusters_count t', t_packages_count t') =
              (t_processors_count t, t_cores_count t, t_clusters_count t, t_packages_count t);
  ts_cache_counts : (t_l1i_count t', t_l1d_count t', t_l2_count t', t_l3_count t', t_l4_count t') =
                    (t_l1i_count t, t_l1d_count t, t_l2_count t, t_l3_count t, t_l4_count t);
  ts_largest : t_max_cache_size t' = t_max_cache_size t;
  ts_uarch : (t_uarch t', t_uarch_cpuid t', t_uarch_processor_count t', t_uarch_core_count t') =
             (t_uarch t, t_uarch_cpuid t, t_uarch_processor_count t, t_uarch_core_count t)
}.

Lemma forall2_weaken {A B} (P Q : A -> B -> Prop) l l' : (forall a b, P a b -> Q a b) -> Forall2 P l l' -> Forall2 Q l l'.
Proof. intros H F. induction F; constructor; auto. Qed.

Section Build.
  Context (x : xinfo) (mask mask' : N) (V W V' W' : list xproc).
  Hypothesis F : Forall2 (fun p q => alike (length (V' ++ W')) p q /\ bitmask_all (x_flags p) mask = true /\ bitmask_all (x_flags q) mask' = true) V V'.
  Hypothesis FW : forall p, In p W -> bitmask_all (x_flags p) mask = false.
  Hypothesis FW' : forall p, In p W' -> bitmask_all (x_flags p) mask' = false.
  Hypothesis IW : Forall (fun p => is_valid p = false) W.
  Hypothesis IW' : Forall (fun p => is_valid p = false) W'.

  Lemma objects_sim key_mask : count_objects mask' key_mask (V' ++ W') = count_objects mask key_mask (V ++ W).
  Proof.
    unfold count_objects. rewrite !count_keys_app by assumption. apply count_keys_sim. eapply forall2_weaken; [|exact F].
    intros p q ((E & _) & A & B). auto.
  Qed.
  Lemma caches_sim c : count_caches mask' c (V' ++ W') = count_caches mask c (V ++ W).
  Proof. unfold count_caches. destruct (_ =? _)%N; [reflexivity|]. destruct (bit_mask _); cbn [bind]; auto. now rewrite objects_sim. Qed.

  Lemma build_sim n t : build_tables x mask (V ++ W) n = Ok t -> exists t', build_tables x mask' (V' ++ W') n = Ok t' /\ tsim t t'.
  Proof.
    unfold build_tables. destruct (apic_masks x (llc_apic_bits x)) as [((cm, pm), lm)| |]; cbn [bind]; try discriminate. cbv zeta.
    rewrite !objects_sim, !caches_sim.
    do 5 (match goal with |- bind ?y _ = _ -> _ => destruct y; cbn [bind]; try discriminate end).
    rewrite !main_loop_app by assumption.
    match goal with |- bind (main_loop x ?m 0 V ?s) _ = _ -> exists t', bind (main_loop x ?m 0 V' ?s') _ = _ /\ _ =>
      destruct (main_loop x m 0 V s) as [r| |] eqn:EL; cbn [bind]; try discriminate;
      destruct (loop_sim x m (length (V' ++ W')) V V' 0 s s' r) as (r' & -> & [[T1 T2 T3 T4 T5 T6] C]); [| |exact EL|] end.
    - eapply forall2_weaken; [|exact F]. now intros p q (A & _).
    - constructor; [|reflexivity]. constructor; try reflexivity. cbn. now rewrite !repeat_length.
    - cbn [bind]. injection C as -> -> -> -> ->. injection T2 as -> -> ->.
      destruct (compute_max_cache_size _ _ _ _); cbn [bind]; try discriminate. intros E. injection E as <-.
      eexists. split; [reflexivity|]. constructor; cbn; auto.
  Qed.
End Build.

Lemma length_filter_perm (procs V : list xproc) : Permutation (filter is_valid procs) V -> count_valid procs = length V.
Proof. intros P. unfold count_valid. now apply Permutation_length. Qed.

Lemma apics_listed sg dm fs max po pr ms procs mask sorter V W : files_say dm fs max po pr ms -> distinct_apic_ids (usable max po pr ms) ms ->
  detect_linux_processors sg dm fs = Ok (Some (procs, mask)) -> sorted_ok procs (sorter procs) V W ->
  StronglySorted N.le (map x_apic_id V) /\ NoDup (map x_apic_id V) /\
  forall a, In a (map x_apic_id V) <-> exists cpu, usable max po pr ms cpu /\ apic_id_of ms cpu = a.
Proof.
  intros [F1 F2 (F3 & F4) (F5 & F6) F7] D E [A1 A2 A3 A4 A5 A6 A7 A8].
  destruct (detect_exact sg dm fs max po pr ms F1 ltac:(lia) ltac:(lia) F3 F4 F5 F6 F7) as (procs' & mask' & E' & _ & EU & EX).
  rewrite E' in E. injection E as -> ->.
  assert (HV : forall p, In p V -> usable max po pr ms (x_linux_id p) /\ x_apic_id p = apic_id_of ms (x_linux_id p)).
  { intros p Hp. apply (Permutation_in _ (Permutation_sym A5)), filter_In in Hp. destruct Hp as (Hp & Vp).
    apply In_nth_error in Hp. destruct Hp as (i & Hi). destruct (EX i p Hi) as (I1 & I2 & I3). rewrite (I3 Vp). split; [now apply I2|exact I1]. }
  split; [|split].
  - clear -A4. induction A4 as [|p V S IH A]; cbn; constructor; auto. rewrite Forall_forall in *. intros a Ha. apply in_map_iff in Ha.
    destruct Ha as (q & <- & Hq). apply A, Hq.
  - revert A7 HV. clear -D. induction V as [|p V IH]; cbn; intros N H; constructor.
    + intros Hp. apply in_map_iff in Hp. destruct Hp as (q & Eq & Hq). inversion N; subst. apply H2. apply in_map_iff. exists q. split; [|exact Hq].
      destruct (H p (or_introl eq_refl)) as (U1 & G1), (H q (or_intror Hq)) as (U2 & G2). apply D; auto. congruence.
    + inversion N; subst. apply IH; auto.
  - intros a. split.
    + intros Ha. apply in_map_iff in Ha. destruct Ha as (p & <- & Hp). destruct (HV p Hp) as (U & G). eauto.
    + intros (cpu & U & <-). pose proof (EU cpu U) as L.
      destruct (nth_error procs (N.to_nat cpu)) as [p|] eqn:Ep; [|apply nth_error_None in Ep; lia].
      destruct (EX _ p Ep) as (I1 & I2 & I3). rewrite N2Nat.id in I1, I2, I3. apply in_map_iff. exists p. split; [exact I1|].
      apply (Permutation_in _ A5), filter_In. split; [now apply nth_error_In in Ep|now apply I2].
Qed.

Lemma renumbered_distinct f U ms U' ms' : renumbered f U ms U' ms' -> distinct_apic_ids U ms -> distinct_apic_ids U' ms'.
Proof.
  intros [R1 R2] D a b Ha Hb E. destruct (R2 a Ha) as (c & Hc & <-), (R2 b Hb) as (d & Hd & <-).
  destruct (R1 c Hc) as (_ & Ec), (R1 d Hd) as (_ & Ed). f_equal. apply D; auto. congruence.
Qed.

Lemma forall2_apics (R : xproc -> xproc -> Prop) : forall V V', map x_apic_id V = map x_apic_id V' ->
  (forall p q, In p V -> In q V' -> x_apic_id q = x_apic_id p -> R p q) -> Forall2 R V V'.
Proof.
  induction V as [|p V IH]; intros [|q V'] E H; try discriminate; constructor.
  - injection E as E _. apply H; try now left. congruence.
  - injection E as _ E. apply IH; auto. intros a b Ha Hb. apply H; now right.
Qed.

Lemma x86_renumbered sg sg' default default' sorter sorter' calloc_ok x fs fs' f max po pr ms max' po' pr' ms' o t :
  files_say default fs max po pr ms -> files_say default' fs' max' po' pr' ms' -> distinct_apic_ids (usable max po pr ms) ms ->
  renumbered f (usable max po pr ms) ms (usable max' po' pr' ms') ms' -> qsort_contract sorter -> qsort_contract sorter' ->
  x86_linux_init sg default sorter calloc_ok x fs = Ok o -> o_published o = Some t ->
  exists t', x86_linux_init sg' default' sorter' calloc_ok x fs' = Ok (Outcome (Some t') (o_live o)) /\
    same_but_numbers f (usable max po pr ms) t t'.
Proof.
  intros FS FS' D R Q Q' X PU. pose proof (renumbered_distinct _ _ _ _ _ R D) as D'.
  assert (exists t', x86_linux_init sg' default' sorter' calloc_ok x fs' = Ok (Outcome (Some t') (o_live o)) /\ tsim t t') as (t' & X' & TS).
  { pose proof FS as [F1 F2 (F3 & F4) (F5 & F6) F7]. pose proof FS' as [G1 G2 (G3 & G4) (G5 & G6) G7].
    destruct (detect_exact sg default fs max po pr ms F1 ltac:(lia) ltac:(lia) F3 F4 F5 F6 F7) as (procs & mask & E & _ & _ & EX).
    destruct (detect_exact sg' default' fs' max' po' pr' ms' G1 ltac:(lia) ltac:(lia) G3 G4 G5 G6 G7) as (procs' & mask' & E' & _ & _ & EX').
    pose proof (proj1 (detect_shape sg default fs) procs mask E) as DE.
    pose proof (proj1 (detect_shape sg' default' fs') procs' mask' E') as DE'.
    destruct (sorting procs mask sorter DE Q) as (V & W & SO). destruct (sorting procs' mask' sorter' DE' Q') as (V' & W' & SO').
    destruct (apics_listed _ _ _ _ _ _ _ _ _ sorter V W FS D E SO) as (S1 & S2 & S3).
    destruct (apics_listed _ _ _ _ _ _ _ _ _ sorter' V' W' FS' D' E' SO') as (S1' & S2' & S3').
    assert (EV : map x_apic_id V = map x_apic_id V').
    { apply sorted_same_elements; auto. intros a. rewrite S3, S3'. destruct R as [R1 R2]. split.
      - intros (cpu & U & <-). exists (f cpu). now apply R1.
      - intros (cpu' & U' & <-). destruct (R2 cpu' U') as (cpu & U & <-). exists cpu. split; [exact U|]. symmetry. now apply R1. }
    destruct SO as [A1 A2 A3 A4 A5 A6 A7 A8]. destruct SO' as [B1 B2 B3 B4 B5 B6 B7 B8]. rewrite A1 in *. rewrite B1 in *.
    assert (MV : forall p, In p (V ++ W) -> bitmask_all (x_flags p) mask = is_valid p).
    { intros p Hp. apply (det_valid _ _ DE). now apply (Permutation_in _ (Permutation_sym A6)). }
    assert (MV' : forall p, In p (V' ++ W') -> bitmask_all (x_flags p) mask' = is_valid p).
    { intros p Hp. apply (det_valid _ _ DE'). now apply (Permutation_in _ (Permutation_sym B6)). }
    rewrite Forall_forall in A2, B2.
    assert (F : Forall2 (fun p q => alike (length (V' ++ W')) p q /\ bitmask_all (x_flags p) mask = true /\ bitmask_all (x_flags q) mask' = true) V V').
    { apply forall2_apics; [exact EV|]. intros p q Hp Hq Epq. rewrite MV by (apply in_or_app; now left). rewrite MV' by (apply in_or_app; now left).
      specialize (A2 p Hp). specialize (B2 q Hq). specialize (B8 q Hq). repeat split; auto. }
    assert (FW : forall p, In p W -> bitmask_all (x_flags p) mask = false).
    { intros p Hp. rewrite MV by (apply in_or_app; now right). rewrite Forall_forall in A3. now apply A3. }
    assert (FW' : forall p, In p W' -> bitmask_all (x_flags p) mask' = false).
    { intros p Hp. rewrite MV' by (apply in_or_app; now right). rewrite Forall_forall in B3. now apply B3. }
    assert (EN : count_valid procs' = count_valid procs).
    { rewrite (length_filter_perm _ _ A5), (length_filter_perm _ _ B5). rewrite <- (map_length x_apic_id V), EV. symmetry. apply map_length. }
    revert X. unfold x86_linux_init. destruct (negb (calloc_ok B_linux_processors)); [intros X; injection X as <-; discriminate PU|].
    rewrite E, E'. cbn [bind]. cbv zeta. rewrite A1, B1.
    destruct (negb (calloc_ok B_processors)); [intros X; injection X as <-; discriminate PU|].
    destruct (apic_masks x (llc_apic_bits x)); cbn [bind]; try discriminate.
    rewrite !(caches_sim mask mask' V W V' W' F FW FW').
    do 5 (match goal with |- bind ?y _ = _ -> _ => destruct y; cbn [bind]; try discriminate end).
    destruct (allocate _ _ _) as (ok, live). destruct ok; [|intros X; injection X as <-; discriminate PU].
    destruct (build_tables x mask (V ++ W) (count_valid procs)) as [t0| |] eqn:EB; cbn [bind]; try discriminate.
    intros X. injection X as <-. cbn in PU. injection PU as ->.
    destruct (build_sim x mask mask' V W V' W' F FW FW' A3 B3 _ _ EB) as (t' & EB' & TS). exists t'. rewrite EN, EB'. cbn [bind]. auto. }
  exists t'. split; [exact X'|].
  pose proof (lists_usable _ _ _ _ _ _ _ _ _ _ _ _ Q FS X PU) as L.
  pose proof (lists_usable _ _ _ _ _ _ _ _ _ _ _ _ Q' FS' X' eq_refl) as L'.
  destruct TS as [T1 T2 T3 T4 T5 T6 T7 T8].
  assert (P : t_processors t' = map (with_number f) (t_processors t)).
  { assert (C : forall p, In p (t_processors t) -> usable max po pr ms (p_linux_id p) /\ p_apic_id p = apic_id_of ms (p_linux_id p)).
    { intros p Hp. apply (lists_exactly _ _ L). apply in_map_iff. eauto. }
    assert (C' : forall p, In p (t_processors t') -> usable max' po' pr' ms' (p_linux_id p) /\ p_apic_id p = apic_id_of ms' (p_linux_id p)).
    { intros p Hp. apply (lists_exactly _ _ L'). apply in_map_iff. eauto. }
    revert T1 C C'. generalize (t_processors t) (t_processors t'). clear -D R. destruct R as [R1 R2].
    induction l as [|p l IH]; intros [|q l'] E C C'; try discriminate; [reflexivity|]. cbn [map] in *. injection E as E1 E2 E3 E4 E5 E. f_equal.
    - destruct (C p (or_introl eq_refl)) as (U & A), (C' q (or_introl eq_refl)) as (U' & A').
      destruct (R2 _ U') as (cpu & Hc & Ec). destruct (R1 _ Hc) as (_ & Ea).
      assert (cpu = p_linux_id p) by (apply D; auto; congruence). subst cpu. destruct q. unfold with_number. cbn in *. congruence.
    - apply IH; auto; [intros a Ha; apply C; now right|intros a Ha; apply C'; now right]. }
  constructor; auto.
  intros cpu U. pose proof (published_maps _ _ _ _ _ _ _ _ Q X PU) as (_ & _ & M & _).
  pose proof (published_maps _ _ _ _ _ _ _ _ Q' X' eq_refl) as (_ & _ & M' & _).
  assert (I : In (cpu, apic_id_of ms cpu) (map (fun p => (p_linux_id p, p_apic_id p)) (t_processors t))) by now apply (lists_exactly _ _ L).
  apply in_map_iff in I. destruct I as (p & Ep & Ip). injection Ep as <- _. apply In_nth_error in Ip. destruct Ip as (i & Hi).
  destruct (M i p Hi) as (-> & ->). apply (M' i (with_number f p)). rewrite P. now apply map_nth_error.
Qed.
