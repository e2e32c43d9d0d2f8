(** The published tables satisfy the specification. *)
From Verif Require Import Base BaseProofs Runs GroupArray TopologySpec X86CpuinfoModel X86LinuxModel.
From Verif Require Import X86LinuxSpec X86LoopProofs X86TablesProofs X86DetectProofs Masks X86InitProofs.
Open Scope nat_scope.

Section REPORT.
  Variable x : xinfo.
  Variables (procs sorted V W : list xproc).
  Hypothesis HS : sorted_ok procs sorted V W.
  Hypothesis Hb : bits_ok x.
  Hypothesis Hsome : 0 < length V.
  Hypothesis Hu32 : forall p, In p V -> (x_apic_id p < two32)%N.
  Variables (cm pm lm : N) (t : tables).
  Hypothesis HB : built x sorted V cm pm lm t.
  Let n := length V.

  Lemma processors_are : t_processors t = map (ent_processor cm pm lm V n) (seq 0 n).
  Proof. apply (filled_one_map _ _ processor0). exact (i_processors _ _ _ _ _ _ _ _ (bu_topology _ _ _ _ _ _ _ HB)). Qed.

  Lemma processors_length : length (t_processors t) = n.
  Proof. rewrite processors_are, map_length. apply seq_length. Qed.

  Lemma processor_at i : i < n -> nth_error (t_processors t) i = Some (ent_processor cm pm lm V n i).
  Proof. intros H. rewrite processors_are. now apply nth_error_map_seq. Qed.

  Lemma processor_inv i p : nth_error (t_processors t) i = Some p -> i < n /\ p = ent_processor cm pm lm V n i.
  Proof.
    intros H. assert (i < n) by (rewrite <- processors_length; apply nth_error_Some; congruence).
    split; [assumption|]. rewrite processor_at in H by assumption. congruence.
  Qed.

  Lemma map_at_seq A (f : xproc -> A) : map (fun i => f (at_ V i)) (seq 0 n) = map f V.
  Proof.
    apply nth_error_ext. intros i. destruct (Nat.lt_ge_cases i n) as [H|H].
    - rewrite nth_error_map_seq by exact H. rewrite nth_error_map. unfold at_.
      now rewrite (nth_error_nth' V (XProc 0 0 0) H).
    - rewrite (proj2 (nth_error_None _ _)) by (rewrite map_length, seq_length; exact H).
      symmetry. apply nth_error_None. rewrite map_length. exact H.
  Qed.

  Lemma report_lists : lists_cpus
    (fun cpu a => exists p, In p procs /\ is_valid p = true /\ x_linux_id p = cpu /\ x_apic_id p = a) t.
  Proof.
    destruct (bu_counts _ _ _ _ _ _ _ HB) as (C1 & C2 & C3 & C4 & _).
    destruct (bu_uarch _ _ _ _ _ _ _ HB) as (_ & _ & U1 & U2).
    constructor.
    - intros cpu a. rewrite processors_are, map_map.
      change (map _ (seq 0 n)) with (map (fun i => (fun p => (x_linux_id p, x_apic_id p)) (at_ V i)) (seq 0 n)).
      rewrite map_at_seq, in_map_iff. split.
      + intros (p & E & Hp). injection E as <- <-. exists p.
        apply (Permutation_in _ (Permutation_sym (so_perm _ _ _ _ HS))) in Hp. apply filter_In in Hp. tauto.
      + intros (p & Hp & Hv & <- & <-). exists p. split; [reflexivity|].
        apply (Permutation_in _ (so_perm _ _ _ _ HS)). now apply filter_In.
    - rewrite processors_are, map_map.
      change (map _ (seq 0 n)) with (map (fun i => x_linux_id (at_ V i)) (seq 0 n)).
      rewrite map_at_seq. apply (so_nodup _ _ _ _ HS).
    - rewrite processors_are, map_map.
      change (map _ (seq 0 n)) with (map (fun i => x_apic_id (at_ V i)) (seq 0 n)).
      rewrite map_at_seq. generalize (so_sorted _ _ _ _ HS). clear. intros H.
      induction H as [|a V' HS' IH Ha]; cbn; constructor; auto.
      rewrite Forall_forall in *. intros b Hb. apply in_map_iff in Hb. destruct Hb as (q & <- & Hq). now apply Ha.
    - rewrite processors_length. exact C1.
    - exact C2.
    - exact C3.
    - exact C4.
    - rewrite processors_length. auto.
  Qed.

  Lemma report_maps : maps_cpus t.
  Proof.
    unfold maps_cpus. rewrite (bu_cpu_max _ _ _ _ _ _ _ HB), Nat2N.id.
    destruct (bu_topology _ _ _ _ _ _ _ HB) as [_ _ _ _ (L1 & F1 & Z1) (L2 & F2 & Z2) _ _ _ _ _ _ _ _ _ _].
    cbn in L1, F1, Z1, L2, F2, Z2. fold n in F1, Z1, F2, Z2.
    split; [exact L1|]. split; [exact L2|]. split.
    - intros i p Hp. apply processor_inv in Hp. destruct Hp as (Hi & ->). cbn [ent_processor p_linux_id p_core].
      split; [now apply F1|now apply F2].
    - intros cpu Hc Hno.
      assert (H : forall i, i < n -> lid V i <> cpu).
      { intros i Hi. apply (Hno (ent_processor cm pm lm V n i)). rewrite processors_are. apply in_map.
        apply in_seq. lia. }
      split; [now apply Z1|now apply Z2].
  Qed.

  Lemma apic_u32 i : i < n -> (apic V i < two32)%N.
  Proof. intros H. apply Hu32. apply nth_In. exact H. Qed.

  Lemma same_group k m i j : low_cleared k m -> i < n -> j < n ->
    (grp (new_key (fun i => N.land (apic V i) m)) i = grp (new_key (fun i => N.land (apic V i) m)) j
     <-> agree_above k (apic V i) (apic V j)).
  Proof.
    intros Hm Hi Hj.
    rewrite (same_run_iff (fun i => N.land (apic V i) m) n) by
      (auto; intros a b Hab Hbn; apply (low_cleared_mono k); auto using apic_u32;
       apply (sorted_nth V (so_sorted _ _ _ _ HS)); auto).
    unfold agree_above. apply low_cleared_eq; auto using apic_u32.
  Qed.

  Lemma report_grouped k m (pointer : processor -> option nat) : low_cleared k m ->
    (forall i, pointer (ent_processor cm pm lm V n i) = Some (grp (new_key (fun i => N.land (apic V i) m)) i)) ->
    grouped_by pointer k (t_processors t).
  Proof.
    intros Hm Hp p q Hip Hiq. apply In_nth_error in Hip. destruct Hip as (i & Hi).
    apply In_nth_error in Hiq. destruct Hiq as (j & Hj).
    apply processor_inv in Hi. destruct Hi as (Hi & ->). apply processor_inv in Hj. destruct Hj as (Hj & ->).
    rewrite !Hp. cbn [ent_processor p_apic_id].
    rewrite <- (same_group k m i j Hm Hi Hj). split; [congruence|now intros ->].
  Qed.

  Lemma report_level c cs ptrs i k count : level_inv V c n (CState cs ptrs i k) -> count = length cs ->
    level_reported (xc_geometry c) (xc_apic_bits c) (t_processors t) ptrs cs count.
  Proof.
    intros HL Hcount. split; [exact Hcount|].
    destruct HL as [(E & HE)|(E & m & Hm & _ & HI)].
    - injection HE as -> -> -> ->. fold n.
      split; [rewrite repeat_length; symmetry; apply processors_length|]. split; [|congruence].
      intros _. split; [reflexivity|]. apply Forall_forall. intros q Hq. now apply repeat_spec in Hq.
    - destruct HI as [Hc Hp _ _]. cbn [cs_caches cs_pointers] in Hc, Hp. fold n in Hc, Hp.
      apply (filled_one_map _ _ (@None nat) (fun _ i => Some (grp (newK V m) i))) in Hp.
      split; [rewrite Hp, map_length, seq_length; symmetry; apply processors_length|].
      split; [congruence|]. intros _. split; [|split].
      + exists (map (grp (newK V m)) (seq 0 n)). split; [rewrite Hp, map_map; reflexivity|].
        destruct (filled_field _ _ _ _ _ _ _ cache_processors Hc) as (L & F).
        apply (grouping_runs (newK V m) n).
        * reflexivity.
        * exact Hsome.
        * now rewrite map_length, seq_length.
        * exact L.
        * intros j Hj. now apply nth_error_map_seq.
        * intros s Hs Es. now rewrite F.
      + apply Forall_forall. intros y Hy. apply In_nth_error in Hy. destruct Hy as (j & Hj).
        destruct (filled_all _ _ _ _ _ _ Hc j y Hj) as (s & _ & _ & _ & ->). reflexivity.
      + intros a b p q Ha Hbq. apply processor_inv in Ha. destruct Ha as (Ha & ->).
        apply processor_inv in Hbq. destruct Hbq as (Hbb & ->).
        rewrite Hp, !nth_error_map_seq by assumption. cbn [ent_processor p_apic_id].
        apply bit_mask_ok in Hm. destruct Hm as (_ & ->).
        rewrite <- (same_group _ _ a b (not32_ones_cleared (xc_apic_bits c)) Ha Hbb).
        unfold newK. split; [congruence|now intros ->].
  Qed.
End REPORT.
