(** RISC-V Linux: from files that describe a machine to tables that describe it. *)
From Verif Require Import Base BaseProofs Sorting Runs GroupArray LinuxTextModel LinuxTextSpec LinuxTextProofs CpulistFileProofs
  TopologySpec X86LinuxSpec X86DetectProofs RiscvLinuxModel RiscvLinuxSpec RiscvGroupProofs RiscvTablesProofs.
Open Scope nat_scope.

(** ** Leaders of groups *)
Section LEADERS.
  Variables (cpus : list nat) (group : grouping_fn).
  Hypothesis Hsorted : StronglySorted lt cpus.
  Let head (v : rlevel) (c : nat) : nat := hd 0 (members cpus group v c).

  Lemma head_In v c : In c cpus -> In (head v c) cpus /\ group v (head v c) = group v c.
  Proof.
    intros Hc. apply (members_In cpus group v c). unfold head.
    assert (Hm : In c (members cpus group v c)) by (now apply members_In).
    destruct (members cpus group v c) as [|h m]; [destruct Hm|now left].
  Qed.

  Lemma head_le v c q : In q cpus -> group v q = group v c -> head v c <= q.
  Proof.
    intros Hq Hg. assert (Hm : In q (members cpus group v c)) by (now apply members_In).
    assert (Hs : StronglySorted lt (members cpus group v c)) by (apply sorted_filter, Hsorted).
    unfold head. destruct (members cpus group v c) as [|h m]; [destruct Hm|]. cbn [hd].
    destruct Hm as [->|Hm]; [lia|]. apply StronglySorted_inv in Hs. rewrite Forall_forall in Hs.
    destruct Hs as (_ & Hs). specialize (Hs q Hm). lia.
  Qed.

  Lemma head_eq v c q : In c cpus -> In q cpus -> (head v c = head v q <-> group v c = group v q).
  Proof.
    intros Hc Hq. split; intros H.
    - rewrite <- (proj2 (head_In v c Hc)), <- (proj2 (head_In v q Hq)). now rewrite H.
    - unfold head. now rewrite (members_same cpus group v c q H).
  Qed.

  Lemma lead0_head v c : In c cpus -> lead0 cpus group v (head v c) = true.
  Proof.
    intros Hc. destruct (head_In v c Hc) as (H1 & H2). unfold lead0. apply Nat.eqb_eq.
    rewrite (members_same cpus group v _ c H2). reflexivity.
  Qed.

  Hypothesis Hnested : nested cpus group.

  Lemma lead_nested v w c : (v = RCluster /\ w = RCore) \/ (v = RPackage /\ w = RCluster) -> In c cpus ->
    lead0 cpus group v c = true -> lead0 cpus group w c = true.
  Proof.
    intros Hvw Hc H. apply Nat.eqb_eq in H. apply Nat.eqb_eq. fold (head v c) in H. fold (head w c).
    destruct (head_In w c Hc) as (H1 & H2). pose proof (head_le w c c Hc eq_refl).
    enough (head v c <= head w c) by lia. apply head_le; [exact H1|].
    destruct (Hnested _ _ H1 Hc) as (N1 & N2). destruct Hvw as [(-> & ->)|(-> & ->)]; auto.
  Qed.

  (** Leaders inside a group stand for the smaller groups inside it. *)
  Lemma leaders_count (u v : rlevel) c : In c cpus ->
    (forall p q, In p cpus -> In q cpus -> group u p = group u q -> group v p = group v q) ->
    length (filter (lead0 cpus group u) (members cpus group v c)) = distinct_groups group u (members cpus group v c).
  Proof.
    intros Hc Huv. unfold distinct_groups.
    rewrite <- (map_length (group u) (filter _ _)). apply Permutation_length. apply NoDup_Permutation.
    - assert (Hin : forall q, In q (filter (lead0 cpus group u) (members cpus group v c)) -> In q cpus /\ head u q = q).
      { intros q Hq. apply filter_In in Hq. destruct Hq as (Hq & Hl). apply members_In in Hq.
        split; [tauto|]. now apply Nat.eqb_eq. }
      assert (Hnd : NoDup (filter (lead0 cpus group u) (members cpus group v c)))
        by (apply sorted_NoDup, sorted_filter, sorted_filter, Hsorted).
      revert Hin Hnd. generalize (filter (lead0 cpus group u) (members cpus group v c)). intros l.
      induction l as [|q l IH]; intros Hin Hnd; cbn [map]; [constructor|]. apply NoDup_cons_iff in Hnd.
      constructor; [|apply IH; [intros x Hx; apply Hin; now right|tauto]].
      intros Hx. apply in_map_iff in Hx. destruct Hx as (x & Hg & Hx). destruct Hnd as (Hnd & _). apply Hnd.
      destruct (Hin q (or_introl eq_refl)) as (Q1 & Q2). destruct (Hin x (or_intror Hx)) as (X1 & X2).
      rewrite <- Q2, <- (proj2 (head_eq u x q X1 Q1) Hg), X2. exact Hx.
    - apply NoDup_nodup.
    - intros g. rewrite nodup_In, !in_map_iff. split; intros (q & <- & Hq).
      + apply filter_In in Hq. exists q. tauto.
      + apply members_In in Hq. destruct Hq as (Hq & Hg). destruct (head_In u q Hq) as (H1 & H2).
        exists (head u q). split; [exact H2|]. apply filter_In. split; [|now apply lead0_head].
        apply members_In. split; [exact H1|]. rewrite <- Hg. now apply Huv.
  Qed.

  Hypothesis Hcontiguous : contiguous cpus group.
  Let n := length cpus.
  Let cpu (i : nat) : nat := nth i cpus 0.

  Lemma cpu_In i : i < n -> In (cpu i) cpus.
  Proof. intros H. now apply nth_In. Qed.

  Lemma cpu_mono : forall i j, i < j -> j < n -> cpu i < cpu j.
  Proof.
    unfold cpu, n. clear -Hsorted. induction Hsorted as [|c l Hs IH Hf]; intros i j Hi Hj; cbn [length] in Hj; [lia|].
    destruct j as [|j]; [lia|]. destruct i as [|i]; cbn [nth].
    - rewrite Forall_forall in Hf. apply Hf. apply nth_In. lia.
    - apply IH; [exact Hs|lia|lia].
  Qed.

  Lemma cpu_index c : In c cpus -> exists i, i < n /\ cpu i = c.
  Proof. intros H. destruct (In_nth cpus c 0 H) as (i & H1 & H2). now exists i. Qed.

  Lemma head_mono v a b : a <= b -> b < n -> head v (cpu a) <= head v (cpu b).
  Proof.
    intros Hab Hb. pose proof (cpu_In a ltac:(lia)) as Ha'. pose proof (cpu_In b Hb) as Hb'.
    destruct (Nat.eq_dec (group v (cpu a)) (group v (cpu b))) as [E|E]; [apply (head_eq v _ _ Ha' Hb') in E; lia|].
    destruct (Nat.le_gt_cases (head v (cpu a)) (head v (cpu b))) as [H|H]; [exact H|]. exfalso.
    destruct (head_In v _ Ha') as (A1 & A2). destruct (head_In v _ Hb') as (B1 & B2).
    pose proof (head_le v (cpu a) (cpu a) Ha' eq_refl).
    assert (cpu a <= cpu b) by (destruct (Nat.eq_dec a b) as [->|]; [lia|]; apply Nat.lt_le_incl, cpu_mono; lia).
    apply E. rewrite <- B2. apply (Hcontiguous v (head v (cpu b)) (cpu a) (cpu b)); auto; lia.
  Qed.

  Lemma lead_run v i : i < n -> lead0 cpus group v (cpu i) = new_key (fun i => N.of_nat (head v (cpu i))) i.
  Proof.
    intros Hi. pose proof (cpu_In i Hi) as Hc. destruct (head_In v _ Hc) as (H1 & H2).
    pose proof (head_le v (cpu i) (cpu i) Hc eq_refl) as H3. unfold lead0. fold (head v (cpu i)).
    destruct (cpu_index _ H1) as (j & Hj & Ej).
    destruct i as [|i]; cbn [new_key].
    - apply Nat.eqb_eq. destruct j as [|j]; [congruence|]. pose proof (cpu_mono 0 (S j) ltac:(lia) Hj). lia.
    - pose proof (cpu_In i ltac:(lia)) as Hc'. pose proof (cpu_mono i (S i) ltac:(lia) Hi) as Hlt.
      pose proof (head_le v (cpu i) (cpu i) Hc' eq_refl) as H4.
      destruct (Nat.eqb_spec (head v (cpu (S i))) (cpu (S i))) as [E|E]; symmetry.
      + apply negb_true_iff, N.eqb_neq. lia.
      + apply negb_false_iff, N.eqb_eq. f_equal. apply head_eq; [exact Hc|exact Hc'|].
        assert (j <= i). { destruct (Nat.le_gt_cases j i) as [L|L]; [exact L|]. destruct (Nat.eq_dec j (S i)) as [->|]; [congruence|].
          pose proof (cpu_mono (S i) j ltac:(lia) Hj). lia. }
        assert (cpu j <= cpu i) by (destruct (Nat.eq_dec j i) as [->|]; [lia|]; apply Nat.lt_le_incl, cpu_mono; lia).
        rewrite <- H2. symmetry. apply (Hcontiguous v (head v (cpu (S i))) (cpu i) (cpu (S i))); auto; lia.
  Qed.

  Lemma lead_first v : 0 < n -> lead0 cpus group v (cpu 0) = true.
  Proof. intros H. now rewrite lead_run. Qed.

  Lemma runs_groups v new i j : (forall i, i < n -> new i = lead0 cpus group v (cpu i)) -> i < n -> j < n ->
    (grp new i = grp new j <-> group v (cpu i) = group v (cpu j)).
  Proof.
    intros Hnew Hi Hj.
    assert (E : forall i, i < n -> grp new i = grp (new_key (fun i => N.of_nat (head v (cpu i)))) i).
    { intros k Hk. unfold grp. f_equal. apply cnt_ext. intros x Hx. rewrite Hnew by lia. apply lead_run. lia. }
    rewrite !E by assumption. rewrite (same_run_iff _ n i j); [|intros a b Hab Hb; pose proof (head_mono v a b Hab Hb); lia|exact Hi|exact Hj].
    rewrite <- (head_eq v (cpu i) (cpu j)) by (now apply cpu_In). lia.
  Qed.
End LEADERS.

(** ** The entries of a table, CPU by CPU *)

Lemma filter_table (procs : list rproc) cpus : StronglySorted lt cpus -> marks cpus procs ->
  filter r_valid procs = map (fun c => nth c procs rproc0) cpus.
Proof.
  intros Hs (H1 & H2).
  assert (E : forall l k, (forall i p, nth_error l i = Some p -> nth_error procs (k + i) = Some p) ->
    filter r_valid l = map (fun c => nth c procs rproc0) (filter (fun c => r_valid (nth c procs rproc0)) (seq k (length l)))).
  { induction l as [|p l IH]; intros k Hk; cbn [filter length seq map]; [reflexivity|].
    pose proof (Hk 0 p eq_refl) as Hp. rewrite Nat.add_0_r in Hp. apply nth_error_nth with (d := rproc0) in Hp. rewrite Hp.
    rewrite (IH (S k)). { destruct (r_valid p); cbn [map]; now rewrite ?Hp. }
    intros i q Hq. replace (S k + i) with (k + S i) by lia. now apply Hk. }
  rewrite (E procs 0) by auto. f_equal.
  apply sorted_eq; [apply sorted_filter, sorted_seq|exact Hs|]. intros c. rewrite filter_In, in_seq. split.
  - intros (Hc & Hv). apply (H1 c (nth c procs rproc0)); [apply nth_error_nth'; lia|exact Hv].
  - intros Hc. destruct (H2 c Hc) as (p & Hp). pose proof Hp as Hlt0; apply nth_error_some_lt in Hlt0. split; [lia|].
    rewrite (nth_error_nth _ _ rproc0 Hp). now apply (H1 c p).
Qed.

(** The details of a core and a cluster are those of the entry of its first CPU. *)
Definition leaders_copied (cpus : list nat) (group : grouping_fn) (procs : list rproc) (t : riscv_tables) : Prop :=
  forall p, In p (rt_processors t) -> let cpu := N.to_nat (p_linux_id p) in
    In cpu cpus /\
    exists c l pc pl, its_core t p c /\ its_cluster t p l /\
      nth_error procs (hd 0 (members cpus group RCore cpu)) = Some pc /\ r_valid pc = true /\
      nth_error procs (hd 0 (members cpus group RCluster cpu)) = Some pl /\ r_valid pl = true /\
      c_core_id c = N.to_nat (r_core_id pc) /\ c_vendor c = r_vendor pc /\ riscv_core_frequency c = r_frequency pc /\
      cl_cluster_id l = hd 0 (members cpus group RCluster cpu) /\ cl_core_start l = hd 0 (members cpus group RCluster cpu) /\
      cl_vendor l = r_vendor pl /\ riscv_cluster_frequency l = r_frequency pl.

Section REPORT.
  Variables (cpus : list nat) (group : grouping_fn) (procs : list rproc).
  Hypothesis Hsorted : StronglySorted lt cpus.
  Hypothesis Hnested : nested cpus group.
  Hypothesis Hcontiguous : contiguous cpus group.
  Hypothesis Hready : ready cpus procs.
  Hypothesis Hfull : forall v c p, nth_error procs c = Some p -> r_valid p = true -> group_of v p = full cpus group v c.
  Let W := filter r_valid procs.
  Let n := length cpus.
  Let cpu (i : nat) : nat := nth i cpus 0.

  Lemma W_map : W = map (fun c => nth c procs rproc0) cpus.
  Proof. apply filter_table; [exact Hsorted|]. exact (rd_marks _ _ Hready). Qed.

  Lemma W_length : length W = n.
  Proof. rewrite W_map. apply map_length. Qed.

  Lemma W_entry i : i < n -> nth_error W i = Some (entry_at W i) /\ In (cpu i) cpus /\
    nth_error procs (cpu i) = Some (entry_at W i) /\ r_valid (entry_at W i) = true /\
    r_linux_id (entry_at W i) = N.of_nat (cpu i) /\ (forall v, group_of v (entry_at W i) = full cpus group v (cpu i)).
  Proof.
    intros Hi. assert (Hc : In (cpu i) cpus) by (now apply nth_In).
    destruct (proj2 (rd_marks _ _ Hready) _ Hc) as (p & Hp).
    assert (Hv : r_valid p = true) by (now apply (proj1 (rd_marks _ _ Hready) (cpu i))).
    assert (En : nth_error W i = Some p).
    { rewrite W_map. rewrite (map_nth_error _ i cpus (d := cpu i)) by (now apply nth_error_nth').
      f_equal. now apply nth_error_nth. }
    assert (Ee : entry_at W i = p) by (unfold entry_at; now apply nth_error_nth). rewrite Ee.
    repeat (split; [try eassumption|]); [now apply (rd_ids _ _ Hready)|]. intros v. now apply Hfull.
  Qed.

  Lemma W_valid p : In p W -> r_valid p = true.
  Proof. intros H. now apply filter_In in H. Qed.
  Lemma W_uarch p : In p W -> r_uarch p = 0%N.
  Proof.
    intros H. apply filter_In in H. destruct H as (H & _). apply In_nth_error in H. destruct H as (c & Hc).
    now apply (rd_uarch _ _ Hready c).
  Qed.
  Lemma W_lid i : i < n -> lid W i = cpu i.
  Proof. intros Hi. destruct (W_entry i Hi) as (H1 & _ & _ & _ & H2 & _). unfold lid. rewrite H1, H2. lia. Qed.
  Lemma W_nw v i : i < n -> nw W v i = lead0 cpus group v (cpu i).
  Proof.
    intros Hi. destruct (W_entry i Hi) as (H1 & _ & _ & _ & H2 & H3). unfold nw. rewrite H1.
    rewrite <- (full_leads cpus group v (cpu i) _ (H3 v)). unfold leads, is_leader. now rewrite H2.
  Qed.
  Lemma W_nest v w i : (v = RCluster /\ w = RCore) \/ (v = RPackage /\ w = RCluster) -> nw W v i = true -> nw W w i = true.
  Proof.
    intros Hvw H. destruct (Nat.lt_ge_cases i n) as [Hi|Hi].
    - rewrite W_nw in * by exact Hi. apply (lead_nested cpus group Hsorted Hnested v w); auto. now apply nth_In.
    - unfold nw in *. rewrite (proj2 (nth_error_None W i)) in * by (rewrite W_length; lia). discriminate.
  Qed.
  Lemma W_grp v i j : i < n -> j < n -> (grp (nw W v) i = grp (nw W v) j <-> group v (cpu i) = group v (cpu j)).
  Proof. apply (runs_groups cpus group Hsorted Hcontiguous v). intros k Hk. now apply W_nw. Qed.

  Lemma W_first v : 0 < n -> nw W v 0 = true.
  Proof. intros H. rewrite W_nw by exact H. now apply (lead_first cpus group Hsorted Hcontiguous v). Qed.

  (** The start of the group of processor [i]. *)
  Lemma W_leader v i : i < n -> exists s, s < n /\ nw W v s = true /\ cnt s (nw W v) = grp (nw W v) i /\
    group v (cpu s) = group v (cpu i).
  Proof.
    intros Hi. assert (H0 : nw W v 0 = true) by (apply W_first; lia).
    assert (Hg : grp (nw W v) i < cnt n (nw W v)).
    { pose proof (cnt_grp _ H0 i). pose proof (cnt_mono (nw W v) (S i) n Hi). lia. }
    destruct (leader_of (nw W v) n _ Hg) as (s & H1 & H2 & H3). exists s. repeat (split; [assumption|]).
    apply (W_grp v s i H1 Hi). now rewrite grp_leader.
  Qed.

  Lemma build_reports : exists t, build_riscv procs = Ok t /\ riscv_reports cpus group t /\ riscv_maps t /\
    rt_linux_cpu_max t = N.of_nat (length procs) /\
    rt_uarchs t = (if n =? 0 then [] else [UarchInfo 0 n (length (rt_cores t))]) /\
    (forall u, In u (rt_uarch_index_map t) -> u = 0) /\
    length (rt_processors t) = n /\ length (rt_cores t) = distinct_groups group RCore cpus /\
    length (rt_clusters t) = distinct_groups group RCluster cpus /\ length (rt_packages t) = distinct_groups group RPackage cpus /\
    leaders_copied cpus group procs t.
  Proof.
    pose proof W_length as HWn.
    assert (Hid : forall i, i < length W -> lid W i < length procs).
    { intros i Hi. rewrite HWn in Hi. rewrite W_lid by exact Hi. destruct (W_entry i Hi) as (_ & _ & H & _). now apply nth_error_some_lt in H. }
    assert (Hdist : forall i j, i < j < length W -> lid W i <> lid W j).
    { intros i j Hij. rewrite HWn in Hij. rewrite !W_lid by lia. pose proof (cpu_mono cpus Hsorted i j ltac:(lia) ltac:(lia)).
      unfold cpu. lia. }
    assert (Hfst : forall v, 0 < length W -> nw W v 0 = true) by (intros v; rewrite HWn; apply W_first).
    pose proof (fun i => W_nest RCluster RCore i (or_introl (conj eq_refl eq_refl))) as HN1.
    pose proof (fun i => W_nest RPackage RCluster i (or_intror (conj eq_refl eq_refl))) as HN2.
    pose proof (tstate_initial W (length procs) W_valid W_uarch Hid Hdist Hfst HN1 HN2) as HT0.
    destruct (transfer_spec W (length procs) W_valid W_uarch Hid Hdist Hfst HN1 HN2 (length W) 0 _ eq_refl HT0) as (s & ES & HT).
    cbn [skipn] in ES. unfold W in ES at 1. rewrite <- transfer_filter in ES.
    unfold build_riscv. rewrite (count_entries_filter (fun _ => true) procs), (count_entries_filter (leads RCore) procs),
      (count_entries_filter (leads RCluster) procs), (count_entries_filter (leads RPackage) procs), (count_uarchs_filter procs).
    change (filter r_valid procs) with W.
    replace (count_entries (fun _ => true) W) with (length W)
      by (symmetry; rewrite count_entries_cnt by exact W_valid; rewrite <- (cnt_all (length W)) at 2; apply cnt_ext; intros i Hi;
          apply nth_error_lt in Hi; destruct Hi as (p & ->); reflexivity).
    rewrite ES. cbn [bind]. eexists. split; [reflexivity|].
    destruct (tstate_final W (length procs) Hid Hdist Hfst s HT) as (P1 & P2 & P3 & P4 & L2 & L3 & L4 & P5).
    destruct HT as [_ _ _ _ _ M1 M2 M3 _ _ _ _ _ _]. rewrite HWn in *.
    assert (HP : forall p, In p (st_processors s) -> exists i, i < n /\ p = processor_at W i).
    { intros p Hp. rewrite P1 in Hp. apply in_map_iff in Hp. destruct Hp as (i & <- & Hi). apply in_seq in Hi. exists i. split; [lia|reflexivity]. }
    assert (HP' : forall i, i < n -> In (processor_at W i) (st_processors s)).
    { intros i Hi. rewrite P1. apply in_map, in_seq. lia. }
    assert (Hlid : forall i, i < n -> N.to_nat (p_linux_id (processor_at W i)) = cpu i).
    { intros i Hi. cbn. destruct (W_entry i Hi) as (_ & _ & _ & _ & -> & _). lia. }
    assert (Hfollow : forall v A (table : list A) pointer, (forall i, pointer (processor_at W i) = Some (grp (nw W v) i)) ->
      length table = cnt n (nw W v) -> forall t, rt_processors t = st_processors s -> pointers_follow pointer table (group v) t).
    { intros v A table pointer Hpt Hlen t Ht. split; rewrite Ht.
      - intros p q Hp Hq. destruct (HP p Hp) as (i & Hi & ->). destruct (HP q Hq) as (j & Hj & ->).
        rewrite !Hpt, !Hlid by assumption. rewrite <- (W_grp v i j Hi Hj). split; [now injection 1|congruence].
      - intros g Hg. rewrite Hlen in Hg. destruct (leader_of (nw W v) n g Hg) as (x & X1 & X2 & X3).
        exists (processor_at W x). split; [now apply HP'|]. rewrite Hpt. f_equal. now rewrite grp_leader. }
    assert (Hcount : forall v, cnt n (nw W v) = distinct_groups group v cpus).
    { intros v. unfold distinct_groups. transitivity (length (filter (lead0 cpus group v) cpus)).
      - transitivity (cnt n (fun i => lead0 cpus group v (cpu i))); [apply cnt_ext; intros; now apply W_nw|].
        unfold n, cpu. generalize (lead0 cpus group v). intros f. clear. rewrite <- (rev_involutive cpus). generalize (rev cpus). intros l.
        induction l as [|c l IH]; [reflexivity|]. cbn [rev]. rewrite filter_app, !app_length. cbn [length filter]. rewrite Nat.add_1_r. cbn [cnt].
        rewrite app_nth2 by lia. rewrite Nat.sub_diag. cbn [nth]. rewrite <- IH. f_equal; [|now destruct (f c)].
        apply cnt_ext. intros i Hi. now rewrite app_nth1.
      - destruct cpus as [|c0 l] eqn:El; [reflexivity|]. rewrite <- El in *.
        pose (all := fun (w : rlevel) (c : nat) => match w with RPackage => 0 | _ => group v c end).
        assert (Em : members cpus all RPackage c0 = cpus).
        { unfold members, all. cbn. clear. induction cpus as [|c l IH]; [reflexivity|]. cbn [filter Nat.eqb]. now f_equal. }
        pose proof (leaders_count cpus all Hsorted RCore RPackage c0) as LC. rewrite Em in LC.
        apply LC; [rewrite El; now left|reflexivity]. }
    split; [split; cbn [rt_processors rt_cores rt_clusters rt_packages]|].
    - rewrite P1, map_map. apply nth_error_ext. intros i.
      destruct (Nat.lt_ge_cases i n) as [Hi|Hi].
      + rewrite (map_nth_error _ i (seq 0 n) (d := i)) by (rewrite (nth_error_nth' _ 0) by (now rewrite seq_length); now rewrite seq_nth).
        rewrite (map_nth_error _ i cpus (d := cpu i)) by (now apply nth_error_nth'). cbn.
        destruct (W_entry i Hi) as (_ & _ & _ & _ & -> & _). reflexivity.
      + rewrite !(proj2 (nth_error_None _ i)); [reflexivity|rewrite map_length; exact Hi|now rewrite map_length, seq_length].
    - now apply (Hfollow RCore).
    - now apply (Hfollow RCluster).
    - now apply (Hfollow RPackage).
    - intros p Hp. destruct (HP p Hp) as (i & Hi & ->). rewrite (Hlid i Hi). cbn zeta.
      destruct (W_leader RCore i Hi) as (sc & C1 & C2 & C3 & C4). destruct (W_leader RCluster i Hi) as (sl & K1 & K2 & K3 & K4).
      destruct (W_leader RPackage i Hi) as (sp & G1 & G2 & G3 & G4).
      exists (core_at W sc), (cluster_at W sl), (package_at W sp).
      split; [exists (grp (nw W RCore) i); split; [reflexivity|]; cbn; rewrite <- C3; now apply P2|].
      split; [exists (grp (nw W RCluster) i); split; [reflexivity|]; cbn; rewrite <- K3; now apply P3|].
      split; [exists (grp (nw W RPackage) i); split; [reflexivity|]; cbn; rewrite <- G3; now apply P4|].
      assert (IC : In (cpu i) cpus) by (now apply nth_In). assert (IS : In (cpu sc) cpus) by (now apply nth_In).
      assert (IL : In (cpu sl) cpus) by (now apply nth_In). assert (IP : In (cpu sp) cpus) by (now apply nth_In).
      assert (E1 : group RCluster (cpu sc) = group RCluster (cpu i)) by (now apply Hnested).
      assert (E2 : group RPackage (cpu sc) = group RPackage (cpu i)) by (now apply Hnested).
      assert (E3 : group RPackage (cpu sl) = group RPackage (cpu i)) by (now apply Hnested).
      destruct (W_entry sc C1) as (_ & _ & _ & _ & _ & F1). destruct (W_entry sl K1) as (_ & _ & _ & _ & _ & F2).
      destruct (W_entry sp G1) as (_ & _ & _ & _ & _ & F3).
      specialize (F1 RCore). specialize (F2 RCluster). specialize (F3 RPackage). cbn [group_of] in F1, F2, F3.
      unfold core_at, cluster_at, package_at, core_record, cluster_record, package_record. cbn. rewrite F1, F2, F3. cbn.
      rewrite (members_same cpus group RCore _ _ C4), (members_same cpus group RCluster _ _ K4), (members_same cpus group RPackage _ _ G4).
      rewrite !Nat2N.id.
      split; [f_equal; now apply W_grp|]. split; [f_equal; now apply W_grp|]. split; [f_equal; now apply W_grp|].
      do 4 (split; [reflexivity|]).
      assert (N1 : forall p q, In p cpus -> In q cpus -> group RCore p = group RCore q -> group RCluster p = group RCluster q) by (intros; now apply Hnested).
      assert (N2 : forall p q, In p cpus -> In q cpus -> group RCluster p = group RCluster q -> group RPackage p = group RPackage q) by (intros; now apply Hnested).
      split; [apply leaders_count; auto|]. do 2 (split; [reflexivity|]). split; apply leaders_count; eauto.
    - split; [split; cbn|].
      + destruct M1 as (M1 & _), M2 as (M2 & _), M3 as (M3 & _). rewrite Nat2N.id. auto.
      + cbn. intros i p Hp. rewrite P1 in Hp.
        assert (Hi : i < n). { apply nth_error_some_lt in Hp. now rewrite map_length, seq_length in Hp. }
        rewrite (map_nth_error _ i (seq 0 n) (d := i)) in Hp by (rewrite (nth_error_nth' _ 0) by (now rewrite seq_length); now rewrite seq_nth).
        injection Hp as <-. rewrite (Hlid i Hi), <- (W_lid i Hi). split; [now apply M1|now apply M2].
      + cbn. rewrite Nat2N.id. intros c Hc Hno. split; [apply M1|apply M2]; auto; intros i Hi; rewrite W_lid by exact Hi;
          rewrite <- (Hlid i Hi); apply Hno; now apply HP'.
      + cbn. split; [reflexivity|]. split; [now rewrite P5, L2|]. split.
        * intros u Hu. apply In_nth_error in Hu. destruct Hu as (c & Hc). destruct M3 as (M3 & M3' & M3'').
          pose proof Hc as Hlt; apply nth_error_some_lt in Hlt. rewrite M3 in Hlt.
          destruct (in_dec Nat.eq_dec c cpus) as [Hin|Hin].
          { destruct (cpu_index cpus c Hin) as (i & Hi & Ei). specialize (M3' i Hi). rewrite W_lid in M3' by exact Hi.
            unfold cpu in M3'. rewrite Ei in M3'. congruence. }
          { rewrite M3'' in Hc; [congruence|exact Hlt|]. intros i Hi. rewrite W_lid by exact Hi. intros E. apply Hin. rewrite <- E. now apply nth_In. }
        * rewrite P1, map_length, seq_length, L2, L3, L4. do 4 (split; [auto|]).
          intros p Hp. cbn [rt_processors] in Hp. rewrite <- P1 in Hp. destruct (HP p Hp) as (i & Hi & ->). rewrite (Hlid i Hi). cbn zeta. split; [now apply nth_In|].
          destruct (W_leader RCore i Hi) as (sc & C1 & C2 & C3 & C4). destruct (W_leader RCluster i Hi) as (sl & K1 & K2 & K3 & K4).
          destruct (W_entry sc C1) as (_ & _ & X1 & X2 & _ & F1). destruct (W_entry sl K1) as (_ & _ & Y1 & Y2 & _ & F2).
          specialize (F1 RCore). specialize (F2 RCluster). cbn [group_of] in F1, F2.
          assert (HC : hd 0 (members cpus group RCore (cpu i)) = cpu sc).
          { rewrite W_nw in C2 by exact C1. unfold lead0 in C2. apply Nat.eqb_eq in C2. now rewrite <- (members_same cpus group RCore _ _ C4). }
          assert (HL : hd 0 (members cpus group RCluster (cpu i)) = cpu sl).
          { rewrite W_nw in K2 by exact K1. unfold lead0 in K2. apply Nat.eqb_eq in K2. now rewrite <- (members_same cpus group RCluster _ _ K4). }
          rewrite HC, HL.
          exists (core_at W sc), (cluster_at W sl), (entry_at W sc), (entry_at W sl).
          split; [exists (grp (nw W RCore) i); split; [reflexivity|]; cbn; rewrite <- C3; now apply P2|].
          split; [exists (grp (nw W RCluster) i); split; [reflexivity|]; cbn; rewrite <- K3; now apply P3|].
          repeat (split; [assumption|]). do 3 (split; [reflexivity|]).
          unfold cluster_at, cluster_record. cbn. rewrite F2. cbn. rewrite (members_same cpus group RCluster _ _ K4), HL, !Nat2N.id. auto.
  Qed.
End REPORT.
