(** cpuinfo_x86_linux_init as a whole: from the sorted table to the published
    tables. *)
From Verif Require Import Base BaseProofs Runs GroupArray TopologySpec X86CpuinfoModel X86LinuxModel.
From Verif Require Import X86LinuxSpec X86LoopProofs X86TablesProofs X86DetectProofs Masks.
Open Scope nat_scope.

(** ** Sorting *)

Definition le_apic (a b : xproc) : Prop := (x_apic_id a <= x_apic_id b)%N.

Lemma cmp_valid a b : is_valid a = true -> is_valid b = true ->
  (cmp_x86_linux_processor a b <= 0)%Z -> le_apic a b.
Proof.
  unfold is_valid, cmp_x86_linux_processor, le_apic, cmp_u32. intros -> ->. cbn.
  destruct (N.ltb_spec (x_apic_id b) (x_apic_id a)), (N.ltb_spec (x_apic_id a) (x_apic_id b)); lia.
Qed.

Lemma cmp_invalid a b : is_valid a = false -> (cmp_x86_linux_processor a b <= 0)%Z -> is_valid b = false.
Proof.
  unfold is_valid, cmp_x86_linux_processor. intros ->.
  destruct (bitmask_all (x_flags b) flag_valid); cbn; [lia|reflexivity].
Qed.

Lemma sorted_split l : StronglySorted (fun a b => (cmp_x86_linux_processor a b <= 0)%Z) l ->
  exists V W, l = V ++ W /\ Forall (fun p => is_valid p = true) V /\
    Forall (fun p => is_valid p = false) W /\ StronglySorted le_apic V.
Proof.
  induction 1 as [|a l Hl IH Ha].
  - exists [], []. repeat constructor.
  - destruct (is_valid a) eqn:E.
    + destruct IH as (V & W & -> & HV & HW & HS). exists (a :: V), W.
      split; [reflexivity|]. split; [now constructor|]. split; [exact HW|]. constructor; [exact HS|].
      rewrite Forall_forall in *. intros b Hb. apply cmp_valid; auto. apply Ha. apply in_or_app. now left.
    + exists [], (a :: l). split; [reflexivity|]. split; [constructor|]. split; [|constructor].
      constructor; [exact E|]. rewrite Forall_forall in *. intros b Hb. apply (cmp_invalid a b E). now apply Ha.
Qed.

Lemma filter_valid_app V W : Forall (fun p => is_valid p = true) V -> Forall (fun p => is_valid p = false) W ->
  filter is_valid (V ++ W) = V.
Proof.
  intros HV HW. rewrite filter_app.
  assert (filter is_valid V = V) as ->.
  { induction HV as [|p V Hp HV IH]; cbn; [reflexivity|]. now rewrite Hp, IH. }
  assert (filter is_valid W = []) as ->.
  { induction HW as [|p W Hp HW IH]; cbn; [reflexivity|]. now rewrite Hp. }
  apply app_nil_r.
Qed.

Lemma Permutation_filter A (f : A -> bool) l l' : Permutation l l' -> Permutation (filter f l) (filter f l').
Proof.
  induction 1 as [|a l l' H IH|a b l|l l' l'' H1 IH1 H2 IH2]; cbn; auto.
  - destruct (f a); auto.
  - destruct (f a), (f b); auto. apply perm_swap.
  - now transitivity (filter f l').
Qed.

Lemma valid_ids procs : forall k,
  (forall i p, nth_error procs i = Some p -> is_valid p = true -> x_linux_id p = N.of_nat (k + i)) ->
  NoDup (map x_linux_id (filter is_valid procs)) /\
  Forall (fun p => k <= N.to_nat (x_linux_id p) < k + length procs) (filter is_valid procs).
Proof.
  induction procs as [|p procs IH]; intros k H; cbn; [split; constructor|].
  destruct (IH (S k)) as (ND & F).
  { intros i q Hi Hq. rewrite (H (S i) q Hi Hq). f_equal. lia. }
  assert (F' : Forall (fun q => k <= N.to_nat (x_linux_id q) < k + S (length procs)) (filter is_valid procs)).
  { eapply Forall_impl; [|exact F]. cbn. intros; lia. }
  destruct (is_valid p) eqn:E; [|auto]. cbn. specialize (H 0 p eq_refl E). split.
  - constructor; [|exact ND]. intros Hin. apply in_map_iff in Hin. destruct Hin as (q & Eq & Hq).
    rewrite Forall_forall in F. specialize (F q Hq). rewrite Eq, H in F. lia.
  - constructor; [rewrite H; lia|exact F'].
Qed.

Lemma sorted_nth V : StronglySorted le_apic V -> forall i j, i <= j -> j < length V -> (apic V i <= apic V j)%N.
Proof.
  unfold apic, at_. induction 1 as [|a V HS IH Ha]; intros i j Hij Hj; [cbn in Hj; lia|].
  destruct j as [|j]; [replace i with 0 by lia; lia|]. destruct i as [|i].
  - cbn [nth]. rewrite Forall_forall in Ha. apply Ha. apply nth_In. cbn in Hj. lia.
  - cbn [nth]. apply IH; cbn in Hj; lia.
Qed.

(** What a run needs of the table. *)
Record sorted_ok (procs sorted : list xproc) (V W : list xproc) : Prop := {
  so_split : sorted = V ++ W;
  so_valid : Forall (fun p => is_valid p = true) V;
  so_invalid : Forall (fun p => is_valid p = false) W;
  so_sorted : StronglySorted le_apic V;
  so_perm : Permutation (filter is_valid procs) V;
  so_all : Permutation procs sorted;
  so_nodup : NoDup (map x_linux_id V);
  so_ids : forall p, In p V -> N.to_nat (x_linux_id p) < length sorted
}.

Lemma sorting procs mask sorter : detected procs mask -> qsort_contract sorter ->
  exists V W, sorted_ok procs (sorter procs) V W.
Proof.
  intros Hd Hq. destruct (Hq procs) as (HP & HS).
  destruct (sorted_split _ HS) as (V & W & E & HV & HW & HSV). exists V, W.
  destruct (valid_ids procs 0 (det_linux_id _ _ Hd)) as (ND & F).
  assert (HPV : Permutation (filter is_valid procs) V).
  { rewrite <- (filter_valid_app V W HV HW), <- E. now apply Permutation_filter. }
  constructor; auto.
  - eapply Permutation_NoDup; [|exact ND]. now apply Permutation_map.
  - intros p Hp. rewrite <- (Permutation_length HP). rewrite Forall_forall in F.
    apply F. eapply Permutation_in; [|exact Hp]. now symmetry.
Qed.

(** ** Building the tables *)

Definition first_size (x : xinfo) : N :=
  let size c := g_size (xc_geometry c) in
  if negb (size (xi_l4 x) =? 0)%N then size (xi_l4 x)
  else if negb (size (xi_l3 x) =? 0)%N then size (xi_l3 x)
  else if negb (size (xi_l2 x) =? 0)%N then size (xi_l2 x)
  else size (xi_l1d x).

Definition caches_of (x : xinfo) : list xcache := [xi_l1i x; xi_l1d x; xi_l2 x; xi_l3 x; xi_l4 x].

(** The first processor starts a new object of every kind. *)
Record can_start (x : xinfo) (V : list xproc) (cm pm lm : N) : Prop := {
  st_some : 0 < length V;
  st_core : starts V cm;
  st_package : starts V pm;
  st_cluster : starts V lm;
  st_cache : forall c m, In c (caches_of x) -> g_size (xc_geometry c) <> 0%N ->
    bit_mask (xc_apic_bits c) = Ok m -> starts V (not32 m)
}.

Lemma can_start_low x V cm pm lm : StronglySorted le_apic V ->
  (exists p, In p V /\ (x_apic_id p < u32max)%N) -> can_start x V cm pm lm.
Proof.
  intros HS (p & Hp & Ha).
  assert (H0 : 0 < length V) by (destruct V; [destruct Hp|cbn; lia]).
  assert (H : (apic V 0 < u32max)%N).
  { apply (In_nth _ _ (XProc 0 0 0)) in Hp. destruct Hp as (i & Hi & E).
    pose proof (sorted_nth V HS 0 i (Nat.le_0_l i) Hi) as L.
    unfold apic at 2, at_ in L. rewrite E in L. lia. }
  constructor; [exact H0| | | |]; intros; now apply first_key.
Qed.

Section BUILD.
  Variable x : xinfo.
  Variables (procs sorted V W : list xproc) (mask : N).
  Hypothesis Hd : detected procs mask.
  Hypothesis HS : sorted_ok procs sorted V W.
  Hypothesis Hb : bits_ok x.
  Variables cm pm lm : N.
  Hypothesis Hst : can_start x V cm pm lm.
  Let n := length V.

  Lemma V_in i : i < n -> In (at_ V i) V.
  Proof. intros H. apply nth_In. exact H. Qed.

  Lemma V_valid i : i < n -> is_valid (at_ V i) = true.
  Proof. intros H. pose proof (so_valid _ _ _ _ HS) as F. rewrite Forall_forall in F. apply F. now apply V_in. Qed.

  Lemma V_ids i : i < n -> lid V i < length sorted.
  Proof. intros H. apply (so_ids _ _ _ _ HS). now apply V_in. Qed.

  Lemma V_distinct i j : i < n -> j < n -> lid V i = lid V j -> i = j.
  Proof.
    intros Hi Hj E. apply N2Nat.inj in E.
    apply (proj1 (NoDup_nth (map x_linux_id V) 0%N) (so_nodup _ _ _ _ HS)); rewrite ?map_length; auto.
    change 0%N with (x_linux_id (XProc 0 0 0)). rewrite !map_nth. exact E.
  Qed.

  Lemma V_mask p : In p (V ++ W) -> bitmask_all (x_flags p) mask = is_valid p.
  Proof.
    intros Hp. apply (det_valid _ _ Hd). rewrite <- (so_split _ _ _ _ HS) in Hp.
    exact (Permutation_in _ (Permutation_sym (so_all _ _ _ _ HS)) Hp).
  Qed.

  Lemma V_count : count_valid procs = n.
  Proof. unfold count_valid, n. apply Permutation_length. apply (so_perm _ _ _ _ HS). Qed.

  Lemma count_objects_V mk : starts V mk -> count_objects mask mk sorted = cnt n (new_key (fun i => N.land (apic V i) mk)).
  Proof.
    intros Hmk. rewrite (so_split _ _ _ _ HS). apply count_keys_valid; [exact Hmk|exact V_mask|exact V_valid|].
    exact (so_invalid _ _ _ _ HS).
  Qed.

  (** The caches of one level before the loop. *)
  Lemma level_init c : In c (caches_of x) -> (g_size (xc_geometry c) <> 0%N -> (xc_apic_bits c < 32)%N) ->
    exists nc, count_caches mask c sorted = Ok nc /\ level_inv V c 0 (initial_caches nc n) /\ forall s, level_inv V c n s -> length (cs_caches s) = nc.
  Proof.
    intros Hin Hbits. unfold count_caches. destruct (N.eqb_spec (g_size (xc_geometry c)) 0) as [E|E].
    - exists 0. split; [reflexivity|]. split; [left; auto|].
      intros s [(_ & ->)|(H & _)]; [reflexivity|congruence].
    - rewrite bit_mask_ones by auto. cbn [bind].
      assert (Hsc : starts V (not32 (N.ones (xc_apic_bits c)))).
      { apply (st_cache _ _ _ _ _ Hst c _ Hin E). now apply bit_mask_ones; auto. }
      rewrite count_objects_V by exact Hsc.
      eexists. split; [reflexivity|]. split.
      + right. split; [exact E|]. exists (N.ones (xc_apic_bits c)). split; [now apply bit_mask_ones; auto|]. split; [exact Hsc|].
        apply cinv_init.
      + intros s [(H & _)|(_ & m & Hm & _ & HI)]; [congruence|].
        rewrite bit_mask_ones in Hm by auto. injection Hm as <-. apply (ci_caches _ _ _ _ _ HI).
  Qed.

  Lemma level_first c s : level_inv V c n s ->
    (g_size (xc_geometry c) = 0%N /\ rd (cs_pointers s) 0 = Ok None) \/
    (g_size (xc_geometry c) <> 0%N /\ exists i, rd (cs_pointers s) 0 = Ok (Some i) /\ cache_size_at (cs_caches s) i = Ok (g_size (xc_geometry c))).
  Proof.
    pose proof (st_some _ _ _ _ _ Hst) as H0. fold n in H0. intros [(E & ->)|(E & m & Hm & _ & HI)].
    - left. split; [exact E|]. cbn [cs_pointers]. unfold rd. fold n. rewrite nth_error_repeat by exact H0. reflexivity.
    - right. split; [exact E|]. exists 0.
      destruct HI as [Hc Hp _ _]. fold n in Hc, Hp. split.
      + destruct Hp as (_ & F & _). specialize (F 0 H0 eq_refl). cbn [cnt] in F. unfold rd. now rewrite F.
      + destruct Hc as (_ & F & _). specialize (F 0 H0 eq_refl). cbn [cnt] in F.
        unfold cache_size_at, rd. now rewrite F.
  Qed.

  Lemma max_cache_first s1d s2 s3 s4 : level_inv V (xi_l1d x) n s1d -> level_inv V (xi_l2 x) n s2 ->
    level_inv V (xi_l3 x) n s3 -> level_inv V (xi_l4 x) n s4 ->
    compute_max_cache_size s1d s2 s3 s4 = Ok (first_size x).
  Proof.
    intros H1 H2 H3 H4. unfold compute_max_cache_size, first_size.
    destruct (level_first _ _ H4) as [(E4 & ->)|(E4 & i4 & -> & S4)]; cbn [bind];
      [rewrite E4; cbn [N.eqb negb]|now rewrite S4, (proj2 (N.eqb_neq _ _) E4)].
    destruct (level_first _ _ H3) as [(E3 & ->)|(E3 & i3 & -> & S3)]; cbn [bind];
      [rewrite E3; cbn [N.eqb negb]|now rewrite S3, (proj2 (N.eqb_neq _ _) E3)].
    destruct (level_first _ _ H2) as [(E2 & ->)|(E2 & i2 & -> & S2)]; cbn [bind];
      [rewrite E2; cbn [N.eqb negb]|now rewrite S2, (proj2 (N.eqb_neq _ _) E2)].
    destruct (level_first _ _ H1) as [(E1 & ->)|(E1 & i1 & -> & S1)]; cbn [bind]; [now rewrite E1|exact S1].
  Qed.

  (** The result of the run, with the closed form of every table. *)
  Record built (t : tables) : Prop := {
    bu_topology : inv x cm pm lm V (length sorted) n
      (LState (t_processors t) (t_cores t) (t_clusters t) (t_packages t) (t_processor_map t) (t_core_map t)
         (idx one n) (idx (newC cm V) n) (idx (newL lm V) n) (idx (newP pm V) n)
         (offs (newP pm V) (newL lm V) n) (offs (newP pm V) (newC cm V) n) (offs (newC cm V) one n)
         (last_key (fun i => N.land (apic V i) cm) n) (last_key (fun i => N.land (apic V i) lm) n)
         (last_key (fun i => N.land (apic V i) pm) n));
    bu_l1i : exists i k, level_inv V (xi_l1i x) n (CState (t_l1i t) (t_l1i_of t) i k);
    bu_l1d : exists i k, level_inv V (xi_l1d x) n (CState (t_l1d t) (t_l1d_of t) i k);
    bu_l2 : exists i k, level_inv V (xi_l2 x) n (CState (t_l2 t) (t_l2_of t) i k);
    bu_l3 : exists i k, level_inv V (xi_l3 x) n (CState (t_l3 t) (t_l3_of t) i k);
    bu_l4 : exists i k, level_inv V (xi_l4 x) n (CState (t_l4 t) (t_l4_of t) i k);
    bu_counts : t_processors_count t = n /\ t_cores_count t = length (t_cores t) /\ t_clusters_count t = length (t_clusters t) /\ t_packages_count t = length (t_packages t) /\
      t_l1i_count t = length (t_l1i t) /\ t_l1d_count t = length (t_l1d t) /\
      t_l2_count t = length (t_l2 t) /\ t_l3_count t = length (t_l3 t) /\ t_l4_count t = length (t_l4 t);
    bu_max : t_max_cache_size t = first_size x;
    bu_uarch : t_uarch t = xi_uarch x /\ t_uarch_cpuid t = xi_cpuid x /\ t_uarch_processor_count t = n /\ t_uarch_core_count t = length (t_cores t);
    bu_cpu_max : t_linux_cpu_max t = N.of_nat (length sorted)
  }.

  Lemma build_run : apic_masks x (llc_apic_bits x) = Ok (cm, pm, lm) ->
    exists t, build_tables x mask sorted (count_valid procs) = Ok t /\ built t.
  Proof.
    intros Hmasks. unfold build_tables. rewrite Hmasks. cbn [bind].
    destruct Hb as (_ & _ & _ & _ & Hc).
    destruct (level_init (xi_l1i x) ltac:(cbn; tauto)) as (n1i & -> & I1i & L1i); [apply Hc; cbn; tauto|]. cbn [bind].
    destruct (level_init (xi_l1d x) ltac:(cbn; tauto)) as (n1d & -> & I1d & L1d); [apply Hc; cbn; tauto|]. cbn [bind].
    destruct (level_init (xi_l2 x) ltac:(cbn; tauto)) as (n2 & -> & I2 & L2); [apply Hc; cbn; tauto|]. cbn [bind].
    destruct (level_init (xi_l3 x) ltac:(cbn; tauto)) as (n3 & -> & I3 & L3); [apply Hc; cbn; tauto|]. cbn [bind].
    destruct (level_init (xi_l4 x) ltac:(cbn; tauto)) as (n4 & -> & I4 & L4); [apply Hc; cbn; tauto|]. cbn [bind].
    rewrite V_count, !count_objects_V by apply Hst.
    destruct (main_loop_inv x cm pm lm V (length sorted) (st_core _ _ _ _ _ Hst) (st_cluster _ _ _ _ _ Hst) (st_package _ _ _ _ _ Hst) V_ids V_distinct W V_valid (so_invalid _ _ _ _ HS) V 0
      (MState (initial_topology n (cnt n (newC cm V)) (cnt n (newL lm V)) (cnt n (newP pm V)) (length sorted))
         (initial_caches n1i n) (initial_caches n1d n) (initial_caches n2 n) (initial_caches n3 n) (initial_caches n4 n)))
      as (s & Hs & HI); [reflexivity|reflexivity| |].
    { constructor; auto. apply inv_init; try apply Hst; [exact V_ids|exact V_distinct]. }
    rewrite <- (so_split _ _ _ _ HS) in Hs. unfold newC, newL, newP in Hs. rewrite Hs. cbn [bind].
    destruct HI as [It J1 J2 J3 J4 J5]. fold n in It, J1, J2, J3, J4, J5.
    rewrite (max_cache_first _ _ _ _ J2 J3 J4 J5). cbn [bind].
    eexists. split; [reflexivity|].
    assert (LC : length (s_cores (m_topology s)) = cnt n (new_key (fun i => N.land (apic V i) cm))) by apply (i_cores _ _ _ _ _ _ _ _ It).
    assert (LL : length (s_clusters (m_topology s)) = cnt n (new_key (fun i => N.land (apic V i) lm))) by apply (i_clusters _ _ _ _ _ _ _ _ It).
    assert (LP : length (s_packages (m_topology s)) = cnt n (new_key (fun i => N.land (apic V i) pm))) by apply (i_packages _ _ _ _ _ _ _ _ It).
    constructor; cbn [t_processors t_cores t_clusters t_packages t_processor_map t_core_map t_l1i t_l1d t_l2 t_l3 t_l4
      t_l1i_of t_l1d_of t_l2_of t_l3_of t_l4_of t_processors_count t_cores_count t_clusters_count t_packages_count
      t_l1i_count t_l1d_count t_l2_count t_l3_count t_l4_count t_max_cache_size t_uarch t_uarch_cpuid
      t_uarch_processor_count t_uarch_core_count t_linux_cpu_max].
    - destruct It. constructor; cbn; auto.
    - exists (cs_index (m_l1i s)), (cs_last (m_l1i s)). now destruct (m_l1i s).
    - exists (cs_index (m_l1d s)), (cs_last (m_l1d s)). now destruct (m_l1d s).
    - exists (cs_index (m_l2 s)), (cs_last (m_l2 s)). now destruct (m_l2 s).
    - exists (cs_index (m_l3 s)), (cs_last (m_l3 s)). now destruct (m_l3 s).
    - exists (cs_index (m_l4 s)), (cs_last (m_l4 s)). now destruct (m_l4 s).
    - rewrite (L1i _ J1), (L1d _ J2), (L2 _ J3), (L3 _ J4), (L4 _ J5). repeat split; auto.
    - reflexivity.
    - repeat split; auto.
    - reflexivity.
  Qed.
End BUILD.
