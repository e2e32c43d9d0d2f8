(** cpuinfo_x86_linux_init: when it completes, and what it has published then. *)
From Verif Require Import Base BaseProofs Runs GroupArray TopologySpec X86CpuinfoModel X86LinuxModel.
From Verif Require Import X86CpuinfoProofs LinuxTextModel.
From Verif Require Import X86LinuxSpec X86LoopProofs X86TablesProofs X86DetectProofs Masks X86InitProofs X86ReportProofs Sorting.
Open Scope nat_scope.

Lemma bind_ok A B (r : res A) (f : A -> res B) b : bind r f = Ok b -> exists a, r = Ok a /\ f a = Ok b.
Proof. destruct r; cbn; try discriminate. eauto. Qed.

Lemma field_mask_ok len offset m : field_mask len offset = Ok m -> (len < 32 /\ offset < 32)%N.
Proof.
  unfold field_mask. intros H. apply bind_ok in H. destruct H as (a & H1 & H2).
  apply bit_mask_ok in H1. destruct (N.ltb_spec offset 32); [tauto|discriminate].
Qed.

Lemma count_caches_ok mask c l k : count_caches mask c l = Ok k ->
  g_size (xc_geometry c) <> 0%N -> (xc_apic_bits c < 32)%N.
Proof.
  unfold count_caches. intros H Hz. rewrite (proj2 (N.eqb_neq _ _) Hz) in H.
  apply bind_ok in H. destruct H as (m & H & _). now apply bit_mask_ok in H.
Qed.

(** ** Completion implies that the first processor started everything *)

Lemma topology_first x cm pm lm v s s' : topology_step x (cm, pm, lm) v s = Ok s' ->
  s_core_index s = None -> s_cluster_index s = None -> s_package_index s = None ->
  s_last_core s = u32max -> s_last_cluster s = u32max -> s_last_package s = u32max ->
  N.land (x_apic_id v) cm <> u32max /\ N.land (x_apic_id v) lm <> u32max /\ N.land (x_apic_id v) pm <> u32max.
Proof.
  intros H E1 E2 E3 E4 E5 E6. unfold topology_step in H. rewrite E1, E2, E3, E4, E5, E6 in H. cbv zeta in H.
  apply bind_ok in H. destruct H as (pin & _ & H).
  apply bind_ok in H. destruct H as (ps & _ & H).
  destruct (N.eqb_spec (N.land (x_apic_id v) cm) u32max) as [C1|C1]; [discriminate|].
  destruct (N.eqb_spec (N.land (x_apic_id v) lm) u32max) as [C2|C2].
  { exfalso. cbn [negb] in H. apply bind_ok in H. destruct H as (cs & H & _).
    apply bind_ok in H. destruct H as (? & _ & H). discriminate. }
  destruct (N.eqb_spec (N.land (x_apic_id v) pm) u32max) as [C3|C3]; [|auto].
  exfalso. cbn [negb] in H. apply bind_ok in H. destruct H as (cs & H & _).
  apply bind_ok in H. destruct H as (? & _ & H). apply bind_ok in H. destruct H as (? & _ & H). discriminate.
Qed.

Lemma cache_first c i pi a nc n s : cache_step c i pi a (initial_caches nc n) = Ok s ->
  g_size (xc_geometry c) <> 0%N -> forall m, bit_mask (xc_apic_bits c) = Ok m -> N.land a (not32 m) <> u32max.
Proof.
  unfold cache_step. intros H Hz m Hm E. rewrite (proj2 (N.eqb_neq _ _) Hz), Hm in H. cbn [bind] in H.
  rewrite E in H. discriminate.
Qed.

Lemma main_loop_skip x masks W : Forall (fun p => is_valid p = false) W ->
  forall k s, main_loop x masks k W s = Ok s.
Proof.
  induction 1 as [|p W Hp HW IH]; intros k s; cbn [main_loop]; [reflexivity|].
  unfold main_step. unfold is_valid in Hp. rewrite Hp. cbn [bind]. apply IH.
Qed.

Lemma build_inv x mask procs sorted V W t : sorted_ok procs sorted V W ->
  build_tables x mask sorted (count_valid procs) = Ok t ->
  bits_ok x /\ exists cm pm lm, apic_masks x (llc_apic_bits x) = Ok (cm, pm, lm) /\ can_start x V cm pm lm.
Proof.
  intros HS H. unfold build_tables in H.
  apply bind_ok in H. destruct H as (((cm & pm) & lm) & HM & H).
  apply bind_ok in H. destruct H as (n1i & C1 & H).
  apply bind_ok in H. destruct H as (n1d & C2 & H).
  apply bind_ok in H. destruct H as (n2 & C3 & H).
  apply bind_ok in H. destruct H as (n3 & C4 & H).
  apply bind_ok in H. destruct H as (n4 & C5 & H).
  assert (HB : bits_ok x).
  { pose proof HM as HM'. unfold apic_masks in HM'.
    apply bind_ok in HM'. destruct HM' as (t1 & T & HM'). apply field_mask_ok in T.
    apply bind_ok in HM'. destruct HM' as (c1 & C & _). apply field_mask_ok in C.
    unfold bits_ok. repeat (split; [tauto|]). intros c Hc. cbn in Hc.
    destruct Hc as [<-|[<-|[<-|[<-|[<-|[]]]]]]; eapply count_caches_ok; eassumption. }
  split; [exact HB|]. exists cm, pm, lm. split; [exact HM|].
  apply bind_ok in H. destruct H as (s & HL & H).
  apply bind_ok in H. destruct H as (mcs & HX & _).
  assert (EV : count_valid procs = length V).
  { unfold count_valid. apply Permutation_length. apply (so_perm _ _ _ _ HS). }
  rewrite EV in HL. rewrite (so_split _ _ _ _ HS) in HL.
  pose proof (so_valid _ _ _ _ HS) as HV. destruct V as [|v V'].
  - exfalso. cbn [app length] in HL. rewrite main_loop_skip in HL by apply (so_invalid _ _ _ _ HS).
    injection HL as <-. discriminate.
  - cbn [app main_loop] in HL. apply bind_ok in HL. destruct HL as (s1 & HL & _).
    unfold main_step in HL. apply Forall_inv in HV. unfold is_valid in HV. rewrite HV in HL.
    apply bind_ok in HL. destruct HL as (tp & HT & HL). apply topology_first in HT; try reflexivity.
    apply bind_ok in HL. destruct HL as (pi & _ & HL).
    apply bind_ok in HL. destruct HL as (? & K1 & HL).
    apply bind_ok in HL. destruct HL as (? & K2 & HL).
    apply bind_ok in HL. destruct HL as (? & K3 & HL).
    apply bind_ok in HL. destruct HL as (? & K4 & HL).
    apply bind_ok in HL. destruct HL as (? & K5 & HL).
    cbn [m_l1i m_l1d m_l2 m_l3 m_l4] in K1, K2, K3, K4, K5.
    constructor; unfold starts, apic, at_; cbn [nth length]; try tauto; try lia.
    intros c m Hc Hz Hm. cbn in Hc.
    destruct Hc as [<-|[<-|[<-|[<-|[<-|[]]]]]]; [exact (cache_first _ _ _ _ _ _ _ K1 Hz m Hm)|exact (cache_first _ _ _ _ _ _ _ K2 Hz m Hm)|
      exact (cache_first _ _ _ _ _ _ _ K3 Hz m Hm)|exact (cache_first _ _ _ _ _ _ _ K4 Hz m Hm)|exact (cache_first _ _ _ _ _ _ _ K5 Hz m Hm)].
Qed.

(** ** The published tables *)

(** Everything that holds of published tables whatever the files contain. *)
Record good_tables (x : xinfo) (procs : list xproc) (t : tables) : Prop := {
  gt_lists : lists_cpus
    (fun cpu a => exists p, In p procs /\ is_valid p = true /\ x_linux_id p = cpu /\ x_apic_id p = a) t;
  gt_some : t_processors t <> [];
  gt_maps : maps_cpus t;
  gt_cpu_max : t_linux_cpu_max t = N.of_nat (length procs);
  gt_consistent : (xi_thread_offset x + xi_thread_length x <= llc_apic_bits x)%N ->
    consistent (t_processors t) (t_cores t) (t_clusters t) (t_packages t) /\
    ids_are_offsets (t_processors t) (t_cores t) (t_clusters t) (t_packages t);
  gt_grouped : adjacent_fields x ->
    grouped_by p_core (xi_thread_length x) (t_processors t) /\
    grouped_by p_package (xi_thread_length x + xi_core_length x) (t_processors t) /\
    grouped_by p_cluster (N.min (llc_apic_bits x) (xi_thread_length x + xi_core_length x)) (t_processors t);
  gt_l1i : level_reported (xc_geometry (xi_l1i x)) (xc_apic_bits (xi_l1i x)) (t_processors t) (t_l1i_of t) (t_l1i t) (t_l1i_count t);
  gt_l1d : level_reported (xc_geometry (xi_l1d x)) (xc_apic_bits (xi_l1d x)) (t_processors t) (t_l1d_of t) (t_l1d t) (t_l1d_count t);
  gt_l2 : level_reported (xc_geometry (xi_l2 x)) (xc_apic_bits (xi_l2 x)) (t_processors t) (t_l2_of t) (t_l2 t) (t_l2_count t);
  gt_l3 : level_reported (xc_geometry (xi_l3 x)) (xc_apic_bits (xi_l3 x)) (t_processors t) (t_l3_of t) (t_l3 t) (t_l3_count t);
  gt_l4 : level_reported (xc_geometry (xi_l4 x)) (xc_apic_bits (xi_l4 x)) (t_processors t) (t_l4_of t) (t_l4 t) (t_l4_count t);
  gt_max : t_max_cache_size t = first_size x;
  gt_uarch : t_uarch t = xi_uarch x /\ t_uarch_cpuid t = xi_cpuid x;
  gt_kinds : Forall (fun c => c_vendor c = xi_vendor x /\ c_uarch c = xi_uarch x /\ c_cpuid c = xi_cpuid x) (t_cores t) /\
             Forall (fun c => cl_vendor c = xi_vendor x /\ cl_uarch c = xi_uarch x /\ cl_cpuid c = xi_cpuid x) (t_clusters t)
}.

Lemma built_good x procs sorted V W mask cm pm lm t :
  detected procs mask -> sorted_ok procs sorted V W -> bits_ok x ->
  apic_masks x (llc_apic_bits x) = Ok (cm, pm, lm) -> can_start x V cm pm lm ->
  built x sorted V cm pm lm t -> good_tables x procs t.
Proof.
  intros Hd HS HB HM Hst HT.
  destruct (apic_masks_ok x HB) as (cm' & pm' & lm' & HM' & S1 & S2 & S3 & S4).
  assert (cm' = cm /\ pm' = pm /\ lm' = lm) as (-> & -> & ->) by (rewrite HM in HM'; injection HM'; auto).
  assert (HU : forall p, In p V -> (x_apic_id p < two32)%N).
  { intros p Hp. pose proof (det_u32 _ _ Hd) as F. unfold apics_u32 in F. rewrite Forall_forall in F. apply F.
    apply (Permutation_in _ (Permutation_sym (so_perm _ _ _ _ HS))) in Hp. now apply filter_In in Hp. }
  pose proof (st_some _ _ _ _ _ Hst) as H0.
  destruct (bu_counts _ _ _ _ _ _ _ HT) as (K0 & K1 & K2 & K3 & K4 & K5 & K6 & K7 & K8).
  destruct (bu_l1i _ _ _ _ _ _ _ HT) as (? & ? & J1). destruct (bu_l1d _ _ _ _ _ _ _ HT) as (? & ? & J2).
  destruct (bu_l2 _ _ _ _ _ _ _ HT) as (? & ? & J3). destruct (bu_l3 _ _ _ _ _ _ _ HT) as (? & ? & J4).
  destruct (bu_l4 _ _ _ _ _ _ _ HT) as (? & ? & J5).
  constructor.
  - eapply report_lists; eassumption.
  - intros E. pose proof (processors_length _ _ _ _ _ _ _ HT) as L. rewrite E in L. cbn in L. lia.
  - eapply report_maps; eassumption.
  - rewrite (bu_cpu_max _ _ _ _ _ _ _ HT). f_equal. symmetry. apply Permutation_length. apply (so_all _ _ _ _ HS).
  - intros HL. exact (tables_consistent x cm pm lm V (length sorted) H0 _ (bu_topology _ _ _ _ _ _ _ HT) S1 S2 (S3 HL)).
  - intros HA. destruct (S4 HA) as (A1 & A2 & A3). split; [|split].
    + eapply (report_grouped x procs sorted V W HS); eauto.
    + eapply (report_grouped x procs sorted V W HS); eauto.
    + eapply (report_grouped x procs sorted V W HS); eauto.
  - eapply (report_level x procs sorted V W HS H0 HU); eassumption.
  - eapply (report_level x procs sorted V W HS H0 HU); eassumption.
  - eapply (report_level x procs sorted V W HS H0 HU); eassumption.
  - eapply (report_level x procs sorted V W HS H0 HU); eassumption.
  - eapply (report_level x procs sorted V W HS H0 HU); eassumption.
  - exact (bu_max _ _ _ _ _ _ _ HT).
  - destruct (bu_uarch _ _ _ _ _ _ _ HT) as (U1 & U2 & _). auto.
  - pose proof (bu_topology _ _ _ _ _ _ _ HT) as I. split; apply Forall_forall; intros y Hy;
      apply In_nth_error in Hy; destruct Hy as (j & Hj).
    + destruct (filled_all _ _ _ _ _ _ (i_cores _ _ _ _ _ _ _ _ I) j y Hj) as (s & _ & _ & _ & ->). cbn. auto.
    + destruct (filled_all _ _ _ _ _ _ (i_clusters _ _ _ _ _ _ _ _ I) j y Hj) as (s & _ & _ & _ & ->). cbn. auto.
Qed.

Lemma build_good x mask procs sorter t : detected procs mask -> qsort_contract sorter ->
  build_tables x mask (sorter procs) (count_valid procs) = Ok t -> good_tables x procs t.
Proof.
  intros Hd Hq H. destruct (sorting procs mask sorter Hd Hq) as (V & W & HS).
  destruct (build_inv _ _ _ _ _ _ _ HS H) as (HB & cm & pm & lm & HM & Hst).
  destruct (build_run x procs (sorter procs) V W mask Hd HS HB cm pm lm Hst HM) as (t' & E & HT).
  assert (t' = t) by congruence. subst t'. eapply built_good; eassumption.
Qed.

Lemma build_total x mask procs sorter : detected procs mask -> qsort_contract sorter -> bits_ok x ->
  (exists p, In p procs /\ is_valid p = true /\ (x_apic_id p < u32max)%N) ->
  exists t, build_tables x mask (sorter procs) (count_valid procs) = Ok t.
Proof.
  intros Hd Hq HB (p & Hp & Hv & Ha). destruct (sorting procs mask sorter Hd Hq) as (V & W & HS).
  destruct (apic_masks_ok x HB) as (cm & pm & lm & HM & _).
  destruct (build_run x procs (sorter procs) V W mask Hd HS HB cm pm lm) as (t & E & _).
  - apply can_start_low; [apply (so_sorted _ _ _ _ HS)|]. exists p. split; [|exact Ha].
    apply (Permutation_in _ (so_perm _ _ _ _ HS)). now apply filter_In.
  - exact HM.
  - eauto.
Qed.

(** ** Memory *)

Lemma every_block_freed b : in_blocks b cleanup_frees = true.
Proof. destruct b; reflexivity. Qed.

Lemma cleanup_nothing_reset live : cleanup [] live = [].
Proof.
  induction live as [|b l IH]; [reflexivity|]. unfold cleanup in *. cbn [filter in_blocks existsb orb].
  rewrite every_block_freed. exact IH.
Qed.

Lemma allocate_live calloc_ok : forall todo live ok live', allocate calloc_ok todo live = (ok, live') ->
  (ok = true -> live' = rev todo ++ live) /\ (forall b, In b live' -> In b todo \/ In b live).
Proof.
  induction todo as [|b todo IH]; intros live ok live' H; cbn in H.
  - injection H as <- <-. auto.
  - destruct (calloc_ok b).
    + apply IH in H. destruct H as (A & B). split.
      * intros E. rewrite (A E). cbn. rewrite <- app_assoc. reflexivity.
      * intros c Hc. apply B in Hc. cbn. destruct Hc as [|[->|]]; auto.
    + injection H as <- <-. split; [discriminate|auto].
Qed.

Lemma allocate_all todo live : allocate (fun _ => true) todo live = (true, rev todo ++ live).
Proof.
  revert live. induction todo as [|b todo IH]; intros live; cbn; [reflexivity|].
  rewrite IH, <- app_assoc. reflexivity.
Qed.

Lemma needed_in k b c : In b (needed k c) <-> k <> 0 /\ b = c.
Proof. destruct k; cbn; [tauto|]. split; [intros [<-|[]]; auto|]. intros (_ & ->). auto. Qed.

(** The blocks behind the published tables. *)
Definition published_blocks (t : tables) (b : block) : Prop :=
  match b with
  | B_linux_processors => False
  | B_processors | B_processor_map | B_core_map | B_cores | B_clusters | B_packages => True
  | B_l1i => t_l1i_count t <> 0 | B_l1d => t_l1d_count t <> 0 | B_l2 => t_l2_count t <> 0
  | B_l3 => t_l3_count t <> 0 | B_l4 => t_l4_count t <> 0
  end.

Lemma build_counts x mask l n t : build_tables x mask l n = Ok t ->
  count_caches mask (xi_l1i x) l = Ok (t_l1i_count t) /\ count_caches mask (xi_l1d x) l = Ok (t_l1d_count t) /\
  count_caches mask (xi_l2 x) l = Ok (t_l2_count t) /\ count_caches mask (xi_l3 x) l = Ok (t_l3_count t) /\
  count_caches mask (xi_l4 x) l = Ok (t_l4_count t).
Proof.
  intros H. unfold build_tables in H.
  apply bind_ok in H. destruct H as (((cm & pm) & lm) & _ & H).
  apply bind_ok in H. destruct H as (n1i & -> & H).
  apply bind_ok in H. destruct H as (n1d & -> & H).
  apply bind_ok in H. destruct H as (n2 & -> & H).
  apply bind_ok in H. destruct H as (n3 & -> & H).
  apply bind_ok in H. destruct H as (n4 & -> & H).
  apply bind_ok in H. destruct H as (s & _ & H). apply bind_ok in H. destruct H as (? & _ & H).
  injection H as <-. cbn. auto.
Qed.

Lemma init_outcome sg dm sorter calloc_ok x fs o :
  x86_linux_init sg dm sorter calloc_ok x fs = Ok o -> qsort_contract sorter ->
  match o_published o with
  | None => o_live o = [] \/
      (o_live o = [B_linux_processors] /\ detect_linux_processors sg dm fs = Ok None)
  | Some t => (exists procs mask, detect_linux_processors sg dm fs = Ok (Some (procs, mask)) /\ good_tables x procs t) /\
      forall b, In b (o_live o) <-> published_blocks t b
  end.
Proof.
  intros H Hq. unfold x86_linux_init in H.
  destruct (calloc_ok B_linux_processors) eqn:A0; cbn [negb] in H; [|injection H as <-; cbn; auto].
  apply bind_ok in H. destruct H as ([(procs & mask)|] & HD & H); [|injection H as <-; cbn; auto].
  destruct (calloc_ok B_processors) eqn:A1; cbn [negb] in H;
    [|injection H as <-; left; reflexivity].
  apply bind_ok in H. destruct H as (masks & _ & H).
  apply bind_ok in H. destruct H as (n1i & C1 & H).
  apply bind_ok in H. destruct H as (n1d & C2 & H).
  apply bind_ok in H. destruct H as (n2 & C3 & H).
  apply bind_ok in H. destruct H as (n3 & C4 & H).
  apply bind_ok in H. destruct H as (n4 & C5 & H).
  destruct (allocate calloc_ok _ _) as [ok live] eqn:HA. destruct ok.
  - apply bind_ok in H. destruct H as (t & HT & H). injection H as <-. cbn [o_published o_live]. split.
    + exists procs, mask. split; [exact HD|]. eapply build_good; eauto. now apply (proj1 (detect_shape sg dm fs)).
    + apply allocate_live in HA. destruct HA as (HA & _). specialize (HA eq_refl).
      destruct (build_counts _ _ _ _ _ HT) as (E1 & E2 & E3 & E4 & E5).
      assert (n1i = t_l1i_count t) by congruence. assert (n1d = t_l1d_count t) by congruence.
      assert (n2 = t_l2_count t) by congruence. assert (n3 = t_l3_count t) by congruence.
      assert (n4 = t_l4_count t) by congruence. subst n1i n1d n2 n3 n4. clear - HA.
      assert (Hlive : forall b, In b live <-> b = B_linux_processors \/ published_blocks t b).
      { intros b. rewrite HA, in_app_iff, <- in_rev. unfold allocations. rewrite !in_app_iff, !needed_in. cbn [In].
        destruct b; cbn [published_blocks]; intuition congruence. }
      clear HA. intros b. unfold cleanup. rewrite filter_In, Hlive, every_block_freed. cbn [negb]. rewrite orb_false_r.
      split.
      * intros ([->|P] & E); [discriminate|exact P].
      * intros P. split; [auto|]. destruct b; try reflexivity. destruct P.
  - injection H as <-. cbn [o_published o_live]. left. apply cleanup_nothing_reset.
Qed.

Lemma init_total sg dm sorter calloc_ok x fs procs mask : qsort_contract sorter -> bits_ok x ->
  detect_linux_processors sg dm fs = Ok (Some (procs, mask)) ->
  (exists p, In p procs /\ is_valid p = true /\ (x_apic_id p < u32max)%N) ->
  exists o, x86_linux_init sg dm sorter calloc_ok x fs = Ok o /\
    ((forall b, calloc_ok b = true) -> o_published o <> None).
Proof.
  intros Hq HB HD Hp. unfold x86_linux_init.
  destruct (calloc_ok B_linux_processors) eqn:A0; cbn [negb].
  2:{ eexists. split; [reflexivity|]. intros Hall. rewrite Hall in A0. discriminate. }
  rewrite HD. cbn [bind].
  destruct (calloc_ok B_processors) eqn:A1; cbn [negb].
  2:{ eexists. split; [reflexivity|]. intros Hall. rewrite Hall in A1. discriminate. }
  pose proof (proj1 (detect_shape sg dm fs) procs mask HD) as Hd.
  destruct (build_total x mask procs sorter Hd Hq HB Hp) as (t & HT).
  destruct (build_counts _ _ _ _ _ HT) as (-> & -> & -> & -> & ->).
  destruct (apic_masks_ok x HB) as (cm & pm & lm & -> & _). cbn [bind].
  destruct (allocate calloc_ok _ _) as [ok live] eqn:HA. destruct ok.
  - rewrite HT. cbn [bind]. eexists. split; [reflexivity|]. cbn. discriminate.
  - eexists. split; [reflexivity|]. intros Hall. exfalso.
    assert (G : forall todo l, fst (allocate calloc_ok todo l) = true).
    { induction todo as [|b todo IH]; intros l; cbn; [reflexivity|]. rewrite Hall. apply IH. }
    specialize (G (allocations (t_l1i_count t) (t_l1d_count t) (t_l2_count t) (t_l3_count t) (t_l4_count t)) [B_processors; B_linux_processors]).
    rewrite HA in G. discriminate.
Qed.

(** ** In terms of the specification *)

Lemma first_size_last_level x : first_size x = last_level_size x.
Proof.
  unfold first_size, last_level_size, last_level. cbn [find].
  destruct (N.eqb_spec (g_size (xc_geometry (xi_l4 x))) 0); cbn [negb]; [|reflexivity].
  destruct (N.eqb_spec (g_size (xc_geometry (xi_l3 x))) 0); cbn [negb]; [|reflexivity].
  destruct (N.eqb_spec (g_size (xc_geometry (xi_l2 x))) 0); cbn [negb]; [|reflexivity].
  destruct (N.eqb_spec (g_size (xc_geometry (xi_l1d x))) 0); cbn [negb]; auto.
Qed.

Lemma published_good sg dm sorter calloc_ok x fs o t : qsort_contract sorter ->
  x86_linux_init sg dm sorter calloc_ok x fs = Ok o -> o_published o = Some t ->
  exists procs mask, detect_linux_processors sg dm fs = Ok (Some (procs, mask)) /\ good_tables x procs t.
Proof.
  intros Hq H Ht. pose proof (init_outcome sg dm sorter calloc_ok x fs o H Hq) as G. rewrite Ht in G. tauto.
Qed.

Lemma files_detect sg dm fs max po pr ms : files_say dm fs max po pr ms ->
  exists procs mask, detect_linux_processors sg dm fs = Ok (Some (procs, mask)) /\
    (N.of_nat (length procs) <= max)%N /\
    (forall cpu, usable max po pr ms cpu -> (cpu < N.of_nat (length procs))%N) /\
    forall i p, nth_error procs i = Some p ->
      x_apic_id p = apic_id_of ms (N.of_nat i) /\
      (is_valid p = true <-> usable max po pr ms (N.of_nat i)) /\
      (is_valid p = true -> x_linux_id p = N.of_nat i).
Proof.
  intros [H1 (H2 & H3) (H4 & H5) (H6 & H7) H8]. now apply (detect_exact sg dm fs max po pr ms).
Qed.

Lemma lists_usable sg dm sorter calloc_ok x fs max po pr ms o t : qsort_contract sorter ->
  files_say dm fs max po pr ms ->
  x86_linux_init sg dm sorter calloc_ok x fs = Ok o -> o_published o = Some t ->
  lists_cpus (fun cpu apic => usable max po pr ms cpu /\ apic = apic_id_of ms cpu) t.
Proof.
  intros Hq HF H Ht. destruct (published_good _ _ _ _ _ _ _ _ Hq H Ht) as (procs & mask & HD & HG).
  destruct (files_detect sg dm fs max po pr ms HF) as (procs' & mask' & HD' & _ & Hlt & Hp).
  assert (procs' = procs) by congruence. subst procs'.
  destruct (gt_lists _ _ _ HG) as [A B C D E F G' U]. constructor; auto.
  intros cpu a. rewrite A. split.
  - intros (p & Hin & Hv & <- & <-). apply In_nth_error in Hin. destruct Hin as (i & Hi).
    destruct (Hp i p Hi) as (P1 & P2 & P3). rewrite (P3 Hv). split; [now apply P2|exact P1].
  - intros (Hu & ->). pose proof (Hlt cpu Hu) as L.
    destruct (nth_error procs (N.to_nat cpu)) as [p|] eqn:Hi; [|apply nth_error_None in Hi; lia].
    destruct (Hp _ p Hi) as (P1 & P2 & P3). rewrite N2Nat.id in *. apply P2 in Hu.
    exists p. split; [eapply nth_error_In; eassumption|]. auto.
Qed.

Lemma init_completes sg dm sorter calloc_ok x fs max po pr ms cpu : qsort_contract sorter ->
  files_say dm fs max po pr ms -> bits_ok x ->
  usable max po pr ms cpu -> (apic_id_of ms cpu < u32max)%N ->
  exists o, x86_linux_init sg dm sorter calloc_ok x fs = Ok o /\
    ((forall b, calloc_ok b = true) -> o_published o <> None).
Proof.
  intros Hq HF HB Hu Ha.
  destruct (files_detect sg dm fs max po pr ms HF) as (procs & mask & HD & _ & Hlt & Hp).
  apply (init_total sg dm sorter calloc_ok x fs procs mask Hq HB HD).
  pose proof (Hlt cpu Hu) as L.
  destruct (nth_error procs (N.to_nat cpu)) as [p|] eqn:Hi; [|apply nth_error_None in Hi; lia].
  destruct (Hp _ p Hi) as (P1 & P2 & P3). rewrite N2Nat.id in *.
  exists p. split; [eapply nth_error_In; eassumption|]. split; [now apply P2|congruence].
Qed.

Lemma cmp_x86_preorder : total_preorder cmp_x86_linux_processor.
Proof.
  constructor; intros a b; [|intros c..]; unfold cmp_x86_linux_processor.
  - destruct (bitmask_all (x_flags a) flag_valid), (bitmask_all (x_flags b) flag_valid); cbn; try reflexivity;
      unfold cmp_u32; destruct (N.ltb_spec (x_apic_id b) (x_apic_id a)), (N.ltb_spec (x_apic_id a) (x_apic_id b)); lia.
  - destruct (bitmask_all (x_flags a) flag_valid), (bitmask_all (x_flags b) flag_valid),
      (bitmask_all (x_flags c) flag_valid); cbn; try lia; unfold cmp_u32;
      repeat match goal with |- context [(?p <? ?q)%N] => destruct (N.ltb_spec p q) end; lia.
  - destruct (bitmask_all (x_flags a) flag_valid), (bitmask_all (x_flags b) flag_valid),
      (bitmask_all (x_flags c) flag_valid); cbn; try lia; unfold cmp_u32;
      repeat match goal with |- context [(?p <? ?q)%N] => destruct (N.ltb_spec p q) end; lia.
Qed.

Open Scope N_scope.

Lemma published_maps : forall char_signed default sorter calloc_ok x files o t,
  qsort_contract sorter ->
  x86_linux_init char_signed default sorter calloc_ok x files = Ok o -> o_published o = Some t -> maps_cpus t.
Proof.
  intros. destruct (published_good char_signed default sorter calloc_ok x files o t) as (? & ? & _ & G); auto.
  exact (gt_maps _ _ _ G).
Qed.

Lemma published_consistent : forall char_signed default sorter calloc_ok x files o t,
  qsort_contract sorter -> threads_share_last_level x ->
  x86_linux_init char_signed default sorter calloc_ok x files = Ok o -> o_published o = Some t ->
  t_processors t <> [] /\ consistent (t_processors t) (t_cores t) (t_clusters t) (t_packages t).
Proof.
  intros sg d sorter calloc_ok x files o t Hq Hth H Ht.
  destruct (published_good sg d sorter calloc_ok x files o t) as (procs & mask & _ & G); auto.
  split; [exact (gt_some _ _ _ G)|]. apply (gt_consistent _ _ _ G). rewrite Masks.llc_is_last_level. exact Hth.
Qed.

Lemma published_grouped : forall char_signed default sorter calloc_ok x files o t,
  qsort_contract sorter -> adjacent_fields x ->
  x86_linux_init char_signed default sorter calloc_ok x files = Ok o -> o_published o = Some t ->
  grouped_by p_core (xi_thread_length x) (t_processors t) /\
  grouped_by p_package (xi_thread_length x + xi_core_length x) (t_processors t) /\
  grouped_by p_cluster (N.min (last_level_bits x) (xi_thread_length x + xi_core_length x)) (t_processors t).
Proof.
  intros sg d sorter calloc_ok x files o t Hq Hth H Ht.
  destruct (published_good sg d sorter calloc_ok x files o t) as (procs & mask & _ & G); auto.
  rewrite <- Masks.llc_is_last_level. now apply (gt_grouped _ _ _ G).
Qed.

Lemma published_ids : forall char_signed default sorter calloc_ok x files o t,
  qsort_contract sorter -> threads_share_last_level x ->
  x86_linux_init char_signed default sorter calloc_ok x files = Ok o -> o_published o = Some t ->
  ids_are_offsets (t_processors t) (t_cores t) (t_clusters t) (t_packages t).
Proof.
  intros sg d sorter calloc_ok x files o t Hq Hth H Ht.
  destruct (published_good sg d sorter calloc_ok x files o t) as (procs & mask & _ & G); auto.
  apply (gt_consistent _ _ _ G). rewrite Masks.llc_is_last_level. exact Hth.
Qed.

Lemma published_caches : forall char_signed default sorter calloc_ok x files o t,
  qsort_contract sorter ->
  x86_linux_init char_signed default sorter calloc_ok x files = Ok o -> o_published o = Some t ->
  level_reported (xc_geometry (xi_l1i x)) (xc_apic_bits (xi_l1i x)) (t_processors t) (t_l1i_of t) (t_l1i t) (t_l1i_count t) /\
  level_reported (xc_geometry (xi_l1d x)) (xc_apic_bits (xi_l1d x)) (t_processors t) (t_l1d_of t) (t_l1d t) (t_l1d_count t) /\
  level_reported (xc_geometry (xi_l2 x)) (xc_apic_bits (xi_l2 x)) (t_processors t) (t_l2_of t) (t_l2 t) (t_l2_count t) /\
  level_reported (xc_geometry (xi_l3 x)) (xc_apic_bits (xi_l3 x)) (t_processors t) (t_l3_of t) (t_l3 t) (t_l3_count t) /\
  level_reported (xc_geometry (xi_l4 x)) (xc_apic_bits (xi_l4 x)) (t_processors t) (t_l4_of t) (t_l4 t) (t_l4_count t).
Proof.
  intros sg d sorter calloc_ok x files o t Hq H Ht.
  destruct (published_good sg d sorter calloc_ok x files o t) as (procs & mask & _ & []); auto.
Qed.

Lemma published_max_cache : forall char_signed default sorter calloc_ok x files o t,
  qsort_contract sorter ->
  x86_linux_init char_signed default sorter calloc_ok x files = Ok o -> o_published o = Some t ->
  t_max_cache_size t = last_level_size x.
Proof.
  intros sg d sorter calloc_ok x files o t Hq H Ht.
  destruct (published_good sg d sorter calloc_ok x files o t) as (procs & mask & _ & G); auto.
  rewrite (gt_max _ _ _ G). apply first_size_last_level.
Qed.

Lemma published_uarch : forall char_signed default sorter calloc_ok x files o t,
  qsort_contract sorter ->
  x86_linux_init char_signed default sorter calloc_ok x files = Ok o -> o_published o = Some t ->
  t_uarch t = xi_uarch x /\ t_uarch_cpuid t = xi_cpuid x /\
  Forall (fun c => c_vendor c = xi_vendor x /\ c_uarch c = xi_uarch x /\ c_cpuid c = xi_cpuid x) (t_cores t) /\
  Forall (fun c => cl_vendor c = xi_vendor x /\ cl_uarch c = xi_uarch x /\ cl_cpuid c = xi_cpuid x) (t_clusters t).
Proof.
  intros sg d sorter calloc_ok x files o t Hq H Ht.
  destruct (published_good sg d sorter calloc_ok x files o t) as (procs & mask & _ & G); auto.
  split; [apply (gt_uarch _ _ _ G)|]. split; [apply (gt_uarch _ _ _ G)|]. exact (gt_kinds _ _ _ G).
Qed.

Lemma init_memory : forall char_signed default sorter calloc_ok x files o,
  qsort_contract sorter ->
  x86_linux_init char_signed default sorter calloc_ok x files = Ok o ->
  match o_published o with
  | None => o_live o = [] \/
      (o_live o = [B_linux_processors] /\ detect_linux_processors char_signed default files = Ok None)
  | Some t => forall b, In b (o_live o) <-> published_blocks t b
  end.
Proof.
  intros sg d sorter calloc_ok x files o Hq H. pose proof (init_outcome sg d sorter calloc_ok x files o H Hq) as G.
  destruct (o_published o); tauto.
Qed.
