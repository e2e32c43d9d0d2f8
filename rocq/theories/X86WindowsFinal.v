(** Lemmas about the model of Windows: the whole initialisation. *)
From Verif Require Import Base BaseProofs Loops Fill Runs GroupArray TopologySpec ApiModel ApiProofs X86WindowsModel X86CountsSpec X86CountsModel X86CountsProofs
  X86CountsFinal X86WindowsSpec X86WindowsProofs X86WindowsRows X86WindowsTables X86WindowsObjects X86WindowsApic.
From Verif Require X86LinuxModel X86CpuinfoModel X86LinuxSpec Masks X86LoopProofs X86InitProofs X86FinalProofs.
Import X86CpuinfoModel X86LinuxModel X86LinuxSpec Masks X86LoopProofs X86InitProofs.
Import X86CountsModel X86CountsSpec X86WindowsModel X86WindowsSpec.
Ltac Zify.zify_post_hook ::= idtac.
Open Scope nat_scope.

Lemma const_map {A B} (b : B) (l : list A) : forall k, map (fun _ => b) (seq k (length l)) = map (fun _ => b) l.
Proof. induction l as [|a l IH]; intros k; cbn; [reflexivity|]. now rewrite IH. Qed.

Section INIT.
Context (x : xinfo) (a : windows_answers) (sizes : list nat) (m : machine).
Context (W : windows_says a sizes m) (FD : fields_defined x) (CD : caches_defined x).
Let n := list_sum sizes.

Section PROCESSORS.
Context (ids : list (nat * nat)) (Lids : length ids = n).
Let R := rows 0 0 m.
Let P := map (second_pass x) (combine R ids).
Let V := listed P.

Lemma Or : ordered n m. Proof. apply (ws_ordered _ _ _ W). Qed.
Lemma N0 : 0 < n. Proof. apply (ws_some _ _ _ W). Qed.
Lemma LP : length P = n. Proof. apply (P_length x m n Or ids Lids). Qed.
Lemma LV : length V = n. Proof. unfold V, listed. rewrite map_length. apply LP. Qed.

Lemma V_apic i p : nth_error P i = Some p -> apic V i = wp_apic p.
Proof.
  intros H. unfold apic, at_. erewrite nth_error_nth; [|unfold V, listed; rewrite nth_error_map, H; reflexivity]. reflexivity.
Qed.

Lemma V_all : Forall (fun p => is_valid p = true) V.
Proof. apply Forall_forall. intros p Hp. apply in_map_iff in Hp. destruct Hp as (q & <- & _). reflexivity. Qed.

Lemma m_some : m <> [].
Proof. intros E. pose proof (or_all _ _ Or) as A. rewrite E in A. cbn in A. pose proof N0. destruct n; [lia|discriminate]. Qed.

Lemma first_row : nth_error R 0 = Some (Row 0 0 0 0).
Proof.
  pose proof (rows_hd m (or_cores _ _ Or) (or_packages _ _ Or) m_some) as H. fold R in H.
  assert (L : length R = n) by apply (R_length m n Or). pose proof N0. destruct R as [|r R']; [cbn in L; lia|]. cbn in *. congruence.
Qed.

Lemma zero_apic : row_apic x (Row 0 0 0 0) = 0%N.
Proof.
  unfold row_apic, pkg. cbn [r_smt r_local r_package N.of_nat]. rewrite !N.land_0_l, !N.shiftl_0_l. reflexivity.
Qed.

Lemma V_zero : apic V 0 = 0%N.
Proof.
  destruct (P_nth x m n Or N0 ids Lids 0 N0) as (r & gb & Er & _ & Ep). fold R in Er. rewrite first_row in Er. injection Er as <-.
  rewrite (V_apic 0 _ Ep). cbn. apply zero_apic.
Qed.

Lemma V_some : 0 < length V. Proof. rewrite LV. apply N0. Qed.

Lemma level_loop_ok c : (g_size (xc_geometry c) <> 0%N -> (xc_apic_bits c < 32)%N) ->
  exists nc s, count_caches flag_valid c V = Ok nc /\ level_loop c P nc = Ok s /\ level_inv V c (length V) s /\ length (cs_caches s) = nc.
Proof.
  intros B. destruct (level_ok V V_all V_zero c B) as (nc & s & E1 & E2 & I & L). exists nc, s. split; [exact E1|]. split; [|now split].
  unfold level_loop. rewrite <- E2, LP, LV. apply for_each_ext. intros i t H. destruct (P_nth x m n Or N0 ids Lids i ltac:(lia)) as (r & gb & _ & _ & Ep).
  unfold rd. fold R P in Ep. rewrite Ep. cbn [bind]. now rewrite (V_apic i _ Ep).
Qed.

Lemma rows_fit : fields_fit x m -> Forall (fits x (length m)) R.
Proof.
  intros [O T Cc K]. apply Forall_forall. intros r Hr. pose proof Hr as Hr'. apply rows_in in Hr'. destruct Hr' as (_ & p & Hp & Lp & _ & _). rewrite Nat.sub_0_r in Hp.
  apply In_nth_error in Hr. destruct Hr as (i & Hi). destruct (row_in_core m n i r (or_all _ _ Or) Hi) as (s & Hs & Hq).
  rewrite Forall_forall in T, Cc. specialize (T s (nth_error_In _ _ Hs)). specialize (Cc p (nth_error_In _ _ Hp)). cbn beta in T, Cc.
  assert (Ls : r_smt r < length s) by (apply nth_error_Some; congruence). split; [|split].
  - eapply N.lt_le_trans; [|exact T]. clear - Ls. lia.
  - eapply N.lt_le_trans; [|exact Cc]. clear - Lp. lia.
  - apply nth_error_Some. congruence.
Qed.

Lemma apics_sorted : fields_fit x m -> StronglySorted N.lt (map wp_apic P).
Proof.
  intros F. rewrite (map_P x m n Or ids Lids (row_apic x)) by reflexivity.
  apply (rows_increasing x FD (length m) (ff_order _ _ F) (ff_packages _ _ F)); [apply rows_sorted; apply Or|now apply rows_fit].
Qed.

Lemma V_sorted : fields_fit x m -> StronglySorted le_apic V.
Proof.
  intros F. pose proof (apics_sorted F) as H. unfold V, listed. clear - H. induction P as [|p l IH]; cbn [map] in *; constructor.
  - apply IH. now apply StronglySorted_inv in H.
  - apply StronglySorted_inv in H. destruct H as (_ & H). rewrite Forall_forall in *. intros q Hq. apply in_map_iff in Hq. destruct Hq as (w & <- & Hw).
    unfold le_apic. cbn. apply N.lt_le_incl, H. now apply in_map.
Qed.

Lemma V_u32 p : In p V -> (x_apic_id p < two32)%N.
Proof.
  intros H. apply in_map_iff in H. destruct H as (q & <- & Hq). apply in_map_iff in Hq. destruct Hq as (e & <- & _). cbn. apply row_apic_u32.
Qed.

Lemma ps_apic i p : nth_error (map published_processor P) i = Some p -> p_apic_id p = apic V i.
Proof.
  intros H. rewrite nth_error_map in H. destruct (nth_error P i) as [q|] eqn:E; [|discriminate]. cbn in H. injection H as <-. symmetry. now apply V_apic.
Qed.

Let o := final_objects x m n.

Lemma build_ok : exists l1i l1d l2 l3 l4,
  (level_inv V (xi_l1i x) (length V) l1i /\ level_inv V (xi_l1d x) (length V) l1d /\ level_inv V (xi_l2 x) (length V) l2 /\
   level_inv V (xi_l3 x) (length V) l3 /\ level_inv V (xi_l4 x) (length V) l4) /\
  count_caches flag_valid (xi_l1i x) V = Ok (length (cs_caches l1i)) /\ count_caches flag_valid (xi_l1d x) V = Ok (length (cs_caches l1d)) /\
  count_caches flag_valid (xi_l2 x) V = Ok (length (cs_caches l2)) /\ count_caches flag_valid (xi_l3 x) V = Ok (length (cs_caches l3)) /\
  count_caches flag_valid (xi_l4 x) V = Ok (length (cs_caches l4)) /\
  build_tables x P o (length (cs_caches l1i)) (length (cs_caches l1d)) (length (cs_caches l2)) (length (cs_caches l3)) (length (cs_caches l4)) =
  Ok (WindowsTables
    (Tables (map published_processor P) (ob_cores o) (ob_clusters o) (ob_packages o)
            (cs_caches l1i) (cs_caches l1d) (cs_caches l2) (cs_caches l3) (cs_caches l4)
            (cs_pointers l1i) (cs_pointers l1d) (cs_pointers l2) (cs_pointers l3) (cs_pointers l4)
            n (length (machine_cores m)) (length m) (length m)
            (length (cs_caches l1i)) (length (cs_caches l1d)) (length (cs_caches l2)) (length (cs_caches l3)) (length (cs_caches l4))
            (last_level_size x) (xi_uarch x) (xi_cpuid x) n (length (machine_cores m)) 0 [] [])
    (map (fun p => (wp_group p, wp_number p)) P)).
Proof.
  assert (B : forall c, In c [xi_l1i x; xi_l1d x; xi_l2 x; xi_l3 x; xi_l4 x] -> g_size (xc_geometry c) <> 0%N -> (xc_apic_bits c < 32)%N) by exact CD.
  destruct (level_loop_ok (xi_l1i x) (B (xi_l1i x) ltac:(cbn; tauto))) as (c1 & l1i & E1 & F1 & I1 & L1).
  destruct (level_loop_ok (xi_l1d x) (B (xi_l1d x) ltac:(cbn; tauto))) as (c2 & l1d & E2 & F2 & I2 & L2).
  destruct (level_loop_ok (xi_l2 x) (B (xi_l2 x) ltac:(cbn; tauto))) as (c3 & l2 & E3 & F3 & I3 & L3).
  destruct (level_loop_ok (xi_l3 x) (B (xi_l3 x) ltac:(cbn; tauto))) as (c4 & l3 & E4 & F4 & I4 & L4).
  destruct (level_loop_ok (xi_l4 x) (B (xi_l4 x) ltac:(cbn; tauto))) as (c5 & l4 & E5 & F5 & I5 & L5).
  exists l1i, l1d, l2, l3, l4. rewrite L1, L2, L3, L4, L5. split; [tauto|]. repeat (split; [assumption|]).
  unfold build_tables. rewrite F1, F2, F3, F4, F5. cbn [bind].
  rewrite (max_cache_first x V 0 0 0 (all_can_start V V_some V_zero x 0 0 0) l1d l2 l3 l4 I2 I3 I4 I5). cbn [bind].
  rewrite X86FinalProofs.first_size_last_level, LP. unfold o, final_objects. cbn [ob_cores ob_clusters ob_packages]. rewrite !map_length, !seq_length. reflexivity.
Qed.

(** What the tables say. *)
Lemma describes_ok t : t_processors t = map published_processor P -> t_cores t = ob_cores o -> t_clusters t = ob_clusters o -> t_packages t = ob_packages o ->
  t_processors_count t = n -> t_cores_count t = length (machine_cores m) -> t_clusters_count t = length m -> t_packages_count t = length m ->
  described x m n t.
Proof.
  intros Ep Ec El Ek Cp Cc Cl Ck.
  assert (Ep' : t_processors t = final_processors x m ids) by exact Ep.
  constructor; rewrite ?Ep, ?Ec, ?El, ?Ek; unfold o, final_objects; cbn [ob_cores ob_clusters ob_packages].
  - rewrite map_length. apply LP.
  - rewrite <- (map_map core_processors range), core_spans. apply (spans_range _ n); [apply (cores_all m n Or)|apply (cores_nonempty m n Or)].
  - rewrite <- (map_map package_processors range), package_spans. apply (spans_range _ n); [apply (packs_all m n Or)|apply (packs_nonempty m n Or)].
  - now rewrite map_length, seq_length.
  - change (map published_processor P) with (final_processors x m ids). rewrite (processors_cores x m n Or ids Lids), core_spans.
    apply (points_sets _ n); [apply (cores_all m n Or)|apply (cores_nonempty m n Or)].
  - change (map published_processor P) with (final_processors x m ids). rewrite (processors_packages x m n Or ids Lids), package_spans.
    apply (points_sets _ n); [apply (packs_all m n Or)|apply (packs_nonempty m n Or)].
  - rewrite cores_packages, package_core_spans. apply (points_sets _ (length (machine_cores m))); [apply blocks_all|].
    apply blocks_nonempty. apply (or_packages _ _ Or).
  - intros i p j c Hp Hj Hc. change (map published_processor P) with (final_processors x m ids) in Hp.
    destruct (path x m n Or N0 ids Lids i p j c Hp Hj Hc) as (r & gb & s & _ & -> & Hr & _ & -> & S1 & S2 & Hi & Hs & Ow).
    rewrite S1, S2. cbn [published_processor second_pass p_package p_smt_id wp_package wp_smt fst]. unfold core2 at 1. cbn [c_package]. rewrite Ow. auto.
  - split; apply Forall_forall; intros c H; apply in_map_iff in H; destruct H as (j & <- & _); [now repeat split|].
    unfold cluster3. destruct (j =? 0); now repeat split.
  - rewrite !map_map. split; [reflexivity|]. split.
    + apply map_ext. intros j. unfold cluster3. now destruct (Nat.eqb_spec j 0) as [->|].
    + apply Forall_forall. intros c H. apply in_map_iff in H. destruct H as (j & <- & _). unfold cluster3. now destruct (j =? 0).
  - rewrite !map_length, !seq_length. auto.
Qed.

(** Processors and core ids in the terms of rows. *)
Lemma core_id_row j s r : fields_fit x m -> nth_error (machine_cores m) j = Some s -> nth_error R (hd 0 s) = Some r -> c_core_id (core2 x m j) = r_local r.
Proof.
  intros F Hs Hr. unfold core2, first_apic. rewrite (nth_error_nth _ j [] Hs). fold R. rewrite Hr. cbn [c_core_id]. unfold cmask. rewrite land_field.
  pose proof (rows_fit F) as RF. rewrite Forall_forall in RF. specialize (RF r (nth_error_In _ _ Hr)).
  destruct (row_fields x FD (length m) (ff_order _ _ F) (ff_packages _ _ F) r RF) as (_ & -> & _). apply Nat2N.id.
Qed.

Lemma same_local i r i' r' : nth_error R i = Some r -> nth_error R i' = Some r' -> r_core r = r_core r' -> r_local r = r_local r'.
Proof.
  intros H H' E. pose proof (row_owner m n Or N0 ids Lids i r H) as O1. pose proof (row_owner m n Or N0 ids Lids i' r' H') as O2. rewrite E, O2 in O1.
  apply nth_error_In in H, H'. apply rows_in in H, H'. destruct H as (_ & p & _ & L1 & G1 & B1), H' as (_ & p' & _ & L2 & G2 & B2).
  rewrite O1 in B2. rewrite B1 in B2. injection B2 as B2. destruct p; [cbn in L1; lia|]. destruct p'; [cbn in L2; lia|]. cbn [length seq] in B2. injection B2 as B2 _. lia.
Qed.

Lemma apic_ok t l1i l1d l2 l3 l4 : fields_fit x m ->
  t_processors t = map published_processor P -> t_cores t = ob_cores o -> t_packages t = ob_packages o ->
  level_inv V (xi_l1i x) (length V) l1i -> level_inv V (xi_l1d x) (length V) l1d -> level_inv V (xi_l2 x) (length V) l2 ->
  level_inv V (xi_l3 x) (length V) l3 -> level_inv V (xi_l4 x) (length V) l4 ->
  t_l1i t = cs_caches l1i -> t_l1d t = cs_caches l1d -> t_l2 t = cs_caches l2 -> t_l3 t = cs_caches l3 -> t_l4 t = cs_caches l4 ->
  t_l1i_of t = cs_pointers l1i -> t_l1d_of t = cs_pointers l1d -> t_l2_of t = cs_pointers l2 -> t_l3_of t = cs_pointers l3 -> t_l4_of t = cs_pointers l4 ->
  t_l1i_count t = length (cs_caches l1i) -> t_l1d_count t = length (cs_caches l1d) -> t_l2_count t = length (cs_caches l2) ->
  t_l3_count t = length (cs_caches l3) -> t_l4_count t = length (cs_caches l4) -> t_max_cache_size t = last_level_size x ->
  apic_derived x t.
Proof.
  intros F Ep Ec Ek I1 I2 I3 I4 I5 A1 A2 A3 A4 A5 B1 B2 B3 B4 B5 C1 C2 C3 C4 C5 M.
  assert (Lps : length (map published_processor P) = length V) by (unfold V, listed; now rewrite !map_length).
  assert (LR : forall c s, level_inv V c (length V) s ->
    level_reported (xc_geometry c) (xc_apic_bits c) (map published_processor P) (cs_pointers s) (cs_caches s) (length (cs_caches s))).
  { intros c [cs ptrs i k] HI. cbn [cs_pointers cs_caches].
    apply (level_report V V_some (V_sorted F) V_u32 (map published_processor P) Lps ps_apic c cs ptrs i k HI). }
  constructor; rewrite ?Ep, ?Ec, ?Ek, ?M; auto.
  - rewrite map_map. cbn [published_processor p_apic_id]. apply (apics_sorted F).
  - intros i p j c Hp Hj Hc. change (map published_processor P) with (final_processors x m ids) in Hp. unfold o, final_objects in Hc. cbn [ob_cores] in Hc.
    destruct (path x m n Or N0 ids Lids i p j c Hp Hj Hc) as (r & gb & s & Er & -> & Hr & Hs & -> & S1 & S2 & Hi & Hq & Ow).
    cbn [published_processor second_pass p_package p_smt_id p_apic_id wp_package wp_smt wp_apic fst].
    pose proof (rows_fit F) as RF. rewrite Forall_forall in RF. specialize (RF r (nth_error_In _ _ Er)).
    destruct (row_fields x FD (length m) (ff_order _ _ F) (ff_packages _ _ F) r RF) as (T & Co & Pk).
    split; [exact T|]. split; [|now exists (r_package r)]. rewrite Co. f_equal.
    destruct (core_first x m n Or N0 ids Lids j s Hs) as (_ & r0 & Er0 & Ec0 & _). rewrite (core_id_row j s r0 F Hs Er0).
    apply (same_local i r (hd 0 s) r0 Er Er0). congruence.
  - intros i c j k Hc Hj Hk. unfold o, final_objects in Hc, Hk. cbn [ob_cores ob_packages] in Hc, Hk.
    apply table_some in Hc. destruct Hc as (Hi & ->). apply table_some in Hk. destruct Hk as (Hjm & ->).
    destruct (nth_error (machine_cores m) i) as [s|] eqn:Es; [|apply nth_error_None in Es; lia].
    destruct (core_first x m n Or N0 ids Lids i s Es) as (_ & r0 & Er0 & Ec0 & _). rewrite (core_id_row i s r0 F Es Er0).
    unfold core2 in Hj. cbn [c_package] in Hj. injection Hj as Hj. pose proof (row_owner m n Or N0 ids Lids _ r0 Er0) as Ow. rewrite Ec0, Hj in Ow.
    unfold package3. cbn [pk_core_start]. apply nth_error_In in Er0. apply rows_in in Er0. destruct Er0 as (_ & p & _ & L1 & G1 & B).
    rewrite Nat.sub_0_r, <- Ow in B. rewrite (nth_error_nth _ j [] B). destruct p; [cbn in L1; lia|]. cbn [length seq hd]. lia.
  - rewrite A1, A2, A3, A4, A5, B1, B2, B3, B4, B5, C1, C2, C3, C4, C5. auto 10.
Qed.
End PROCESSORS.

(** ** The run *)

Lemma says_in_range infos sets : says sizes infos sets -> forall gb, In gb (concat (map info_list (filter wi_expected infos))) ->
  fst gb < length sizes /\ snd gb < nth (fst gb) sizes 0.
Proof.
  intros (V & _) gb H. apply in_concat in H. destruct H as (l & Hl & Hgb). apply in_map_iff in Hl. destruct Hl as (i & <- & Hi).
  apply filter_In in Hi. destruct Hi as (Hi & E). unfold info_list in Hgb. apply in_flat_map in Hgb. destruct Hgb as (e & He & Hgb).
  apply (mask_list_in sizes e gb); [|exact Hgb]. now apply (V i).
Qed.

Lemma init_ok heap_ok : exists o, x86_windows_init heap_ok x a = Ok o /\
  (forall t, o_published o = Some t -> windows_described x sizes m t /\
     (consistent (t_processors (wt_tables t)) (t_cores (wt_tables t)) (t_clusters (wt_tables t)) (t_packages (wt_tables t)) <-> length m = 1) /\
     (t_l1i_count (wt_tables t) = length (t_l1i (wt_tables t)) /\ t_l1d_count (wt_tables t) = length (t_l1d (wt_tables t)) /\
      t_l2_count (wt_tables t) = length (t_l2 (wt_tables t)) /\ t_l3_count (wt_tables t) = length (t_l3 (wt_tables t)) /\
      t_l4_count (wt_tables t) = length (t_l4 (wt_tables t)))) /\
  ((forall b, heap_ok b = true) -> o_published o <> None).
Proof.
  destruct (ws_packages _ _ _ W) as (pinfos & Ep & SP), (ws_cores _ _ _ W) as (cinfos & Ec & SC).
  assert (Ez : group_sizes a = sizes) by (unfold group_sizes; symmetry; apply (ws_sizes _ _ _ W)).
  unfold x86_windows_init. pose proof FD as F. unfold fields_defined, package_offset in F.
  rewrite !bit_mask_ones by (clear - F; lia). cbn [bind]. rewrite Ez, total_sum. fold n.
  destruct (heap_ok B_processors) eqn:H1; cbn [negb].
  2:{ eexists. split; [reflexivity|]. split; [discriminate|]. intros H. rewrite H in H1. discriminate. }
  rewrite (ws_readable _ _ _ W). cbn [negb].
  destruct (heap_ok B_infos) eqn:H2; cbn [negb].
  2:{ eexists. split; [reflexivity|]. split; [discriminate|]. intros H. rewrite H in H2. discriminate. }
  rewrite Ep, Ec. rewrite (package_loop_ok x sizes m n Or pinfos SP FD). cbn [bind].
  set (gbs := X86WindowsRows.ids pinfos). assert (Lg : length gbs = n) by apply (ids_length sizes m n Or pinfos SP).
  destruct (core_loop_ok x sizes m n Or pinfos cinfos SP SC FD N0 _ eq_refl) as (u & Eu & Pu).
  fold gbs in Eu, Pu. fold gbs. unfold tmask, cmask in Eu. rewrite Eu. cbn [bind]. rewrite Pu.
  set (P := map (second_pass x) (combine (rows 0 0 m) gbs)).
  destruct (allocate heap_ok [B_cores; B_clusters; B_packages] [B_processors; B_infos]) as [ok1 live1] eqn:EA1.
  destruct ok1; cbn [negb].
  2:{ eexists. split; [reflexivity|]. split; [discriminate|]. intros H. exfalso. cbn [allocate] in EA1. rewrite !H in EA1. discriminate. }
  pose proof (first_loop x m n Or N0 gbs Lg) as L1. fold P in L1. rewrite L1. cbn [bind].
  pose proof (second_loop x m n Or N0 FD gbs Lg) as L2. fold P in L2. unfold cmask in L2 at 1. rewrite L2. cbn [bind].
  rewrite (third_loop x m n Or N0 gbs Lg). cbn [bind].
  destruct (build_ok gbs Lg) as (l1i & l1d & l2 & l3 & l4 & (I1 & I2 & I3 & I4 & I5) & K1 & K2 & K3 & K4 & K5 & B).
  fold P in I1, I2, I3, I4, I5, K1, K2, K3, K4, K5, B. rewrite K1, K2, K3, K4, K5. cbn [bind].
  destruct (allocate heap_ok (when _ _ ++ _) live1) as [ok2 live2] eqn:EA2. destruct ok2; cbn [negb].
  2:{ eexists. split; [reflexivity|]. split; [discriminate|]. intros H. exfalso. clear - EA2 H. revert live1 live2 EA2. generalize (when (length (cs_caches l1i)) B_l1i ++ when (length (cs_caches l1d)) B_l1d ++ when (length (cs_caches l2)) B_l2 ++ when (length (cs_caches l3)) B_l3 ++ when (length (cs_caches l4)) B_l4) as todo.
      induction todo as [|b todo IH]; intros live1 live2 E; cbn [allocate] in E; [discriminate|]. rewrite H in E. eauto. }
  rewrite B. cbn [bind]. eexists. split; [reflexivity|]. split; [|discriminate]. intros t Ht. cbn [o_published] in Ht. injection Ht as <-.
  split; [split; [|split]|split; [|now repeat split]].
  - apply (describes_ok gbs Lg); reflexivity.
  - cbn [wt_ids]. split; [rewrite map_length; apply (P_length x m n Or gbs Lg)|].
    intros i g b Hi. rewrite nth_error_map in Hi. destruct (nth_error P i) as [p|] eqn:Epi; [|discriminate]. cbn in Hi. injection Hi as <- <-.
    assert (Li : i < n) by (rewrite <- (P_length x m n Or gbs Lg); fold P; apply nth_error_Some; congruence).
    destruct (P_nth x m n Or N0 gbs Lg i Li) as (r & gb & _ & Eg & Eq). fold P in Eq. rewrite Epi in Eq. injection Eq as ->.
    cbn [second_pass wp_group wp_number fst snd]. destruct (says_in_range pinfos _ SP gb (nth_error_In _ _ Eg)) as (A & Bb). split; [exact A|]. split; [exact Bb|].
    pose proof (ids_index sizes m n Or pinfos SP) as IX. apply (f_equal (fun l => nth_error l i)) in IX. rewrite nth_error_map in IX. fold gbs in IX. rewrite Eg in IX.
    cbn [option_map] in IX. rewrite (nth_error_nth' _ 0) in IX by now rewrite seq_length. rewrite seq_nth in IX by exact Li. injection IX as IX. unfold index_of in IX. cbn in IX. lia.
  - intros Fit. cbn [wt_tables]. apply (apic_ok gbs Lg _ l1i l1d l2 l3 l4 Fit); try reflexivity; assumption.
  - cbn [wt_tables t_processors t_cores t_clusters t_packages]. unfold final_objects. cbn [ob_cores ob_clusters ob_packages]. split.
    + intros Cn. pose proof (processors_in_clusters _ _ _ _ Cn) as (ow & _ & T & _).
      assert (POS : forall l from to, tiles from l to -> forall q, In q l -> 0 < snd q).
      { induction l as [|(s0, c0) l IH]; intros from to HT q Hq; [destruct Hq|]. cbn in HT. destruct HT as (_ & Hc & HT). destruct Hq as [<-|Hq]; [exact Hc|]. eapply IH; eauto. }
      pose proof (K_pos x m n Or N0 gbs Lg) as KP. destruct (Nat.eq_dec (length m) 1) as [E|E]; [exact E|exfalso].
      assert (Hin : In (0, 0) (map cluster_processors (map (cluster3 x m n) (seq 0 (length m))))).
      { rewrite map_map. apply in_map_iff. exists 1. split; [reflexivity|]. apply in_seq. lia. }
      apply (POS _ _ _ T) in Hin. cbn in Hin. lia.
    + intros K1'. pose proof (describes_ok gbs Lg (Tables (map published_processor P) (map (core2 x m) (seq 0 (length (machine_cores m)))) (map (cluster3 x m n) (seq 0 (length m)))
        (map (package3 m) (seq 0 (length m))) [] [] [] [] [] [] [] [] [] [] n (length (machine_cores m)) (length m) (length m) 0 0 0 0 0 0 0 0 0 0 0 [] [])
        eq_refl eq_refl eq_refl eq_refl eq_refl eq_refl eq_refl eq_refl) as [_ _ _ _ D1 D2 D3 D4 _ _ _].
      cbn [t_processors t_cores t_clusters t_packages] in D1, D2, D3, D4.
      constructor; auto.
      * rewrite K1'. cbn [seq map]. unfold cluster_processors at 1. cbn.
        replace (map p_cluster (map published_processor P)) with (map (fun _ => Some 0) (seq 0 n)); [now apply points_one, N0|].
        rewrite map_map. cbn [published_processor p_cluster]. pose proof (P_length x m n Or gbs Lg) as LPn. fold P in LPn. rewrite <- LPn. apply const_map.
      * rewrite K1'. cbn [seq map]. unfold cluster_cores at 1. cbn. rewrite map_map. cbn [core2 c_cluster]. apply points_one. apply (C_pos m n Or N0 gbs Lg).
      * rewrite K1'. cbn [seq map]. unfold package_clusters. cbn. apply (points_one 1). lia.
      * intros i p j c Hp Hj Hc. destruct (D4 i p j c Hp Hj Hc) as (E1 & _). split; [|exact E1].
        rewrite nth_error_map in Hp. destruct (nth_error P i); [|discriminate]. cbn in Hp. injection Hp as <-. apply table_some in Hc. destruct Hc as (_ & ->). reflexivity.
      * intros i p j l Hp Hj Hl. assert (Hj0 : j = 0).
        { rewrite nth_error_map in Hp. destruct (nth_error P i); [|discriminate]. cbn in Hp. injection Hp as <-. cbn in Hj. congruence. }
        subst j. rewrite K1' in Hl. cbn in Hl. injection Hl as <-. cbn [cluster3 Nat.eqb cl_package].
        destruct D2 as (ow & Eow & _ & G). assert (Hpk : exists k, p_package p = Some k /\ nth_error ow i = Some k).
        { assert (Q : nth_error (map p_package (map published_processor P)) i = Some (p_package p)) by (rewrite nth_error_map, Hp; reflexivity).
          rewrite Eow, nth_error_map in Q. destruct (nth_error ow i) as [k|]; [|discriminate]. cbn in Q. injection Q as Q. exists k. auto. }
        destruct Hpk as (k & -> & Hk). apply G in Hk. destruct Hk as (s0 & c0 & Hk & _). rewrite K1' in Hk. destruct k as [|[|k]]; [reflexivity|discriminate|discriminate].
Qed.
End INIT.

(** ** Memory *)

Lemma allocate_live heap_ok : forall todo live ok live', allocate heap_ok todo live = (ok, live') ->
  exists got rest, todo = got ++ rest /\ live' = live ++ got /\ (ok = true -> rest = []).
Proof.
  induction todo as [|b todo IH]; intros live ok live' E; cbn [allocate] in E.
  - injection E as <- <-. exists [], []. rewrite !app_nil_r; auto.
  - destruct (heap_ok b).
    + destruct (IH _ _ _ E) as (got & rest & -> & -> & H). exists (b :: got), rest. split; [reflexivity|]. split; [now rewrite <- app_assoc|exact H].
    + injection E as <- <-. exists [], (b :: todo). split; [reflexivity|]. split; [now rewrite app_nil_r|discriminate].
Qed.

Lemma cleanup_app r l k : cleanup r (l ++ k) = cleanup r l ++ cleanup r k.
Proof. apply filter_app. Qed.

Lemma cleanup_dies l : Forall (fun b => b <> B_infos) l -> cleanup [] l = [].
Proof. intros F. induction F as [|b l H F IH]; [reflexivity|]. cbn [cleanup filter]. fold (cleanup [] l). rewrite IH. destruct b; cbn; congruence. Qed.

Lemma cleanup_keeps l : cleanup reset_to_null l = l.
Proof. unfold cleanup. induction l as [|b l IH]; [reflexivity|]. cbn [filter]. rewrite IH. now destruct b. Qed.

Lemma when_in n c b : In b (when n c) <-> b = c /\ n <> 0.
Proof. unfold when. destruct (Nat.ltb_spec 0 n) as [H|H]; cbn; intuition (subst; auto; lia). Qed.

Definition caches_todo (n1 n2 n3 n4 n5 : nat) : list block := when n1 B_l1i ++ when n2 B_l1d ++ when n3 B_l2 ++ when n4 B_l3 ++ when n5 B_l4.

Lemma caches_todo_ok n1 n2 n3 n4 n5 : Forall (fun b => b <> B_infos) (caches_todo n1 n2 n3 n4 n5) /\
  NoDup ([B_processors; B_infos; B_cores; B_clusters; B_packages] ++ caches_todo n1 n2 n3 n4 n5).
Proof.
  unfold caches_todo, when. destruct (0 <? n1), (0 <? n2), (0 <? n3), (0 <? n4), (0 <? n5); cbn [app];
    (split; [repeat constructor; discriminate|repeat (constructor; [cbn; intuition discriminate|])]; constructor).
Qed.

Lemma init_memory heap_ok x a o : x86_windows_init heap_ok x a = Ok o ->
  match o_published o with
  | None => o_live o = [] \/ o_live o = [B_infos]
  | Some t => NoDup (o_live o) /\ forall b, In b (o_live o) <-> published_block (wt_tables t) b \/ b = B_infos
  end.
Proof.
  intros E. unfold x86_windows_init in E.
  destruct (bit_mask _) as [tm| |]; cbn [bind] in E; try discriminate. destruct (bit_mask _) as [cm| |]; cbn [bind] in E; try discriminate.
  destruct (heap_ok B_processors); cbn [negb] in E; [|injection E as <-; now left].
  destruct (wa_sizes a); cbn [negb] in E; [|injection E as <-; now left].
  destruct (heap_ok B_infos); cbn [negb] in E; [|injection E as <-; now left].
  destruct (wa_packages a) as [pinfos|]; [|injection E as <-; now right].
  destruct (each _ _ _) as [(pc, ps)| |]; cbn [bind] in E; try discriminate.
  destruct (wa_cores a) as [cinfos|]; [|injection E as <-; now right].
  destruct (each _ _ _) as [(cc, st)| |]; cbn [bind] in E; try discriminate.
  destruct (allocate heap_ok [B_cores; B_clusters; B_packages] _) as [ok1 live1] eqn:A1. apply allocate_live in A1. destruct A1 as (got1 & rest1 & T1 & -> & R1).
  assert (NI : Forall (fun b => b <> B_infos) got1).
  { assert (Fa : Forall (fun b => b <> B_infos) (got1 ++ rest1)) by (rewrite <- T1; repeat constructor; discriminate). now apply Forall_app in Fa. }
  destruct ok1; cbn [negb] in E.
  2:{ injection E as <-. right. cbn [o_published o_live]. change (cleanup [] ([B_processors; B_infos] ++ got1) = [B_infos]). rewrite cleanup_app, (cleanup_dies got1 NI). reflexivity. }
  rewrite (R1 eq_refl), app_nil_r in T1. subst got1.
  destruct (for_down _ _ _) as [o1| |]; cbn [bind] in E; try discriminate. destruct (for_down _ _ _) as [o2| |]; cbn [bind] in E; try discriminate.
  destruct (for_each _ _ _ _) as [o3| |]; cbn [bind] in E; try discriminate.
  destruct (count_caches _ _ _) as [n1| |]; cbn [bind] in E; try discriminate. destruct (count_caches _ _ _) as [n2| |]; cbn [bind] in E; try discriminate.
  destruct (count_caches _ _ _) as [n3| |]; cbn [bind] in E; try discriminate. destruct (count_caches _ _ _) as [n4| |]; cbn [bind] in E; try discriminate.
  destruct (count_caches _ _ _) as [n5| |]; cbn [bind] in E; try discriminate. fold (caches_todo n1 n2 n3 n4 n5) in E.
  destruct (caches_todo_ok n1 n2 n3 n4 n5) as (CI & CN).
  destruct (allocate heap_ok (caches_todo n1 n2 n3 n4 n5) _) as [ok2 live2] eqn:A2. apply allocate_live in A2. destruct A2 as (got2 & rest2 & T2 & -> & R2).
  destruct ok2; cbn [negb] in E.
  2:{ injection E as <-. right. cbn [o_published o_live]. rewrite T2 in CI. apply Forall_app in CI. destruct CI as (CI & _).
      change (cleanup [] ([B_processors; B_infos; B_cores; B_clusters; B_packages] ++ got2) = [B_infos]). rewrite cleanup_app, (cleanup_dies got2 CI). reflexivity. }
  rewrite (R2 eq_refl), app_nil_r in T2. subst got2.
  destruct (build_tables _ _ _ _ _ _ _ _) as [t| |] eqn:B; cbn [bind] in E; try discriminate. injection E as <-. cbn [o_published o_live].
  rewrite cleanup_keeps. split; [exact CN|].
  assert (Cs : t_l1i_count (wt_tables t) = n1 /\ t_l1d_count (wt_tables t) = n2 /\ t_l2_count (wt_tables t) = n3 /\ t_l3_count (wt_tables t) = n4 /\ t_l4_count (wt_tables t) = n5).
  { unfold build_tables in B. do 5 (destruct (level_loop _ _ _) as [?| |]; cbn [bind] in B; try discriminate).
    destruct (compute_max_cache_size _ _ _ _); cbn [bind] in B; try discriminate. injection B as <-. now repeat split. }
  destruct Cs as (E1 & E2 & E3 & E4 & E5). intros b. change (In b ([B_processors; B_infos; B_cores; B_clusters; B_packages] ++ caches_todo n1 n2 n3 n4 n5) <-> published_block (wt_tables t) b \/ b = B_infos).
  unfold caches_todo. rewrite !in_app_iff, !when_in. unfold published_block. rewrite E1, E2, E3, E4, E5.
  destruct b; cbn [In]; intuition (try discriminate; auto).
Qed.

(** ** Getters *)

Lemma init_agree heap_ok x a o t tb sizes m : windows_says a sizes m -> fields_defined x -> caches_defined x ->
  x86_windows_init heap_ok x a = Ok o -> o_published o = Some t -> tb <> Uarchs -> agrees (final (x86_windows_routine o)) tb.
Proof.
  intros W FD CD E PT NU. unfold x86_windows_routine. rewrite PT.
  destruct (init_ok x a sizes m W FD CD heap_ok) as (o' & E' & D & _). rewrite E in E'. injection E' as <-.
  destruct (D t PT) as ((DD & _) & _ & Z). clear D. destruct DD as [D1 _ _ _ _ _ _ _ _ _ D2]. destruct t as [t ids]. cbn [wt_tables] in *.
  destruct (counts_pointers t) as (I & PP & CT). cbv zeta in *. unfold agrees.
  rewrite PP, CT. destruct D2 as (P1 & P2 & P3 & P4), Z as (Z1 & Z2 & Z3 & Z4 & Z5). destruct tb as [| | | | |[]].
  - left. rewrite Nat2N.id. congruence.
  - left. rewrite Nat2N.id. congruence.
  - left. rewrite Nat2N.id. congruence.
  - left. rewrite Nat2N.id. congruence.
  - now destruct NU.
  - apply block_agrees. congruence.
  - apply block_agrees. congruence.
  - apply block_agrees. congruence.
  - apply block_agrees. congruence.
  - apply block_agrees. congruence.
Qed.

Lemma init_elements heap_ok x a o t cpu tb i sizes m : windows_says a sizes m -> fields_defined x -> caches_defined x ->
  x86_windows_init heap_ok x a = Ok o -> o_published o = Some t ->
  exists k, ask x86_counts (final (x86_windows_routine o)) cpu (Get_count tb) = Number k /\
    ask x86_counts (final (x86_windows_routine o)) cpu (Get_element tb i) = if (i <? k)%N then Pointer tb (N.to_nat i) else Null.
Proof.
  intros W FD CD E PT. pose proof (init_agree heap_ok x a o t tb sizes m W FD CD E PT) as A. unfold x86_windows_routine in *. rewrite PT in *.
  now apply counts_elements.
Qed.

(** ** The whole statements *)

Lemma windows_describes heap_ok x a sizes m : windows_says a sizes m -> fields_defined x -> caches_defined x ->
  exists o, x86_windows_init heap_ok x a = Ok o /\
    (forall t, o_published o = Some t -> windows_described x sizes m t) /\ ((forall b, heap_ok b = true) -> o_published o <> None).
Proof.
  intros W FD CD. destruct (init_ok x a sizes m W FD CD heap_ok) as (o & E & D & H). exists o. split; [exact E|]. split; [|exact H]. intros t Ht. now apply D.
Qed.

Lemma windows_consistent_iff heap_ok x a sizes m o t : windows_says a sizes m -> fields_defined x -> caches_defined x ->
  x86_windows_init heap_ok x a = Ok o -> o_published o = Some t ->
  (consistent (t_processors (wt_tables t)) (t_cores (wt_tables t)) (t_clusters (wt_tables t)) (t_packages (wt_tables t)) <-> length m = 1).
Proof.
  intros W FD CD E Ht. destruct (init_ok x a sizes m W FD CD heap_ok) as (o' & E' & D & H). rewrite E in E'. injection E' as <-. now apply D.
Qed.
