(** What initialisation on Mach and FreeBSD publishes, for any numbers. *)
From Verif Require Import Base BaseProofs Loops Text Fill TopologySpec ApiModel ApiProofs Masks X86CountsModel X86CountsSpec X86CountsProofs X86CountsInit.
From Verif Require X86LinuxModel.
Import X86LinuxModel(xinfo, xcache, xc_geometry, xi_vendor, xi_uarch, xi_cpuid, xi_thread_offset, xi_thread_length, xi_core_offset,
  xi_core_length, xi_l1i, xi_l1d, xi_l2, xi_l3, xi_l4, bit_mask, cstate, CState, cs_caches, cs_pointers, compute_max_cache_size, cache_size_at).
Open Scope nat_scope.
Ltac Zify.zify_post_hook ::= idtac.

Lemma apic_of_defined x smt core package a : apic_of x smt core package = Ok a -> fields_defined x.
Proof.
  unfold apic_of, fields_defined, package_offset. intros E.
  destruct (bit_mask (xi_thread_length x)) as [m1| |] eqn:E1; try discriminate. cbn [bind] in E. apply bit_mask_ok in E1. destruct E1 as (L1 & _).
  destruct (bit_mask (xi_core_length x)) as [m2| |] eqn:E2; try discriminate. cbn [bind] in E. apply bit_mask_ok in E2. destruct E2 as (L2 & _).
  cbv zeta in E. unfold shl32 in E. destruct (N.ltb_spec (xi_thread_offset x) 32); [|discriminate]. cbn [bind] in E.
  destruct (N.ltb_spec (xi_core_offset x) 32); [|discriminate]. cbn [bind] in E. rewrite !u32_small in E by (unfold two32; lia).
  destruct (N.ltb_spec (N.max (xi_thread_offset x + xi_thread_length x) (xi_core_offset x + xi_core_length x)) 32); [assumption|discriminate].
Qed.

Lemma build_objects_lengths x P cores threads tpc o : build_objects x P cores threads tpc = Ok o ->
  length (ob_processors o) = threads /\ length (ob_cores o) = cores /\ length (ob_clusters o) = P /\ length (ob_packages o) = P.
Proof.
  unfold build_objects. intros E. destruct (divide threads P) as [tpp| |]; try discriminate. cbn [bind] in E.
  destruct (divide cores P) as [cpp| |]; try discriminate. cbn [bind] in E.
  destruct (fill _ P (repeat cluster0 P)) as [ls| |] eqn:E1; try discriminate. cbn [bind] in E. apply fill_inv in E1; [|apply repeat_length].
  destruct (fill _ P (repeat package0 P)) as [ks| |] eqn:E2; try discriminate. cbn [bind] in E. apply fill_inv in E2; [|apply repeat_length].
  destruct (fill _ cores _) as [cs| |] eqn:E3; try discriminate. cbn [bind] in E. apply fill_inv in E3; [|apply repeat_length].
  destruct (fill _ threads _) as [ps| |] eqn:E4; try discriminate. cbn [bind] in E. apply fill_inv in E4; [|apply repeat_length].
  injection E as <-. cbn. tauto.
Qed.

(** The objects are consistent exactly if the numbers divide each other. *)
Lemma build_objects_consistent x P cores threads tpc o : build_objects x P cores threads tpc = Ok o ->
  (N.of_nat (cores * tpc) < two32)%N -> 0 < threads -> 0 < cores ->
  (consistent (ob_processors o) (ob_cores o) (ob_clusters o) (ob_packages o) <-> Nat.divide P cores /\ threads = cores * tpc).
Proof.
  intros E B TH CO. pose proof E as E0. unfold build_objects in E.
  destruct (divide threads P) as [tpp| |] eqn:E1; try discriminate. apply divide_inv in E1. destruct E1 as (PP & E1). cbn [bind] in E.
  rewrite divide_pos in E by exact PP. cbn [bind] in E. set (cpp := cores / P) in *.
  set (cl := fun i => Cluster (i * tpp) tpp (i * cpp) cpp 0 (Some i) (xi_vendor x) (xi_uarch x) (xi_cpuid x)).
  rewrite (fill_all _ cl) in E.
  2: { intros i H. rewrite address_le by lia. reflexivity. }
  cbn [bind] in E. rewrite (fill_all _ (fun i => Package (i * tpp) tpp (i * cpp) cpp i 1)) in E by reflexivity. cbn [bind] in E.
  destruct (fill _ cores _) as [cs| |] eqn:EC; try discriminate. cbn [bind] in E. apply fill_inv in EC; [|apply repeat_length]. destruct EC as (LC & FC).
  destruct (fill _ threads _) as [ps| |] eqn:EP; try discriminate. cbn [bind] in E. apply fill_inv in EP; [|apply repeat_length]. destruct EP as (LP & FP).
  injection E as <-. cbn [ob_processors ob_cores ob_clusters ob_packages]. split.
  - intros C. split.
    + pose proof (cores_in_clusters _ _ _ _ C) as Q. rewrite map_map in Q. unfold cluster_cores in Q. cbn in Q.
      apply points_uniform_inv in Q. rewrite map_length, LC in Q. exists cpp. lia.
    + pose proof (processors_in_cores _ _ _ _ C) as Q.
      assert (M : map core_processors cs = map (fun j => (j * tpc, tpc)) (seq 0 cores)).
      { apply nth_error_ext. intros i. rewrite nth_error_map, nth_error_table. destruct (Nat.ltb_spec i cores) as [L|L].
        - destruct (FC i L) as (c & Ec & ->). cbn [option_map].
          destruct (modulo i cpp) as [a| |]; try discriminate. cbn [bind] in Ec. destruct (divide i cpp) as [b| |]; try discriminate. cbn [bind] in Ec.
          destruct (address P b) as [q| |]; try discriminate. cbn [bind] in Ec. injection Ec as <-. unfold core_processors. cbn.
          rewrite mul32_small; [reflexivity|]. assert (i * tpc <= cores * tpc) by (apply Nat.mul_le_mono_r; lia). lia.
        - assert (H : nth_error cs i = None) by (apply nth_error_None; lia). now rewrite H. }
      rewrite M in Q. apply points_uniform_inv in Q. rewrite map_length, LP in Q. exact Q.
  - intros ((k & Ek) & ET).
    assert (FD : fields_defined x).
    { destruct (FP 0 TH) as (p & Ep & _). destruct (modulo 0 tpc) as [a| |]; try discriminate. cbn [bind] in Ep.
      destruct (divide 0 tpc) as [b| |]; try discriminate. cbn [bind] in Ep. destruct (divide 0 tpp) as [c| |]; try discriminate. cbn [bind] in Ep.
      destruct (apic_of x a b c) as [d| |] eqn:Ed; try discriminate. now apply apic_of_defined in Ed. }
    assert (K : 0 < k) by nia. assert (T : 0 < tpc) by nia. rewrite (Nat.mul_comm k P) in Ek. rewrite ET, Ek in E0. rewrite Ek in B.
    rewrite build_objects_ok in E0 by auto. injection E0 as E2 E3 E4 E5. rewrite <- E2, <- E3, <- E4, <- E5.
    apply (objects_consistent x P k tpc); auto.
Qed.

(** ** What is published comes from the builders *)
Definition chosen (c : bool) (k : xcache) (threads w count : nat) : res cstate :=
  if c then build_level k threads w count else Ok (no_level threads).

Lemma chosen_lengths c k threads w count d : chosen c k threads w count = Ok d ->
  length (cs_pointers d) = threads /\ length (cs_caches d) = if c then count else 0.
Proof.
  unfold chosen. destruct c; intros Q.
  - unfold build_level in Q. destruct (fill _ count _) as [l'| |] eqn:F'; try discriminate. cbn [bind] in Q. destruct (fill _ threads _) as [l| |] eqn:F; try discriminate.
    cbn [bind] in Q. injection Q as <-. apply fill_inv in F, F'; try apply repeat_length. cbn. tauto.
  - injection Q as <-. cbn. now rewrite repeat_length.
Qed.

Record built (x : xinfo) (P cores threads : nat) (o : objects) (w : widths) (t : tables) : Prop := {
  bt_processors : t_processors t = ob_processors o; bt_cores : t_cores t = ob_cores o;
  bt_clusters : t_clusters t = ob_clusters o; bt_packages : t_packages t = ob_packages o;
  bt_processors_count : t_processors_count t = threads; bt_cores_count : t_cores_count t = cores;
  bt_clusters_count : t_clusters_count t = P; bt_packages_count : t_packages_count t = P;
  bt_l1i_count : t_l1i_count t = w_l1_count w; bt_l1d_count : t_l1d_count t = w_l1_count w;
  bt_l2_count : t_l2_count t = w_l2_count w; bt_l3_count : t_l3_count t = w_l3_count w; bt_l4_count : t_l4_count t = w_l4_count w;
  bt_l1i : chosen (present (xi_l1i x)) (xi_l1i x) threads (w_l1 w) (w_l1_count w) = Ok (CState (t_l1i t) (t_l1i_of t) None 0);
  bt_l1d : chosen (present (xi_l1d x)) (xi_l1d x) threads (w_l1 w) (w_l1_count w) = Ok (CState (t_l1d t) (t_l1d_of t) None 0);
  bt_l2 : chosen (0 <? w_l2_count w) (xi_l2 x) threads (w_l2 w) (w_l2_count w) = Ok (CState (t_l2 t) (t_l2_of t) None 0);
  bt_l3 : chosen (0 <? w_l3_count w) (xi_l3 x) threads (w_l3 w) (w_l3_count w) = Ok (CState (t_l3 t) (t_l3_of t) None 0);
  bt_l4 : chosen (0 <? w_l4_count w) (xi_l4 x) threads (w_l4 w) (w_l4_count w) = Ok (CState (t_l4 t) (t_l4_of t) None 0);
  bt_threads : 0 < threads
}.

Lemma chosen_state c k threads w count d : chosen c k threads w count = Ok d -> d = CState (cs_caches d) (cs_pointers d) None 0.
Proof.
  unfold chosen. destruct c; intros Q.
  - unfold build_level in Q. destruct (fill _ count _) as [l'| |] eqn:F'; try discriminate. cbn [bind] in Q. destruct (fill _ threads _) as [l| |] eqn:F; try discriminate.
    cbn [bind] in Q. now injection Q as <-.
  - now injection Q as <-.
Qed.

Lemma build_tables_inv x P cores threads o w t : build_tables x P cores threads o w = Ok t -> built x P cores threads o w t.
Proof.
  unfold build_tables. intros E.
  fold (chosen (present (xi_l1i x)) (xi_l1i x) threads (w_l1 w) (w_l1_count w)) in E.
  fold (chosen (present (xi_l1d x)) (xi_l1d x) threads (w_l1 w) (w_l1_count w)) in E.
  fold (chosen (0 <? w_l2_count w) (xi_l2 x) threads (w_l2 w) (w_l2_count w)) in E.
  fold (chosen (0 <? w_l3_count w) (xi_l3 x) threads (w_l3 w) (w_l3_count w)) in E.
  fold (chosen (0 <? w_l4_count w) (xi_l4 x) threads (w_l4 w) (w_l4_count w)) in E.
  destruct (chosen (present (xi_l1i x)) _ _ _ _) as [l1i| |] eqn:E1; try discriminate. cbn [bind] in E.
  destruct (chosen (present (xi_l1d x)) _ _ _ _) as [l1d| |] eqn:E2; try discriminate. cbn [bind] in E.
  destruct (chosen (0 <? w_l2_count w) _ _ _ _) as [l2| |] eqn:E3; try discriminate. cbn [bind] in E.
  destruct (chosen (0 <? w_l3_count w) _ _ _ _) as [l3| |] eqn:E4; try discriminate. cbn [bind] in E.
  destruct (chosen (0 <? w_l4_count w) _ _ _ _) as [l4| |] eqn:E5; try discriminate. cbn [bind] in E.
  destruct (compute_max_cache_size l1d l2 l3 l4) as [m| |] eqn:E6; try discriminate. cbn [bind] in E. injection E as <-.
  split; cbn -[chosen Nat.ltb]; auto.
  - rewrite E1. f_equal. exact (chosen_state _ _ _ _ _ _ E1).
  - rewrite E2. f_equal. exact (chosen_state _ _ _ _ _ _ E2).
  - rewrite E3. f_equal. exact (chosen_state _ _ _ _ _ _ E3).
  - rewrite E4. f_equal. exact (chosen_state _ _ _ _ _ _ E4).
  - rewrite E5. f_equal. exact (chosen_state _ _ _ _ _ _ E5).
  - unfold compute_max_cache_size in E6. unfold rd in E6 at 1. destruct (nth_error (cs_pointers l4) 0) eqn:E7; [|discriminate].
    apply nth_error_some_lt in E7. apply chosen_lengths in E5. destruct E5 as (E5 & _). lia.
Qed.

Lemma blocks_published x w t : t_l2_count t = w_l2_count w -> t_l3_count t = w_l3_count w -> t_l4_count t = w_l4_count w ->
  forall b, In b (objects_blocks ++ cache_blocks x w) <-> published_block x t b.
Proof.
  intros E2 E3 E4 b. unfold cache_blocks, objects_blocks, present. rewrite !in_app_iff.
  assert (H : forall q c, In b (when q c) <-> q = true /\ b = c) by (intros [] c; cbn; intuition congruence).
  rewrite !H. rewrite !Bool.negb_true_iff, !N.eqb_neq, !Nat.ltb_lt. destruct b; cbn [In published_block]; rewrite ?E2, ?E3, ?E4;
    split; intros; try (intuition (try discriminate; lia)); try tauto;
    repeat match goal with Q : _ \/ _ |- _ => destruct Q | Q : _ /\ _ |- _ => destruct Q end; try discriminate; auto; try lia; try easy;
    intuition (try discriminate; auto; try lia).
Qed.

Lemma freebsd_cases calloc_ok x a o : x86_freebsd_init calloc_ok x a = Ok o ->
  (o_published o = None /\ o_live o = []) \/
  exists P cores threads tpc ob w t, freebsd_detect_topology a = Ok (Some (P, cores, threads, tpc)) /\
    build_objects x P cores threads tpc = Ok ob /\ freebsd_widths x P cores threads = Ok (Some w) /\ build_tables x P cores threads ob w = Ok t /\
    o_published o = Some t /\ o_live o = objects_blocks ++ cache_blocks x w.
Proof.
  unfold x86_freebsd_init. intros E. destruct (freebsd_detect_topology a) as [[[[[P cores] threads] tpc]|]| |] eqn:ED; try discriminate; cbn [bind] in E.
  2: { injection E as <-. now left. }
  destruct (allocate_spec calloc_ok objects_blocks []) as [(E1 & _)|(got & E1 & _)]; rewrite E1 in E; cbn [negb app] in E.
  2: { injection E as <-. left. split; [reflexivity|]. try reflexivity; apply cleanup_all. }
  destruct (build_objects x P cores threads tpc) as [ob| |] eqn:EO; try discriminate. cbn [bind] in E.
  destruct (freebsd_widths x P cores threads) as [[w|]| |] eqn:EW; try discriminate; cbn [bind] in E.
  2: { injection E as <-. left. split; [reflexivity|]. try reflexivity; apply cleanup_all. }
  destruct (allocate_spec calloc_ok (cache_blocks x w) objects_blocks) as [(E2 & _)|(got & E2 & _)]; rewrite E2 in E; cbn [negb] in E.
  2: { injection E as <-. left. split; [reflexivity|]. try reflexivity; apply cleanup_all. }
  destruct (build_tables x P cores threads ob w) as [t| |] eqn:ET; try discriminate. cbn [bind] in E. injection E as <-.
  right. exists P, cores, threads, tpc, ob, w, t. pose proof (cleanup_kept (objects_blocks ++ cache_blocks x w)) as K. auto 10.
Qed.

Lemma mach_cases calloc_ok x a o : x86_mach_init calloc_ok x a = Ok o ->
  let s := mach_detect_topology a in let P := mt_packages s in let cores := mt_cores s in let threads := mt_threads s in
  (o_published o = None /\ (o_live o = [] \/ exists b, calloc_ok b = false /\ ~ In b objects_blocks)) \/
  exists ob w t, build_objects x P cores threads (threads / cores) = Ok ob /\ mach_widths x s = Ok w /\ build_tables x P cores threads ob w = Ok t /\
    o_published o = Some t /\ o_live o = objects_blocks ++ cache_blocks x w.
Proof.
  unfold x86_mach_init. intros E. cbv zeta in *. set (s := mach_detect_topology a) in *.
  destruct (allocate_spec calloc_ok objects_blocks []) as [(E1 & F1)|(got & E1 & F1)]; rewrite E1 in E; cbn [negb app] in E.
  2: { injection E as <-. left. split; [reflexivity|]. left. apply cleanup_all. }
  destruct (divide (mt_threads s) (mt_cores s)) as [tpc| |] eqn:ED; try discriminate. apply divide_inv in ED. destruct ED as (_ & ->). cbn [bind] in E.
  destruct (build_objects x (mt_packages s) (mt_cores s) (mt_threads s) (mt_threads s / mt_cores s)) as [ob| |] eqn:EO; try discriminate. cbn [bind] in E.
  destruct (mach_widths x s) as [w| |] eqn:EW; try discriminate; cbn [bind] in E.
  destruct (allocate_spec calloc_ok (cache_blocks x w) objects_blocks) as [(E2 & _)|(got & E2 & F2)]; rewrite E2 in E; cbn [negb] in E.
  2: { injection E as <-. left. split; [reflexivity|]. right.
       assert (Q : exists b, In b (cache_blocks x w) /\ calloc_ok b = false).
       { clear -F2. induction (cache_blocks x w) as [|b l IH]; cbn [forallb] in F2; [discriminate|]. apply Bool.andb_false_iff in F2. destruct F2 as [F|F].
         - exists b. split; [now left|exact F].
         - destruct (IH F) as (c & I & C). exists c. split; [now right|exact C]. }
       destruct Q as (b & I & C). exists b. split; [exact C|]. intros O. rewrite forallb_forall in F1. rewrite (F1 b O) in C. discriminate. }
  destruct (build_tables x (mt_packages s) (mt_cores s) (mt_threads s) ob w) as [t| |] eqn:ET; try discriminate. cbn [bind] in E. injection E as <-.
  right. exists ob, w, t. pose proof (cleanup_kept (objects_blocks ++ cache_blocks x w)) as K. auto 10.
Qed.

Lemma mach_numbers a : let s := mach_detect_topology a in 0 < mt_packages s /\ 0 < mt_cores s /\ 0 < mt_threads s.
Proof.
  unfold mach_detect_topology, checked. cbv zeta. cbn [mt_packages mt_cores mt_threads].
  assert (C : (0 < match ma_physicalcpu_max a with Some v => if (v <=? 0)%Z then 1%Z else v | None => 1%Z end)%Z).
  { destruct (ma_physicalcpu_max a) as [v|]; [destruct (Z.leb_spec v 0)|]; lia. }
  split; [destruct (ma_packages a) as [v|]; [destruct (Z.leb_spec v 0)|]; lia|]. split; [lia|].
  destruct (ma_logicalcpu_max a) as [v|]; [destruct (Z.leb_spec v 0)|]; lia.
Qed.

Lemma freebsd_numbers a P cores threads tpc : freebsd_detect_topology a = Ok (Some (P, cores, threads, tpc)) ->
  0 < P <= cores /\ fa_threads_per_core a = Some (Z.of_nat tpc) /\ threads = N.to_nat (u32 (N.of_nat tpc * N.of_nat cores)).
Proof.
  unfold freebsd_detect_topology. intros E. destruct (fa_spec a) as [spec|]; [|discriminate].
  destruct (count_packages spec) as [p| |]; try discriminate. cbn [bind] in E. destruct (Nat.eqb_spec p 0); [discriminate|].
  destruct (Nat.eqb_spec (Z.to_nat (sysctl_int (fa_cores a))) 0); [discriminate|].
  destruct (Nat.ltb_spec (Z.to_nat (sysctl_int (fa_cores a))) p); [discriminate|].
  destruct (Nat.eqb_spec (Z.to_nat (sysctl_int (fa_threads_per_core a))) 0) as [|Z0]; [discriminate|]. injection E as <- <- <- <-.
  split; [lia|]. split; [|reflexivity]. unfold sysctl_int, checked in *. destruct (fa_threads_per_core a) as [v|]; [|cbn in Z0; lia].
  destruct (Z.leb_spec v 0); [cbn in Z0; lia|]. f_equal. lia.
Qed.

(** Consistent exactly if the numbers divide each other. *)
Lemma mach_consistent calloc_ok x a o t : x86_mach_init calloc_ok x a = Ok o -> o_published o = Some t ->
  (N.of_nat (t_processors_count t) < two32)%N ->
  (consistent (t_processors t) (t_cores t) (t_clusters t) (t_packages t) <->
   Nat.divide (t_packages_count t) (t_cores_count t) /\ Nat.divide (t_cores_count t) (t_processors_count t)).
Proof.
  intros E PT B. destruct (mach_cases calloc_ok x a o E) as [(N0 & _)|(ob & w & t' & EO & _ & ET & PT' & _)]; [congruence|].
  rewrite PT in PT'. injection PT' as <-. destruct (mach_numbers a) as (P0 & C0 & T0). set (s := mach_detect_topology a) in *.
  apply build_tables_inv in ET. rewrite (bt_processors_count _ _ _ _ _ _ _ ET) in *.
  rewrite (bt_processors _ _ _ _ _ _ _ ET), (bt_cores _ _ _ _ _ _ _ ET), (bt_clusters _ _ _ _ _ _ _ ET), (bt_packages _ _ _ _ _ _ _ ET),
    (bt_cores_count _ _ _ _ _ _ _ ET), (bt_packages_count _ _ _ _ _ _ _ ET).
  assert (L : mt_cores s * (mt_threads s / mt_cores s) <= mt_threads s) by (apply Nat.mul_div_le; lia).
  rewrite (build_objects_consistent _ _ _ _ _ _ EO) by lia. split; intros (D & H); (split; [exact D|]).
  - exists (mt_threads s / mt_cores s). lia.
  - destruct H as (k & Hk). rewrite Hk, Nat.div_mul by lia. lia.
Qed.

Lemma freebsd_consistent calloc_ok x a o t tpc : x86_freebsd_init calloc_ok x a = Ok o -> o_published o = Some t ->
  fa_threads_per_core a = Some (Z.of_nat tpc) -> (N.of_nat (t_cores_count t * tpc) < two32)%N ->
  (consistent (t_processors t) (t_cores t) (t_clusters t) (t_packages t) <-> Nat.divide (t_packages_count t) (t_cores_count t)).
Proof.
  intros E PT A B. destruct (freebsd_cases calloc_ok x a o E) as [(N0 & _)|(P & cores & threads & tpc' & ob & w & t' & ED & EO & _ & ET & PT' & _)]; [congruence|].
  rewrite PT in PT'. injection PT' as <-. destruct (freebsd_numbers a P cores threads tpc' ED) as (P0 & A' & T0).
  rewrite A in A'. injection A' as A'. apply Nat2Z.inj in A'. subst tpc'.
  apply build_tables_inv in ET. rewrite (bt_cores_count _ _ _ _ _ _ _ ET) in *.
  rewrite (bt_processors _ _ _ _ _ _ _ ET), (bt_cores _ _ _ _ _ _ _ ET), (bt_clusters _ _ _ _ _ _ _ ET), (bt_packages _ _ _ _ _ _ _ ET),
    (bt_packages_count _ _ _ _ _ _ _ ET). pose proof (bt_threads _ _ _ _ _ _ _ ET) as TH.
  rewrite u32_small in T0 by lia. rewrite (build_objects_consistent _ _ _ _ _ _ EO) by lia. intuition lia.
Qed.

(** ** Levels *)
Lemma mach_width_inv c threads reported assumed w count : mach_width c threads reported assumed = Ok (w, count) -> c = true ->
  0 < w /\ count = threads / w /\ (reported <> 0 -> w = reported) /\ (reported = 0 -> assumed = Ok w).
Proof.
  intros E ->. unfold mach_width in E. destruct (Nat.eqb_spec reported 0) as [R|R].
  - destruct assumed as [a| |]; try discriminate. cbn [bind] in E. destruct (divide threads a) as [k| |] eqn:D; try discriminate. cbn [bind] in E.
    injection E as <- <-. apply divide_inv in D. destruct D as (D1 & D2). intuition congruence.
  - cbn [bind] in E. destruct (divide threads reported) as [k| |] eqn:D; try discriminate. cbn [bind] in E.
    injection E as <- <-. apply divide_inv in D. destruct D as (D1 & D2). intuition congruence.
Qed.

Lemma chosen_points c k threads w caches pointers : chosen c k threads w (threads / w) = Ok (CState caches pointers None 0) ->
  0 < w -> 0 < threads -> (c = false -> threads / w = 0) ->
  (points_to pointers (map cache_processors caches) <-> Nat.divide w threads).
Proof.
  unfold chosen. intros E W T F. destruct c.
  - rewrite build_level_ok in E by exact W. injection E as <- <-. now apply level_points.
  - injection E as <- <-. specialize (F eq_refl). split.
    + intros (owner & Q & (TI & _)). cbn in TI. apply (f_equal (@length _)) in Q. rewrite repeat_length, map_length in Q. lia.
    + intros (m & ->). rewrite Nat.div_mul in F by lia. subst m. lia.
Qed.

Lemma mach_levels calloc_ok x a o t : x86_mach_init calloc_ok x a = Ok o -> o_published o = Some t ->
  let says := config_says (ma_cacheconfig a) in let n := t_processors_count t in
  let core := n / t_cores_count t in let package := n / t_packages_count t in
  exact_level (xi_l1i x) n (says 1) core (t_l1i_of t) (t_l1i t) /\
  exact_level (xi_l1d x) n (says 1) core (t_l1d_of t) (t_l1d t) /\
  exact_level (xi_l2 x) n (says 2) (if (g_size (xc_geometry (xi_l3 x)) =? 0)%N then package else core) (t_l2_of t) (t_l2 t) /\
  exact_level (xi_l3 x) n (says 3) package (t_l3_of t) (t_l3 t) /\
  exact_level (xi_l4 x) n (says 4) n (t_l4_of t) (t_l4 t).
Proof.
  intros E PT. destruct (mach_cases calloc_ok x a o E) as [(N0 & _)|(ob & w & t' & EO & EW & ET & PT' & _)]; [congruence|].
  rewrite PT in PT'. injection PT' as <-. destruct (mach_numbers a) as (P0 & C0 & T0).
  assert (SAYS : forall l, 1 <= l <= 4 -> mt_threads_per_cache (mach_detect_topology a) l = config_says (ma_cacheconfig a) l).
  { intros l Hl. unfold mach_detect_topology, config_says. cbn [mt_threads_per_cache]. destruct (ma_cacheconfig a) as [c|]; [|reflexivity].
    rewrite <- (nth_firstn 0%N c 8 l) by lia. destruct (nth_error (firstn 8 c) l); reflexivity. }
  set (s := mach_detect_topology a) in *. apply build_tables_inv in ET. cbv zeta.
  rewrite (bt_processors_count _ _ _ _ _ _ _ ET), (bt_cores_count _ _ _ _ _ _ _ ET), (bt_packages_count _ _ _ _ _ _ _ ET).
  pose proof (bt_l1i _ _ _ _ _ _ _ ET) as L1. pose proof (bt_l1d _ _ _ _ _ _ _ ET) as L1'. pose proof (bt_l2 _ _ _ _ _ _ _ ET) as L2.
  pose proof (bt_l3 _ _ _ _ _ _ _ ET) as L3. pose proof (bt_l4 _ _ _ _ _ _ _ ET) as L4. clear ET.
  unfold mach_widths in EW. rewrite !SAYS in EW by lia. rewrite !divide_pos in EW by assumption.
  destruct (mach_width _ _ (config_says _ 1) _) as [[a1 b1]| |] eqn:E1; try discriminate. cbn [bind fst snd] in EW.
  destruct (mach_width _ _ (config_says _ 2) _) as [[a2 b2]| |] eqn:E2; try discriminate. cbn [bind fst snd] in EW.
  destruct (mach_width _ _ (config_says _ 3) _) as [[a3 b3]| |] eqn:E3; try discriminate. cbn [bind fst snd] in EW.
  destruct (mach_width _ _ (config_says _ 4) _) as [[a4 b4]| |] eqn:E4; try discriminate. cbn [bind fst snd] in EW.
  injection EW as <-. cbn [w_l1 w_l1_count w_l2 w_l2_count w_l3 w_l3_count w_l4 w_l4_count] in *.
  assert (PR : forall c, g_size (xc_geometry c) <> 0%N -> present c = true) by (intros c H; unfold present; apply Bool.negb_true_iff; now apply N.eqb_neq).
  assert (SB : forall r q v, 0 < v -> (r <> 0 -> v = r) -> (r = 0 -> Ok q = Ok v) -> v = shared_by r q).
  { intros r q v V R1 R2. unfold shared_by. destruct (Nat.eqb_spec r 0); [specialize (R2 e); now injection R2|now apply R1]. }
  split; [|split; [|split; [|split]]]; intros G.
  - apply mach_width_inv in E1; [|now rewrite (PR _ G)]. destruct E1 as (W & -> & R1 & R2). rewrite <- (SB _ _ a1 W R1 R2).
    apply (chosen_points _ _ _ _ _ _ L1 W T0). rewrite (PR _ G). discriminate.
  - apply mach_width_inv in E1; [|rewrite (PR _ G); apply Bool.orb_true_r]. destruct E1 as (W & -> & R1 & R2). rewrite <- (SB _ _ a1 W R1 R2).
    apply (chosen_points _ _ _ _ _ _ L1' W T0). rewrite (PR _ G). discriminate.
  - apply mach_width_inv in E2; [|exact (PR _ G)]. destruct E2 as (W & -> & R1 & R2). rewrite <- (SB _ _ a2 W R1).
    + apply (chosen_points _ _ _ _ _ _ L2 W T0). intros F. apply Nat.ltb_ge in F. now apply Nat.le_0_r in F.
    + intros Z. rewrite <- (R2 Z). unfold present. now destruct (_ =? 0)%N.
  - apply mach_width_inv in E3; [|exact (PR _ G)]. destruct E3 as (W & -> & R1 & R2). rewrite <- (SB _ _ a3 W R1 R2).
    apply (chosen_points _ _ _ _ _ _ L3 W T0). intros F. apply Nat.ltb_ge in F. now apply Nat.le_0_r in F.
  - apply mach_width_inv in E4; [|exact (PR _ G)]. destruct E4 as (W & -> & R1 & R2). rewrite <- (SB _ _ a4 W R1 R2).
    apply (chosen_points _ _ _ _ _ _ L4 W T0). intros F. apply Nat.ltb_ge in F. now apply Nat.le_0_r in F.
Qed.

(** ** Memory *)
Lemma freebsd_memory calloc_ok x a o : x86_freebsd_init calloc_ok x a = Ok o ->
  match o_published o with
  | None => o_live o = []
  | Some t => forall b, In b (o_live o) <-> published_block x t b
  end.
Proof.
  intros E. destruct (freebsd_cases calloc_ok x a o E) as [(N0 & L)|(P & cores & threads & tpc & ob & w & t & _ & _ & _ & ET & PT & L)].
  - now rewrite N0.
  - rewrite PT, L. apply build_tables_inv in ET. apply blocks_published; [apply (bt_l2_count _ _ _ _ _ _ _ ET)|apply (bt_l3_count _ _ _ _ _ _ _ ET)|apply (bt_l4_count _ _ _ _ _ _ _ ET)].
Qed.

Lemma mach_memory calloc_ok x a o : x86_mach_init calloc_ok x a = Ok o ->
  match o_published o with
  | None => o_live o = [] \/ exists b, calloc_ok b = false /\ ~ In b objects_blocks
  | Some t => forall b, In b (o_live o) <-> published_block x t b
  end.
Proof.
  intros E. destruct (mach_cases calloc_ok x a o E) as [(N0 & L)|(ob & w & t & _ & _ & ET & PT & L)].
  - now rewrite N0.
  - rewrite PT, L. apply build_tables_inv in ET. apply blocks_published; [apply (bt_l2_count _ _ _ _ _ _ _ ET)|apply (bt_l3_count _ _ _ _ _ _ _ ET)|apply (bt_l4_count _ _ _ _ _ _ _ ET)].
Qed.

(** ** The API *)
Lemma counts_pointers t : let g := final (x86_counts_commit t) in
  gl_initialized g = true /\
  (forall tb, gl_pointer g tb = match tb with
     | Processors => Some (Processors, length (t_processors t)) | Cores => Some (Cores, length (t_cores t))
     | Clusters => Some (Clusters, length (t_clusters t)) | Packages => Some (Packages, length (t_packages t))
     | Uarchs => None
     | Caches L1i => block_of (Caches L1i) (t_l1i t) | Caches L1d => block_of (Caches L1d) (t_l1d t)
     | Caches L2 => block_of (Caches L2) (t_l2 t) | Caches L3 => block_of (Caches L3) (t_l3 t) | Caches L4 => block_of (Caches L4) (t_l4 t) end) /\
  (forall tb, gl_count g tb = match tb with
     | Processors => N.of_nat (t_processors_count t) | Cores => N.of_nat (t_cores_count t)
     | Clusters => N.of_nat (t_clusters_count t) | Packages => N.of_nat (t_packages_count t)
     | Uarchs => 0%N
     | Caches L1i => N.of_nat (t_l1i_count t) | Caches L1d => N.of_nat (t_l1d_count t)
     | Caches L2 => N.of_nat (t_l2_count t) | Caches L3 => N.of_nat (t_l3_count t) | Caches L4 => N.of_nat (t_l4_count t) end).
Proof. intros g. unfold g. split; [reflexivity|split; intros [| | | | |[]]; reflexivity]. Qed.

Lemma block_agrees {A} tb (l : list A) (n : nat) : length l = n ->
  block_of tb l = Some (tb, N.to_nat (N.of_nat n)) \/ (block_of tb l = None /\ N.of_nat n = 0%N).
Proof. intros <-. destruct l; [now right|left]. cbn [block_of]. now rewrite Nat2N.id. Qed.

Lemma built_agree x P cores threads tpc ob w t tb : build_objects x P cores threads tpc = Ok ob -> built x P cores threads ob w t ->
  (present (xi_l1i x) || present (xi_l1d x) = false -> w_l1_count w = 0) ->
  both_or_neither x \/ ~ In tb [Caches L1i; Caches L1d] -> tb <> Uarchs -> agrees (final (x86_counts_commit t)) tb.
Proof.
  intros EO B Z C NU. destruct (build_objects_lengths _ _ _ _ _ _ EO) as (LP & LC & LL & LK).
  destruct (counts_pointers t) as (I & PT & CT). cbv zeta in *. unfold agrees.
  rewrite PT, CT. destruct B. destruct tb as [| | | | |[]].
  - left. rewrite Nat2N.id. congruence.
  - left. rewrite Nat2N.id. congruence.
  - left. rewrite Nat2N.id. congruence.
  - left. rewrite Nat2N.id. congruence.
  - now destruct NU.
  - apply block_agrees. apply chosen_lengths in bt_l1i0. cbn [cs_caches] in bt_l1i0. destruct bt_l1i0 as (_ & ->).
    destruct C as [C|C]; [|exfalso; apply C; cbn; auto]. unfold both_or_neither in C. unfold present in *.
    destruct (N.eqb_spec (g_size (xc_geometry (xi_l1i x))) 0) as [Q|Q]; cbn [negb]; [|congruence].
    rewrite Q in *. destruct C as (C & _). rewrite (C eq_refl) in Z. cbn in Z. rewrite Z in * by reflexivity. auto.
  - apply block_agrees. apply chosen_lengths in bt_l1d0. cbn [cs_caches] in bt_l1d0. destruct bt_l1d0 as (_ & ->).
    destruct C as [C|C]; [|exfalso; apply C; cbn; auto]. unfold both_or_neither in C. unfold present in *.
    destruct (N.eqb_spec (g_size (xc_geometry (xi_l1d x))) 0) as [Q|Q]; cbn [negb]; [|congruence].
    rewrite Q in *. destruct C as (_ & C). rewrite (C eq_refl) in Z. cbn in Z. rewrite Z in * by reflexivity. auto.
  - apply block_agrees. apply chosen_lengths in bt_l5. cbn [cs_caches] in bt_l5. destruct bt_l5 as (_ & ->). destruct (Nat.ltb_spec 0 (w_l2_count w)); lia.
  - apply block_agrees. apply chosen_lengths in bt_l6. cbn [cs_caches] in bt_l6. destruct bt_l6 as (_ & ->). destruct (Nat.ltb_spec 0 (w_l3_count w)); lia.
  - apply block_agrees. apply chosen_lengths in bt_l7. cbn [cs_caches] in bt_l7. destruct bt_l7 as (_ & ->). destruct (Nat.ltb_spec 0 (w_l4_count w)); lia.
Qed.

Lemma counts_elements t cpu tb i : (tb <> Uarchs -> agrees (final (x86_counts_commit t)) tb) ->
  exists n, ask x86_counts (final (x86_counts_commit t)) cpu (Get_count tb) = Number n /\
    ask x86_counts (final (x86_counts_commit t)) cpu (Get_element tb i) = if (i <? n)%N then Pointer tb (N.to_nat i) else Null.
Proof.
  intros A. destruct (counts_pointers t) as (I & _).
  assert (G : (tb = Uarchs -> False) -> exists k, ask x86_counts (final (x86_counts_commit t)) cpu (Get_count tb) = Number k /\
    ask x86_counts (final (x86_counts_commit t)) cpu (Get_element tb i) = if (i <? k)%N then Pointer tb (N.to_nat i) else Null).
  { intros NU. exists (gl_count (final (x86_counts_commit t)) tb). unfold ask, getter_prog, guarded. cbn [run_prog]. rewrite I.
    specialize (A NU). destruct tb as [| | | | |[]]; try (now destruct NU); (split; [reflexivity|]); exact (run_indexed _ cpu _ i A). }
  destruct tb as [| | | | |[]]; try (apply G; discriminate).
  exists 1%N. unfold ask, getter_prog, guarded. cbn [run_prog]. rewrite I. cbn [getter_body]. unfold uarchs_count, uarchs_indexed. cbn [x86_counts cf_multi_uarch].
  split; [reflexivity|]. destruct (N.eqb_spec i 0), (N.ltb_spec i 1); cbn; try lia; subst; reflexivity.
Qed.

Lemma freebsd_width_zero threads assumed d : freebsd_width false threads assumed = Ok d -> d = Some (0, 0).
Proof. unfold freebsd_width. intros E. now injection E. Qed.

Lemma freebsd_agree calloc_ok x a o t tb : x86_freebsd_init calloc_ok x a = Ok o -> o_published o = Some t ->
  both_or_neither x \/ ~ In tb [Caches L1i; Caches L1d] -> tb <> Uarchs -> agrees (final (x86_counts_commit t)) tb.
Proof.
  intros E PT C NU.
  destruct (freebsd_cases calloc_ok x a o E) as [(N0 & _)|(P & cores & threads & tpc & ob & w & t' & _ & EO & EW & ET & PT' & _)]; [congruence|].
  rewrite PT in PT'. injection PT' as <-. apply build_tables_inv in ET. apply (built_agree x P cores threads tpc ob w); auto.
  intros Z. unfold freebsd_widths in EW. rewrite Z in EW.
  destruct (freebsd_width false _ _) as [l1| |] eqn:E1; try discriminate. apply freebsd_width_zero in E1. subst l1. cbn [bind] in EW.
  destruct (freebsd_width _ _ _) as [[l2|]| |]; cbn [bind] in EW; try discriminate.
  destruct (freebsd_width _ _ _) as [[l3|]| |]; cbn [bind] in EW; try discriminate.
  destruct (freebsd_width _ _ _) as [[l4|]| |]; cbn [bind] in EW; try discriminate. now injection EW as <-.
Qed.

Lemma freebsd_elements calloc_ok x a o t cpu tb i : x86_freebsd_init calloc_ok x a = Ok o -> o_published o = Some t ->
  both_or_neither x \/ ~ In tb [Caches L1i; Caches L1d] ->
  exists n, ask x86_counts (final (x86_counts_routine o)) cpu (Get_count tb) = Number n /\
    ask x86_counts (final (x86_counts_routine o)) cpu (Get_element tb i) = if (i <? n)%N then Pointer tb (N.to_nat i) else Null.
Proof.
  intros E PT C. unfold x86_counts_routine. rewrite PT. apply counts_elements. now apply freebsd_agree with (calloc_ok := calloc_ok) (x := x) (a := a) (o := o).
Qed.

Lemma mach_agree calloc_ok x a o t tb : x86_mach_init calloc_ok x a = Ok o -> o_published o = Some t ->
  both_or_neither x \/ ~ In tb [Caches L1i; Caches L1d] -> tb <> Uarchs -> agrees (final (x86_counts_commit t)) tb.
Proof.
  intros E PT C NU.
  destruct (mach_cases calloc_ok x a o E) as [(N0 & _)|(ob & w & t' & EO & EW & ET & PT' & _)]; [congruence|].
  rewrite PT in PT'. injection PT' as <-. apply build_tables_inv in ET. eapply built_agree; eauto.
  intros Z. unfold mach_widths in EW. rewrite Z in EW. cbn [mach_width bind] in EW.
  destruct (mach_width _ _ _ _) as [l2| |]; try discriminate; cbn [bind] in EW.
  destruct (mach_width _ _ _ _) as [l3| |]; try discriminate; cbn [bind] in EW.
  destruct (mach_width _ _ _ _) as [l4| |]; try discriminate; cbn [bind] in EW. now injection EW as <-.
Qed.

Lemma mach_elements calloc_ok x a o t cpu tb i : x86_mach_init calloc_ok x a = Ok o -> o_published o = Some t ->
  both_or_neither x \/ ~ In tb [Caches L1i; Caches L1d] ->
  exists n, ask x86_counts (final (x86_counts_routine o)) cpu (Get_count tb) = Number n /\
    ask x86_counts (final (x86_counts_routine o)) cpu (Get_element tb i) = if (i <? n)%N then Pointer tb (N.to_nat i) else Null.
Proof.
  intros E PT C. unfold x86_counts_routine. rewrite PT. apply counts_elements. now apply mach_agree with (calloc_ok := calloc_ok) (x := x) (a := a) (o := o).
Qed.

(** ** APIC ids *)
Lemma tables_apic x P cpp tpc reported : 0 < P -> 0 < cpp -> 0 < tpc -> fields_defined x -> (N.of_nat (P * cpp * tpc) < two32)%N ->
  fields_suffice P cpp tpc x -> apic_described cpp x (tables_of x P cpp tpc reported (objects_of x P cpp tpc)).
Proof.
  intros PP CP TP FD B FS. split; cbn [tables_of objects_of t_processors t_cores ob_processors ob_cores].
  - rewrite map_map. cbn [p_apic_id processor_at].
    assert (H : forall m, m <= P * cpp * tpc -> NoDup (map (fun i => apic_at x cpp tpc i) (seq 0 m))).
    { induction m as [|m IH]; intros L; [constructor|]. rewrite seq_S, map_app. cbn [map plus].
      apply NoDup_rev in IH; [|lia]. rewrite <- (rev_involutive (_ ++ _)). apply NoDup_rev. rewrite rev_app_distr. cbn [rev app].
      constructor; [|exact IH]. rewrite <- in_rev, in_map_iff. intros (j & Ej & Hj). apply in_seq in Hj.
      apply (apic_at_injective x P cpp tpc PP CP TP FD B FS) in Ej; lia. }
    apply H. lia.
  - intros i p j c Hp Hj Hc. apply table_some in Hp. destruct Hp as (Hi & ->). cbn in Hj. injection Hj as <-.
    apply table_some in Hc. destruct Hc as (_ & ->). cbn [processor_at core_at p_apic_id p_smt_id p_package c_core_id].
    destruct (apic_at_fields x P cpp tpc PP CP TP FD B FS i Hi) as (F1 & F2 & F3). split; [exact F1|]. split.
    + exists (i / (cpp * tpc)). now split.
    + intros Q. rewrite F2, <- Q. symmetry. apply Nat2N.inj_mod.
Qed.

(** ** The whole statements *)
Lemma freebsd_describes calloc_ok x a P cpp tpc spec : 0 < P -> 0 < cpp -> 0 < tpc ->
  fa_spec a = Some spec -> package_groups spec P ->
  fa_cores a = Some (Z.of_nat (P * cpp)) -> fa_threads_per_core a = Some (Z.of_nat tpc) ->
  (N.of_nat (P * cpp * tpc) < two32)%N -> fields_defined x -> (forall b, calloc_ok b = true) ->
  exists o t, x86_freebsd_init calloc_ok x a = Ok o /\ o_published o = Some t /\
    describes P cpp tpc x t /\ caches_described P cpp tpc (fun _ => 0) x t /\ (fields_suffice P cpp tpc x -> apic_described cpp x t).
Proof.
  intros PP CP TP ES G EC ET B FD A. do 2 eexists. split; [now apply (x86_freebsd_success calloc_ok x a P cpp tpc spec)|].
  assert (F : forallb calloc_ok (needed x) = true) by (apply forallb_forall; auto). rewrite F. split; [reflexivity|].
  split; [apply tables_describe; auto|split; [apply tables_caches; auto|intros; now apply tables_apic]]. all: intros l _ H; congruence.
Qed.

Lemma mach_describes calloc_ok x a P cpp tpc : 0 < P -> 0 < cpp -> 0 < tpc ->
  mach_says (ma_physicalcpu_max a) (ma_logicalcpu_max a) (ma_packages a) P (P * cpp) (P * cpp * tpc) ->
  widths_divide P cpp tpc (config_says (ma_cacheconfig a)) ->
  (N.of_nat (P * cpp * tpc) < two32)%N -> fields_defined x -> (forall b, calloc_ok b = true) ->
  exists o t, x86_mach_init calloc_ok x a = Ok o /\ o_published o = Some t /\
    describes P cpp tpc x t /\ caches_described P cpp tpc (config_says (ma_cacheconfig a)) x t /\
    (fields_suffice P cpp tpc x -> apic_described cpp x t).
Proof.
  intros PP CP TP S WD B FD A. destruct (x86_mach_success calloc_ok x a P cpp tpc PP CP TP S WD B FD) as (left & E & _).
  assert (F : forallb calloc_ok (needed x) = true) by (apply forallb_forall; auto). rewrite F in E.
  do 2 eexists. split; [exact E|]. split; [reflexivity|].
  split; [apply tables_describe; auto|split; [apply tables_caches; auto|intros; now apply tables_apic]].
Qed.
