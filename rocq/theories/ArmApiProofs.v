(** The memory of ARM Linux detection, and the API on top of its tables. *)
From Verif Require Import Base BaseProofs Sorting Loops LinuxTextModel LinuxTextSpec TopologySpec ApiModel OnceModel ApiProofs X86ApiProofs
  ArmClustersModel ArmClusterMidrModel ArmCpuinfoModel ArmCpuinfoResultProofs ArmLinuxModel ArmBuildProofs ArmLinuxSpec ArmApiModel.
From Verif Require RiscvLinuxModel.
Import RiscvLinuxModel(copy_if, pred_index).
Open Scope nat_scope.

(** ** Memory *)

Lemma bind_Ok {A B} (e : res A) (f : A -> res B) b : bind e f = Ok b -> exists a, e = Ok a /\ f a = Ok b.
Proof. destruct e as [a| |]; cbn; try discriminate. eauto. Qed.

Lemma wr_length {A} (l : list A) i x l' : wr l i x = Ok l' -> length l' = length l.
Proof. unfold wr. destruct (i <? length l); [|discriminate]. intros H. injection H as <-. apply upd_length. Qed.

Lemma modify_length {A} (l : list A) i f l' : modify l i f = Ok l' -> length l' = length l.
Proof. unfold modify. destruct (nth_error l i); [|discriminate]. intros H. injection H as <-. apply upd_length. Qed.

Lemma copy_if_length {A} (b : bool) (l : list A) i x l' i' : copy_if b l i x = Ok (l', i') -> length l' = length l.
Proof.
  unfold copy_if. destruct b; [|intros H; injection H as <- _; reflexivity].
  intros H. apply bind_Ok in H. destruct H as (a & H & E). injection E as <- _. now apply wr_length in H.
Qed.

Ltac step H := apply bind_Ok in H; let a := fresh "a" in let E := fresh "E" in destruct H as (a & E & H).

Lemma place_sizes i p s s' : place i p s = Ok s' -> length (ts_processors s') = length (ts_processors s) /\ length (ts_cores s') = length (ts_cores s) /\
  length (ts_clusters s') = length (ts_clusters s) /\ length (ts_processor_map s') = length (ts_processor_map s) /\
  length (ts_core_map s') = length (ts_core_map s) /\ (ts_uarch_map s' = None <-> ts_uarch_map s = None).
Proof.
  unfold place. intros H. step H. destruct a as [cl nx]. step H. step H. step H. step H. step H. step H. injection H as <-. cbn.
  apply copy_if_length in E. apply wr_length in E1. apply wr_length in E2. apply wr_length in E3. apply wr_length in E4.
  repeat (split; [assumption|]). destruct (ts_uarch_map s); [|injection E5 as <-; tauto]. step E5. injection E5 as <-. split; discriminate.
Qed.

Lemma fill_sizes arm32 d chip ps i s s' : fill_step arm32 d chip ps i s = Ok s' ->
  let t := fs_topology s in let t' := fs_topology s' in
  length (ts_processors t') = length (ts_processors t) /\ length (ts_cores t') = length (ts_cores t) /\
  length (ts_clusters t') = length (ts_clusters t) /\ length (ts_processor_map t') = length (ts_processor_map t) /\
  length (ts_core_map t') = length (ts_core_map t) /\ (ts_uarch_map t' = None <-> ts_uarch_map t = None) /\
  length (fs_l1i s') = length (fs_l1i s) /\ length (fs_l1d s') = length (fs_l1d s) /\
  (n_l3 (fs_counts s) = 0 \/ n_l2 (fs_counts s) <> 0 -> n_l3 (fs_counts s') = 0 \/ n_l2 (fs_counts s') <> 0).
Proof.
  unfold fill_step. intros H. step H. step H. step H. step H. destruct a2 as [[[g1i g1d] g2] g3]. step H. step H. injection H as <-. cbn.
  apply place_sizes in E0. apply wr_length in E3. apply wr_length in E4. destruct E0 as (Z1 & Z2 & Z3 & Z4 & Z5 & Z6).
  repeat (split; [assumption|]). unfold count_caches. destruct (negb (g_size g3 =? 0)%N).
  - intros _. right. destruct (is_cluster_leader a); [|cbn; lia]. destruct (a1 =? 0); [cbn; lia|]. destruct (negb _); cbn; lia.
  - cbn. destruct (negb (g_size g2 =? 0)%N && is_cluster_leader a); lia.
Qed.

Lemma share_sizes d chip ps usable shared i s s' : share_step d chip ps usable shared i s = Ok s' ->
  length (ss_l2 s') = length (ss_l2 s) /\ length (ss_l3 s') = length (ss_l3 s).
Proof.
  unfold share_step. intros H. step H. step H. step H. destruct a1 as [[[g1i g1d] g2] g3].
  destruct (negb (g_size g3 =? 0)%N).
  - step H. step H. step H. step H. injection H as <-. cbn. apply wr_length in E2. split; [exact E2|].
    destruct (_ && _); [now apply wr_length in E4|now injection E4 as <-].
  - destruct (negb (g_size g2 =? 0)%N).
    + step H. destruct a1 as [l2 nx]. step H. step H. injection H as <-. cbn. apply copy_if_length in E2. auto.
    + injection H as <-. auto.
Qed.

(** Which blocks the published tables live in. *)
Definition arm_points_to (t : arm_tables) (b : ablock) : Prop :=
  match b with
  | A_linux_processors => False
  | A_uarch_map => at_uarch_map t <> None
  | A_l2 => at_l2 t <> []
  | A_l3 => at_l3 t <> []
  | _ => True
  end.

Lemma build_memory arm32 d chip calloc_ok usable clusters sorted o :
  build_arm arm32 d chip calloc_ok usable clusters sorted = Ok o ->
  match ao_published o with
  | None => ao_live o = []
  | Some t => NoDup (ao_live o) /\ (forall b, In b (ao_live o) <-> arm_points_to t b) /\
      length (at_cores t) = length (at_processors t) /\ length (at_l1i t) = length (at_processors t) /\ length (at_l1d t) = length (at_processors t) /\
      length (at_processor_map t) = N.to_nat (at_linux_cpu_max t) /\ length (at_core_map t) = N.to_nat (at_linux_cpu_max t)
  end.
Proof.
  unfold build_arm. destruct (number_uarchs 0 0 sorted) as [[nu last] ps].
  destruct (aallocate_spec calloc_ok (arm_allocations nu) [A_linux_processors]) as (AY & AN).
  destruct (forallb calloc_ok (arm_allocations nu)).
  2:{ destruct (AN eq_refl) as (some & ->). cbn [negb]. intros H. injection H as <-. cbn [ao_published ao_live]. apply acleanup_all. }
  rewrite (AY eq_refl). clear AY AN. cbn [negb]. intros H. step H. step H. rename a0 into f. rename E0 into EF.
  assert (ZF : length (ts_processors (fs_topology f)) = usable /\ length (ts_cores (fs_topology f)) = usable /\
    length (ts_processor_map (fs_topology f)) = length sorted /\ length (ts_core_map (fs_topology f)) = length sorted /\
    (ts_uarch_map (fs_topology f) = None <-> (1 <? nu) = false) /\ length (fs_l1i f) = usable /\ length (fs_l1d f) = usable /\
    (n_l3 (fs_counts f) = 0 \/ n_l2 (fs_counts f) <> 0)).
  { refine (for_each_keeps _ (fun _ f => length (ts_processors (fs_topology f)) = usable /\ length (ts_cores (fs_topology f)) = usable /\
    length (ts_processor_map (fs_topology f)) = length sorted /\ length (ts_core_map (fs_topology f)) = length sorted /\
    (ts_uarch_map (fs_topology f) = None <-> (1 <? nu) = false) /\ length (fs_l1i f) = usable /\ length (fs_l1d f) = usable /\
    (n_l3 (fs_counts f) = 0 \/ n_l2 (fs_counts f) <> 0)) _ _ _ _ EF _ _).
    - cbn [fs_topology fs_counts fs_l1i fs_l1d n_l2 n_l3 ts_processors ts_cores ts_clusters ts_processor_map ts_core_map ts_uarch_map].
      rewrite !repeat_length. repeat (split; [reflexivity|]). split; [destruct (1 <? nu); intuition congruence|]. auto.
    - intros i s s' _ HP HS. apply fill_sizes in HS. cbv zeta in HS. destruct HS as (Y1 & Y2 & Y3 & Y4 & Y5 & Y6 & Y7 & Y8 & Y9).
      destruct HP as (P1 & P2 & P3 & P4 & P5 & P6 & P7 & P8). rewrite Y1, Y2, Y4, Y5, Y6, Y7, Y8. auto 10. }
  destruct ZF as (Z1 & Z2 & Z3 & Z4 & Z5 & Z6 & Z7 & Z8).
  set (c2 := n_l2 (fs_counts f)) in *. set (c3 := n_l3 (fs_counts f)) in *.
  destruct (aallocate_spec calloc_ok (arm_cache_allocations c2 c3) (rev (arm_allocations nu) ++ [A_linux_processors])) as (AY & AN).
  destruct (forallb calloc_ok (arm_cache_allocations c2 c3)).
  2:{ destruct (AN eq_refl) as (some & EE). rewrite EE in H. cbn [negb] in H. injection H as <-. cbn [ao_published ao_live]. apply acleanup_all. }
  rewrite (AY eq_refl) in H. clear AY AN. cbn [negb] in H. step H. rename a0 into s. rename E0 into ES. step H. injection H as <-.
  cbn [ao_published ao_live at_cores at_processors at_l1i at_l1d at_processor_map at_core_map at_linux_cpu_max].
  assert (ZS : length (ss_l2 s) = c2 /\ length (ss_l3 s) = if c2 =? 0 then 0 else c3).
  { refine (for_each_keeps _ (fun _ s => length (ss_l2 s) = c2 /\ length (ss_l3 s) = if c2 =? 0 then 0 else c3) _ _ _ _ ES _ _).
    - cbn. rewrite repeat_length. split; [reflexivity|]. destruct (c2 =? 0); [reflexivity|apply repeat_length].
    - intros i x x' _ (P1 & P2) HS. apply share_sizes in HS. destruct HS as (-> & ->). auto. }
  destruct ZS as (L2 & L3).
  assert (B2 : ss_l2 s <> [] <-> (c2 =? 0) = false) by (rewrite Nat.eqb_neq; destruct (ss_l2 s); cbn in L2; split; intros; congruence).
  assert (B3 : ss_l3 s <> [] <-> (c3 =? 0) = false).
  { rewrite Nat.eqb_neq. destruct (Nat.eqb_spec c2 0) as [X|X]; destruct (ss_l3 s); cbn in L3; split; intros; try congruence; try lia. }
  assert (B4 : ts_uarch_map (fs_topology f) <> None <-> (1 <? nu) = true) by (rewrite Z5; destruct (1 <? nu); intuition congruence).
  rewrite acleanup_reset, Nat2N.id. split; [|split; [|repeat split; congruence]].
  - apply NoDup_filter. unfold arm_cache_allocations, arm_allocations.
    destruct (c2 =? 0), (c3 =? 0), (1 <? nu); cbn; repeat (constructor; [intros X; repeat (destruct X as [X|X]; [discriminate X|]); exact X|]); constructor.
  - intros b. rewrite filter_In, in_app_iff, in_app_iff, <- !in_rev. cbn [In].
    unfold arm_cache_allocations, arm_allocations.
    clear - Z8 B2 B3 B4. assert (X : (c2 =? 0) = true -> (c3 =? 0) = true) by (rewrite !Nat.eqb_eq; lia).
    destruct b; cbn [arm_points_to at_uarch_map at_l2 at_l3]; try rewrite B2; try rewrite B3; try rewrite B4; clear B2 B3 B4; destruct (c2 =? 0), (c3 =? 0), (1 <? nu); cbn; intuition discriminate.
Qed.

Lemma init_memory sg arm32 android garbage default sorter calloc_ok d fs o :
  arm_linux_init sg arm32 android garbage default sorter calloc_ok d fs = Ok o ->
  match ao_published o with
  | None => (exists ms, arm_cpuinfo_says arm32 (amf_cpuinfo fs) ms) -> ao_live o = []
  | Some t => NoDup (ao_live o) /\ forall b, In b (ao_live o) <-> arm_points_to t b
  end.
Proof.
  unfold arm_linux_init, with_lists. intros H. step H. step H. step H. cbv zeta in H.
  destruct (negb (_ || _)) in H; [injection H as <-; intros _; reflexivity|].
  destruct (negb (calloc_ok A_linux_processors)) in H; [injection H as <-; intros _; reflexivity|].
  step H. step H. destruct a3 as [[[[chip n] k] ps]|].
  - apply build_memory in H. destruct (ao_published o); [tauto|auto].
  - injection H as <-. cbn [ao_published ao_live]. intros (ms & Hw & lines & Hc & H1 & H2 & H3 & H4). exfalso.
    unfold detect_arm, read_board in E3. cbv zeta in E3. rewrite Hc in E3.
    destruct (arm_file_result arm32 sg (N.of_nat (length a2)) (f_reads (amf_cpuinfo fs)) (repeat None hardware_value_max)
              (repeat None revision_value_max) (map (fun f => with_aflags f aproc0) a2) lines ms Hw H1 H2 H3 H4)
      as (st & EP & _); [now rewrite map_length, Nat2N.id|apply repeat_length|apply repeat_length|].
    rewrite EP in E3. cbn [bind negb] in E3. step E3. step E3. step E3. step E3. destruct a6. discriminate E3.
Qed.

(** ** The API *)

Definition arm_globals (t : arm_tables) : globals := final (arm_linux_commit t).

Lemma arm_linux_flag_last o : flag_last (arm_linux_routine o).
Proof.
  unfold arm_linux_routine, flag_last. destruct (ao_published o) as [t|], (ao_isa o).
  - apply (app_cons_last (removelast (St_other :: arm_linux_commit t))). cbn. intuition discriminate.
  - apply (app_cons_last (removelast (arm_linux_commit t))). cbn. intuition discriminate.
  - intros [|x [|]] l2 H; discriminate.
  - intros [|] l2 H; discriminate.
Qed.

Lemma arm_linux_publishes o : publishes (arm_linux_routine o) <-> ao_published o <> None.
Proof.
  unfold arm_linux_routine, publishes. rewrite in_app_iff. destruct (ao_published o) as [t|].
  - split; [discriminate|]. intros _. right. unfold arm_linux_commit. cbn. do 23 right. now left.
  - destruct (ao_isa o); cbn; intuition discriminate.
Qed.

Lemma arm_final o t : ao_published o = Some t -> final (arm_linux_routine o) = arm_globals t.
Proof. intros H. unfold arm_linux_routine. rewrite H. destruct (ao_isa o); reflexivity. Qed.

Lemma arm_any_schedule o l1 i g a l2 s :
  run arm_linux (arm_linux_routine o) system0 (l1 ++ Getter_ends i g a :: l2) s ->
  a = Fatal \/ exists t cpu, ao_published o = Some t /\ a = ask arm_linux (arm_globals t) cpu g.
Proof.
  intros H. apply getter_answers in H; [|apply arm_linux_flag_last].
  destruct H as [->|(H & _ & cpu & ->)]; [now left|right].
  apply arm_linux_publishes in H. destruct (ao_published o) as [t|] eqn:E; [|congruence].
  exists t, cpu. now rewrite (arm_final o t E).
Qed.

Lemma arm_counts t : length (at_cores t) = length (at_processors t) -> length (at_l1i t) = length (at_processors t) ->
  length (at_l1d t) = length (at_processors t) -> counts_agree arm_linux (arm_globals t).
Proof.
  intros H1 H2 H3 tb Htb. unfold arm_globals, final, apply_stores, arm_linux_commit, globals0. cbn [fold_left apply_store].
  destruct tb as [| | | | |[]]; cbn [set_table table_eqb level_eqb gl_pointer gl_count]; try (apply block_of_agrees; reflexivity);
    try (right; split; reflexivity); left; rewrite ?Nat2N.id, ?H1, ?H2, ?H3; reflexivity.
Qed.

Lemma init_sizes sg arm32 android garbage default sorter calloc_ok d fs o t :
  arm_linux_init sg arm32 android garbage default sorter calloc_ok d fs = Ok o -> ao_published o = Some t ->
  length (at_cores t) = length (at_processors t) /\ length (at_l1i t) = length (at_processors t) /\ length (at_l1d t) = length (at_processors t) /\
  length (at_processor_map t) = N.to_nat (at_linux_cpu_max t) /\ length (at_core_map t) = N.to_nat (at_linux_cpu_max t).
Proof.
  unfold arm_linux_init, with_lists. intros H P. step H. step H. step H. cbv zeta in H.
  destruct (negb (_ || _)) in H; [injection H as <-; discriminate P|].
  destruct (negb (calloc_ok A_linux_processors)) in H; [injection H as <-; discriminate P|].
  step H. step H. destruct a3 as [[[[chip n] k] ps]|]; [|injection H as <-; discriminate P].
  apply build_memory in H. rewrite P in H. tauto.
Qed.

Lemma arm_elements sg arm32 android garbage default sorter calloc_ok d fs o t :
  arm_linux_init sg arm32 android garbage default sorter calloc_ok d fs = Ok o -> ao_published o = Some t -> forall tb i cpu, exists n,
  ask arm_linux (arm_globals t) cpu (Get_count tb) = Number n /\
  ask arm_linux (arm_globals t) cpu (Get_element tb i) = if (i <? n)%N then Pointer tb (N.to_nat i) else Null.
Proof.
  intros H P tb i cpu. destruct (init_sizes _ _ _ _ _ _ _ _ _ _ _ H P) as (Z1 & Z2 & Z3 & _).
  apply ask_element; [reflexivity|]. now apply arm_counts.
Qed.

(** The lookups of the current processor and core do what the tables say. *)
Definition current_says (t : arm_tables) (cpu : option N) : Prop :=
  ((forall i p, nth_error (at_processors t) i = Some p -> cpu = Some (p_linux_id p) ->
      ask arm_linux (arm_globals t) cpu Get_current_processor = Pointer Processors i) /\
   ((forall p, In p (at_processors t) -> cpu <> Some (p_linux_id p)) ->
      ask arm_linux (arm_globals t) cpu Get_current_processor = Null)) /\
  ((forall i p j, nth_error (at_processors t) i = Some p -> cpu = Some (p_linux_id p) -> p_core p = Some j ->
      ask arm_linux (arm_globals t) cpu Get_current_core = Pointer Cores j) /\
   ((forall p, In p (at_processors t) -> cpu <> Some (p_linux_id p)) ->
      ask arm_linux (arm_globals t) cpu Get_current_core = Null)).

Lemma arm_current t cpu : arm_maps t -> current_says t cpu.
Proof.
  intros [(L1 & L2) M1 M2]. unfold current_says.
  assert (E1 : ask arm_linux (arm_globals t) cpu Get_current_processor =
    match cpu with None => Null | Some n => if (at_linux_cpu_max t <=? n)%N then Null else
      match nth_error (at_processor_map t) (N.to_nat n) with
      | Some (Some i) => Pointer Processors i | Some None => Null | None => Undefined end end).
  { unfold ask, getter_prog, guarded. cbn. destruct cpu as [n|]; [|reflexivity]. cbn. destruct (_ <=? _)%N; reflexivity. }
  assert (E2 : ask arm_linux (arm_globals t) cpu Get_current_core =
    match cpu with None => Null | Some n => if (at_linux_cpu_max t <=? n)%N then Null else
      match nth_error (at_core_map t) (N.to_nat n) with
      | Some (Some i) => Pointer Cores i | Some None => Null | None => Undefined end end).
  { unfold ask, getter_prog, guarded. cbn. destruct cpu as [n|]; [|reflexivity]. cbn. destruct (_ <=? _)%N; reflexivity. }
  rewrite E1, E2. clear E1 E2.
  assert (HB : forall i p, nth_error (at_processors t) i = Some p -> (at_linux_cpu_max t <=? p_linux_id p)%N = false).
  { intros i p H. destruct (M1 i p H) as (K & _). apply nth_error_some_lt in K. rewrite L1 in K. lia. }
  split; split.
  - intros i p H ->. rewrite (HB i p H), (proj1 (M1 i p H)). reflexivity.
  - intros H. destruct cpu as [n|]; [|reflexivity]. destruct (N.leb_spec (at_linux_cpu_max t) n) as [|Hn]; [reflexivity|].
    destruct (M2 (N.to_nat n)) as (K & _); [lia| |now rewrite K]. intros p Hp E. apply (H p Hp). f_equal. lia.
  - intros i p j H -> Hj. rewrite (HB i p H), (proj2 (M1 i p H)), Hj. reflexivity.
  - intros H. destruct cpu as [n|]; [|reflexivity]. destruct (N.leb_spec (at_linux_cpu_max t) n) as [|Hn]; [reflexivity|].
    destruct (M2 (N.to_nat n)) as (_ & K); [lia| |now rewrite K]. intros p Hp E. apply (H p Hp). f_equal. lia.
Qed.

(** The current microarchitecture is one of those listed, and on a listed CPU it is that
    of the core. *)
Definition current_uarch_says (t : arm_tables) (cpu : option N) (default : N) : Prop := exists n u v,
  ask arm_linux (arm_globals t) cpu (Get_count Uarchs) = Number n /\
  ask arm_linux (arm_globals t) cpu Get_current_uarch_index = Number u /\ (u < n)%N /\
  ask arm_linux (arm_globals t) cpu (Get_current_uarch_index_with_default default) = Number v /\
  (v <> u -> v = default /\ forall p, In p (at_processors t) -> cpu <> Some (p_linux_id p)) /\
  forall i p c, nth_error (at_processors t) i = Some p -> cpu = Some (p_linux_id p) -> nth_error (at_cores t) i = Some c ->
    exists a, nth_error (at_uarchs t) (N.to_nat u) = Some a /\ au_uarch a = c_uarch c.

Lemma arm_current_uarch t kind cpu default : arm_maps t -> arm_kinds t kind -> current_uarch_says t cpu default.
Proof.
  intros [(L1 & L2) M1 M2] [R KA KC KU KD KM]. unfold current_uarch_says.
  assert (HB : forall i p, nth_error (at_processors t) i = Some p -> (p_linux_id p < at_linux_cpu_max t)%N).
  { intros i p H. destruct (M1 i p H) as (K & _). apply nth_error_some_lt in K. rewrite L1 in K. lia. }
  exists (N.of_nat (length (at_uarchs t))).
  assert (KK : forall i p, nth_error (at_processors t) i = Some p -> exists k, nth_error kind i = Some k /\ k < length (at_uarchs t)).
  { intros i p H. apply nth_error_some_lt in H. rewrite <- KA in H. destruct (nth_error kind i) as [k|] eqn:E; [|apply nth_error_None in E; lia].
    exists k. split; [reflexivity|]. destruct R as (starts & LS & G). destruct G as (_ & G).
    apply G in E. destruct E as (s & c & E & _). apply nth_error_some_lt in E. rewrite combine_length, map_length in E. lia. }
  destruct (at_uarch_map t) as [m|] eqn:EM.
  - destruct KM as (LM & K1 & KB & KI).
    assert (E : forall k other, k = Get_current_uarch_index /\ other = 0%N \/ k = Get_current_uarch_index_with_default default /\ other = default ->
      ask arm_linux (arm_globals t) cpu k =
      match cpu with None => Number other | Some n => if (at_linux_cpu_max t <=? n)%N then Number other else
        match nth_error (map N.of_nat m) (N.to_nat n) with Some u => Number u | None => Undefined end end).
    { intros k other H. unfold ask, getter_prog, guarded, arm_globals, final, apply_stores, arm_linux_commit. rewrite EM.
      destruct H as [(-> & ->)|(-> & ->)]; cbn; (destruct cpu as [n|]; [|reflexivity]; cbn; destruct (_ <=? _)%N; reflexivity). }
    rewrite (E Get_current_uarch_index 0%N) by auto. rewrite (E (Get_current_uarch_index_with_default default) default) by auto. clear E.
    assert (OUT : forall c, (at_linux_cpu_max t <= c)%N -> forall p, In p (at_processors t) -> Some c <> Some (p_linux_id p)).
    { intros c Hc p Hp Eq. injection Eq as ->. apply In_nth_error in Hp. destruct Hp as (i & Hp). specialize (HB i p Hp). lia. }
    destruct cpu as [c|]; [|exists 0%N, default; split; [reflexivity|]; split; [reflexivity|]; split; [lia|]; split; [reflexivity|]; split; [split; [reflexivity|discriminate]|discriminate]].
    destruct (N.leb_spec (at_linux_cpu_max t) c) as [Hc|Hc].
    + exists 0%N, default. split; [reflexivity|]. split; [reflexivity|]. split; [lia|]. split; [reflexivity|]. split; [split; auto|].
      intros i p x Hp Eq. exfalso. apply nth_error_In in Hp. now apply (OUT c Hc p Hp).
    + assert (Hlt : N.to_nat c < length m) by lia.
      apply nth_error_Some in Hlt. destruct (nth_error m (N.to_nat c)) as [u|] eqn:Eu; [clear Hlt|congruence].
      rewrite (map_nth_error _ _ _ Eu). exists (N.of_nat u), (N.of_nat u).
      pose proof Eu as Hin. apply nth_error_In in Hin. rewrite Forall_forall in KB. specialize (KB u Hin).
      split; [reflexivity|]. split; [reflexivity|]. split; [lia|]. split; [reflexivity|]. split; [congruence|].
      intros i p x Hp Eq Hx. injection Eq as ->. destruct (KK i p Hp) as (k & Ek & Hk). rewrite (KI i p k Hp Ek) in Eu. injection Eu as <-.
      rewrite Nat2N.id. destruct (nth_error (at_uarchs t) k) as [a|] eqn:Ea; [|apply nth_error_None in Ea; lia]. exists a. split; [reflexivity|].
      eapply KU; eauto.
  - exists 0%N, 0%N.
    assert (E : gl_uarch_map (arm_globals t) = None /\ gl_initialized (arm_globals t) = true).
    { unfold arm_globals, final, apply_stores, arm_linux_commit. rewrite EM. split; reflexivity. }
    destruct (uarch_without_map arm_linux (arm_globals t) cpu default (proj2 E) eq_refl eq_refl (proj1 E)) as (-> & ->).
    split; [reflexivity|]. split; [reflexivity|]. split; [lia|]. split; [reflexivity|]. split; [congruence|].
    intros i p c Hp Eq Hc. destruct (KK i p Hp) as (k & Ek & Hk). rewrite KM in Hk. assert (k = 0) by lia. subst k.
    destruct (at_uarchs t) as [|a l] eqn:Ea; [discriminate KM|]. exists a. split; [reflexivity|]. apply (KU i c 0 a Hc Ek). reflexivity.
Qed.
