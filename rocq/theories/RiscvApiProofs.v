(** The API on top of the tables published by RISC-V Linux detection, and what
    the ranges in those tables mean. *)
From Verif Require Import Base BaseProofs Sorting TopologySpec ApiModel OnceModel ApiProofs X86ApiProofs
  RiscvLinuxModel RiscvLinuxSpec RiscvApiModel RiscvInitProofs.
Open Scope nat_scope.

Definition riscv_globals (t : riscv_tables) : globals := final (riscv_linux_commit t).

Lemma riscv_linux_flag_last o : flag_last (riscv_linux_routine o).
Proof.
  unfold riscv_linux_routine, flag_last. destruct (ro_published o) as [t|], (ro_isa o).
  - apply (app_cons_last (removelast (St_other :: riscv_linux_commit t))). cbn. intuition discriminate.
  - apply (app_cons_last (removelast (riscv_linux_commit t))). cbn. intuition discriminate.
  - intros [|x [|]] l2 H; discriminate.
  - intros [|] l2 H; discriminate.
Qed.

Lemma riscv_linux_publishes o : publishes (riscv_linux_routine o) <-> ro_published o <> None.
Proof.
  unfold riscv_linux_routine, publishes. rewrite in_app_iff. destruct (ro_published o) as [t|].
  - split; [discriminate|]. intros _. right. unfold riscv_linux_commit. cbn. do 14 right. now left.
  - destruct (ro_isa o); cbn; intuition discriminate.
Qed.

Lemma riscv_final o t : ro_published o = Some t -> final (riscv_linux_routine o) = riscv_globals t.
Proof. intros H. unfold riscv_linux_routine. rewrite H. destruct (ro_isa o); reflexivity. Qed.

Lemma riscv_any_schedule o l1 i g a l2 s :
  run riscv_linux (riscv_linux_routine o) system0 (l1 ++ Getter_ends i g a :: l2) s ->
  a = Fatal \/ exists t cpu, ro_published o = Some t /\ a = ask riscv_linux (riscv_globals t) cpu g.
Proof.
  intros H. apply getter_answers in H; [|apply riscv_linux_flag_last].
  destruct H as [->|(H & _ & cpu & ->)]; [now left|right].
  apply riscv_linux_publishes in H. destruct (ro_published o) as [t|] eqn:E; [|congruence].
  exists t, cpu. now rewrite (riscv_final o t E).
Qed.

Lemma riscv_counts t : counts_agree riscv_linux (riscv_globals t).
Proof.
  intros tb Htb. unfold riscv_globals, final, apply_stores, riscv_linux_commit, globals0. cbn [fold_left apply_store].
  destruct tb as [| | | | |[]]; cbn [set_table table_eqb level_eqb gl_pointer gl_count];
    try (left; rewrite Nat2N.id; reflexivity); right; split; reflexivity.
Qed.

Lemma riscv_elements t tb i cpu : exists n,
  ask riscv_linux (riscv_globals t) cpu (Get_count tb) = Number n /\
  ask riscv_linux (riscv_globals t) cpu (Get_element tb i) = if (i <? n)%N then Pointer tb (N.to_nat i) else Null.
Proof. apply ask_element; [reflexivity|]. apply riscv_counts. Qed.

Section LOOKUPS.
Variables (sg : bool) (default : N) (sorter : list rproc -> list rproc) (calloc_ok : rblock -> bool)
  (fs : riscv_files) (o : routcome) (t : riscv_tables).
Hypothesis Hs : riscv_sorter sorter.
Hypothesis Hinit : riscv_linux_init sg default sorter calloc_ok fs = Ok o.
Hypothesis Hpub : ro_published o = Some t.

Lemma riscv_current cpu :
  ((forall i p, nth_error (rt_processors t) i = Some p -> cpu = Some (p_linux_id p) ->
      ask riscv_linux (riscv_globals t) cpu Get_current_processor = Pointer Processors i) /\
   ((forall p, In p (rt_processors t) -> cpu <> Some (p_linux_id p)) ->
      ask riscv_linux (riscv_globals t) cpu Get_current_processor = Null)) /\
  ((forall i p j, nth_error (rt_processors t) i = Some p -> cpu = Some (p_linux_id p) -> p_core p = Some j ->
      ask riscv_linux (riscv_globals t) cpu Get_current_core = Pointer Cores j) /\
   ((forall p, In p (rt_processors t) -> cpu <> Some (p_linux_id p)) ->
      ask riscv_linux (riscv_globals t) cpu Get_current_core = Null)).
Proof.
  destruct (init_maps sg default sorter calloc_ok fs o t Hs Hinit Hpub) as ([(L1 & L2 & L3) M1 M2] & _).
  assert (E1 : ask riscv_linux (riscv_globals t) cpu Get_current_processor =
    match cpu with None => Null | Some n => if (rt_linux_cpu_max t <=? n)%N then Null else
      match nth_error (rt_processor_map t) (N.to_nat n) with
      | Some (Some i) => Pointer Processors i | Some None => Null | None => Undefined end end).
  { unfold ask, getter_prog, guarded. cbn. destruct cpu as [n|]; [|reflexivity]. cbn. destruct (_ <=? _)%N; reflexivity. }
  assert (E2 : ask riscv_linux (riscv_globals t) cpu Get_current_core =
    match cpu with None => Null | Some n => if (rt_linux_cpu_max t <=? n)%N then Null else
      match nth_error (rt_core_map t) (N.to_nat n) with
      | Some (Some i) => Pointer Cores i | Some None => Null | None => Undefined end end).
  { unfold ask, getter_prog, guarded. cbn. destruct cpu as [n|]; [|reflexivity]. cbn. destruct (_ <=? _)%N; reflexivity. }
  rewrite E1, E2. clear E1 E2.
  assert (HB : forall i p, nth_error (rt_processors t) i = Some p -> (rt_linux_cpu_max t <=? p_linux_id p)%N = false).
  { intros i p H. destruct (M1 i p H) as (K & _). apply nth_error_some_lt in K. rewrite L1 in K. lia. }
  split; split.
  - intros i p H ->. rewrite (HB i p H), (proj1 (M1 i p H)). reflexivity.
  - intros H. destruct cpu as [n|]; [|reflexivity]. destruct (N.leb_spec (rt_linux_cpu_max t) n) as [|Hn]; [reflexivity|].
    destruct (M2 (N.to_nat n)) as (K & _); [lia| |now rewrite K]. intros p Hp E. apply (H p Hp). f_equal. lia.
  - intros i p j H -> Hj. rewrite (HB i p H), (proj2 (M1 i p H)), Hj. reflexivity.
  - intros H. destruct cpu as [n|]; [|reflexivity]. destruct (N.leb_spec (rt_linux_cpu_max t) n) as [|Hn]; [reflexivity|].
    destruct (M2 (N.to_nat n)) as (_ & K); [lia| |now rewrite K]. intros p Hp E. apply (H p Hp). f_equal. lia.
Qed.

(** The current microarchitecture is one of those listed. *)
Lemma riscv_current_uarch cpu d : rt_processors t <> [] -> exists n u v,
  ask riscv_linux (riscv_globals t) cpu (Get_count Uarchs) = Number n /\
  ask riscv_linux (riscv_globals t) cpu Get_current_uarch_index = Number u /\ (u < n)%N /\
  ask riscv_linux (riscv_globals t) cpu (Get_current_uarch_index_with_default d) = Number v /\
  if match cpu with Some c => (c <? rt_linux_cpu_max t)%N | None => false end then (v < n)%N else v = d.
Proof.
  intros Hne. destruct (init_maps sg default sorter calloc_ok fs o t Hs Hinit Hpub) as ([(L1 & L2 & L3) M1 M2] & _ & HB & HU).
  specialize (HU Hne).
  assert (HM : rt_uarch_index_map t <> []).
  { destruct (rt_processors t) as [|p l]; [congruence|]. apply Forall_cons_iff in HB. destruct HB as (HB & _).
    intros X. rewrite X in L3. cbn in L3. lia. }
  assert (Hpos : 0 < length (rt_uarchs t)).
  { destruct (rt_uarch_index_map t) as [|u l]; [congruence|]. apply Forall_cons_iff in HU. lia. }
  assert (E : forall k other, k = Get_current_uarch_index /\ other = 0%N \/
                              k = Get_current_uarch_index_with_default d /\ other = d ->
    ask riscv_linux (riscv_globals t) cpu k =
    match cpu with None => Number other | Some n => if (rt_linux_cpu_max t <=? n)%N then Number other else
      match nth_error (map N.of_nat (rt_uarch_index_map t)) (N.to_nat n) with
      | Some u => Number u | None => Undefined end end).
  { intros k other H. unfold ask, getter_prog, guarded. destruct H as [(-> & ->)|(-> & ->)]; cbn;
      (destruct cpu as [n|]; [|reflexivity]; cbn; destruct (_ <=? _)%N; reflexivity). }
  exists (N.of_nat (length (rt_uarchs t))).
  rewrite (E Get_current_uarch_index 0%N) by auto. rewrite (E (Get_current_uarch_index_with_default d) d) by auto.
  destruct cpu as [c|]; [|exists 0%N, d; split; [reflexivity|]; split; [reflexivity|]; split; [lia|auto]].
  destruct (N.leb_spec (rt_linux_cpu_max t) c) as [Hc|Hc].
  - exists 0%N, d. split; [reflexivity|]. split; [reflexivity|]. split; [lia|]. split; [reflexivity|].
    destruct (N.ltb_spec c (rt_linux_cpu_max t)); [lia|reflexivity].
  - assert (Hlt : N.to_nat c < length (rt_uarch_index_map t)) by lia.
    apply nth_error_Some in Hlt. destruct (nth_error (rt_uarch_index_map t) (N.to_nat c)) as [u|] eqn:Eu; [clear Hlt|congruence].
    rewrite (map_nth_error _ _ _ Eu). exists (N.of_nat u), (N.of_nat u).
    apply nth_error_In in Eu. rewrite Forall_forall in HU. specialize (HU u Eu).
    split; [reflexivity|]. split; [reflexivity|]. split; [lia|]. split; [reflexivity|].
    destruct (N.ltb_spec c (rt_linux_cpu_max t)); lia.
Qed.
End LOOKUPS.

(** ** Ranges, when the CPU numbers have no gaps *)
Lemma sorted_head l : StronglySorted lt l -> forall j, In j l -> hd 0 l <= j.
Proof.
  intros H j Hj. destruct l as [|a l]; [destruct Hj|]. cbn. apply StronglySorted_inv in H. destruct H as (_ & H).
  destruct Hj as [->|Hj]; [lia|]. rewrite Forall_forall in H. specialize (H j Hj). lia.
Qed.

Lemma convex_seq l : StronglySorted lt l -> (forall a b c, In a l -> In c l -> a <= b <= c -> In b l) ->
  l = seq (hd 0 l) (length l).
Proof.
  induction l as [|a l IH]; intros Hs Hc; [reflexivity|]. cbn [length seq hd]. f_equal.
  pose proof (StronglySorted_inv Hs) as (Hs' & Ha). rewrite Forall_forall in Ha.
  assert (Hc' : forall x b c, In x l -> In c l -> x <= b <= c -> In b l).
  { intros x b c Hx Hcc Hb. destruct (Hc x b c) as [E|H]; [now right|now right|exact Hb| |exact H]. subst b. specialize (Ha x Hx). lia. }
  rewrite (IH Hs' Hc') at 1. destruct l as [|b l]; [reflexivity|]. f_equal. cbn [hd].
  assert (Hb : a < b) by (apply Ha; now left).
  destruct (Hc a (S a) b) as [E|H]; [now left|right; now left|lia|lia|].
  pose proof (sorted_head _ Hs' (S a) H) as X. cbn in X. lia.
Qed.

Lemma convex_range l j : StronglySorted lt l -> (forall a b c, In a l -> In c l -> a <= b <= c -> In b l) ->
  (In j l <-> hd 0 l <= j < hd 0 l + length l).
Proof. intros Hs Hc. rewrite (convex_seq l Hs Hc) at 1. apply in_seq. Qed.

Lemma seq_sorted n : forall s, StronglySorted lt (seq s n).
Proof.
  induction n as [|n IH]; intros s; cbn; constructor; [apply IH|]. rewrite Forall_forall. intros x Hx. apply in_seq in Hx. lia.
Qed.

Lemma filter_sorted (f : nat -> bool) l : StronglySorted lt l -> StronglySorted lt (filter f l).
Proof.
  induction 1 as [|a l Hs IH Ha]; cbn; [constructor|]. destruct (f a); [|exact IH]. constructor; [exact IH|].
  rewrite Forall_forall in *. intros x Hx. apply filter_In in Hx. now apply Ha.
Qed.

Lemma members_range n group v cpu j : contiguous (seq 0 n) group -> cpu < n -> j < n ->
  let m := members (seq 0 n) group v cpu in
  (group v j = group v cpu <-> hd 0 m <= j < hd 0 m + length m).
Proof.
  intros Hc Hcpu Hj m. rewrite <- convex_range.
  - unfold m, members. rewrite filter_In, in_seq, Nat.eqb_eq. split; [intros H; split; [lia|exact H]|tauto].
  - apply filter_sorted, seq_sorted.
  - intros a b c Ha Hcc Hb. unfold m, members in *. rewrite filter_In, in_seq, Nat.eqb_eq in *. destruct Ha as (Ha & Ea), Hcc as (Hcc & Ec).
    split; [lia|]. rewrite <- Ea. apply (Hc v a b c); try (apply in_seq; lia); [lia|congruence].
Qed.

Lemma dense_ranges n group t : contiguous (seq 0 n) group -> riscv_reports (seq 0 n) group t ->
  range_is t p_core (rt_cores t) c_processor_start c_processor_count /\
  range_is t p_cluster (rt_clusters t) cl_processor_start cl_processor_count /\
  range_is t p_package (rt_packages t) pk_processor_start pk_processor_count.
Proof.
  intros Hc [R1 R2 R3 R4 R5].
  assert (ID : forall j p, nth_error (rt_processors t) j = Some p -> N.to_nat (p_linux_id p) = j /\ j < n).
  { intros j p H. apply (map_nth_error p_linux_id) in H. rewrite R1 in H. rewrite nth_error_map in H.
    destruct (nth_error (seq 0 n) j) as [q|] eqn:E; [|discriminate]. cbn in H. injection H as H.
    pose proof E as L. apply nth_error_some_lt in L. rewrite seq_length in L.
    apply (nth_error_nth _ _ 0) in E. rewrite seq_nth in E by exact L. lia. }
  assert (G : forall A (pointer : processor -> option nat) (table : list A) (start count : A -> nat) v,
    pointers_follow pointer table (group v) t ->
    (forall p, In p (rt_processors t) -> exists x i, pointer p = Some i /\ nth_error table i = Some x /\
       start x = hd 0 (members (seq 0 n) group v (N.to_nat (p_linux_id p))) /\
       count x = length (members (seq 0 n) group v (N.to_nat (p_linux_id p)))) ->
    range_is t pointer table start count).
  { intros A pointer table start count v (F1 & F2) Hr i x j p Hx Hp.
    destruct (F2 i) as (p0 & Hp0 & E0); [now apply nth_error_some_lt in Hx|].
    destruct (Hr p0 Hp0) as (x0 & i0 & E1 & E2 & E3 & E4). rewrite E0 in E1. injection E1 as <-. rewrite Hx in E2. injection E2 as <-.
    rewrite E3, E4. destruct (In_nth_error _ _ Hp0) as (j0 & Hj0). destruct (ID _ _ Hj0) as (I0 & L0). destruct (ID _ _ Hp) as (I1 & L1).
    rewrite I0, <- (members_range n group v j0 j Hc L0 L1). rewrite <- I0, <- I1, <- E0. apply F1; [now apply nth_error_In in Hp|exact Hp0]. }
  split; [|split].
  - apply (G _ _ _ _ _ RCore R2). intros p Hp. destruct (R5 p Hp) as (c & l & k & (i & Hi & Hn) & _ & _ & _ & _ & _ & A & B & _). exists c, i. tauto.
  - apply (G _ _ _ _ _ RCluster R3). intros p Hp. destruct (R5 p Hp) as (c & l & k & _ & (i & Hi & Hn) & _ & _ & _ & _ & _ & _ & A & B & _). exists l, i. tauto.
  - apply (G _ _ _ _ _ RPackage R4). intros p Hp. destruct (R5 p Hp) as (c & l & k & _ & _ & (i & Hi & Hn) & _ & _ & _ & _ & _ & _ & _ & _ & A & B & _). exists k, i. tauto.
Qed.

(** ** Comparator and instruction set *)
Lemma riscv_cmp_order : let ok := enum_uarch in
  (forall a b, ok a -> ok b -> (cmp_riscv_linux_processors a b < 0 <-> cmp_riscv_linux_processors b a > 0)%Z) /\
  (forall a b c, ok a -> ok b -> ok c -> (cmp_riscv_linux_processors a b <= 0)%Z ->
     (cmp_riscv_linux_processors b c <= 0)%Z -> (cmp_riscv_linux_processors a c <= 0)%Z) /\
  (forall a b, ok a -> ok b -> (cmp_riscv_linux_processors a b = 0%Z <-> r_uarch a = r_uarch b)).
Proof.
  cbn. split; [|split]; intros; rewrite !riscv_cmp_exact in * by assumption; lia.
Qed.

Lemma riscv_isa_exact rv32 hwcap : let has := has_riscv rv32 (decode_hwcap hwcap) in
  (has Has_i = true <-> kernel_names hwcap 73) /\ (has Has_m = true <-> kernel_names hwcap 77) /\
  (has Has_a = true <-> kernel_names hwcap 65) /\ (has Has_f = true <-> kernel_names hwcap 70) /\
  (has Has_d = true <-> kernel_names hwcap 68) /\ (has Has_c = true <-> kernel_names hwcap 67) /\
  (has Has_v = true <-> kernel_names hwcap 86) /\
  (has Has_g = true <-> kernel_names hwcap 73 /\ kernel_names hwcap 77 /\ kernel_names hwcap 65 /\
                        kernel_names hwcap 70 /\ kernel_names hwcap 68).
Proof.
  unfold kernel_names. cbn [has_riscv decode_hwcap isa_i isa_m isa_a isa_f isa_d isa_c isa_v]. rewrite !has_hwcap_bit, !andb_true_iff. tauto.
Qed.
