(** The API on top of the tables published by x86 Linux detection. *)
From Verif Require Import Base BaseProofs Sorting TopologySpec ApiModel OnceModel ApiProofs X86LinuxModel X86LinuxSpec X86FinalProofs.
Open Scope nat_scope.

Definition x86_linux : config := Config true false.

(** The stores of a detection run with a given outcome. *)
Definition x86_linux_routine (o : outcome) : list gstore :=
  match o_published o with Some t => x86_linux_commit t | None => [] end.

Lemma app_cons_last (l : list gstore) x : ~ In x l ->
  forall l1 l2, l ++ [x] = l1 ++ x :: l2 -> l2 = [].
Proof.
  intros H l1 l2 E. destruct l2 as [|y l2] using rev_ind; [reflexivity|]. exfalso. clear IHl2.
  change (l1 ++ x :: l2 ++ [y]) with (l1 ++ (x :: l2) ++ [y]) in E. rewrite app_assoc in E.
  apply app_inj_tail in E. destruct E as (-> & _). apply H. rewrite in_app_iff. cbn. auto.
Qed.

Lemma x86_linux_flag_last o : flag_last (x86_linux_routine o).
Proof.
  unfold x86_linux_routine, flag_last. destruct (o_published o) as [t|].
  - apply (app_cons_last (removelast (x86_linux_commit t))). cbn. intuition discriminate.
  - intros [|] l2 H; discriminate.
Qed.

Lemma x86_linux_publishes o : publishes (x86_linux_routine o) <-> o_published o <> None.
Proof.
  unfold x86_linux_routine, publishes. destruct (o_published o) as [t|].
  - split; [discriminate|]. intros _. unfold x86_linux_commit. cbn. do 23 right. now left.
  - cbn. tauto.
Qed.

(** The counts in the tables are the lengths of the arrays. *)
Record counted (t : tables) : Prop := {
  n_processors : t_processors_count t = length (t_processors t);
  n_cores : t_cores_count t = length (t_cores t);
  n_clusters : t_clusters_count t = length (t_clusters t);
  n_packages : t_packages_count t = length (t_packages t);
  n_l1i : t_l1i_count t = length (t_l1i t);
  n_l1d : t_l1d_count t = length (t_l1d t);
  n_l2 : t_l2_count t = length (t_l2 t);
  n_l3 : t_l3_count t = length (t_l3 t);
  n_l4 : t_l4_count t = length (t_l4 t)
}.

Definition published_globals (t : tables) : globals := final (x86_linux_commit t).

Lemma block_of_agrees A (tb : table) (l : list A) n : n = length l ->
  block_of tb l = Some (tb, N.to_nat (N.of_nat n)) \/ (block_of tb l = None /\ N.of_nat n = 0%N).
Proof. intros ->. rewrite Nat2N.id. destruct l; cbn [block_of]; [right|left]; split || idtac; reflexivity. Qed.

Lemma published_counts t : counted t -> counts_agree x86_linux (published_globals t).
Proof.
  intros [] tb Htb. unfold published_globals, final, apply_stores, x86_linux_commit, globals0. cbn [fold_left apply_store].
  destruct tb as [| | | | |[]]; cbn [set_table table_eqb level_eqb gl_pointer gl_count];
    try (left; rewrite Nat2N.id; congruence); try (now apply block_of_agrees).
  now specialize (Htb eq_refl).
Qed.

(** What the current-processor getters must answer when getcpu gives [cpu]. *)
Definition current_processor_right (t : tables) (cpu : option N) (a : answer) : Prop :=
  (forall i p, nth_error (t_processors t) i = Some p -> cpu = Some (p_linux_id p) -> a = Pointer Processors i) /\
  ((forall p, In p (t_processors t) -> cpu <> Some (p_linux_id p)) -> a = Null).
Definition current_core_right (t : tables) (cpu : option N) (a : answer) : Prop :=
  (forall i p j, nth_error (t_processors t) i = Some p -> cpu = Some (p_linux_id p) -> p_core p = Some j ->
     a = Pointer Cores j) /\
  ((forall p, In p (t_processors t) -> cpu <> Some (p_linux_id p)) -> a = Null).

Lemma published_initialized t : gl_initialized (published_globals t) = true.
Proof. reflexivity. Qed.

Lemma published_current t cpu : maps_cpus t ->
  current_processor_right t cpu (ask x86_linux (published_globals t) cpu Get_current_processor) /\
  current_core_right t cpu (ask x86_linux (published_globals t) cpu Get_current_core).
Proof.
  intros (L1 & L2 & M1 & M2).
  assert (E1 : ask x86_linux (published_globals t) cpu Get_current_processor =
    match cpu with None => Null | Some n => if (t_linux_cpu_max t <=? n)%N then Null else
      match nth_error (t_processor_map t) (N.to_nat n) with
      | Some (Some i) => Pointer Processors i | Some None => Null | None => Undefined end end).
  { unfold ask, getter_prog, guarded. cbn. destruct cpu as [n|]; [|reflexivity]. cbn. destruct (_ <=? _)%N; reflexivity. }
  assert (E2 : ask x86_linux (published_globals t) cpu Get_current_core =
    match cpu with None => Null | Some n => if (t_linux_cpu_max t <=? n)%N then Null else
      match nth_error (t_core_map t) (N.to_nat n) with
      | Some (Some i) => Pointer Cores i | Some None => Null | None => Undefined end end).
  { unfold ask, getter_prog, guarded. cbn. destruct cpu as [n|]; [|reflexivity]. cbn. destruct (_ <=? _)%N; reflexivity. }
  rewrite E1, E2. clear E1 E2.
  assert (HB : forall i p, nth_error (t_processors t) i = Some p -> (t_linux_cpu_max t <=? p_linux_id p)%N = false).
  { intros i p H. destruct (M1 i p H) as (K & _). apply nth_error_some_lt in K. rewrite L1 in K. lia. }
  split; split.
  - intros i p H ->. rewrite (HB i p H), (proj1 (M1 i p H)). reflexivity.
  - intros H. destruct cpu as [n|]; [|reflexivity]. destruct (N.leb_spec (t_linux_cpu_max t) n) as [|Hn]; [reflexivity|].
    destruct (M2 (N.to_nat n)) as (K & _); [lia| |now rewrite K]. intros p Hp E. apply (H p Hp). f_equal. lia.
  - intros i p j H -> Hj. rewrite (HB i p H), (proj2 (M1 i p H)), Hj. reflexivity.
  - intros H. destruct cpu as [n|]; [|reflexivity]. destruct (N.leb_spec (t_linux_cpu_max t) n) as [|Hn]; [reflexivity|].
    destruct (M2 (N.to_nat n)) as (_ & K); [lia| |now rewrite K]. intros p Hp E. apply (H p Hp). f_equal. lia.
Qed.

Lemma published_current_uarch t cpu d :
  ask x86_linux (published_globals t) cpu Get_current_uarch_index = Number 0 /\
  ask x86_linux (published_globals t) cpu (Get_current_uarch_index_with_default d) = Number 0 /\
  ask x86_linux (published_globals t) cpu (Get_count Uarchs) = Number 1.
Proof. repeat split. Qed.

Section Published.
Variables (sg : bool) (default : N) (sorter : list X86CpuinfoModel.xproc -> list X86CpuinfoModel.xproc)
  (calloc_ok : block -> bool) (x : xinfo) (files : linux_files) (o : outcome) (t : tables).
Hypothesis Hq : qsort_contract sorter.
Hypothesis Hinit : x86_linux_init sg default sorter calloc_ok x files = Ok o.
Hypothesis Hpub : o_published o = Some t.

Lemma published_counted : counted t.
Proof.
  destruct (published_good sg default sorter calloc_ok x files o t Hq Hinit Hpub) as (procs & mask & _ & []).
  destruct gt_lists. unfold level_reported in *. constructor; tauto.
Qed.

Lemma published_elements tb i cpu : exists n,
  ask x86_linux (published_globals t) cpu (Get_count tb) = Number n /\
  ask x86_linux (published_globals t) cpu (Get_element tb i) = if (i <? n)%N then Pointer tb (N.to_nat i) else Null.
Proof. apply ask_element; [reflexivity|]. apply published_counts, published_counted. Qed.

Lemma published_lookups cpu :
  current_processor_right t cpu (ask x86_linux (published_globals t) cpu Get_current_processor) /\
  current_core_right t cpu (ask x86_linux (published_globals t) cpu Get_current_core).
Proof.
  apply published_current.
  destruct (published_good sg default sorter calloc_ok x files o t Hq Hinit Hpub) as (procs & mask & _ & []). assumption.
Qed.

Lemma published_max_answer cpu : ask x86_linux (published_globals t) cpu Get_max_cache_size = Number (last_level_size x).
Proof.
  unfold ask, getter_prog, guarded. cbn. f_equal.
  apply (published_max_cache sg default sorter calloc_ok x files o t Hq Hinit Hpub).
Qed.
End Published.

(** Every answer, in every schedule, is an answer from the complete tables. *)
Lemma x86_linux_any_schedule o l1 i g a l2 s :
  run x86_linux (x86_linux_routine o) system0 (l1 ++ Getter_ends i g a :: l2) s ->
  a = Fatal \/ exists t cpu, o_published o = Some t /\ a = ask x86_linux (published_globals t) cpu g.
Proof.
  intros H. apply getter_answers in H; [|apply x86_linux_flag_last].
  destruct H as [->|(H & _ & cpu & ->)]; [now left|right].
  apply x86_linux_publishes in H. unfold x86_linux_routine.
  destruct (o_published o) as [t|]; [|congruence]. now exists t, cpu.
Qed.
