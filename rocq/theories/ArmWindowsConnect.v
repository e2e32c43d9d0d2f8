(** Windows for ARM: the objects after both connecting loops. *)
From Verif Require Import Base BaseProofs Loops TopologySpec ArmWindowsModel ArmWindowsSpec ArmWindowsLoops ArmWindowsCaches ArmWindowsPasses.
From Verif Require X86WindowsSpec X86WindowsModel X86WindowsProofs ArmLinuxModel.
Import X86WindowsModel(each, core_takes, cluster_takes, package_takes).
Ltac Zify.zify_post_hook ::= idtac.
Open Scope nat_scope.

Lemma last_cons {A} : forall (l : list A) i d, last (i :: l) d = last l i.
Proof. induction l as [|j l IH]; intros i d; [reflexivity|]. change (last (i :: j :: l) d) with (last (j :: l) d). now rewrite !IH. Qed.

Lemma fold_core : forall l c, fold_left (fun x w => core_takes w x) l c =
  Core (last l (c_processor_start c)) (c_processor_count c + length l) (c_core_id c) (c_cluster c) (c_package c) (c_vendor c) (c_uarch c) (c_cpuid c).
Proof.
  induction l as [|i l IH]; intros c; [cbn; destruct c; now rewrite Nat.add_0_r|]. cbn [fold_left]. rewrite IH, last_cons. cbn.
  now rewrite Nat.add_succ_r.
Qed.
Lemma fold_cluster : forall l c, fold_left (fun x w => cluster_takes w x) l c =
  Cluster (last l (cl_processor_start c)) (cl_processor_count c + length l) (cl_core_start c) (cl_core_count c) (cl_cluster_id c) (cl_package c) (cl_vendor c)
    (cl_uarch c) (cl_cpuid c).
Proof.
  induction l as [|i l IH]; intros c; [cbn; destruct c; now rewrite Nat.add_0_r|]. cbn [fold_left]. rewrite IH, last_cons. cbn.
  now rewrite Nat.add_succ_r.
Qed.
Lemma fold_package : forall l k, fold_left (fun x w => package_takes w x) l k =
  Package (last l (pk_processor_start k)) (pk_processor_count k + length l) (pk_core_start k) (pk_core_count k) (pk_cluster_start k) (pk_cluster_count k).
Proof.
  induction l as [|i l IH]; intros k; [cbn; destruct k; now rewrite Nat.add_0_r|]. cbn [fold_left]. rewrite IH, last_cons. cbn.
  now rewrite Nat.add_succ_r.
Qed.
Lemma fold_package_done : forall l k, l <> [] -> fold_left (fun x w => package_done w x) l k =
  Package (pk_processor_start k) (pk_processor_count k) (last l 0) (pk_core_count k + length l) (last l 0) (pk_core_count k + length l).
Proof.
  induction l as [|i l IH]; intros k H; [congruence|]. cbn [fold_left]. rewrite last_cons. destruct l as [|j l].
  - cbn. now rewrite Nat.add_1_r.
  - rewrite IH by discriminate. cbn [package_done pk_processor_start pk_processor_count pk_core_count length]. rewrite !last_cons. f_equal; lia.
Qed.

Section CONNECT.
Context (n : nat) (cores packages : list (list nat)) (ps : list wproc) (uarch vendor : N) (name : option (list N)) (s : list N).
Hypothesis Hps : length ps = n.
Hypothesis Hc : partition n cores.
Hypothesis Hk : partition n packages.
Hypothesis Hn : forall c, In c cores -> exists k, In k packages /\ incl c k.
Hypothesis PC : forall i p, nth_error ps i = Some p -> wp_core p = Some (wp_cluster p) /\ exists s, nth_error cores (wp_cluster p) = Some s /\ In i s.
Hypothesis PK : forall i p, nth_error ps i = Some p -> exists q, nth_error packages (wp_package p) = Some q /\ In i q.
Hypothesis Name : converted name = Some s.

Lemma at_core i : i < n -> exists c, nth_error cores (cluster_at ps i) = Some c /\ In i c.
Proof.
  intros H. rewrite <- Hps in H. apply nth_error_lt in H. destruct H as (p & Hp). unfold cluster_at. rewrite (nth_error_nth _ _ _ Hp). now apply PC.
Qed.
Lemma at_package i : i < n -> exists q, nth_error packages (package_at ps i) = Some q /\ In i q.
Proof.
  intros H. rewrite <- Hps in H. apply nth_error_lt in H. destruct H as (p & Hp). unfold package_at. rewrite (nth_error_nth _ _ _ Hp). now apply PK.
Qed.

Lemma processors_connected frequencies :
  exists cs cls pks,
    down_opt (connect_processor name (length cores) ps) n
      (Objects (map (fun j => Core 0 0 j None None 0 uarch 0) (seq 0 (length cores))) (repeat cluster0 (length cores)) (repeat package0 (length packages))
         (repeat [] (length packages)) frequencies) =
    Ok (Some (Objects cs cls pks (repeat s (length packages)) frequencies)) /\
    length cs = length cores /\ length cls = length cores /\ length pks = length packages /\
    (forall j c, nth_error cores j = Some c -> exists start, least start c /\ nth_error cs j = Some (Core start (length c) j None None 0 uarch 0) /\
       nth_error cls j = Some (Cluster start (length c) 0 0 0 None 0 0 0)) /\
    (forall k q, nth_error packages k = Some q -> exists start, least start q /\ nth_error pks k = Some (Package start (length q) 0 0 0 0)).
Proof.
  set (o := Objects _ _ _ _ _). assert (LC : length (ob_cores o) = length cores) by (cbn; now rewrite map_length, seq_length).
  assert (LL : length (ob_clusters o) = length cores) by (cbn; apply repeat_length).
  assert (LK : length (ob_packages o) = length packages) by (cbn; apply repeat_length).
  assert (LN : length (ob_names o) = length packages) by (cbn; apply repeat_length).
  assert (WC : Forall (fun w => cluster_at ps w < length cores) (rev (seq 0 n))).
  { rewrite Forall_forall. intros w Hw. apply in_rev in Hw. apply in_seq in Hw. destruct (at_core w ltac:(lia)) as (c & H & _). now apply nth_error_some_lt in H. }
  assert (WK : Forall (fun w => package_at ps w < length packages) (rev (seq 0 n))).
  { rewrite Forall_forall. intros w Hw. apply in_rev in Hw. apply in_seq in Hw. destruct (at_package w ltac:(lia)) as (c & H & _). now apply nth_error_some_lt in H. }
  destruct (each_modify (cluster_at ps) core_takes (rev (seq 0 n)) (ob_cores o)) as (cs & E1 & L1 & V1); [now rewrite LC|].
  destruct (each_modify (cluster_at ps) cluster_takes (rev (seq 0 n)) (ob_clusters o)) as (cls & E2 & L2 & V2); [now rewrite LL|].
  destruct (each_modify (package_at ps) package_takes (rev (seq 0 n)) (ob_packages o)) as (pks & E3 & L3 & V3); [now rewrite LK|].
  destruct (each_modify (package_at ps) (fun _ _ => s) (rev (seq 0 n)) (ob_names o)) as (names & E4 & L4 & V4); [now rewrite LN|].
  assert (GK : forall k q, nth_error packages k = Some q -> least (last (filter (fun w => package_at ps w =? k) (rev (seq 0 n))) 0) q /\
    length (filter (fun w => package_at ps w =? k) (rev (seq 0 n))) = length q).
  { intros k q Hq. destruct (parts n packages (package_at ps) Hk at_package k q Hq) as (I & ND & NE). now apply down_least. }
  assert (EN : names = repeat s (length packages)).
  { apply nth_error_ext. intros k. destruct (Nat.lt_ge_cases k (length packages)) as [Q|Q].
    - pose proof Q as Q'. apply nth_error_lt in Q. destruct Q as (q & Hq). destruct (GK k q Hq) as ((Iq & _) & Lq).
      cbn [ob_names o] in V4. rewrite (V4 k [] (nth_error_repeat _ _ _ _ Q')), nth_error_repeat by exact Q'. f_equal.
      destruct (filter _ (rev (seq 0 n))) as [|w ws]; [destruct q; [destruct Iq|discriminate]|]. clear. revert w. induction ws as [|v ws IH]; intros w; [reflexivity|]. exact (IH v).
    - rewrite !(proj2 (nth_error_None _ _)); [reflexivity|rewrite repeat_length; lia|lia]. }
  exists cs, cls, pks. split.
  - rewrite down_each. rewrite <- EN. change frequencies with (ob_frequencies o). apply (connect_each name s); try assumption.
    intros w Hw. rewrite Forall_forall in WC, WK. pose proof (WC w Hw) as A. pose proof (WK w Hw) as B. apply in_rev in Hw. apply in_seq in Hw.
    assert (Lw : w < length ps) by lia. apply nth_error_lt in Lw. destruct Lw as (p & Hp). exists p. unfold cluster_at, package_at in A, B. rewrite (nth_error_nth _ _ _ Hp) in A, B.
    split; [exact Hp|]. split; [now apply (PC w)|]. split; [exact A|]. now rewrite LK.
  - do 3 (split; [congruence|]). split.
    + intros j c Hj. pose proof (nth_error_some_lt _ _ _ _ Hj) as Lj. destruct (parts n cores (cluster_at ps) Hc at_core j c Hj) as (I & ND & NE).
      destruct (down_least (fun w => cluster_at ps w =? j) n c 0 I ND NE) as (D1 & D2). eexists. split; [exact D1|]. cbn [ob_cores ob_clusters o] in V1, V2. split.
      * erewrite V1; [rewrite fold_core|rewrite nth_error_map, (nth_error_nth' _ 0), seq_nth; [reflexivity|exact Lj|now rewrite seq_length]].
        cbn [c_processor_start c_processor_count c_core_id c_cluster c_package c_vendor c_uarch c_cpuid plus]. now rewrite D2.
      * rewrite (V2 j cluster0 (nth_error_repeat _ _ _ _ Lj)), fold_cluster. cbn [cluster0 cl_processor_start cl_processor_count cl_core_start cl_core_count cl_cluster_id cl_package cl_vendor cl_uarch cl_cpuid plus]. now rewrite D2.
    + intros k q Hq. pose proof (nth_error_some_lt _ _ _ _ Hq) as Lk. destruct (GK k q Hq) as (D1 & D2). eexists. split; [exact D1|]. cbn [ob_packages o] in V3.
      rewrite (V3 k package0 (nth_error_repeat _ _ _ _ Lk)), fold_package. cbn [package0 pk_processor_start pk_processor_count pk_core_start pk_core_count pk_cluster_start pk_cluster_count plus]. now rewrite D2.
Qed.

(** The package of a core. *)
Definition core_package (starts : nat -> nat) (j : nat) : nat := package_at ps (starts j).

Lemma core_in_package i j c k q : nth_error cores j = Some c -> In i c -> nth_error packages k = Some q -> In i q -> package_at ps i = k /\ incl c q.
Proof.
  intros Hj Ii Hq Iq. destruct (parts n packages (package_at ps) Hk at_package k q Hq) as (I & _). assert (E : package_at ps i = k) by (apply I in Iq; now apply Nat.eqb_eq).
  split; [exact E|]. destruct (Hn c) as (q' & Hq' & Inc); [now apply nth_error_In in Hj|]. apply In_nth_error in Hq'. destruct Hq' as (k' & Hk').
  destruct (parts n packages (package_at ps) Hk at_package k' q' Hk') as (I' & _). assert (E' : package_at ps i = k') by (apply Nat.eqb_eq; apply I'; now apply Inc).
  assert (k = k') by congruence. subst k'. assert (q = q') by congruence. now subst q'.
Qed.

Lemma cores_connected cs cls pks names frequencies :
    length cs = length cores -> length cls = length cores -> length pks = length packages ->
    (forall j c, nth_error cores j = Some c -> exists start, least start c /\ nth_error cs j = Some (Core start (length c) j None None 0 uarch 0) /\
       nth_error cls j = Some (Cluster start (length c) 0 0 0 None 0 0 0)) ->
    (forall k q, nth_error packages k = Some q -> exists start, least start q /\ nth_error pks k = Some (Package start (length q) 0 0 0 0)) ->
  exists cs' cls' pks',
    down_opt (connect_core vendor ps) (length cores) (Objects cs cls pks names frequencies) = Ok (Some (Objects cs' cls' pks' names frequencies)) /\
    length cs' = length cores /\ length cls' = length cores /\ length pks' = length packages /\
    (forall j c, nth_error cores j = Some c -> exists start k q, least start c /\ nth_error packages k = Some q /\ incl c q /\
       nth_error cs' j = Some (Core start (length c) j (Some j) (Some k) vendor uarch 0) /\
       nth_error cls' j = Some (Cluster start (length c) j 1 0 (Some k) vendor uarch 0)) /\
    (forall k q, nth_error packages k = Some q -> exists start first, least start q /\ least first (cores_in cores q) /\
       nth_error pks' k = Some (Package start (length q) first (length (cores_in cores q)) first (length (cores_in cores q)))).
Proof.
  intros L1 L2 L3 VC VK. set (starts := fun j => c_processor_start (nth j cs core0)).
  assert (ST : forall j c, nth_error cores j = Some c -> least (starts j) c /\ starts j < n /\ nth_error cs j = Some (Core (starts j) (length c) j None None 0 uarch 0) /\
    nth_error cls j = Some (Cluster (starts j) (length c) 0 0 0 None 0 0 0) /\ cluster_at ps (starts j) = j).
  { intros j c Hj. destruct (VC j c Hj) as (start & D & E1 & E2). unfold starts. rewrite (nth_error_nth _ _ _ E1). cbn [c_processor_start].
    destruct (parts n cores (cluster_at ps) Hc at_core j c Hj) as (I & _). pose proof (proj1 (I start) (proj1 D)) as (A & B). apply Nat.eqb_eq in B. auto. }
  set (kf := core_package starts).
  assert (KF : forall j c, nth_error cores j = Some c -> exists q, nth_error packages (kf j) = Some q /\ incl c q).
  { intros j c Hj. destruct (ST j c Hj) as (D & L & _). destruct (at_package _ L) as (q & Hq & Iq). exists q. split; [exact Hq|].
    now apply (core_in_package (starts j) j c (kf j) q Hj (proj1 D) Hq Iq). }
  assert (IN : forall w, In w (rev (seq 0 (length cores))) -> exists c, nth_error cores w = Some c).
  { intros w Hw. apply in_rev in Hw. apply in_seq in Hw. apply nth_error_lt. lia. }
  assert (ND : NoDup (rev (seq 0 (length cores)))) by (apply NoDup_rev, seq_NoDup).
  destruct (each_modify (fun w => w) (core_done vendor kf) (rev (seq 0 (length cores))) cs) as (cs' & E1 & M1 & V1).
  { rewrite Forall_forall. intros w Hw. destruct (IN w Hw) as (c & H). apply nth_error_some_lt in H. now rewrite L1. }
  destruct (each_modify (fun w => w) (cluster_done vendor uarch kf) (rev (seq 0 (length cores))) cls) as (cls' & E2 & M2 & V2).
  { rewrite Forall_forall. intros w Hw. destruct (IN w Hw) as (c & H). apply nth_error_some_lt in H. now rewrite L2. }
  destruct (each_modify kf package_done (rev (seq 0 (length cores))) pks) as (pks' & E3 & M3 & V3).
  { rewrite Forall_forall. intros w Hw. destruct (IN w Hw) as (c & H). destruct (KF w c H) as (q & Hq & _). apply nth_error_some_lt in Hq. now rewrite L3. }
  exists cs', cls', pks'. split.
  { rewrite down_each. apply (connect_cores_each vendor uarch kf ps _ (Objects cs cls pks names frequencies) cs' cls' pks' ND); try assumption.
    intros w Hw. destruct (IN w Hw) as (c & H). destruct (ST w c H) as (D & L & A & B & CL). eexists. cbn [ob_cores]. assert (Lp : starts w < length ps) by lia.
    apply nth_error_lt in Lp. destruct Lp as (p & Hp). exists p. split; [exact A|]. cbn [c_processor_start c_uarch]. split; [exact Hp|].
    unfold cluster_at in CL. rewrite (nth_error_nth _ _ _ Hp) in CL. split; [exact CL|]. split; [|reflexivity].
    unfold kf, core_package, package_at. now rewrite (nth_error_nth _ _ _ Hp). }
  do 3 (split; [congruence|]).
  assert (ONE : forall j, j < length cores -> filter (fun w => w =? j) (rev (seq 0 (length cores))) = [j]).
  { intros j Hj. apply (filter_unique (fun w => w)); [now rewrite map_id|]. apply in_rev. rewrite rev_involutive. apply in_seq. lia. }
  split.
  - intros j c Hj. destruct (ST j c Hj) as (D & L & A & B & CL). destruct (KF j c Hj) as (q & Hq & Inc). exists (starts j), (kf j), q.
    pose proof (nth_error_some_lt _ _ _ _ Hj) as Lj. do 3 (split; [assumption|]). split.
    + rewrite (V1 j _ A), (ONE j Lj). reflexivity.
    + rewrite (V2 j _ B), (ONE j Lj). reflexivity.
  - intros k q Hq. destruct (VK k q Hq) as (start & D & E).
    assert (I : forall j, In j (cores_in cores q) <-> j < length cores /\ (kf j =? k) = true).
    { intros j. unfold cores_in. rewrite filter_In, in_seq. split; intros (A & B); (split; [lia|]); assert (Lj : j < length cores) by lia;
        apply nth_error_lt in Lj; destruct Lj as (c & Hj); destruct (ST j c Hj) as ((Is & _) & Ls & _).
      - rewrite (nth_error_nth _ _ _ Hj) in B. apply existsb_exists in B. destruct B as (i & Ii & B). apply existsb_exists in B. destruct B as (i' & Ii' & B).
        apply Nat.eqb_eq in B. subst i'. destruct (core_in_package i j c k q Hj Ii Hq Ii') as (_ & Inc). apply Nat.eqb_eq.
        now apply (core_in_package (starts j) j c k q Hj Is Hq (Inc _ Is)).
      - apply Nat.eqb_eq in B. rewrite (nth_error_nth _ _ _ Hj). apply existsb_exists. exists (starts j). split; [exact Is|]. apply existsb_exists. exists (starts j).
        split; [|apply Nat.eqb_refl]. destruct (at_package _ Ls) as (q' & Hq' & Iq'). unfold kf, core_package in B. congruence. }
    assert (NE : cores_in cores q <> []).
    { destruct (parts n packages (package_at ps) Hk at_package k q Hq) as (Iq & _ & NEq). destruct q as [|i q]; [congruence|].
      assert (Li : i < n) by (apply Iq; now left). destruct (at_core i Li) as (c & Hj & Ic). intros X.
      assert (In (cluster_at ps i) (cores_in cores (i :: q))); [|rewrite X in *; contradiction]. unfold cores_in. apply filter_In. split; [apply in_seq; apply nth_error_some_lt in Hj; lia|].
      rewrite (nth_error_nth _ _ _ Hj). apply existsb_exists. exists i. split; [exact Ic|]. apply existsb_exists. exists i. split; [now left|apply Nat.eqb_refl]. }
    destruct (down_least (fun w => kf w =? k) (length cores) (cores_in cores q) 0 I) as (D1 & D2); [unfold cores_in; apply NoDup_filter, seq_NoDup|exact NE|].
    exists start. eexists. split; [exact D|]. split; [exact D1|]. rewrite (V3 k _ E), fold_package_done.
    + cbn [pk_processor_start pk_processor_count pk_core_count plus]. now rewrite D2.
    + intros X. rewrite X in D2. destruct (cores_in cores q); [congruence|discriminate].
Qed.
End CONNECT.
