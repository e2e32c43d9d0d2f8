(** RISC-V Linux: the tables built from the entries whose groups are known. *)
From Verif Require Import Base BaseProofs Runs GroupArray TopologySpec RiscvLinuxModel.
Open Scope nat_scope.

(** ** Small facts about stores *)

Lemma wr_mid A (l r : list A) x y k : length l = k -> wr (l ++ x :: r) k y = Ok (l ++ y :: r).
Proof.
  intros <-. rewrite wr_ok by (rewrite app_length; cbn; lia). f_equal. induction l as [|a l IH]; cbn; [reflexivity|now rewrite IH].
Qed.

Lemma transfer_filter : forall l s, transfer l s = transfer (filter r_valid l) s.
Proof.
  induction l as [|p l IH]; intros s; cbn [transfer filter]; [reflexivity|].
  destruct (r_valid p) eqn:E; cbn [negb transfer]; [|apply IH]. rewrite E. cbn [negb].
  destruct (transfer_one p s); cbn [bind]; [apply IH|reflexivity|reflexivity].
Qed.

Lemma count_entries_cnt f : forall W, (forall p, In p W -> r_valid p = true) ->
  count_entries f W = cnt (length W) (fun i => match nth_error W i with Some p => f p | None => false end).
Proof.
  intros W. rewrite <- (rev_involutive W). generalize (rev W). clear W. intros W.
  induction W as [|p W IH]; intros H; [reflexivity|]. cbn [rev] in *. unfold count_entries in *.
  rewrite filter_app, !app_length, IH by (intros; apply H, in_or_app; now left). cbn [length filter].
  rewrite (H p) by (apply in_or_app; right; now left). rewrite Nat.add_1_r. cbn [cnt andb].
  rewrite nth_error_app2 by lia. rewrite Nat.sub_diag. cbn [nth_error]. f_equal.
  - apply cnt_ext. intros i Hi. now rewrite nth_error_app1.
  - now destruct (f p).
Qed.

Lemma count_entries_filter f l : count_entries f l = count_entries f (filter r_valid l).
Proof.
  unfold count_entries. induction l as [|p l IH]; cbn; [reflexivity|].
  destruct (r_valid p) eqn:E; cbn; rewrite ?E; cbn; [|exact IH]. destruct (f p); cbn; now rewrite IH.
Qed.

Lemma count_uarchs_filter : forall l u n, count_uarchs u n l = count_uarchs u n (filter r_valid l).
Proof.
  induction l as [|p l IH]; intros u n; cbn [count_uarchs filter]; [reflexivity|].
  destruct (r_valid p) eqn:E; cbn [negb count_uarchs]; [|apply IH]. rewrite E. cbn [negb]. now rewrite !IH.
Qed.

Lemma count_uarchs_one : forall l u, (forall p, In p l -> r_valid p = true /\ r_uarch p = 0%N) -> 0 < u -> count_uarchs 0 u l = u.
Proof.
  induction l as [|p l IH]; intros u H Hu; cbn [count_uarchs]; [reflexivity|].
  destruct (H p (or_introl eq_refl)) as (-> & ->). cbn [negb N.eqb orb].
  replace (u =? 0) with false by (symmetry; apply Nat.eqb_neq; lia). apply IH; [|exact Hu]. intros q Hq. apply H. now right.
Qed.

(** A slot written when its group starts and updated with every element. *)
Section SLOT.
  Context {A : Type} (new : nat -> bool) (n : nat) (zero : A) (entry : nat -> A).
  Hypothesis new0 : new 0 = true.
  Let filled' := filled new n zero (fun _ => entry).

  Lemma slot_new k a x f : k < n -> filled' k a -> new k = true -> f x = entry k ->
    exists a1 a2, wr a (cnt k new) x = Ok a1 /\ modify a1 (cnt k new) f = Ok a2 /\ filled' (S k) a2.
  Proof.
    intros Hk HF E Hx. pose proof (cnt_mono new (S k) n Hk) as M. rewrite cnt_S_true in M by exact E.
    destruct (filled_start new n zero (fun _ => entry) new0 k a (entry k) Hk HF E eq_refl) as (a2 & H1 & H2); [auto|].
    rewrite grp_leader in H1 by exact E. cbn [wr_at] in H1.
    destruct HF as (L & _). rewrite wr_ok in H1 by lia. injection H1 as <-.
    exists (upd a (cnt k new) x), (upd a (cnt k new) (entry k)). split; [apply wr_ok; lia|]. split; [|exact H2].
    rewrite (modify_ok _ _ _ _ x) by (apply nth_error_upd_eq; lia). f_equal. rewrite Hx.
    clear. revert a. generalize (cnt k new). intros i a. revert i. induction a as [|b a IH]; intros [|i]; cbn; auto. now rewrite IH.
  Qed.

  Lemma slot_old k a f : k < n -> filled' k a -> new k = false ->
    (forall s, s < k -> new s = true -> cnt s new = grp new k -> f (entry s) = entry s) ->
    exists a', modify a (grp new k) f = Ok a' /\ filled' (S k) a'.
  Proof.
    intros Hk HF E Hx.
    destruct (filled_step new n zero (fun _ => entry) new0 k a f Hk HF) as (a' & H1 & H2); [congruence|auto|auto|].
    exists a'. now split.
  Qed.

  Lemma slot_skip k a : filled' k a -> new k = false -> filled' (S k) a.
  Proof.
    intros (L & F & Z) E. split; [exact L|]. split.
    - intros s Hs Es. apply F; [|exact Es]. destruct (Nat.eq_dec s k) as [->|]; [congruence|lia].
    - intros j Hj. apply Z. now rewrite (cnt_S_false _ _ E) in Hj.
  Qed.
End SLOT.

(** A map from CPU numbers after the first [k] processors. *)
Definition mapped {A} (id : nat -> nat) (M : nat) (value : nat -> A) (zero : A) (k : nat) (m : list A) : Prop :=
  length m = M /\ (forall i, i < k -> nth_error m (id i) = Some (value i)) /\
  (forall c, c < M -> (forall i, i < k -> id i <> c) -> nth_error m c = Some zero).

Lemma mapped_step {A} id M (value : nat -> A) zero k m : mapped id M value zero k m -> id k < M ->
  (forall i, i < k -> id i <> id k) -> exists m', wr m (id k) (value k) = Ok m' /\ mapped id M value zero (S k) m'.
Proof.
  intros (L & F & Z) Hk Hd. exists (upd m (id k) (value k)). split; [apply wr_ok; lia|].
  split; [now rewrite upd_length|]. split.
  - intros i Hi. destruct (Nat.eq_dec i k) as [->|Hne]; [apply nth_error_upd_eq; lia|].
    rewrite nth_error_upd_neq; [apply F; lia|]. apply not_eq_sym, Hd. lia.
  - intros c Hc Hn. rewrite nth_error_upd_neq by (apply Hn; lia). apply Z; [exact Hc|]. intros i Hi. apply Hn. lia.
Qed.

(** ** The transfer loop *)
Section TRANSFER.
  Variables (W : list rproc) (M : nat).
  Let n := length W.
  Definition nw (v : rlevel) (i : nat) : bool := match nth_error W i with Some p => leads v p | None => false end.
  Definition lid (i : nat) : nat := match nth_error W i with Some p => N.to_nat (r_linux_id p) | None => 0 end.
  Hypothesis Hvalid : forall p, In p W -> r_valid p = true.
  Hypothesis Huarch : forall p, In p W -> r_uarch p = 0%N.
  Hypothesis Hid : forall i, i < n -> lid i < M.
  Hypothesis Hdistinct : forall i j, i < j < n -> lid i <> lid j.
  Hypothesis Hfirst : forall v, 0 < n -> nw v 0 = true.
  Hypothesis Hnest1 : forall i, nw RCluster i = true -> nw RCore i = true.
  Hypothesis Hnest2 : forall i, nw RPackage i = true -> nw RCluster i = true.

  Definition entry_at (i : nat) : rproc := nth i W rproc0.
  Definition processor_at (i : nat) : processor :=
    Processor 0 (Some (grp (nw RCore) i)) (Some (grp (nw RCluster) i)) (Some (grp (nw RPackage) i)) (r_linux_id (entry_at i)) 0.
  Definition core_at (i : nat) : core :=
    let x := core_record (entry_at i) in
    Core (c_processor_start x) (c_processor_count x) (c_core_id x) (Some (grp (nw RCluster) i)) (Some (grp (nw RPackage) i))
         (c_vendor x) (c_uarch x) (c_cpuid x).
  Definition cluster_at (i : nat) : cluster :=
    let x := cluster_record (entry_at i) in
    Cluster (cl_processor_start x) (cl_processor_count x) (cl_core_start x) (cl_core_count x) (cl_cluster_id x)
            (Some (grp (nw RPackage) i)) (cl_vendor x) (cl_uarch x) (cl_cpuid x).
  Definition package_at (i : nat) : package := package_record (entry_at i).

  Record tstate (k : nat) (s : rstate) : Prop := {
    ts_processors : st_processors s = map processor_at (seq 0 k) ++ repeat processor0 (n - k);
    ts_cores : filled (nw RCore) n core0 (fun _ => core_at) k (st_cores s);
    ts_clusters : filled (nw RCluster) n cluster0 (fun _ => cluster_at) k (st_clusters s);
    ts_packages : filled (nw RPackage) n package0 (fun _ => package_at) k (st_packages s);
    ts_uarchs : st_uarchs s = match n, k with O, _ => [] | _, O => [uarch_info0] | _, _ => [UarchInfo 0 k (cnt k (nw RCore))] end;
    ts_pmap : mapped lid M (fun i => Some i) None k (st_processor_map s);
    ts_cmap : mapped lid M (fun i => Some (grp (nw RCore) i)) None k (st_core_map s);
    ts_umap : mapped lid M (fun _ => 0) 0 k (st_uarch_map s);
    ts_np : st_np s = k; ts_nc : st_nc s = cnt k (nw RCore); ts_nl : st_nl s = cnt k (nw RCluster);
    ts_nk : st_nk s = cnt k (nw RPackage); ts_nu : st_nu s = match k with O => 0 | _ => 1 end; ts_last : st_last s = 0%N
  }.

  (** Groups nested in groups: the outer group does not change inside an inner one. *)
  Lemma outer_same inner outer k s : (forall i, outer i = true -> inner i = true) -> inner 0 = true -> outer 0 = true ->
    s < k -> inner s = true -> cnt s inner = grp inner k -> grp outer s = grp outer k.
  Proof.
    intros Hsub I0 O0 Hs Hi Hg. pose proof (cnt_grp inner I0 k) as G.
    assert (Hflat : forall i, S s <= i < S k -> outer i = false).
    { intros i Hi2. destruct (outer i) eqn:E; [|reflexivity]. apply Hsub in E.
      pose proof (cnt_mono inner (S s) i ltac:(lia)) as M1. rewrite cnt_S_true in M1 by exact Hi.
      pose proof (cnt_mono inner (S i) (S k) ltac:(lia)) as M2. rewrite cnt_S_true in M2 by exact E. lia. }
    pose proof (cnt_grp outer O0 k). pose proof (cnt_grp outer O0 s).
    pose proof (cnt_flat outer (S s) (S k) ltac:(lia) Hflat). lia.
  Qed.

  Lemma pred_cnt v k : 0 < n -> k < n -> pred_index (cnt (S k) (nw v)) = Ok (grp (nw v) k).
  Proof. intros Hn Hk. rewrite cnt_grp by (now apply Hfirst). reflexivity. Qed.

  Lemma transfer_one_spec k s : k < n -> tstate k s -> exists s', transfer_one (entry_at k) s = Ok s' /\ tstate (S k) s'.
  Proof.
    intros Hk [T1 T2 T3 T4 T5 T6 T7 T8 T9 T10 T11 T12 T13 T14].
    assert (Hn : 0 < n) by lia.
    assert (Hnth : nth_error W k = Some (entry_at k)) by (apply nth_error_nth'; exact Hk).
    set (p := entry_at k) in *.
    assert (Hp : In p W) by (eapply nth_error_In; exact Hnth).
    assert (Hlead : forall v, leads v p = nw v k) by (intros v; unfold nw; now rewrite Hnth).
    assert (Hlid : N.to_nat (r_linux_id p) = lid k) by (unfold lid; now rewrite Hnth).
    assert (U0 : r_uarch p = 0%N) by (now apply Huarch).
    unfold transfer_one. rewrite T14, U0, T13, T9, T10, T11, T12, Hlid. cbn [N.eqb negb orb].
    set (b := match k with 0 => 0 | S _ => 1 end =? 0).
    assert (EU : copy_if b (st_uarchs s) (match k with 0 => 0 | S _ => 1 end) (UarchInfo 0 0 0) =
                 Ok ([UarchInfo 0 k (cnt k (nw RCore))], 1)).
    { rewrite T5. unfold b. destruct n as [|n']; [lia|]. destruct k; reflexivity. }
    rewrite EU. cbn [bind].
    assert (EL : (if b then 0%N else 0%N) = 0%N) by (now destruct b). rewrite EL.
    assert (EP : repeat processor0 (n - k) = processor0 :: repeat processor0 (n - S k))
      by (replace (n - k) with (S (n - S k)) by lia; reflexivity).
    assert (ELen : length (map processor_at (seq 0 k)) = k) by (now rewrite map_length, seq_length).
    rewrite T1, EP. rewrite (wr_mid _ _ _ _ _ _ ELen). cbn [bind pred_index modify nth_error upd].
    rewrite !Hlead.
    (* cores *)
    assert (HC : exists cores nc cores', copy_if (nw RCore k) (st_cores s) (cnt k (nw RCore)) (core_record p) = Ok (cores, nc) /\
      nc = cnt (S k) (nw RCore) /\
      modify cores (grp (nw RCore) k) (fun x => Core (c_processor_start x) (c_processor_count x) (c_core_id x)
        (Some (grp (nw RCluster) k)) (Some (grp (nw RPackage) k)) (c_vendor x) (c_uarch x) (c_cpuid x)) = Ok cores' /\
      filled (nw RCore) n core0 (fun _ => core_at) (S k) cores').
    { destruct (nw RCore k) eqn:E; cbn [copy_if].
      - destruct (slot_new (nw RCore) n core0 core_at (Hfirst RCore Hn) k (st_cores s) (core_record p)
          (fun x => Core (c_processor_start x) (c_processor_count x) (c_core_id x)
            (Some (grp (nw RCluster) k)) (Some (grp (nw RPackage) k)) (c_vendor x) (c_uarch x) (c_cpuid x)) Hk T2 E eq_refl)
          as (a1 & a2 & W1 & W2 & W3).
        exists a1, (S (cnt k (nw RCore))), a2. rewrite W1. cbn [bind]. rewrite (cnt_S_true _ _ E), (grp_leader _ _ E). auto.
      - destruct (slot_old (nw RCore) n core0 core_at (Hfirst RCore Hn) k (st_cores s)
          (fun x => Core (c_processor_start x) (c_processor_count x) (c_core_id x)
            (Some (grp (nw RCluster) k)) (Some (grp (nw RPackage) k)) (c_vendor x) (c_uarch x) (c_cpuid x)) Hk T2 E)
          as (a2 & W2 & W3).
        { intros s0 Hs Hs1 Hs2. unfold core_at. cbn.
          rewrite (outer_same (nw RCore) (nw RCluster) k s0), (outer_same (nw RCore) (nw RPackage) k s0); auto. }
        exists (st_cores s), (cnt k (nw RCore)), a2. rewrite (cnt_S_false _ _ E). auto. }
    destruct HC as (cores & nc & cores' & -> & -> & HC1 & HC2). cbn [bind].
    set (cu := if nw RCore k then _ else _).
    assert (ECU : cu = Ok [UarchInfo 0 (S k) (cnt (S k) (nw RCore))]).
    { unfold cu. cbn [cnt]. destruct (nw RCore k); cbn; [|now rewrite Nat.add_0_r]. now rewrite Nat.add_1_r. }
    rewrite ECU. cbn [bind].
    (* clusters *)
    assert (HL : exists clusters nl clusters', copy_if (nw RCluster k) (st_clusters s) (cnt k (nw RCluster)) (cluster_record p) = Ok (clusters, nl) /\
      nl = cnt (S k) (nw RCluster) /\
      modify clusters (grp (nw RCluster) k) (fun x => Cluster (cl_processor_start x) (cl_processor_count x)
        (cl_core_start x) (cl_core_count x) (cl_cluster_id x)
        (Some (grp (nw RPackage) k)) (cl_vendor x) (cl_uarch x) (cl_cpuid x)) = Ok clusters' /\
      filled (nw RCluster) n cluster0 (fun _ => cluster_at) (S k) clusters').
    { destruct (nw RCluster k) eqn:E; cbn [copy_if].
      - destruct (slot_new (nw RCluster) n cluster0 cluster_at (Hfirst RCluster Hn) k (st_clusters s) (cluster_record p)
          (fun x => Cluster (cl_processor_start x) (cl_processor_count x)
        (cl_core_start x) (cl_core_count x) (cl_cluster_id x)
        (Some (grp (nw RPackage) k)) (cl_vendor x) (cl_uarch x) (cl_cpuid x)) Hk T3 E eq_refl) as (a1 & a2 & W1 & W2 & W3).
        exists a1, (S (cnt k (nw RCluster))), a2. rewrite W1. cbn [bind]. rewrite (cnt_S_true _ _ E), (grp_leader _ _ E). auto.
      - destruct (slot_old (nw RCluster) n cluster0 cluster_at (Hfirst RCluster Hn) k (st_clusters s)
          (fun x => Cluster (cl_processor_start x) (cl_processor_count x)
        (cl_core_start x) (cl_core_count x) (cl_cluster_id x)
        (Some (grp (nw RPackage) k)) (cl_vendor x) (cl_uarch x) (cl_cpuid x)) Hk T3 E) as (a2 & W2 & W3).
        { intros s0 Hs Hs1 Hs2. unfold cluster_at. cbn. rewrite (outer_same (nw RCluster) (nw RPackage) k s0); auto. }
        exists (st_clusters s), (cnt k (nw RCluster)), a2. rewrite (cnt_S_false _ _ E). auto. }
    destruct HL as (clusters & nl & clusters' & -> & -> & HL1 & HL2). cbn [bind].
    assert (HK : exists packages nk, copy_if (nw RPackage k) (st_packages s) (cnt k (nw RPackage)) (package_record p) = Ok (packages, nk) /\
      nk = cnt (S k) (nw RPackage) /\ filled (nw RPackage) n package0 (fun _ => package_at) (S k) packages).
    { destruct (nw RPackage k) eqn:E; cbn [copy_if].
      - destruct (filled_start (nw RPackage) n package0 (fun _ => package_at) (Hfirst RPackage Hn) k (st_packages s) (package_record p) Hk T4 E eq_refl)
          as (a1 & W1 & W3); [auto|]. cbn [wr_at] in W1. rewrite (grp_leader _ _ E) in W1. rewrite W1. cbn [bind].
        eexists _, _. rewrite (cnt_S_true _ _ E). eauto.
      - exists (st_packages s), (cnt k (nw RPackage)). rewrite (cnt_S_false _ _ E). split; [reflexivity|]. split; [reflexivity|].
        exact (slot_skip (nw RPackage) n package0 package_at (Hfirst RPackage Hn) k _ T4 E). }
    destruct HK as (packages & nk & -> & -> & HK2). cbn [bind].
    rewrite !pred_cnt by assumption. cbn [bind].
    rewrite (wr_mid _ _ _ _ _ _ ELen). cbn [bind]. rewrite HC1. cbn [bind]. rewrite HL1. cbn [bind].
    assert (Hd : forall i, i < k -> lid i <> lid k) by (intros i Hi; apply Hdistinct; lia).
    destruct (mapped_step lid M (fun i => Some i) None k (st_processor_map s) T6 (Hid k Hk) Hd) as (pm & -> & PM). cbn [bind].
    destruct (mapped_step lid M (fun i => Some (grp (nw RCore) i)) None k (st_core_map s) T7 (Hid k Hk) Hd) as (cm & -> & CM). cbn [bind].
    destruct (mapped_step lid M (fun _ => 0) 0 k (st_uarch_map s) T8 (Hid k Hk) Hd) as (um & -> & UM). cbn [bind].
    eexists. split; [reflexivity|]. split; cbn -[seq map cnt filled mapped]; auto.
    - rewrite seq_S, map_app. cbn [map plus]. now rewrite <- app_assoc.
    - destruct n as [|n']; [lia|reflexivity].
  Qed.

  Lemma transfer_spec : forall m k s, k + m = n -> tstate k s ->
    exists s', transfer (skipn k W) s = Ok s' /\ tstate n s'.
  Proof.
    induction m as [|m IH]; intros k s Hkm T.
    - assert (k = n) as -> by lia. exists s. unfold n; rewrite skipn_all. now cbn.
    - assert (Hk : k < n) by lia.
      assert (E : skipn k W = entry_at k :: skipn (S k) W).
      { clear -Hk. subst n. unfold entry_at. revert k Hk. induction W as [|a l IH]; intros [|k] Hk; cbn in *; try lia; [reflexivity|].
        apply IH. lia. }
      rewrite E. cbn [transfer]. rewrite Hvalid by (apply nth_In; exact Hk). cbn [negb].
      destruct (transfer_one_spec k s Hk T) as (s' & -> & T'). cbn [bind]. apply IH; [lia|exact T'].
  Qed.

  Lemma tstate_final s : tstate n s ->
    st_processors s = map processor_at (seq 0 n) /\
    (forall i, i < n -> nw RCore i = true -> nth_error (st_cores s) (cnt i (nw RCore)) = Some (core_at i)) /\
    (forall i, i < n -> nw RCluster i = true -> nth_error (st_clusters s) (cnt i (nw RCluster)) = Some (cluster_at i)) /\
    (forall i, i < n -> nw RPackage i = true -> nth_error (st_packages s) (cnt i (nw RPackage)) = Some (package_at i)) /\
    length (st_cores s) = cnt n (nw RCore) /\ length (st_clusters s) = cnt n (nw RCluster) /\
    length (st_packages s) = cnt n (nw RPackage) /\
    st_uarchs s = (if n =? 0 then [] else [UarchInfo 0 n (cnt n (nw RCore))]).
  Proof.
    intros [T1 (T2 & T2' & _) (T3 & T3' & _) (T4 & T4' & _) T5 _ _ _ _ _ _ _ _ _].
    rewrite Nat.sub_diag, app_nil_r in T1. repeat split; auto. rewrite T5. now destruct n.
  Qed.

  Lemma tstate_initial : tstate 0
    (RState (repeat processor0 n) (repeat core0 (count_entries (leads RCore) W)) (repeat cluster0 (count_entries (leads RCluster) W))
       (repeat package0 (count_entries (leads RPackage) W)) (repeat uarch_info0 (count_uarchs 0 0 W))
       (repeat None M) (repeat None M) (repeat 0 M) 0 0 0 0 0 0%N).
  Proof.
    assert (HM : forall A (value : nat -> A) zero, mapped lid M value zero 0 (repeat zero M)).
    { intros A value zero. split; [apply repeat_length|]. split; [intros; lia|]. intros c Hc _. now apply nth_error_repeat. }
    assert (HF : forall v A (zero : A) entry, filled (nw v) n zero entry 0 (repeat zero (count_entries (leads v) W))).
    { intros v A zero entry. rewrite count_entries_cnt by exact Hvalid. fold n. fold (nw v). apply filled_init. }
    split; cbn; auto.
    - now rewrite Nat.sub_0_r.
    - unfold n. destruct W as [|p l]; [reflexivity|]. cbn [length count_uarchs].
      rewrite (Hvalid p), (Huarch p) by (now left). cbn [negb N.eqb Nat.eqb orb].
      rewrite count_uarchs_one; [reflexivity| |lia]. intros q Hq. split; [apply Hvalid|apply Huarch]; now right.
  Qed.
End TRANSFER.
