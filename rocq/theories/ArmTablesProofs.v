(** The loops that fill the published tables of ARM Linux, run on an arranged table of processors. *)
From Verif Require Import Base BaseProofs Sorting Runs GroupArray Loops TopologySpec ArmMidrModel ArmClustersModel ArmClustersSpec
  ArmClustersProofs ArmClusterMidrModel ArmClusterMidrSpec ArmLinuxModel ArmOrderProofs ArmSortedProofs.
From Verif Require RiscvLinuxModel.
Import RiscvLinuxModel(copy_if, pred_index).
Open Scope nat_scope.

(** ** Filling an array from the left *)
Lemma wr_next {A} (l : list A) z m x : wr (l ++ repeat z (S m)) (length l) x = Ok ((l ++ [x]) ++ repeat z m).
Proof.
  unfold wr. rewrite app_length, repeat_length. replace (length l <? length l + S m) with true by (symmetry; apply Nat.ltb_lt; lia).
  f_equal. induction l as [|a l IH]; [reflexivity|]. cbn [app length upd]. now rewrite IH.
Qed.

Definition prefix {A} (z : A) (f : nat -> A) (n k : nat) : list A := map f (seq 0 k) ++ repeat z (n - k).

Lemma prefix_wr {A} (z : A) f n k : k < n -> wr (prefix z f n k) k (f k) = Ok (prefix z f n (S k)).
Proof.
  intros H. unfold prefix. replace (n - k) with (S (n - S k)) by lia.
  rewrite <- (seq_length k 0) at 3. rewrite <- (map_length f (seq 0 k)) at 1. rewrite wr_next.
  rewrite seq_S, map_app. reflexivity.
Qed.

Lemma prefix_skip {A} (z : A) f n k : k < n -> f k = z -> prefix z f n (S k) = prefix z f n k.
Proof.
  intros H E. unfold prefix. rewrite seq_S, map_app, <- app_assoc. cbn. rewrite E.
  replace (n - k) with (S (n - S k)) by lia. reflexivity.
Qed.

Lemma prefix_0 {A} (z : A) f n : repeat z n = prefix z f n 0.
Proof. unfold prefix. now rewrite Nat.sub_0_r. Qed.

Lemma prefix_all {A} (z : A) f n : prefix z f n n = map f (seq 0 n).
Proof. unfold prefix. rewrite Nat.sub_diag. apply app_nil_r. Qed.

(** The same for the elements that satisfy a condition. *)
Definition gathered {A} (z : A) (c : nat -> bool) (f : nat -> A) (n k : nat) : list A :=
  map f (filter c (seq 0 k)) ++ repeat z (cnt n c - cnt k c).

Lemma gathered_wr {A} (z : A) c f n k : k < n -> c k = true ->
  wr (gathered z c f n k) (cnt k c) (f k) = Ok (gathered z c f n (S k)).
Proof.
  intros H E. pose proof (cnt_mono c (S k) n H) as M. rewrite cnt_S_true in M by exact E. unfold gathered.
  replace (cnt n c - cnt k c) with (S (cnt n c - cnt (S k) c)) by (rewrite cnt_S_true by exact E; lia).
  rewrite <- (cnt_filter c k). rewrite <- (map_length f). rewrite wr_next.
  rewrite seq_S, filter_app, map_app. cbn. rewrite E. reflexivity.
Qed.

Lemma gathered_skip {A} (z : A) c f n k : c k = false -> gathered z c f n (S k) = gathered z c f n k.
Proof.
  intros E. unfold gathered. rewrite seq_S, filter_app. cbn [filter plus]. rewrite E, app_nil_r, cnt_S_false by exact E. reflexivity.
Qed.

Lemma gathered_0 {A} (z : A) c f n : repeat z (cnt n c) = gathered z c f n 0.
Proof. unfold gathered. cbn. now rewrite Nat.sub_0_r. Qed.

Lemma gathered_all {A} (z : A) c f n : gathered z c f n n = map f (filter c (seq 0 n)).
Proof. unfold gathered. rewrite Nat.sub_diag. apply app_nil_r. Qed.

Lemma nth_filter c : forall n s, s < n -> c s = true -> nth_error (filter c (seq 0 n)) (cnt s c) = Some s.
Proof.
  induction n as [|n IH]; intros s Hs E; [lia|]. rewrite seq_S, filter_app. cbn [filter plus].
  destruct (Nat.eq_dec s n) as [->|].
  - rewrite E, nth_error_app2; rewrite cnt_filter; [|lia]. now rewrite Nat.sub_diag.
  - rewrite nth_error_app1; [apply IH; auto; lia|]. rewrite cnt_filter.
    pose proof (cnt_mono c (S s) n ltac:(lia)) as M. rewrite cnt_S_true in M by exact E. lia.
Qed.

Lemma nth_map_seq {A} (f : nat -> A) n i : i < n -> nth_error (map f (seq 0 n)) i = Some (f i).
Proof. intros H. rewrite (map_nth_error f i (seq 0 n) (d := i)); [reflexivity|]. now rewrite (nth_error_nth' _ 0), seq_nth by (rewrite ?seq_length; lia). Qed.

(** ** Microarchitectures *)
Section TABLES.
  Variables (arm32 : bool) (ps ss : list aproc) (n : nat).
  Hypothesis A : arranged arm32 ps ss n.
  Hypothesis N0 : 0 < n.

  Definition uarch_key (i : nat) : N := a_uarch (entry ss i).
  Definition starts_uarch : nat -> bool := new_key uarch_key.
  Definition numbered (i : nat) : aproc :=
    if i <? n then with_auarch_index (grp starts_uarch i) (entry ss i) else entry ss i.
  Definition numbered_all : list aproc := map numbered (seq 0 (length ss)).
  Definition last_of (k : nat) : N := match min k n with O => 0%N | S j => uarch_key j end.

  Lemma entries : ss = map (entry ss) (seq 0 (length ss)).
  Proof.
    apply nth_error_ext. intros i. destruct (Nat.lt_ge_cases i (length ss)) as [H|H].
    - rewrite nth_map_seq by exact H. unfold entry. now apply nth_error_nth'.
    - rewrite (proj2 (nth_error_None _ _)) by exact H. symmetry. apply nth_error_None. rewrite map_length, seq_length. exact H.
  Qed.

  Lemma uarch_test k : k < n -> (cnt k starts_uarch =? 0) || negb (uarch_key k =? last_of k)%N = starts_uarch k.
  Proof.
    intros H. unfold last_of. rewrite Nat.min_l by lia. destruct k as [|k]; [reflexivity|].
    replace (cnt (S k) starts_uarch =? 0) with false; [reflexivity|].
    symmetry. apply Nat.eqb_neq. pose proof (cnt_pos starts_uarch eq_refl (S k)). lia.
  Qed.

  Lemma number_from : forall m k, k + m = length ss ->
    number_uarchs (cnt (min k n) starts_uarch) (last_of k) (map (entry ss) (seq k m)) =
      (cnt n starts_uarch, last_of (length ss), map numbered (seq k m)).
  Proof.
    pose proof (ar_le _ _ _ _ A) as LE.
    induction m as [|m IH]; intros k Hk; cbn [seq map number_uarchs].
    - replace (min k n) with n by lia. replace k with (length ss) by lia. reflexivity.
    - rewrite (ar_valid _ _ _ _ A). unfold numbered at 1. destruct (Nat.ltb_spec k n) as [H|H].
      + rewrite Nat.min_l by lia. change (a_uarch (entry ss k)) with (uarch_key k). rewrite (uarch_test k H).
        replace (if starts_uarch k then S (cnt k starts_uarch) else cnt k starts_uarch) with (cnt (min (S k) n) starts_uarch)
          by (rewrite Nat.min_l by lia; cbn; destruct (starts_uarch k); lia).
        replace (uarch_key k) with (last_of (S k)) by (unfold last_of; rewrite Nat.min_l by lia; reflexivity).
        rewrite IH by lia. f_equal. f_equal. unfold grp. rewrite Nat.min_l by lia. f_equal. lia.
      + replace (cnt (min k n) starts_uarch) with (cnt (min (S k) n) starts_uarch) by (f_equal; lia).
        replace (last_of k) with (last_of (S k)) by (unfold last_of; rewrite !Nat.min_r by lia; reflexivity).
        rewrite IH by lia. reflexivity.
  Qed.

  Lemma number_all : number_uarchs 0 0 ss = (cnt n starts_uarch, last_of (length ss), numbered_all).
  Proof. pose proof (number_from (length ss) 0 eq_refl) as H. rewrite <- entries in H. exact H. Qed.

  (** The table of microarchitectures: the run that starts at [s]. *)
  Definition uarch_entry (k s : nat) : arm_uarch :=
    let c := cnt k (fun i => grp starts_uarch i =? cnt s starts_uarch) in
    ArmUarch (uarch_key s) (a_midr (entry ss s)) c c.

  Lemma fill_from : forall m k uarchs last, k + m = length ss ->
    (k = 0 \/ last = last_of k) ->
    filled starts_uarch n arm_uarch0 uarch_entry (min k n) uarchs ->
    exists uarchs', fill_uarchs (cnt (min k n) starts_uarch) last uarchs (map numbered (seq k m)) = Ok uarchs' /\
      filled starts_uarch n arm_uarch0 uarch_entry n uarchs'.
  Proof.
    pose proof (ar_le _ _ _ _ A) as LE.
    induction m as [|m IH]; intros k uarchs last Hk Hl F; cbn [seq map fill_uarchs].
    - exists uarchs. split; [reflexivity|]. now replace n with (min k n) at 2 by lia.
    - unfold numbered at 1 2 3 4 5. pose proof (ar_valid _ _ _ _ A k) as V. destruct (Nat.ltb_spec k n) as [H|H].
      + cbn [a_valid a_flags with_auarch_index a_uarch a_midr]. change (a_valid (with_auarch_index (grp starts_uarch k) (entry ss k))) with (a_valid (entry ss k)). rewrite V.
        change (a_uarch (entry ss k)) with (uarch_key k).
        rewrite Nat.min_l in F |- * by lia.
        assert (T : (cnt k starts_uarch =? 0) || negb (uarch_key k =? last)%N = starts_uarch k).
        { destruct Hl as [->| ->]; [reflexivity|now apply uarch_test]. }
        rewrite T. clear T.
        set (f := if starts_uarch k then (fun _ => ArmUarch (uarch_key k) (a_midr (entry ss k)) 1 1)
                  else fun x => ArmUarch (au_uarch x) (au_midr x) (S (au_processors x)) (S (au_cores x))).
        destruct (filled_step starts_uarch n arm_uarch0 uarch_entry eq_refl k uarchs f H F) as (u' & E & F').
        { intros HN. unfold f. rewrite HN. unfold uarch_entry.
          pose proof (members_start starts_uarch eq_refl (fun _ => true) k HN) as X. cbn [andb] in X. rewrite X. reflexivity. }
        { intros s Hs Es EN EG. unfold f. rewrite EN. unfold uarch_entry. cbn [au_uarch au_midr au_processors au_cores].
          pose proof (members_more starts_uarch (fun _ => true) k s EG) as X. cbn [andb] in X. rewrite X.
          rewrite Nat.add_1_r. reflexivity. }
        { intros s Hs Es EG. unfold uarch_entry.
          pose proof (members_step starts_uarch eq_refl (fun _ => true) k s Hs Es EG) as X. cbn [andb] in X. rewrite X. reflexivity. }
        destruct (IH (S k) u' (uarch_key k) ltac:(lia)) as (u'' & E2 & F2).
        { right. unfold last_of. now rewrite Nat.min_l by lia. }
        { now rewrite Nat.min_l by lia. }
        exists u''. split; [|exact F2]. rewrite <- E2. rewrite Nat.min_l by lia.
        destruct F as (L & FS & FZ). pose proof (cnt_mono starts_uarch (S k) n H) as M.
        pose proof (cnt_grp starts_uarch eq_refl k) as G. cbn [modify_at] in E. unfold f in E. unfold copy_if.
        destruct (starts_uarch k) eqn:EN.
        * pose proof (grp_leader starts_uarch k EN) as GL. rewrite GL in E.
          unfold modify in E. destruct (nth_error uarchs (cnt k starts_uarch)) as [z|] eqn:EZ; [|discriminate E]. injection E as E.
          rewrite wr_ok by lia. cbn [bind pred_index].
          unfold modify. rewrite nth_error_upd_eq by lia. cbn [au_uarch au_midr au_processors au_cores bind].
          replace (upd (upd uarchs (cnt k starts_uarch) (ArmUarch (uarch_key k) (a_midr (entry ss k)) 0 0)) (cnt k starts_uarch)
            (ArmUarch (uarch_key k) (a_midr (entry ss k)) 1 1)) with u'.
          -- rewrite cnt_S_true by exact EN. reflexivity.
          -- rewrite <- E. apply nth_error_ext. intros j. destruct (Nat.eq_dec j (cnt k starts_uarch)) as [->|Hj].
             ++ rewrite !nth_error_upd_eq by (rewrite ?upd_length; lia). reflexivity.
             ++ rewrite !nth_error_upd_neq by auto. reflexivity.
        * cbn [bind]. rewrite cnt_S_false in G by exact EN. rewrite G. cbn [pred_index bind]. rewrite E. cbn [bind].
          rewrite cnt_S_false, G by exact EN. reflexivity.
      + change (a_valid (if false then with_auarch_index (grp starts_uarch k) (entry ss k) else entry ss k)) with (a_valid (entry ss k)).
        rewrite V. destruct (IH (S k) uarchs last ltac:(lia)) as (u'' & E2 & F2).
        * destruct Hl as [->|Hl]; [lia|right]. rewrite Hl. unfold last_of. rewrite !Nat.min_r by lia. reflexivity.
        * replace (min (S k) n) with (min k n) by lia. exact F.
        * exists u''. split; [|exact F2]. rewrite <- E2. now replace (min (S k) n) with (min k n) by lia.
  Qed.

  (** ** Processors, cores and clusters *)
  (** The tables are made for the first [m] of the [n] usable processors. *)
  Variable m : nat.
  Hypothesis M0 : 0 < m.
  Hypothesis MN : m <= n.
  Variables (d : arm_decoders) (chip : chipset).
  Variables (g1i g1d g2 g3 : nat -> geometry).
  Definition cluster_of (i : nat) : nat := grp (starts_cluster ss) i.
  Hypothesis DEC : forall i, i < m -> caches_of d chip (cluster_of i) (entry ss i) = Ok (g1i i, g1d i, g2 i, g3 i).

  Definition processor_at (i : nat) : processor :=
    Processor 0 (Some i) (Some (cluster_of i)) (Some 0) (N.of_nat (a_id (entry ss i))) 0.
  Definition core_at (i : nat) : core :=
    let p := entry ss i in Core i 1 i (Some (cluster_of i)) (Some 0) (a_vendor p) (a_uarch p) (a_midr p).
  Definition cluster_at (i : nat) : cluster :=
    let p := entry ss i in
    Cluster i (a_count p) i (a_count p) (cnt i (starts_cluster ss)) (Some 0) (a_vendor p) (a_uarch p) (a_midr p).
  Definition l1i_at (i : nat) : cache := l1_cache arm32 i (g1i i) af_icache (ar_icache (a_report (entry ss i))) (entry ss i).
  Definition l1d_at (i : nat) : cache := l1_cache arm32 i (g1d i) af_dcache (ar_dcache (a_report (entry ss i))) (entry ss i).
  Fixpoint counts_at (k : nat) : counts :=
    match k with
    | O => Counts 0 0 0 true
    | S k' => count_caches (cluster_of k') (entry ss k') (g2 k') (g3 k') (counts_at k')
    end.

  (** A map by CPU number after [k] processors. *)
  Definition mapped {B} (none : B) (f : nat -> B) (k : nat) (m : list B) : Prop :=
    length m = length ss /\ (forall i, i < k -> nth_error m (a_id (entry ss i)) = Some (f i)) /\
    (forall j, j < length ss -> (forall i, i < k -> a_id (entry ss i) <> j) -> nth_error m j = Some none).

  Lemma mapped_0 {B} (none : B) f : mapped none f 0 (repeat none (length ss)).
  Proof. split; [apply repeat_length|]. split; [intros; lia|]. intros j H _. now apply nth_error_repeat. Qed.

  Lemma mapped_step {B} (none : B) f k l : k < n -> mapped none f k l ->
    exists m', wr l (a_id (entry ss k)) (f k) = Ok m' /\ mapped none f (S k) m'.
  Proof.
    intros H (L & F & Z). pose proof (ar_le _ _ _ _ A) as LE. destruct (ar_entry _ _ _ _ A k ltac:(lia)) as (B1 & _).
    rewrite wr_ok by lia. eexists. split; [reflexivity|]. split; [now rewrite upd_length|]. split.
    - intros i Hi. destruct (Nat.eq_dec i k) as [->|Hne]; [apply nth_error_upd_eq; lia|].
      rewrite nth_error_upd_neq; [apply F; lia|]. intros E. apply Hne. apply (ar_distinct _ _ _ _ A); [lia|lia|auto].
    - intros j Hj Hn. rewrite nth_error_upd_neq by (apply Hn; lia). apply Z; [exact Hj|]. intros i Hi. apply Hn. lia.
  Qed.

  Definition uarch_mapped (k : nat) (m : option (list nat)) : Prop :=
    if 1 <? cnt n starts_uarch then exists l, m = Some l /\ mapped 0 (grp starts_uarch) k l else m = None.

  Record filled_to (k : nat) (s : fstate) : Prop := {
    ft_processors : ts_processors (fs_topology s) = prefix processor0 processor_at m k;
    ft_cores : ts_cores (fs_topology s) = prefix core0 core_at m k;
    ft_clusters : ts_clusters (fs_topology s) = gathered cluster0 (starts_cluster ss) cluster_at n k;
    ft_next : ts_next (fs_topology s) = cnt k (starts_cluster ss);
    ft_processor_map : mapped None Some k (ts_processor_map (fs_topology s));
    ft_core_map : mapped None Some k (ts_core_map (fs_topology s));
    ft_uarch_map : uarch_mapped k (ts_uarch_map (fs_topology s));
    ft_l1i : fs_l1i s = prefix cache0 l1i_at m k;
    ft_l1d : fs_l1d s = prefix cache0 l1d_at m k;
    ft_counts : fs_counts s = counts_at k
  }.

  Lemma rd_numbered k : k < n -> rd (numbered_all) k = Ok (with_auarch_index (grp starts_uarch k) (entry ss k)).
  Proof.
    intros H. pose proof (ar_le _ _ _ _ A) as LE. unfold rd, numbered_all. rewrite nth_map_seq by lia. unfold numbered.
    now replace (k <? n) with true by (symmetry; now apply Nat.ltb_lt).
  Qed.

  Lemma new_first : starts_cluster ss 0 = true.
  Proof. apply (ar_first _ _ _ _ A N0). Qed.

  Lemma fill_step_ok k s : k < m -> filled_to k s ->
    exists s', fill_step arm32 d chip numbered_all k s = Ok s' /\ filled_to (S k) s'.
  Proof.
    intros HM [F1 F2 F3 F4 F5 F6 F7 F8 F9 F10]. assert (H : k < n) by lia. unfold fill_step. rewrite (rd_numbered k H). cbn [bind].
    destruct s as [[tp tc tl tn tpm tcm tum] si sd sc]. cbn [fs_topology ts_processors ts_cores ts_clusters ts_next ts_processor_map ts_core_map ts_uarch_map fs_l1i fs_l1d fs_counts] in *.
    subst tp tc tl tn si sd sc.
    set (p := with_auarch_index (grp starts_uarch k) (entry ss k)).
    assert (EL : is_cluster_leader p = starts_cluster ss k) by reflexivity.
    pose proof (cnt_grp _ new_first k) as G. fold (cluster_of k) in G.
    unfold place. cbn [ts_processors ts_cores ts_clusters ts_next ts_processor_map ts_core_map ts_uarch_map]. rewrite EL.
    assert (CP : exists next, copy_if (starts_cluster ss k) (gathered cluster0 (starts_cluster ss) cluster_at n k) (cnt k (starts_cluster ss))
        (Cluster k (a_count p) k (a_count p) (cnt k (starts_cluster ss)) (Some 0) (a_vendor p) (a_uarch p) (a_midr p)) =
        Ok (gathered cluster0 (starts_cluster ss) cluster_at n (S k), next) /\ next = S (cluster_of k)).
    { unfold copy_if. destruct (starts_cluster ss k) eqn:E.
      - pose proof (gathered_wr cluster0 _ cluster_at n k H E) as W.
        change (Cluster k (a_count p) k (a_count p) (cnt k (starts_cluster ss)) (Some 0) (a_vendor p) (a_uarch p) (a_midr p)) with (cluster_at k).
        rewrite W. cbn [bind]. eexists. split; [reflexivity|]. rewrite cnt_S_true in G by exact E. exact G.
      - eexists. split; [rewrite gathered_skip by exact E; reflexivity|]. rewrite cnt_S_false in G by exact E. exact G. }
    destruct CP as (next & CP & ->). rewrite CP. cbn [bind pred_index].
    change (a_id p) with (a_id (entry ss k)).
    change (Processor 0 (Some k) (Some (cluster_of k)) (Some 0) (N.of_nat (a_id (entry ss k))) 0) with (processor_at k).
    rewrite prefix_wr by exact HM. cbn [bind].
    destruct (mapped_step None Some k tpm H F5) as (m1 & -> & M1). cbn [bind].
    change (Core k 1 k (Some (cluster_of k)) (Some 0) (a_vendor p) (a_uarch p) (a_midr p)) with (core_at k).
    rewrite prefix_wr by exact HM. cbn [bind].
    destruct (mapped_step None Some k tcm H F6) as (m2 & -> & M2). cbn [bind].
    assert (UM : exists um, match tum with Some m => do m' <- wr m (a_id (entry ss k)) (a_uarch_index p); Ok (Some m') | None => Ok None end = Ok um /\
              uarch_mapped (S k) um).
    { unfold uarch_mapped in F7 |- *. destruct (1 <? cnt n starts_uarch).
      - destruct F7 as (l & -> & F7). destruct (mapped_step 0 (grp starts_uarch) k l H F7) as (m3 & W & M3).
        change (a_uarch_index p) with (grp starts_uarch k). rewrite W. cbn [bind]. eauto.
      - subst tum. eauto. }
    destruct UM as (um & -> & M3). cbn [bind ts_next pred_index].
    change (caches_of d chip (cluster_of k) p) with (caches_of d chip (cluster_of k) (entry ss k)). rewrite (DEC k HM). cbn [bind].
    change (l1_cache arm32 k (g1i k) af_icache (ar_icache (a_report p)) p) with (l1i_at k).
    change (l1_cache arm32 k (g1d k) af_dcache (ar_dcache (a_report p)) p) with (l1d_at k).
    rewrite !prefix_wr by exact HM. cbn [bind].
    eexists. split; [reflexivity|]. split; cbn [fs_topology ts_processors ts_cores ts_clusters ts_next ts_processor_map ts_core_map ts_uarch_map fs_l1i fs_l1d fs_counts]; auto.
  Qed.

  Definition fill_init : fstate :=
    FState (TState (repeat processor0 m) (repeat core0 m) (repeat cluster0 (cnt n (starts_cluster ss))) 0
                   (repeat None (length ss)) (repeat None (length ss)) (if 1 <? cnt n starts_uarch then Some (repeat 0 (length ss)) else None))
           (repeat cache0 m) (repeat cache0 m) (Counts 0 0 0 true).

  Lemma fill_all : exists s, for_each (fill_step arm32 d chip numbered_all) 0 m fill_init = Ok s /\ filled_to m s.
  Proof.
    apply (for_each_inv _ filled_to m 0).
    - split; cbn [fill_init fs_topology ts_processors ts_cores ts_clusters ts_next ts_processor_map ts_core_map ts_uarch_map fs_l1i fs_l1d fs_counts];
        try apply prefix_0; try apply gathered_0; try apply mapped_0; try reflexivity.
      unfold uarch_mapped. destruct (1 <? cnt n starts_uarch); [|reflexivity]. eexists. split; [reflexivity|]. apply mapped_0.
    - intros i s Hi. apply fill_step_ok. lia.
  Qed.

  (** ** Caches *)
  Definition has2 (i : nat) : bool := negb (g_size (g2 i) =? 0)%N.
  Definition has3 (i : nat) : bool := negb (g_size (g3 i) =? 0)%N.
  (** Private second-level caches below a third-level cache, otherwise one per cluster. *)
  Definition first2 (i : nat) : bool := has3 i || (has2 i && starts_cluster ss i).
  Definition first3 (i : nat) : bool := has3 i && starts_cluster ss i.
  (** The processors of a cluster have the same levels. *)
  Hypothesis UNI : forall i j, i < m -> j < m -> cluster_of i = cluster_of j -> has2 i = has2 j /\ has3 i = has3 j.

  Lemma count_l2 k : n_l2 (counts_at k) = cnt k first2.
  Proof using. clear M0 MN DEC UNI g1i g1d d chip N0 A. 
    induction k as [|k IH]; [reflexivity|]. cbn [counts_at cnt]. unfold count_caches, first2 at 2.
    change (is_cluster_leader (entry ss k)) with (starts_cluster ss k). fold (has3 k). fold (has2 k). rewrite <- IH.
    destruct (has3 k); cbn [orb].
    - destruct (starts_cluster ss k); [|cbn; lia]. destruct (cluster_of k =? 0); [cbn; lia|]. destruct (negb _); cbn; lia.
    - cbn [n_l2]. destruct (has2 k && starts_cluster ss k); lia.
  Qed.

  (** What the first loop finds out about the third level: one cache for all, or one for
      each cluster whose size is not that of the first cluster. *)
  Definition size0 : N := g_size (g3 0).
  Definition another3 (i : nat) : bool := negb (i =? 0) && first3 i && negb (g_size (g3 i) =? size0)%N.

  Lemma cluster_0 k : k < n -> starts_cluster ss k = true -> (cluster_of k =? 0) = (k =? 0).
  Proof using A N0. clear M0 MN DEC UNI m g2 g3 g1i g1d d chip. 
    intros H E. unfold cluster_of. rewrite grp_leader by exact E. destruct k as [|k]; [reflexivity|].
    pose proof (cnt_pos _ new_first (S k)). cbn [Nat.eqb]. apply Nat.eqb_neq. lia.
  Qed.

  Lemma count_l3 k : k < n -> let c := counts_at (S k) in
    n_big_l3 c = (if has3 0 then size0 else 0%N) /\
    n_l3 c = (if has3 0 then 1 else 0) + cnt (S k) another3 /\
    (n_shared_l3 c = true <-> forall i, i <= k -> has3 i = true /\ (starts_cluster ss i = true -> g_size (g3 i) = size0)).
  Proof using A N0. clear M0 MN DEC UNI m g1i g1d d chip. 
    induction k as [|k IH]; intros H; cbv zeta.
    - cbn [counts_at cnt]. unfold count_caches. change (is_cluster_leader (entry ss 0)) with (starts_cluster ss 0). rewrite new_first.
      rewrite (cluster_0 0 H new_first). cbn [Nat.eqb]. fold (has3 0). unfold another3. cbn [Nat.eqb negb andb].
      destruct (has3 0) eqn:E; cbn [n_big_l3 n_l3 n_shared_l3].
      + split; [reflexivity|]. split; [reflexivity|]. split; [|auto]. intros _ i Hi. replace i with 0 by lia. auto.
      + split; [reflexivity|]. split; [reflexivity|]. split; [discriminate|]. intros X. destruct (X 0 ltac:(lia)) as (X1 & _). congruence.
    - destruct (IH ltac:(lia)) as (I1 & I2 & I3). clear IH. remember (counts_at (S k)) as c eqn:Ec. remember (S k) as k1 eqn:Ek1.
      cbn [counts_at cnt]. rewrite <- Ec. unfold count_caches. change (is_cluster_leader (entry ss k1)) with (starts_cluster ss k1). fold (has3 k1). fold (has2 k1).
      assert (A3 : another3 k1 = has3 k1 && starts_cluster ss k1 && negb (g_size (g3 k1) =? size0)%N).
      { unfold another3, first3. now replace (k1 =? 0) with false by (subst k1; reflexivity). }
      assert (SPLIT : forall P : nat -> Prop, (forall i, i <= k1 -> P i) <-> (forall i, i <= k -> P i) /\ P k1).
      { intros P. split; [intros X; split; intros; apply X; lia|]. intros (X & Y) i Hi. destruct (Nat.eq_dec i k1) as [->|]; [exact Y|apply X; lia]. }
      rewrite SPLIT, <- I3. rewrite A3. clear A3 SPLIT.
      destruct (has3 k1) eqn:E3; cbn [andb n_big_l3 n_l3 n_shared_l3].
      + destruct (starts_cluster ss k1) eqn:ES; cbn [andb].
        * rewrite (cluster_0 k1 H ES). replace (k1 =? 0) with false by (subst k1; reflexivity). cbn [n_big_l3].
          rewrite I1. unfold has3 in E3. apply negb_true_iff, N.eqb_neq in E3.
          assert (B : (g_size (g3 k1) =? (if has3 0 then size0 else 0))%N = (g_size (g3 k1) =? size0)%N).
          { unfold has3, size0. destruct (N.eqb_spec (g_size (g3 0)) 0) as [Z|Z]; cbn [negb]; [rewrite Z|]; reflexivity. }
          rewrite B. destruct (N.eqb_spec (g_size (g3 k1)) size0) as [Q|Q]; cbn [negb n_big_l3 n_l3 n_shared_l3]; rewrite ?I1, ?I2.
          -- split; [reflexivity|]. split; [lia|]. tauto.
          -- split; [reflexivity|]. split; [lia|]. split; [discriminate|]. intros (_ & _ & X). exfalso. auto.
        * cbn [n_big_l3 n_l3 n_shared_l3]. rewrite I1, I2. split; [reflexivity|]. split; [lia|]. split; [|tauto]. intros X. split; [exact X|]. split; [reflexivity|discriminate].
      + rewrite I1, I2. split; [reflexivity|]. split; [lia|]. split; [discriminate|]. intros (_ & X & _). discriminate.
  Qed.

  Definition total3 : nat := n_l3 (counts_at m).
  Definition shared3 : bool := n_shared_l3 (counts_at m).

  Lemma total3_is : total3 = (if has3 0 then 1 else 0) + cnt m another3.
  Proof using A N0 M0 MN. clear DEC UNI g1i g1d d chip.  unfold total3. destruct (count_l3 (m - 1) ltac:(lia)) as (_ & X & _). now replace (S (m - 1)) with m in X by lia. Qed.

  Lemma shared3_is : shared3 = true <-> forall i, i < m -> has3 i = true /\ (starts_cluster ss i = true -> g_size (g3 i) = size0).
  Proof using A N0 M0 MN. clear DEC UNI g1i g1d d chip. 
    unfold shared3. destruct (count_l3 (m - 1) ltac:(lia)) as (_ & _ & X). replace (S (m - 1)) with m in X by lia. rewrite X.
    split; intros Y i Hi; apply Y; lia.
  Qed.

  Lemma total3_le : total3 <= cnt m first3.
  Proof using A N0 M0 MN. clear DEC UNI g1i g1d d chip. 
    rewrite total3_is. assert (G : forall k, 0 < k -> k <= m -> (if has3 0 then 1 else 0) + cnt k another3 <= cnt k first3).
    { induction k as [|k IH]; intros H1 H2; [lia|]. destruct (Nat.eq_dec k 0) as [->|].
      - cbn. unfold another3, first3. rewrite new_first, andb_true_r. cbn. destruct (has3 0); lia.
      - specialize (IH ltac:(lia) ltac:(lia)). cbn [cnt]. unfold another3 at 2. destruct (first3 k); rewrite ?andb_false_r; cbn [andb]; [|lia].
        destruct (negb (k =? 0) && true && negb (g_size (g3 k) =? size0)%N); lia. }
    now apply G.
  Qed.

  Definition l2_at (i : nat) : cache := Cache (one_partition (g2 i)) i (if has3 i then 1 else a_count (entry ss i)).
  Definition l2_of (i : nat) : option nat := if has3 i || has2 i then Some (grp first2 i) else None.
  Definition l3_at (i : nat) : cache := Cache (one_partition (g3 i)) i (if shared3 then m else a_count (entry ss i)).
  Definition l3_of (i : nat) : option nat :=
    if has3 i then if shared3 then Some 0 else if cnt (S i) first3 <=? total3 then Some (grp first3 i) else None
    else None.
  (** The third-level caches written so far: only [total3] fit. *)
  Definition l3_table (k : nat) : list cache :=
    map l3_at (firstn total3 (filter first3 (seq 0 k))) ++ repeat cache0 (total3 - cnt k first3).

  Record shared_to (k : nat) (s : sstate) : Prop := {
    st_next : ss_next s = cnt k (starts_cluster ss);
    st_l2 : ss_l2 s = gathered cache0 first2 l2_at m k;
    st_next2 : ss_next_l2 s = cnt k first2;
    st_l3 : ss_l3 s = l3_table k;
    st_next3 : ss_next_l3 s = cnt k first3;
    st_l2_of : ss_l2_of s = prefix None l2_of m k;
    st_l3_of : ss_l3_of s = prefix None l3_of m k
  }.

  Lemma l3_table_length k : length (l3_table k) = total3.
  Proof using. clear M0 MN DEC UNI g1i g1d d chip N0 A.  unfold l3_table. rewrite app_length, map_length, firstn_length, repeat_length, cnt_filter. lia. Qed.

  Lemma firstn_filter_S k : first3 k = true -> cnt k first3 < total3 ->
    firstn total3 (filter first3 (seq 0 (S k))) = firstn total3 (filter first3 (seq 0 k)) ++ [k].
  Proof using. clear M0 MN DEC UNI g1i g1d d chip N0 A. 
    intros E H. rewrite seq_S, filter_app. cbn [filter plus]. rewrite E. rewrite !firstn_all2; rewrite ?app_length, ?cnt_filter; cbn [length]; try lia. reflexivity.
  Qed.

  Lemma l3_table_wr k : first3 k = true -> cnt k first3 < total3 ->
    wr (l3_table k) (cnt k first3) (l3_at k) = Ok (l3_table (S k)).
  Proof using. clear M0 MN DEC UNI g1i g1d d chip N0 A. 
    intros E H. unfold l3_table. rewrite (firstn_filter_S k E H).
    replace (total3 - cnt k first3) with (S (total3 - cnt (S k) first3)) by (rewrite cnt_S_true by exact E; lia).
    assert (L : length (map l3_at (firstn total3 (filter first3 (seq 0 k)))) = cnt k first3) by (rewrite map_length, firstn_length, cnt_filter; lia).
    rewrite <- L at 1. rewrite wr_next, map_app. reflexivity.
  Qed.

  Lemma l3_table_full k : total3 <= cnt k first3 -> l3_table (S k) = l3_table k.
  Proof using. clear M0 MN DEC UNI g1i g1d d chip N0 A. 
    intros H. unfold l3_table. pose proof (cnt_mono first3 k (S k) ltac:(lia)). replace (total3 - cnt (S k) first3) with 0 by lia. replace (total3 - cnt k first3) with 0 by lia.
    rewrite seq_S, filter_app, firstn_app. rewrite cnt_filter. replace (total3 - cnt k first3) with 0 by lia. f_equal. f_equal. apply app_nil_r.
  Qed.

  Lemma l3_table_skip k : first3 k = false -> l3_table (S k) = l3_table k.
  Proof using. clear M0 MN DEC UNI g1i g1d d chip N0 A.  intros E. unfold l3_table. rewrite seq_S, filter_app. cbn [filter plus]. rewrite E, app_nil_r, cnt_S_false by exact E. reflexivity. Qed.

  (** The leader of a processor's cluster. *)
  Lemma leader_before i : i < n -> exists s, s <= i /\ starts_cluster ss s = true /\ cnt s (starts_cluster ss) = cluster_of i /\
    cluster_of s = cluster_of i /\ (forall k, s < k <= i -> starts_cluster ss k = false) /\ follows_leader (entry ss s) (entry ss i) /\
    (forall k, s <= k <= i -> cluster_of k = cluster_of i).
  Proof using A. clear M0 MN DEC UNI m g2 g3 g1i g1d d chip N0. 
    intros H. destruct (ar_leader _ _ _ _ A i H) as (s & Hs & Es & _ & Ns & FL).
    assert (G : forall k, s <= k <= i -> cluster_of k = cnt s (starts_cluster ss)).
    { intros k Hk. unfold cluster_of, grp. rewrite (cnt_flat _ (S s) (S k)) by (try lia; intros; apply Ns; lia). now rewrite cnt_S_true by exact Es. }
    exists s. rewrite (G s), (G i) by lia. repeat (split; auto).
  Qed.

  (** A cache is created for the leader, and for no other processor of its cluster, if
      there is one per cluster. *)
  Lemma first3_of i s : i < m -> s <= i -> starts_cluster ss s = true -> cluster_of s = cluster_of i ->
    (forall k, s < k <= i -> starts_cluster ss k = false) -> has3 i = true -> first3 s = true /\ cnt (S i) first3 = S (cnt s first3).
  Proof.
    intros H Hs Es Ec Ns H3. destruct (UNI s i ltac:(lia) H Ec) as (_ & U3).
    assert (F : first3 s = true) by (unfold first3; rewrite U3, H3, Es; reflexivity). split; [exact F|].
    rewrite (cnt_flat _ (S s) (S i)); [now rewrite cnt_S_true by exact F|lia|].
    intros k Hk. unfold first3. rewrite (Ns k) by lia. apply andb_false_r.
  Qed.

  Lemma first2_of i s : i < m -> s <= i -> starts_cluster ss s = true -> (forall k, s <= k <= i -> cluster_of k = cluster_of i) ->
    (forall k, s < k <= i -> starts_cluster ss k = false) -> has3 i = false -> has2 i = true ->
    first2 s = true /\ cnt (S i) first2 = S (cnt s first2).
  Proof.
    intros H Hs Es Ec Ns H3 H2. destruct (UNI s i ltac:(lia) H (Ec s ltac:(lia))) as (U2 & U3).
    assert (F : first2 s = true) by (unfold first2; rewrite U2, H2, Es; apply orb_true_r). split; [exact F|].
    rewrite (cnt_flat _ (S s) (S i)); [now rewrite cnt_S_true by exact F|lia|].
    intros k Hk. unfold first2. destruct (UNI k i ltac:(lia) H (Ec k ltac:(lia))) as (_ & U). rewrite U, H3, (Ns k) by lia. now rewrite andb_false_r.
  Qed.

  Lemma share_step_ok k s : k < m -> shared_to k s ->
    exists s', share_step d chip numbered_all m shared3 k s = Ok s' /\ shared_to (S k) s'.
  Proof.
    intros HM [F1 F2 F3 F4 F5 F6 F7]. assert (H : k < n) by lia. unfold share_step. rewrite (rd_numbered k H). cbn [bind].
    destruct s as [sn l2 n2 l3 n3 o2 o3]. cbn [ss_next ss_l2 ss_next_l2 ss_l3 ss_next_l3 ss_l2_of ss_l3_of] in *. subst.
    set (p := with_auarch_index (grp starts_uarch k) (entry ss k)).
    assert (EL : is_cluster_leader p = starts_cluster ss k) by reflexivity. rewrite EL.
    pose proof (cnt_grp _ new_first k) as G. fold (cluster_of k) in G.
    assert (EN : (if starts_cluster ss k then S (cnt k (starts_cluster ss)) else cnt k (starts_cluster ss)) = S (cluster_of k)).
    { rewrite <- G. cbn [cnt]. destruct (starts_cluster ss k); lia. }
    rewrite EN. cbn [pred_index bind].
    change (caches_of d chip (cluster_of k) p) with (caches_of d chip (cluster_of k) (entry ss k)). rewrite (DEC k HM). cbn [bind].
    fold (has3 k). fold (has2 k).
    destruct (leader_before k H) as (s0 & Hs & Es & _ & Ec & Ns & _ & Cs).
    destruct (has3 k) eqn:E3.
    - assert (Q2 : first2 k = true) by (unfold first2; now rewrite E3).
      assert (G2 : grp first2 k = cnt k first2) by now apply grp_leader.
      replace (Cache (one_partition (g2 k)) k 1) with (l2_at k) by (unfold l2_at; now rewrite E3).
      rewrite (gathered_wr _ _ _ _ _ HM Q2). cbn [bind].
      replace (Some (cnt k first2)) with (l2_of k) by (unfold l2_of; rewrite E3, G2; reflexivity).
      rewrite prefix_wr by exact HM. cbn [bind].
      destruct (first3_of k s0 HM Hs Es Ec Ns E3) as (Q3 & C3).
      assert (N3 : (if starts_cluster ss k then S (cnt k first3) else cnt k first3) = cnt (S k) first3).
      { cbn [cnt]. unfold first3 at 4. rewrite E3. cbn [andb]. destruct (starts_cluster ss k); lia. }
      rewrite N3. assert (P3 : 0 < cnt (S k) first3) by lia.
      assert (W3 : (if starts_cluster ss k && in_table (cnt (S k) first3) (l3_table k)
                    then wr (l3_table k) (cnt (S k) first3 - 1) (Cache (one_partition (g3 k)) k (if shared3 then m else a_count p))
                    else Ok (l3_table k)) = Ok (l3_table (S k))).
      { change (Cache (one_partition (g3 k)) k (if shared3 then m else a_count p)) with (l3_at k).
        destruct (starts_cluster ss k) eqn:ES; cbn [andb].
        - assert (Q : first3 k = true) by (unfold first3; now rewrite E3, ES).
          unfold in_table. rewrite l3_table_length. replace (0 <? cnt (S k) first3) with true by (symmetry; now apply Nat.ltb_lt). cbn [andb].
          destruct (Nat.leb_spec (cnt (S k) first3) total3) as [L|L]; rewrite cnt_S_true in L by exact Q.
          + replace (cnt (S k) first3 - 1) with (cnt k first3) by (rewrite cnt_S_true by exact Q; lia). now apply l3_table_wr.
          + now rewrite l3_table_full by lia.
        - assert (Q : first3 k = false) by (unfold first3; rewrite ES; apply andb_false_r). now rewrite (l3_table_skip k Q). }
      rewrite W3. cbn [bind].
      assert (W4 : (if shared3 then wr (prefix None l3_of m k) k (first_of (l3_table (S k)))
                    else if in_table (cnt (S k) first3) (l3_table (S k)) then wr (prefix None l3_of m k) k (Some (cnt (S k) first3 - 1))
                         else Ok (prefix None l3_of m k)) = Ok (prefix None l3_of m (S k))).
      { destruct shared3 eqn:SH.
        - replace (first_of (l3_table (S k))) with (l3_of k); [now apply prefix_wr|]. unfold l3_of. rewrite E3, SH.
          assert (T : 0 < total3).
          { rewrite total3_is. destruct (proj1 shared3_is SH 0 M0) as (X & _). rewrite X. lia. }
          pose proof (l3_table_length (S k)) as LL. destruct (l3_table (S k)); [cbn in LL; lia|reflexivity].
        - unfold in_table. rewrite l3_table_length. replace (0 <? cnt (S k) first3) with true by (symmetry; now apply Nat.ltb_lt). cbn [andb].
          destruct (cnt (S k) first3 <=? total3) eqn:LB.
          + replace (Some (cnt (S k) first3 - 1)) with (l3_of k); [now apply prefix_wr|]. unfold l3_of. rewrite E3, SH, LB. unfold grp. f_equal. lia.
          + rewrite prefix_skip; [reflexivity|exact HM|]. unfold l3_of. now rewrite E3, SH, LB. }
      rewrite W4. cbn [bind]. eexists. split; [reflexivity|].
      split; cbn [ss_next ss_l2 ss_next_l2 ss_l3 ss_next_l3 ss_l2_of ss_l3_of]; auto.
      now rewrite cnt_S_true by exact Q2.
    - assert (Q3 : first3 k = false) by (unfold first3; now rewrite E3).
      destruct (has2 k) eqn:E2.
      + destruct (first2_of k s0 HM Hs Es Cs Ns E3 E2) as (Q2 & C2).
        assert (CP : exists next, copy_if (starts_cluster ss k) (gathered cache0 first2 l2_at m k) (cnt k first2) (Cache (one_partition (g2 k)) k (a_count p)) =
            Ok (gathered cache0 first2 l2_at m (S k), next) /\ next = cnt (S k) first2).
        { unfold copy_if. assert (QK : first2 k = starts_cluster ss k) by (unfold first2; now rewrite E3, E2). destruct (starts_cluster ss k).
          - replace (Cache (one_partition (g2 k)) k (a_count p)) with (l2_at k) by (unfold l2_at; now rewrite E3).
            rewrite (gathered_wr _ _ _ _ _ HM QK). cbn [bind]. eexists. split; [reflexivity|]. now rewrite cnt_S_true by exact QK.
          - eexists. split; [now rewrite gathered_skip by exact QK|]. now rewrite cnt_S_false by exact QK. }
        destruct CP as (next & -> & ->). cbn [bind]. assert (PI : pred_index (cnt (S k) first2) = Ok (cnt s0 first2)) by (rewrite C2; reflexivity). rewrite PI. cbn [bind].
        replace (Some (cnt s0 first2)) with (l2_of k) by (unfold l2_of, grp; rewrite E3, E2, C2; reflexivity).
        rewrite prefix_wr by exact HM. cbn [bind]. eexists. split; [reflexivity|].
        split; cbn [ss_next ss_l2 ss_next_l2 ss_l3 ss_next_l3 ss_l2_of ss_l3_of]; auto.
        * now rewrite l3_table_skip by exact Q3.
        * now rewrite cnt_S_false by exact Q3.
        * rewrite prefix_skip; [reflexivity|exact HM|]. unfold l3_of. now rewrite E3.
      + assert (Q2 : first2 k = false) by (unfold first2; now rewrite E3, E2). eexists. split; [reflexivity|].
        split; cbn [ss_next ss_l2 ss_next_l2 ss_l3 ss_next_l3 ss_l2_of ss_l3_of]; auto.
        * now rewrite gathered_skip by exact Q2.
        * now rewrite cnt_S_false by exact Q2.
        * now rewrite l3_table_skip by exact Q3.
        * now rewrite cnt_S_false by exact Q3.
        * rewrite prefix_skip; [reflexivity|exact HM|]. unfold l2_of. now rewrite E3, E2.
        * rewrite prefix_skip; [reflexivity|exact HM|]. unfold l3_of. now rewrite E3.
  Qed.

  Definition share_init : sstate :=
    SState 0 (repeat cache0 (cnt m first2)) 0 (if cnt m first2 =? 0 then [] else repeat cache0 total3) 0 (repeat None m) (repeat None m).

  Lemma no_l2_no_l3 : cnt m first2 = 0 -> total3 = 0.
  Proof using A N0 M0 MN. clear DEC UNI g1i g1d d chip. 
    intros Z. pose proof total3_le as L. assert (G : forall k, cnt k first3 <= cnt k first2).
    { induction k as [|k IH]; [reflexivity|]. cbn [cnt]. unfold first3 at 2, first2 at 2. destruct (has3 k); cbn [andb orb]; [destruct (starts_cluster ss k); lia|lia]. }
    specialize (G m). lia.
  Qed.

  Lemma share_all : exists s, for_each (share_step d chip numbered_all m shared3) 0 m share_init = Ok s /\ shared_to m s.
  Proof.
    apply (for_each_inv _ shared_to m 0).
    - split; cbn [share_init ss_next ss_l2 ss_next_l2 ss_l3 ss_next_l3 ss_l2_of ss_l3_of]; try apply prefix_0; try apply gathered_0; try reflexivity.
      unfold l3_table. cbn [seq filter]. rewrite firstn_nil. cbn. rewrite Nat.sub_0_r.
      destruct (Nat.eqb_spec (cnt m first2) 0) as [Z|Z]; [|reflexivity]. now rewrite no_l2_no_l3.
    - intros i s Hi. apply share_step_ok. lia.
  Qed.
End TABLES.
