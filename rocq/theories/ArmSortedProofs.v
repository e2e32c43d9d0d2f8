(** The table of ARM processors after sorting: the usable processors come first, and those of
    one cluster next to each other with their leader first. *)
From Verif Require Import Base BaseProofs Sorting Runs GroupArray ArmMidrModel ArmClustersModel ArmClustersSpec ArmClustersProofs
  ArmClusterMidrModel ArmClusterMidrSpec ArmLinuxModel ArmOrderProofs.
Open Scope nat_scope.

(** ** Counting *)
Lemma cnt_filter f : forall n, length (filter f (seq 0 n)) = cnt n f.
Proof.
  induction n as [|n IH]; [reflexivity|]. rewrite seq_S, filter_app, app_length, IH. cbn. destruct (f n); reflexivity.
Qed.

Lemma filter_nth {A} (g : A -> bool) d : forall l, length (filter (fun j => g (nth j l d)) (seq 0 (length l))) = length (filter g l).
Proof.
  induction l as [|a l IH]; [reflexivity|]. cbn [length seq filter]. change (nth 0 (a :: l) d) with a.
  assert (E : length (filter (fun j => g (nth j (a :: l) d)) (seq 1 (length l))) = length (filter g l)).
  { rewrite <- IH. rewrite <- seq_shift. rewrite <- (map_length S (filter _ (seq 0 _))). f_equal.
    generalize (seq 0 (length l)). intros s. induction s as [|x s IHs]; [reflexivity|]. cbn [map filter].
    change (nth (S x) (a :: l) d) with (nth x l d). destruct (g (nth x l d)); cbn [map]; now rewrite IHs. }
  destruct (g a); cbn [length]; now rewrite E.
Qed.

Lemma filter_permutation {A} (g : A -> bool) l l' : Permutation l l' -> length (filter g l) = length (filter g l').
Proof.
  intros P. induction P; cbn [filter]; auto; try congruence.
  - destruct (g x); cbn; congruence.
  - destruct (g x), (g y); reflexivity.
Qed.

(** ** What sorting is given and what it makes of it *)

(** Every processor knows its number, has a leader, and shares with it what is compared. *)
Record sortable (ps : list aproc) : Prop := {
  so_ids : forall i, i < length ps -> a_id (entry ps i) = i;
  so_clusters : clusters_ok ps;
  so_sizes : sizes_ok ps;
  so_follows : forall i, usable ps i -> follows_leader (entry ps (leader ps i)) (entry ps i)
}.

Definition starts_cluster (ss : list aproc) (i : nat) : bool := is_cluster_leader (entry ss i).

Record arranged (arm32 : bool) (ps ss : list aproc) (n : nat) : Prop := {
  ar_length : length ss = length ps;
  ar_le : n <= length ss;
  ar_valid : forall i, a_valid (entry ss i) = (i <? n);
  ar_entry : forall i, i < length ss -> a_id (entry ss i) < length ss /\ entry ss i = entry ps (a_id (entry ss i));
  ar_place : forall j, j < length ss -> exists i, i < length ss /\ a_id (entry ss i) = j;
  ar_distinct : forall i j, i < length ss -> j < length ss -> a_id (entry ss i) = a_id (entry ss j) -> i = j;
  ar_order : forall i j, i < j -> j < length ss -> arm_before arm32 (entry ss i) (entry ss j);
  ar_first : 0 < n -> starts_cluster ss 0 = true;
  ar_leader : forall i, i < n -> exists s, s <= i /\ starts_cluster ss s = true /\ a_id (entry ss s) = a_leader (entry ss i) /\
    (forall k, s < k <= i -> starts_cluster ss k = false) /\ follows_leader (entry ss s) (entry ss i);
  ar_size : forall i, i < n -> a_count (entry ss i) = cnt n (fun j => a_leader (entry ss j) =? a_leader (entry ss i));
  ar_clusters : cnt n (starts_cluster ss) = length (cluster_leaders ps)
}.

Lemma sorted_nth {A} (R : A -> A -> Prop) d : forall l, StronglySorted R l -> forall i j, i < j -> j < length l -> R (nth i l d) (nth j l d).
Proof.
  induction 1 as [|a l HS IH HF]; intros i j Hij Hj; cbn [length] in Hj; [lia|].
  destruct j as [|j]; [lia|]. destruct i as [|i]; cbn [nth].
  - rewrite Forall_forall in HF. apply HF, nth_In. lia.
  - apply IH; lia.
Qed.

Lemma entry_in ps i : i < length ps -> In (entry ps i) ps.
Proof. intros H. now apply nth_In. Qed.

Lemma in_entry ps p : In p ps -> exists i, i < length ps /\ entry ps i = p.
Proof. intros H. destruct (In_nth ps p aproc0 H) as (i & H1 & H2). eauto. Qed.

Lemma count_prefix (f : nat -> bool) : forall n, (forall i j, i < j -> j < n -> f j = true -> f i = true) ->
  forall i, i < n -> f i = (i <? cnt n f).
Proof.
  induction n as [|n IH]; intros Hm i Hi; [lia|].
  assert (Hm' : forall i j, i < j -> j < n -> f j = true -> f i = true) by (intros a b H1 H2; apply Hm; lia).
  destruct (f n) eqn:E.
  - assert (A : forall k, k <= n -> f k = true).
    { intros k Hk. destruct (Nat.eq_dec k n) as [->|]; [exact E|]. apply (Hm k n); auto; lia. }
    rewrite (cnt_ext f (fun _ => true)) by (intros; apply A; lia). rewrite cnt_all, A by lia.
    symmetry. now apply Nat.ltb_lt.
  - rewrite cnt_S_false by exact E. destruct (Nat.eq_dec i n) as [->|].
    + rewrite E. symmetry. apply Nat.ltb_ge. apply cnt_le.
    + apply IH; auto; lia.
Qed.

Lemma arrange arm32 ps ss : sortable ps -> Permutation ps ss ->
  StronglySorted (fun a b => (cmp_arm_linux_processor arm32 a b <= 0)%Z) ss -> arranged arm32 ps ss (usable_count ps).
Proof.
  intros [IDS CO SZ FL] P ST.
  assert (LEN : length ss = length ps) by now rewrite (Permutation_length P).
  assert (ENT : forall i, i < length ss -> a_id (entry ss i) < length ss /\ entry ss i = entry ps (a_id (entry ss i))).
  { intros i Hi. assert (H : In (entry ss i) ps) by (apply (Permutation_in _ (Permutation_sym P)), entry_in; lia).
    destruct (in_entry _ _ H) as (j & Hj & E). rewrite <- E, IDS by exact Hj. split; [lia|reflexivity]. }
  assert (PLACE : forall j, j < length ss -> exists i, i < length ss /\ a_id (entry ss i) = j).
  { intros j Hj. assert (H : In (entry ps j) ss) by (apply (Permutation_in _ P), entry_in; lia).
    destruct (in_entry _ _ H) as (i & Hi & E). exists i. split; [exact Hi|]. rewrite E. apply IDS. lia. }
  assert (ND : NoDup (map a_id ps)).
  { apply (NoDup_nth _ 0). intros i j Hi Hj. rewrite map_length in Hi, Hj.
    change 0 with (a_id aproc0). rewrite !map_nth. change (nth i ps aproc0) with (entry ps i). change (nth j ps aproc0) with (entry ps j).
    rewrite !IDS by lia. auto. }
  assert (DIS : forall i j, i < length ss -> j < length ss -> a_id (entry ss i) = a_id (entry ss j) -> i = j).
  { intros i j Hi Hj E. assert (ND' : NoDup (map a_id ss)) by (apply (Permutation_NoDup (Permutation_map a_id P) ND)).
    apply (proj1 (NoDup_nth _ 0) ND'); try now rewrite map_length. change 0 with (a_id aproc0). now rewrite !map_nth. }
  assert (ORD : forall i j, i < j -> j < length ss -> arm_before arm32 (entry ss i) (entry ss j)).
  { intros i j Hij Hj. apply cmp_arm_le. exact (sorted_nth _ aproc0 _ ST i j Hij Hj). }
  assert (NV : usable_count ps = cnt (length ss) (fun i => a_valid (entry ss i))).
  { unfold usable_count, usable_below, entry. rewrite (filter_nth a_valid), (filter_permutation a_valid _ _ P).
    rewrite <- (filter_nth a_valid aproc0 ss), cnt_filter. reflexivity. }
  assert (VAL : forall i, a_valid (entry ss i) = (i <? usable_count ps)).
  { intros i. destruct (Nat.lt_ge_cases i (length ss)) as [Hi|Hi].
    - rewrite NV. apply (count_prefix (fun i => a_valid (entry ss i))); [|exact Hi].
      intros a b Hab Hb E. destruct (ORD a b Hab Hb) as [(E1 & _)|(E1 & _)]; congruence.
    - unfold entry. rewrite nth_overflow by lia. symmetry. apply Nat.ltb_ge. rewrite NV. pose proof (cnt_le (length ss) (fun i => a_valid (entry ss i))). lia. }
  assert (LE : usable_count ps <= length ss) by (rewrite NV; apply cnt_le).
  assert (LEAD : forall i, i < usable_count ps -> exists s, s <= i /\ starts_cluster ss s = true /\ a_id (entry ss s) = a_leader (entry ss i) /\
    (forall k, s < k <= i -> starts_cluster ss k = false) /\ follows_leader (entry ss s) (entry ss i)).
  { intros i Hi. destruct (ENT i ltac:(lia)) as (Hj & Ei). set (j := a_id (entry ss i)) in *.
    assert (Uj : usable ps j) by (unfold usable; rewrite <- Ei, VAL; now apply Nat.ltb_lt).
    destruct (CO j Uj) as (L1 & L2 & L3). specialize (FL j Uj).
    assert (El : a_leader (entry ss i) = leader ps j) by (unfold leader; now rewrite <- Ei).
    destruct (PLACE (leader ps j) ltac:(lia)) as (s & Hs & Es).
    destruct (ENT s Hs) as (_ & Ess). rewrite Es in Ess.
    assert (Ls : a_leader (entry ss s) = leader ps j) by (rewrite Ess; exact L3).
    assert (Vs : a_valid (entry ss s) = true) by (rewrite Ess; exact L2).
    assert (F : follows_leader (entry ss s) (entry ss i)) by (rewrite Ess, Ei; exact FL).
    pose proof F as F'. destruct F' as [Fm _ _ Fx _ _].
    assert (Vi : a_valid (entry ss i) = true) by (rewrite VAL; now apply Nat.ltb_lt).
    assert (Hsi : s <= i).
    { destruct (Nat.lt_ge_cases i s) as [C|C]; [exfalso|exact C].
      specialize (ORD i s C Hs). unfold arm_before in ORD. rewrite Fm, Fx, Vi, Vs, El, Ls in ORD.
      assert (Hid : a_id (entry ss i) <= a_id (entry ss s)).
      { destruct ORD as [(_ & X)|(_ & [X|(_ & [X|(_ & [X|(_ & X)])])])]; try discriminate; lia. }
      rewrite Es in Hid. fold j in Hid. assert (i = s) by (apply DIS; [lia|lia|]; fold j; rewrite Es; lia). lia. }
    exists s. split; [exact Hsi|]. split; [unfold starts_cluster, is_cluster_leader; rewrite Ls, Es; apply Nat.eqb_refl|].
    split; [congruence|]. split; [|exact F].
    intros k Hk. assert (Lk : a_leader (entry ss k) = leader ps j).
    { pose proof (ORD s k ltac:(lia) ltac:(lia)) as O1.
      assert (O2 : k = i \/ arm_before arm32 (entry ss k) (entry ss i)).
      { destruct (Nat.eq_dec k i); [now left|right]. apply ORD; lia. }
      destruct O2 as [->|O2]; [exact El|].
      unfold arm_before in O1, O2. rewrite Vs, Ls in O1. rewrite Vi, El, Fm, Fx in O2.
      revert O1 O2. generalize (midr_score_core arm32 (a_midr (entry ss s))), (midr_score_core arm32 (a_midr (entry ss k))). intros x y.
      generalize (a_max (entry ss s)), (a_max (entry ss k)). intros mx my.
      destruct (a_valid (entry ss k)); intros O1 O2.
      - destruct O1 as [(_ & X)|(_ & [X|(X & O1)])]; [discriminate| |];
          (destruct O2 as [(_ & Y)|(_ & [Y|(Y & O2)])]; [discriminate| |]; try lia).
      - destruct O2 as [(Y & _)|(Y & _)]; discriminate. }
    unfold starts_cluster, is_cluster_leader. rewrite Lk. apply Nat.eqb_neq. intros E.
    assert (k = s) by (apply DIS; [lia|lia|congruence]). lia. }
  split; auto.
  - intros H. destruct (LEAD 0 H) as (s & Hs & E & _). now replace 0 with s by lia.
  - intros i Hi. destruct (ENT i ltac:(lia)) as (Hj & Ei).
    assert (Uj : usable ps (a_id (entry ss i))) by (unfold usable; rewrite <- Ei, VAL; now apply Nat.ltb_lt).
    rewrite Ei at 1. rewrite (SZ _ Uj). unfold leader. rewrite <- Ei.
    unfold cluster_members, leader, entry at 1 2. rewrite (filter_nth (fun p => a_valid p && (a_leader p =? a_leader (entry ss i)))), (filter_permutation _ _ _ P).
    rewrite <- (filter_nth (fun p => a_valid p && (a_leader p =? a_leader (entry ss i))) aproc0 ss), cnt_filter.
    change (fun j => a_valid (nth j ss aproc0) && (a_leader (nth j ss aproc0) =? a_leader (entry ss i)))
      with (fun j => a_valid (entry ss j) && (a_leader (entry ss j) =? a_leader (entry ss i))).
    rewrite (cnt_flat _ (usable_count ps) (length ss)) by (try lia; intros k Hk; rewrite VAL; replace (k <? usable_count ps) with false by (symmetry; apply Nat.ltb_ge; lia); reflexivity).
    apply cnt_ext. intros k Hk. rewrite VAL. now replace (k <? usable_count ps) with true by (symmetry; apply Nat.ltb_lt; lia).
  - unfold cluster_leaders.
    rewrite (filter_ext_in (leads ps) (fun i => (fun p => a_valid p && is_cluster_leader p) (entry ps i))).
    2:{ intros i Hi. apply in_seq in Hi. unfold leads, is_cluster_leader, leader. now rewrite IDS by lia. }
    unfold entry. rewrite (filter_nth (fun p => a_valid p && is_cluster_leader p)), (filter_permutation _ _ _ P).
    rewrite <- (filter_nth (fun p => a_valid p && is_cluster_leader p) aproc0 ss), cnt_filter.
    change (fun j => a_valid (nth j ss aproc0) && is_cluster_leader (nth j ss aproc0)) with (fun j => a_valid (entry ss j) && starts_cluster ss j).
    rewrite (cnt_flat _ (usable_count ps) (length ss)) by (try lia; intros k Hk; rewrite VAL; replace (k <? usable_count ps) with false by (symmetry; apply Nat.ltb_ge; lia); reflexivity).
    apply cnt_ext. intros k Hk. rewrite VAL. now replace (k <? usable_count ps) with true by (symmetry; apply Nat.ltb_lt; lia).
Qed.

(** Being in the same cluster is having the same leader. *)
Lemma same_group arm32 ps ss n i j : arranged arm32 ps ss n -> i < n -> j < n ->
  (grp (starts_cluster ss) i = grp (starts_cluster ss) j <-> a_leader (entry ss i) = a_leader (entry ss j)).
Proof.
  intros A Hi Hj. pose proof (ar_le _ _ _ _ A) as LE. pose proof (ar_first _ _ _ _ A ltac:(lia)) as F0.
  destruct (ar_leader _ _ _ _ A i Hi) as (s & Hs & Es & Is & Ns & _).
  destruct (ar_leader _ _ _ _ A j Hj) as (t & Ht & Et & It & Nt & _).
  assert (G : forall a b, a <= b -> starts_cluster ss a = true -> (forall k, a < k <= b -> starts_cluster ss k = false) ->
            grp (starts_cluster ss) b = cnt a (starts_cluster ss)).
  { intros a b Hab Ea Na. unfold grp. rewrite (cnt_flat _ (S a) (S b)) by (try lia; intros; apply Na; lia).
    now rewrite cnt_S_true by exact Ea. }
  rewrite (G s i Hs Es Ns), (G t j Ht Et Nt). rewrite <- Is, <- It. split; intros E.
  - now rewrite (leader_inj (starts_cluster ss) s t Es Et E).
  - now rewrite (ar_distinct _ _ _ _ A s t ltac:(lia) ltac:(lia) E).
Qed.

Lemma cluster_size arm32 ps ss n i : arranged arm32 ps ss n -> i < n ->
  a_count (entry ss i) = cnt n (fun j => grp (starts_cluster ss) j =? grp (starts_cluster ss) i).
Proof.
  intros A Hi. rewrite (ar_size _ _ _ _ A i Hi). apply cnt_ext. intros j Hj.
  pose proof (same_group _ _ _ _ j i A Hj Hi) as [H1 H2].
  destruct (Nat.eqb_spec (a_leader (entry ss j)) (a_leader (entry ss i))) as [E|E]; symmetry;
    [apply Nat.eqb_eq; auto|apply Nat.eqb_neq; auto].
Qed.
