(** Windows for ARM: machines whose processors are numbered in order are described consistently. *)
From Verif Require Import Base BaseProofs TopologySpec ArmWindowsModel ArmWindowsSpec ArmWindowsPasses ArmWindowsFinal.
Open Scope nat_scope.

(** ** Monotone owners *)

Section MONOTONE.
Context (f : nat -> nat).

Definition below (n j : nat) : nat := length (filter (fun i => f i <? j) (seq 0 n)).
Definition equal (n j : nat) : list nat := filter (fun i => f i =? j) (seq 0 n).

Lemma below_succ n j : below n (S j) = below n j + length (equal n j).
Proof.
  unfold below, equal. generalize (seq 0 n). induction l as [|i l IH]; [reflexivity|]. cbn [filter].
  destruct (Nat.ltb_spec (f i) (S j)), (Nat.ltb_spec (f i) j), (Nat.eqb_spec (f i) j); cbn [length]; lia.
Qed.
Lemma below_all n j : (forall i, i < n -> f i < j) -> below n j = n.
Proof.
  intros H. unfold below. rewrite <- (seq_length n 0) at 2. f_equal. assert (G : forall l, Forall (fun i => f i < j) l -> filter (fun i => f i <? j) l = l).
  { induction 1 as [|i l Hi F IH]; [reflexivity|]. cbn [filter]. apply Nat.ltb_lt in Hi. now rewrite Hi, IH. }
  apply G. rewrite Forall_forall. intros i Hi. apply in_seq in Hi. apply H. lia.
Qed.

Lemma equal_range n j : (forall i i', i <= i' -> i' < n -> f i <= f i') -> equal n j = seq (below n j) (length (equal n j)).
Proof.
  induction n as [|n IH]; intros M; [reflexivity|].
  assert (IH' := IH ltac:(intros i i' A B; apply M; lia)). unfold equal, below in *. rewrite !seq_S, !filter_app, !app_length. cbn [filter plus].
  set (e := filter (fun i => f i =? j) (seq 0 n)) in *. set (b := length (filter (fun i => f i <? j) (seq 0 n))) in *.
  destruct (Nat.eqb_spec (f n) j) as [E|E].
  - destruct (Nat.ltb_spec (f n) j) as [Q|Q]; [lia|]. cbn [length]. rewrite Nat.add_0_r, Nat.add_1_r, seq_S, <- IH'. f_equal. f_equal.
    assert (T : below n (S j) = n) by (apply below_all; intros i Hi; specialize (M i n ltac:(lia) ltac:(lia)); lia). rewrite below_succ in T. unfold below, equal in T. fold e b in T. lia.
  - cbn [length]. rewrite !Nat.add_0_r, app_nil_r. destruct (Nat.ltb_spec (f n) j) as [Q|Q]; cbn [length]; [|rewrite Nat.add_0_r; exact IH'].
    assert (Z : e = []).
    { unfold e. destruct (filter (fun i => f i =? j) (seq 0 n)) as [|x l] eqn:Fx; [reflexivity|]. exfalso.
      assert (I : In x (filter (fun i => f i =? j) (seq 0 n))) by (rewrite Fx; now left). apply filter_In in I. destruct I as (I & I2). apply in_seq in I. apply Nat.eqb_eq in I2.
      specialize (M x n ltac:(lia) ltac:(lia)). lia. }
    rewrite Z. reflexivity.
Qed.
End MONOTONE.

(** A group: its elements, the first of them and their number. *)
Definition group_of (owner : list nat) (r : nat * nat) (j : nat) : Prop :=
  exists members, (forall i, In i members <-> nth_error owner i = Some j) /\ NoDup members /\ least (fst r) members /\ snd r = length members.

Lemma monotone_grouping owner ranges : (forall i i' a b, i <= i' -> nth_error owner i = Some a -> nth_error owner i' = Some b -> a <= b) ->
  (forall j r, nth_error ranges j = Some r -> group_of owner r j) -> Forall (fun j => j < length ranges) owner -> grouping owner ranges.
Proof.
  intros M G F. set (n := length owner). set (f := fun i => nth i owner 0).
  assert (NF : forall i, i < n -> nth_error owner i = Some (f i)) by (intros i Hi; now apply nth_error_nth').
  assert (MF : forall i i', i <= i' -> i' < n -> f i <= f i') by (intros i i' A B; apply (M i i'); auto; apply NF; lia).
  assert (R : forall j r, nth_error ranges j = Some r -> r = (below f n j, length (equal f n j)) /\ 0 < length (equal f n j)).
  { intros j (s, c) Hr. destruct (G j _ Hr) as (ms & I & ND & (L1 & L2) & E). cbn [fst snd] in *.
    assert (P : Permutation (equal f n j) ms).
    { apply NoDup_Permutation; [apply NoDup_filter, seq_NoDup|exact ND|]. intros i. unfold equal. rewrite filter_In, in_seq, I. split.
      - intros (A & B). rewrite NF by lia. apply Nat.eqb_eq in B. now rewrite B.
      - intros A. pose proof (nth_error_some_lt _ _ _ _ A) as B. fold n in B. rewrite NF in A by exact B. split; [lia|]. apply Nat.eqb_eq. congruence. }
    pose proof (Permutation_length P) as PL. assert (Z : 0 < length ms) by (destruct ms; [destruct L1|cbn; lia]). split; [|lia]. rewrite PL, <- E. f_equal.
    pose proof (equal_range f n j MF) as ER. apply (Permutation_in _ (Permutation_sym P)) in L1. rewrite ER in L1. apply in_seq in L1.
    assert (L3 : In (below f n j) ms) by (apply (Permutation_in _ P); rewrite ER; apply in_seq; lia). rewrite Forall_forall in L2. specialize (L2 _ L3). lia. }
  assert (B0 : below f n 0 = 0).
  { unfold below. generalize (seq 0 n). induction l as [|i l IH]; [reflexivity|]. cbn [filter]. destruct (Nat.ltb_spec (f i) 0); [lia|exact IH]. }
  assert (BN : below f n (length ranges) = n).
  { apply below_all. intros i Hi. rewrite Forall_forall in F. apply F. apply nth_error_In with i. now apply NF. }
  split.
  - assert (T : forall rs k, (forall j r, nth_error rs j = Some r -> r = (below f n (k + j), length (equal f n (k + j))) /\ 0 < length (equal f n (k + j))) ->
      tiles (below f n k) rs (below f n (k + length rs))).
    { induction rs as [|(s, c) rs IH]; intros k H; cbn [tiles length]; [now rewrite Nat.add_0_r|]. destruct (H 0 _ eq_refl) as (E & Z). rewrite Nat.add_0_r in E, Z.
      injection E as -> ->. split; [reflexivity|]. split; [exact Z|]. rewrite <- below_succ. rewrite <- Nat.add_succ_comm. apply IH. intros j r Hr. rewrite Nat.add_succ_comm. exact (H (S j) r Hr). }
    specialize (T ranges 0 R). rewrite B0 in T. cbn [plus] in T. rewrite BN in T. exact T.
  - intros i j. split.
    + intros H. rewrite Forall_forall in F. assert (Lj : j < length ranges) by (apply F; now apply nth_error_In in H). apply nth_error_lt in Lj. destruct Lj as ((s, c) & Hr).
      exists s, c. split; [exact Hr|]. destruct (R j _ Hr) as (E & _). injection E as -> ->.
      pose proof (nth_error_some_lt _ _ _ _ H) as Li. fold n in Li. assert (I : In i (equal f n j)).
      { unfold equal. apply filter_In. split; [apply in_seq; lia|]. apply Nat.eqb_eq. rewrite NF in H by exact Li. congruence. }
      rewrite (equal_range f n j MF) in I. apply in_seq in I. exact I.
    + intros (s & c & Hr & B). destruct (R j _ Hr) as (E & _). injection E as -> ->. assert (I : In i (equal f n j)) by (rewrite (equal_range f n j MF); apply in_seq; exact B).
      unfold equal in I. apply filter_In in I. destruct I as (I & I2). apply in_seq in I. apply Nat.eqb_eq in I2. rewrite NF by lia. now rewrite I2.
Qed.

Lemma Forall2_length {A B} (Q : A -> B -> Prop) l l' : Forall2 Q l l' -> length l = length l'.
Proof. induction 1; cbn; congruence. Qed.

(** ** Sets in order *)

Lemma seq_split : forall (s l : list nat) a n, s ++ l = seq a n -> s = seq a (length s) /\ l = seq (a + length s) (n - length s).
Proof.
  induction s as [|x s IH]; intros l a n E; cbn [app length seq] in *; [split; [reflexivity|]; now rewrite Nat.add_0_r, Nat.sub_0_r|].
  destruct n as [|n]; [discriminate|]. cbn [seq] in E. injection E as -> E. destruct (IH l (S a) n E) as (A & B). split; [now rewrite <- A|]. rewrite B at 1. f_equal. lia.
Qed.
Lemma concat_order : forall sets a n x y s t i j, concat sets = seq a n -> nth_error sets x = Some s -> nth_error sets y = Some t -> In i s -> In j t -> i <= j -> x <= y.
Proof.
  induction sets as [|u sets IH]; intros a n x y s t i j E Hx Hy Is It L; [destruct x; discriminate|]. cbn [concat] in E. destruct (seq_split _ _ _ _ E) as (A & B).
  destruct x as [|x]; [lia|]. destruct y as [|y].
  - exfalso. cbn in Hx, Hy. assert (u = t) by congruence. subst u. rewrite A in It. apply in_seq in It.
    assert (I : In i (concat sets)) by (apply in_concat; exists s; split; [now apply nth_error_In in Hx|exact Is]). rewrite B in I. apply in_seq in I. lia.
  - cbn in Hx, Hy. apply le_n_S. now apply (IH _ _ x y s t i j B).
Qed.

Section ORDERED.
Context (sizes : list nat) (cores packages : list (list nat)) (t : arm_windows_tables).
Hypothesis Pl : placed sizes cores packages t.
Hypothesis Pc : partition (list_sum sizes) cores.
Hypothesis Pk : partition (list_sum sizes) packages.
Hypothesis Oc : concat cores = seq 0 (list_sum sizes).
Hypothesis Ok' : concat packages = seq 0 (list_sum sizes).

Let n := list_sum sizes.
Lemma sets_unique sets : partition n sets -> forall x y s u i, nth_error sets x = Some s -> nth_error sets y = Some u -> In i s -> In i u -> x = y.
Proof.
  intros (P & _). assert (ND : NoDup (concat sets)) by (apply (Permutation_NoDup (Permutation_sym P)), seq_NoDup). clear P. revert ND.
  induction sets as [|z l IH]; intros N x y s u i Hx Hy Is Iu; [destruct x; discriminate|]. cbn [concat] in N. destruct (NoDup_split _ _ N) as (_ & N2 & D).
  destruct x as [|x], y as [|y]; cbn in Hx, Hy; try reflexivity.
  - exfalso. assert (z = s) by congruence. subst z. apply (D i Is). apply in_concat. exists u. split; [now apply nth_error_In in Hy|exact Iu].
  - exfalso. assert (z = u) by congruence. subst z. apply (D i Iu). apply in_concat. exists s. split; [now apply nth_error_In in Hx|exact Is].
  - f_equal. now apply (IH N2 x y s u i).
Qed.
Lemma set_nodup sets : partition n sets -> forall x s, nth_error sets x = Some s -> NoDup s /\ forall i, In i s -> i < n.
Proof.
  intros (P & _). assert (B : forall i, In i (concat sets) -> i < n) by (intros i I; apply (Permutation_in _ P) in I; apply in_seq in I; lia).
  assert (ND : NoDup (concat sets)) by (apply (Permutation_NoDup (Permutation_sym P)), seq_NoDup). clear P. revert ND B.
  induction sets as [|z l IH]; intros N B x s Hx; [destruct x; discriminate|]. cbn [concat] in N. destruct (NoDup_split _ _ N) as (N1 & N2 & _). cbn [concat] in B.
  destruct x as [|x]; cbn in Hx.
  - assert (z = s) by congruence. subst z. split; [exact N1|]. intros i I. apply B, in_app_iff. now left.
  - apply (IH N2) with x; [|exact Hx]. intros i I. apply B, in_app_iff. now right.
Qed.

(** Processors that point to sets. *)
Lemma processors_point (sets : list (list nat)) (pointer : processor -> option nat) (ranges : list (nat * nat)) : partition n sets -> concat sets = seq 0 n ->
  (forall i p, nth_error (awt_processors t) i = Some p -> exists j s, nth_error sets j = Some s /\ In i s /\ pointer p = Some j) ->
  Forall2 (fun r s => least (fst r) s /\ snd r = length s) ranges sets ->
  points_to (map pointer (awt_processors t)) ranges.
Proof.
  intros P O H R. set (owner := map (fun p => match pointer p with Some j => j | None => 0 end) (awt_processors t)). exists owner.
  assert (OW : forall i j, nth_error owner i = Some j <-> exists s, nth_error sets j = Some s /\ In i s).
  { intros i j. unfold owner. rewrite nth_error_map. split.
    - intros E. destruct (nth_error (awt_processors t) i) as [p|] eqn:Hp; [|discriminate]. destruct (H i p Hp) as (j' & s & Hs & Is & Ep). cbn [option_map] in E. rewrite Ep in E.
      assert (j' = j) by congruence. subst j'. now exists s.
    - intros (s & Hs & Is). destruct (set_nodup sets P j s Hs) as (_ & B). specialize (B i Is). assert (L : i < length (awt_processors t)) by (rewrite (pl_processors _ _ _ _ Pl); exact B).
      apply nth_error_lt in L. destruct L as (p & Hp). rewrite Hp. destruct (H i p Hp) as (j' & s' & Hs' & Is' & Ep). cbn [option_map]. rewrite Ep. f_equal.
      now apply (sets_unique sets P j' j s' s i). }
  split.
  - unfold owner. rewrite map_map. apply map_ext_in. intros p I. apply In_nth_error in I. destruct I as (i & Hp). destruct (H i p Hp) as (j & s & _ & _ & Ep). now rewrite Ep.
  - assert (RN : forall j r, nth_error ranges j = Some r -> exists s, nth_error sets j = Some s /\ least (fst r) s /\ snd r = length s).
    { intros j r. revert j. clear - R. induction R as [|r0 s0 l l' Q R IH]; intros j Hj; [destruct j; discriminate|]. destruct j as [|j]; cbn in *; [|now apply IH].
      exists s0. split; [reflexivity|]. assert (r0 = r) by congruence. now subst r0. }
    apply monotone_grouping.
    + intros i i' a b L Ha Hb. apply OW in Ha, Hb. destruct Ha as (s & Hs & Is), Hb as (u & Hu & Iu). now apply (concat_order sets 0 n a b s u i i').
    + intros j r Hr. destruct (RN j r Hr) as (s & Hs & Ls & Es). exists s. destruct (set_nodup sets P j s Hs) as (ND & _). split; [|auto]. intros i. rewrite OW. split.
      * intros I. now exists s.
      * intros (s' & Hs' & I). assert (s' = s) by congruence. now subst s'.
    + rewrite Forall_forall. intros j I. apply In_nth_error in I. destruct I as (i & Hi). apply OW in Hi. destruct Hi as (s & Hs & _). apply nth_error_some_lt in Hs.
      now rewrite (Forall2_length _ _ _ R).
Qed.

Lemma Forall2_at {A B} (Q : A -> B -> Prop) : forall l l', Forall2 Q l l' -> forall i a, nth_error l i = Some a -> exists b, nth_error l' i = Some b /\ Q a b.
Proof. induction 1 as [|x y l l' H F IH]; intros i a E; [destruct i; discriminate|]. destruct i as [|i]; cbn in *; [assert (x = a) by congruence; subst x; now exists y|now apply IH]. Qed.
Lemma Forall2_map_l {A B C} (g : A -> C) (Q : C -> B -> Prop) : forall l l', Forall2 (fun a b => Q (g a) b) l l' -> Forall2 Q (map g l) l'.
Proof. induction 1; cbn; constructor; auto. Qed.
Lemma Forall2_weaken {A B} (Q Q' : A -> B -> Prop) : (forall a b, Q a b -> Q' a b) -> forall l l', Forall2 Q l l' -> Forall2 Q' l l'.
Proof. intros H. induction 1; constructor; auto. Qed.

(** Cores or clusters that point to packages. *)
Lemma cores_point {A} (l : list A) (pointer : A -> option nat) (ranges : list (nat * nat)) :
  (forall j x, nth_error l j = Some x -> exists c k q, nth_error cores j = Some c /\ pointer x = Some k /\ nth_error packages k = Some q /\ incl c q) ->
  length l = length cores ->
  Forall2 (fun r q => least (fst r) (cores_in cores q) /\ snd r = length (cores_in cores q)) ranges packages ->
  points_to (map pointer l) ranges.
Proof.
  intros H LL R. set (owner := map (fun x => match pointer x with Some j => j | None => 0 end) l). exists owner.
  assert (NE : forall j c, nth_error cores j = Some c -> exists i, In i c).
  { intros j c Hc. destruct Pc as (_ & F). rewrite Forall_forall in F. apply nth_error_In in Hc. specialize (F c Hc). destruct c as [|i c]; [congruence|]. exists i. now left. }
  assert (OW : forall j k, nth_error owner j = Some k -> exists c q, nth_error cores j = Some c /\ nth_error packages k = Some q /\ incl c q).
  { intros j k E. unfold owner in E. rewrite nth_error_map in E. destruct (nth_error l j) as [x|] eqn:Hx; [|discriminate]. destruct (H j x Hx) as (c & k' & q & Hc & Ep & Hq & I).
    cbn [option_map] in E. rewrite Ep in E. assert (k' = k) by congruence. subst k'. now exists c, q. }
  assert (OW2 : forall j k q, nth_error packages k = Some q -> In j (cores_in cores q) <-> nth_error owner j = Some k).
  { intros j k q Hq. unfold cores_in. rewrite filter_In, in_seq. split.
    - intros (A1 & A2). assert (Lj : j < length l) by lia. apply nth_error_lt in Lj. destruct Lj as (x & Hx). destruct (H j x Hx) as (c & k' & q' & Hc & Ep & Hq' & I).
      rewrite (nth_error_nth _ _ _ Hc) in A2. apply existsb_exists in A2. destruct A2 as (i & Ii & A2). apply existsb_exists in A2. destruct A2 as (i' & Ii' & A2). apply Nat.eqb_eq in A2. subst i'.
      unfold owner. rewrite nth_error_map, Hx. cbn [option_map]. rewrite Ep. f_equal. apply (sets_unique packages Pk k' k q' q i); auto.
    - intros E. destruct (OW j k E) as (c & q' & Hc & Hq' & I). assert (q' = q) by congruence. subst q'. pose proof (nth_error_some_lt _ _ _ _ Hc) as Lj. split; [lia|].
      rewrite (nth_error_nth _ _ _ Hc). destruct (NE j c Hc) as (i & Ii). apply existsb_exists. exists i. split; [exact Ii|]. apply existsb_exists. exists i. split; [now apply I|apply Nat.eqb_refl]. }
  split.
  - unfold owner. rewrite map_map. apply map_ext_in. intros x I. apply In_nth_error in I. destruct I as (j & Hx). destruct (H j x Hx) as (c & k & q & _ & Ep & _). now rewrite Ep.
  - apply monotone_grouping.
    + intros j j' k k' L Hk Hk'. destruct (OW j k Hk) as (c & q & Hc & Hq & I). destruct (OW j' k' Hk') as (c' & q' & Hc' & Hq' & I').
      destruct (NE j c Hc) as (i & Ii). destruct (NE j' c' Hc') as (i' & Ii'). destruct (Nat.le_gt_cases i i') as [Q|Q].
      * apply (concat_order packages 0 n k k' q q' i i'); auto.
      * assert (j' <= j) by (apply (concat_order cores 0 n j' j c' c i' i); auto; lia). assert (j = j') by lia. subst j'. rewrite Hk in Hk'. assert (k = k') by congruence. lia.
    + intros k r Hr. destruct (Forall2_at _ _ _ R k r Hr) as (q & Hq & Lq & Eq). exists (cores_in cores q). split; [intros j; now apply OW2|]. split; [unfold cores_in; apply NoDup_filter, seq_NoDup|].
      split; assumption.
    + rewrite Forall_forall. intros k I. apply In_nth_error in I. destruct I as (j & Hj). destruct (OW j k Hj) as (c & q & _ & Hq & _). apply nth_error_some_lt in Hq.
      now rewrite (Forall2_length _ _ _ R).
Qed.

Theorem placed_consistent : consistent (awt_processors t) (awt_cores t) (awt_clusters t) (awt_packages t).
Proof.
  destruct Pl as [P1 P2 P3 P4 P5 P6 P7 P8 P9]. split.
  - apply (processors_point cores); auto.
    + intros i p Hp. destruct (P2 i p Hp) as (j & s & A & B & C & _). now exists j, s.
    + apply (Forall2_map_l core_processors). eapply Forall2_weaken; [|exact P4]. intros c s (A & B & _). now split.
  - apply (processors_point cores); auto.
    + intros i p Hp. destruct (P2 i p Hp) as (j & s & A & B & _ & C). now exists j, s.
    + apply (Forall2_map_l cluster_processors). eapply Forall2_weaken; [|exact P6]. intros c s (A & B & _). now split.
  - apply (processors_point packages); auto.
    apply (Forall2_map_l package_processors). eapply Forall2_weaken; [|exact P8]. intros c s (A & B & _). now split.
  - exists (seq 0 (length (awt_cores t))). split.
    + apply nth_error_ext. intros j. rewrite !nth_error_map. destruct (nth_error (awt_cores t) j) as [c|] eqn:Hc.
      * destruct (P5 j c Hc) as (_ & E). cbn [option_map]. rewrite E. pose proof (nth_error_some_lt _ _ _ _ Hc) as L. rewrite (nth_error_nth' _ 0) by (now rewrite seq_length). now rewrite seq_nth.
      * apply nth_error_None in Hc. rewrite (proj2 (nth_error_None (seq 0 (length (awt_cores t))) j)) by (now rewrite seq_length). reflexivity.
    + assert (LC : length (awt_clusters t) = length (awt_cores t)) by (rewrite (Forall2_length _ _ _ P6), (Forall2_length _ _ _ P4); reflexivity).
      assert (SN : forall i j, nth_error (seq 0 (length (awt_cores t))) i = Some j <-> i = j /\ i < length (awt_cores t)).
      { intros i j. split.
        - intros E. pose proof (nth_error_some_lt _ _ _ _ E) as L. rewrite seq_length in L. rewrite (nth_error_nth' _ 0) in E by (now rewrite seq_length). rewrite seq_nth in E by exact L. cbn [plus] in E. split; [congruence|exact L].
        - intros (<- & L). rewrite (nth_error_nth' _ 0) by (now rewrite seq_length). now rewrite seq_nth. }
      apply monotone_grouping.
      * intros i i' a b L Ha Hb. apply SN in Ha, Hb. lia.
      * intros j r Hr. rewrite nth_error_map in Hr. destruct (nth_error (awt_clusters t) j) as [c|] eqn:Hc; [|discriminate]. pose proof (nth_error_some_lt _ _ _ _ Hc) as L. rewrite LC in L.
        assert (r = (j, 1)) by (cbn [option_map] in Hr; rewrite (P7 j c Hc) in Hr; congruence). subst r. exists [j]. split; [|split; [repeat constructor; intros []|]].
        -- intros i. rewrite SN. cbn. split; [intros [<-|[]]; auto|intros (-> & _); auto].
        -- cbn [fst snd length]. split; [split; [now left|repeat constructor]|reflexivity].
      * rewrite Forall_forall. intros j I. apply in_seq in I. rewrite map_length. lia.
  - apply cores_point; [|now rewrite (Forall2_length _ _ _ P4)|].
    + intros j c Hc. destruct (Forall2_at _ _ _ P4 j c Hc) as (s & Hs & _ & _ & k & q & A & B & C). now exists s, k, q.
    + apply (Forall2_map_l package_cores). eapply Forall2_weaken; [|exact P8]. intros c s (_ & _ & A & B & _). now split.
  - apply cores_point; [|now rewrite (Forall2_length _ _ _ P6)|].
    + intros j c Hc. destruct (Forall2_at _ _ _ P6 j c Hc) as (s & Hs & _ & _ & k & q & A & B & C). now exists s, k, q.
    + apply (Forall2_map_l package_clusters). eapply Forall2_weaken; [|exact P8]. intros c s (_ & _ & A & B & E). rewrite E. now split.
  - intros i p j c Hp Ej Hc. destruct (P2 i p Hp) as (j' & s & A & B & C & D). destruct (P3 i p Hp) as (k & q & A' & B' & C').
    assert (j' = j) by congruence. subst j'. destruct (P5 j c Hc) as (_ & E). split; [congruence|]. destruct (Forall2_at _ _ _ P4 j c Hc) as (s' & Hs' & _ & _ & k' & q' & F1 & F2 & F3).
    assert (s' = s) by congruence. subst s'. rewrite C', F1. f_equal. apply (sets_unique packages Pk k k' q q' i); auto.
  - intros i p j c Hp Ej Hc. destruct (P2 i p Hp) as (j' & s & A & B & C & D). destruct (P3 i p Hp) as (k & q & A' & B' & C').
    assert (j' = j) by congruence. subst j'. destruct (Forall2_at _ _ _ P6 j c Hc) as (s' & Hs' & _ & _ & k' & q' & F1 & F2 & F3).
    assert (s' = s) by congruence. subst s'. rewrite C', F1. f_equal. apply (sets_unique packages Pk k k' q q' i); auto.
Qed.
End ORDERED.
