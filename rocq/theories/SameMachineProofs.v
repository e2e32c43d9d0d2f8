(** The tables of a machine of equal packages are the ones written out. *)
From Coq Require Import NArith List Lia Bool Arith Sorting.Permutation Sorting.Sorted.
From Verif Require Import Base BaseProofs Sorting TopologySpec Fill X86CpuinfoSpec X86LinuxModel X86LinuxSpec X86OfflineSpec X86CountsSpec SameMachineSpec.
From Verif Require InitTestCountsProofs CacheInfoX86Proofs.
Import ListNotations.
Open Scope nat_scope.

(** ** Ranges of equal width *)

Lemma widths_tiles w rs : forall q n, 0 < w -> tiles (q * w) rs (n * w) -> Forall (fun r => snd r = w) rs ->
  q <= n /\ rs = map (fun j => (j * w, w)) (seq q (n - q)).
Proof.
  induction rs as [|(s, c) rs IH]; intros q n W T F; cbn [tiles] in T.
  - assert (q = n) by nia. subst. split; [lia|]. now rewrite Nat.sub_diag.
  - destruct T as (-> & C & T). inversion_clear F as [|r rs' E F']. cbn [snd] in E. subst c. replace (q * w + w) with (S q * w) in T by lia.
    destruct (IH (S q) n W T F') as (L & ->). split; [lia|]. replace (n - q) with (S (n - S q)) by lia. reflexivity.
Qed.

Lemma owner_by_ranges w n owner : 0 < w -> grouping owner (map (fun j => (j * w, w)) (seq 0 n)) -> owner = map (fun i => i / w) (seq 0 (n * w)).
Proof.
  intros W (T & G). pose proof (tiles_uniform_inv w n 0 _ T) as L. cbn in L.
  apply nth_error_ext. intros i. rewrite nth_error_table.
  destruct (Nat.ltb_spec i (n * w)) as [H|H]; [|apply nth_error_None; lia].
  apply G. exists (i / w * w), w. assert (i / w < n) by (apply Nat.div_lt_upper_bound; lia).
  split; [apply table_some; now split|]. pose proof (Nat.div_mod i w ltac:(lia)). pose proof (Nat.mod_upper_bound i w ltac:(lia)). nia.
Qed.

Lemma by_widths w n pointers rs : 0 < w -> length pointers = n * w -> points_to pointers rs -> Forall (fun r => snd r = w) rs ->
  rs = map (fun j => (j * w, w)) (seq 0 n) /\ pointers = map (fun i => Some (i / w)) (seq 0 (n * w)).
Proof.
  intros W L (owner & -> & G) F. rewrite map_length in L. destruct (G) as (T & _). rewrite L in T.
  destruct (widths_tiles w rs 0 n W T F) as (_ & ->). rewrite Nat.sub_0_r in *. split; [reflexivity|].
  rewrite (owner_by_ranges w n owner W G), map_map. reflexivity.
Qed.

(** Pointers that agree just in each [w] elements leave no choice. *)
Lemma by_pointers w n pointers rs : 0 < w -> length pointers = n * w -> points_to pointers rs ->
  (forall i j, i < n * w -> j < n * w -> (nth_error pointers i = nth_error pointers j <-> i / w = j / w)) ->
  rs = map (fun j => (j * w, w)) (seq 0 n) /\ pointers = map (fun i => Some (i / w)) (seq 0 (n * w)).
Proof.
  intros W L P EQ. apply by_widths; auto. destruct P as (owner & -> & T & G). rewrite map_length in L.
  assert (SAME : forall i j, i < n * w -> j < n * w -> (nth_error owner i = nth_error owner j <-> i / w = j / w)).
  { intros i j Hi Hj. rewrite <- EQ by assumption. rewrite !nth_error_map.
    destruct (nth_error owner i), (nth_error owner j); cbn; split; congruence. }
  clear EQ. rewrite L in T.
  assert (K : forall rs' q k, (forall j, nth_error rs' j = nth_error rs (k + j)) -> tiles (q * w) rs' (n * w) -> Forall (fun r => snd r = w) rs').
  { induction rs' as [|(s, c) rs' IH]; intros q k E T'; [constructor|]. cbn [tiles] in T'. destruct T' as (-> & C & T').
    assert (Ek : nth_error rs k = Some (q * w, c)) by (rewrite <- (Nat.add_0_r k), <- E; reflexivity).
    assert (I : forall i, nth_error owner i = Some k <-> q * w <= i < q * w + c).
    { intros i. rewrite G, Ek. split; [intros (s' & c' & X & Y); injection X as <- <-; exact Y|intros Y; now exists (q * w), c]. }
    assert (B : q * w + c <= n * w). { pose proof (CacheInfoX86Proofs.tiles_bound _ _ _ T') as (X & _). lia. }
    assert (Cw : c = w).
    { assert (c <= w).
      { destruct (Nat.le_gt_cases c w) as [|Gt]; [assumption|]. exfalso.
        assert (X : q * w / w = (q * w + w) / w).
        { apply SAME; [lia|lia|]. transitivity (Some k); [apply I; lia|symmetry; apply I; lia]. }
        rewrite Nat.div_mul in X by lia. replace (q * w + w) with ((q + 1) * w) in X by lia. rewrite Nat.div_mul in X by lia. lia. }
      assert (X : nth_error owner (q * w + (w - 1)) = nth_error owner (q * w)).
      { assert (q < n) by nia. apply SAME; [nia|nia|]. rewrite Nat.div_mul by lia. symmetry. apply Nat.div_unique with (w - 1); lia. }
      rewrite (proj2 (I (q * w)) ltac:(lia)) in X. apply I in X. lia. }
    subst c. constructor; [reflexivity|]. apply (IH (S q) (S k)); [|replace (S q * w) with (q * w + w) by lia; exact T'].
    intros j. replace (S k + j) with (k + S j) by lia. now rewrite <- E. }
  apply (K rs 0 0); auto.
Qed.

(** As many groups as elements: one each. *)
Lemma tiles_ones rs : forall from, tiles from rs (from + length rs) -> Forall (fun r => snd r = 1) rs.
Proof.
  induction rs as [|(s, c) rs IH]; intros from T; cbn [tiles length] in T; constructor; destruct T as (-> & C & T);
    pose proof (CacheInfoX86Proofs.tiles_bound _ _ _ T) as (X & _); cbn [snd].
  - lia.
  - assert (c = 1) by lia. subst c. apply (IH (from + 1)). now replace (from + 1 + length rs) with (from + S (length rs)) by lia.
Qed.

(** ** From the pointers to the tables *)

Lemma nth_pointer {A} (f : A -> option nat) xs i a : nth_error xs i = Some a -> nth_error (map f xs) i = Some (f a).
Proof. intros H. now rewrite nth_error_map, H. Qed.

Lemma pair_lists {A B C} (f : A -> B) (g : A -> C) (l : list A) (m : nat -> B) (n : nat -> C) k :
  map f l = map m (seq 0 k) -> map g l = map n (seq 0 k) -> forall i a, nth_error l i = Some a -> i < k /\ f a = m i /\ g a = n i.
Proof.
  intros F G i a H. assert (F' : nth_error (map f l) i = Some (f a)) by now rewrite nth_error_map, H.
  assert (G' : nth_error (map g l) i = Some (g a)) by now rewrite nth_error_map, H.
  rewrite F in F'. rewrite G in G'. apply table_some in F'. apply table_some in G'. tauto.
Qed.

Lemma table_eq {A} (l : list A) (f : nat -> A) n : length l = n -> (forall i a, nth_error l i = Some a -> a = f i) -> l = map f (seq 0 n).
Proof.
  intros L H. apply nth_error_ext. intros i. rewrite nth_error_table. destruct (Nat.ltb_spec i n) as [I|I].
  - destruct (nth_error l i) as [a|] eqn:E; [now rewrite (H i a E)|]. apply nth_error_None in E. lia.
  - apply nth_error_None. lia.
Qed.

Section MACHINE.
Variables (P cpp tpc : nat).
Hypothesis HP : 0 < P.
Hypothesis Hc : 0 < cpp.
Hypothesis Ht : 0 < tpc.
Variable x : xinfo.
Variable t : tables.
Let n := P * cpp * tpc.
Let w := cpp * tpc.
Let w_pos : 0 < w. Proof. unfold w. nia. Qed.
Let n_w : n = P * w. Proof. unfold n, w. nia. Qed.

Hypothesis C : consistent (t_processors t) (t_cores t) (t_clusters t) (t_packages t).
Hypothesis I : ids_are_offsets (t_processors t) (t_cores t) (t_clusters t) (t_packages t).
Hypothesis L : length (t_processors t) = n.
Hypothesis KC : Forall (fun c => (c_vendor c, c_uarch c, c_cpuid c) = (xi_vendor x, xi_uarch x, xi_cpuid x)) (t_cores t).
Hypothesis KL : Forall (fun c => (cl_vendor c, cl_uarch c, cl_cpuid c) = (xi_vendor x, xi_uarch x, xi_cpuid x)) (t_clusters t).

Lemma write :
  (forall i j p q, nth_error (t_processors t) i = Some p -> nth_error (t_processors t) j = Some q ->
     (p_core p = p_core q <-> i / tpc = j / tpc) /\ (p_cluster p = p_cluster q <-> i / w = j / w) /\ (p_package p = p_package q <-> i / w = j / w)) ->
  (t_processors_count t, t_cores_count t, t_clusters_count t, t_packages_count t) = (length (t_processors t), length (t_cores t), length (t_clusters t), length (t_packages t)) ->
  written P cpp tpc x t.
Proof.
  intros EQ CO.
  assert (SAME : forall (f : processor -> option nat) k, (forall i j p q, nth_error (t_processors t) i = Some p -> nth_error (t_processors t) j = Some q -> (f p = f q <-> i / k = j / k)) ->
    forall i j, i < n -> j < n -> (nth_error (map f (t_processors t)) i = nth_error (map f (t_processors t)) j <-> i / k = j / k)).
  { intros f k H i j Hi Hj. rewrite !nth_error_map. destruct (nth_error (t_processors t) i) as [p|] eqn:Ei; [|apply nth_error_None in Ei; lia].
    destruct (nth_error (t_processors t) j) as [q|] eqn:Ej; [|apply nth_error_None in Ej; lia]. cbn. rewrite <- (H i j p q Ei Ej). split; congruence. }
  destruct (by_pointers tpc (P * cpp) (map p_core (t_processors t)) (map core_processors (t_cores t)) Ht) as (RC & PC).
  { now rewrite map_length, L. }
  { apply (processors_in_cores _ _ _ _ C). }
  { apply (SAME p_core tpc). intros i j p q A B. now apply EQ. }
  destruct (by_pointers w P (map p_cluster (t_processors t)) (map cluster_processors (t_clusters t)) w_pos) as (RL & PL).
  { now rewrite map_length, L. }
  { apply (processors_in_clusters _ _ _ _ C). }
  { rewrite <- n_w. apply (SAME p_cluster w). intros i j p q A B. now apply EQ. }
  destruct (by_pointers w P (map p_package (t_processors t)) (map package_processors (t_packages t)) w_pos) as (RK & PK).
  { now rewrite map_length, L. }
  { apply (processors_in_packages _ _ _ _ C). }
  { rewrite <- n_w. apply (SAME p_package w). intros i j p q A B. now apply EQ. }
  assert (LC : length (t_cores t) = P * cpp) by (apply (f_equal (@length _)) in RC; now rewrite !map_length, seq_length in RC).
  assert (LL : length (t_clusters t) = P) by (apply (f_equal (@length _)) in RL; now rewrite !map_length, seq_length in RL).
  assert (LK : length (t_packages t) = P) by (apply (f_equal (@length _)) in RK; now rewrite !map_length, seq_length in RK).
  assert (PR : forall i, i < n -> exists p, nth_error (t_processors t) i = Some p /\ p_core p = Some (i / tpc) /\ p_cluster p = Some (i / w) /\ p_package p = Some (i / w)).
  { intros i Hi. destruct (nth_error (t_processors t) i) as [p|] eqn:Ei; [|apply nth_error_None in Ei; lia]. exists p. split; [reflexivity|].
    split; [|split].
    - assert (E : nth_error (map p_core (t_processors t)) i = Some (p_core p)) by now rewrite nth_error_map, Ei. rewrite PC in E. apply table_some in E. tauto.
    - assert (E : nth_error (map p_cluster (t_processors t)) i = Some (p_cluster p)) by now rewrite nth_error_map, Ei. rewrite PL in E. apply table_some in E. tauto.
    - assert (E : nth_error (map p_package (t_processors t)) i = Some (p_package p)) by now rewrite nth_error_map, Ei. rewrite PK in E. apply table_some in E. tauto. }
  assert (CP : forall q c, nth_error (t_cores t) q = Some c -> q < P * cpp /\ core_processors c = (q * tpc, tpc) /\ c_cluster c = Some (q / cpp) /\ c_package c = Some (q / cpp)).
  { intros q c Eq. assert (Q : q < P * cpp) by (rewrite <- LC; apply nth_error_Some; congruence). split; [exact Q|]. split.
    - assert (E : nth_error (map core_processors (t_cores t)) q = Some (core_processors c)) by now rewrite nth_error_map, Eq. rewrite RC in E. apply table_some in E. tauto.
    - destruct (PR (q * tpc) ltac:(unfold n; nia)) as (p & Ep & A & B & D). rewrite Nat.div_mul in A by lia.
      destruct (same_path _ _ _ _ C (q * tpc) p q c Ep A Eq) as (X & Y). rewrite <- X, <- Y, B, D.
      replace (q * tpc / w) with (q / cpp); [now split|]. unfold w. rewrite (Nat.mul_comm cpp), <- Nat.div_div, Nat.div_mul by lia. reflexivity. }
  assert (DIV : forall q, q < P * cpp -> q / cpp < P) by (intros q Q; apply Nat.div_lt_upper_bound; lia).
  assert (SAMEC : forall (f : core -> option nat), (forall q c, nth_error (t_cores t) q = Some c -> f c = Some (q / cpp)) ->
    forall i j, i < P * cpp -> j < P * cpp -> (nth_error (map f (t_cores t)) i = nth_error (map f (t_cores t)) j <-> i / cpp = j / cpp)).
  { intros f H i j Hi Hj. rewrite !nth_error_map. destruct (nth_error (t_cores t) i) as [p|] eqn:Ei; [|apply nth_error_None in Ei; lia].
    destruct (nth_error (t_cores t) j) as [q|] eqn:Ej; [|apply nth_error_None in Ej; lia]. cbn. rewrite (H i p Ei), (H j q Ej). split; congruence. }
  destruct (by_pointers cpp P (map c_cluster (t_cores t)) (map cluster_cores (t_clusters t)) Hc) as (RCL & _).
  { now rewrite map_length. }
  { apply (cores_in_clusters _ _ _ _ C). }
  { apply SAMEC. intros q c E. now apply CP. }
  destruct (by_pointers cpp P (map c_package (t_cores t)) (map package_cores (t_packages t)) Hc) as (RCK & _).
  { now rewrite map_length. }
  { apply (cores_in_packages _ _ _ _ C). }
  { apply SAMEC. intros q c E. now apply CP. }
  assert (LP : forall k l, nth_error (t_clusters t) k = Some l -> k < P /\ cl_package l = Some k).
  { intros k l Ek. assert (K : k < P) by (rewrite <- LL; apply nth_error_Some; congruence). split; [exact K|].
    destruct (PR (k * w) ltac:(rewrite n_w; nia)) as (p & Ep & _ & B & D). rewrite Nat.div_mul in B, D by lia.
    rewrite <- D. symmetry. apply (same_package _ _ _ _ C (k * w) p k l Ep B Ek). }
  destruct (by_pointers 1 P (map cl_package (t_clusters t)) (map package_clusters (t_packages t)) ltac:(lia)) as (RLK & _).
  { now rewrite map_length, Nat.mul_1_r. }
  { apply (clusters_in_packages _ _ _ _ C). }
  { intros i j Hi Hj. rewrite !nth_error_map, !Nat.div_1_r. destruct (nth_error (t_clusters t) i) as [p|] eqn:Ei; [|apply nth_error_None in Ei; lia].
    destruct (nth_error (t_clusters t) j) as [q|] eqn:Ej; [|apply nth_error_None in Ej; lia]. cbn.
    rewrite (proj2 (LP i p Ei)), (proj2 (LP j q Ej)). split; congruence. }
  assert (KP : forall k p, nth_error (t_packages t) k = Some p -> k < P /\ package_processors p = (k * w, w) /\ package_cores p = (k * cpp, cpp) /\ package_clusters p = (k, 1)).
  { intros k p Ek. assert (K : k < P) by (rewrite <- LK; apply nth_error_Some; congruence). split; [exact K|]. split; [|split].
    - assert (E : nth_error (map package_processors (t_packages t)) k = Some (package_processors p)) by now rewrite nth_error_map, Ek. rewrite RK in E. apply table_some in E. tauto.
    - assert (E : nth_error (map package_cores (t_packages t)) k = Some (package_cores p)) by now rewrite nth_error_map, Ek. rewrite RCK in E. apply table_some in E. tauto.
    - assert (E : nth_error (map package_clusters (t_packages t)) k = Some (package_clusters p)) by now rewrite nth_error_map, Ek. rewrite RLK in E. apply table_some in E.
      rewrite Nat.mul_1_r in E. tauto. }
  constructor.
  - apply table_eq; [now rewrite map_length|]. intros i a Ha. rewrite nth_error_map in Ha. destruct (nth_error (t_processors t) i) as [p|] eqn:Ei; [|discriminate].
    cbn in Ha. injection Ha as <-. assert (Hi : i < n) by (rewrite <- L; apply nth_error_Some; congruence).
    destruct (PR i Hi) as (p' & Ep & A & B & D). rewrite Ei in Ep. injection Ep as <-. unfold place. rewrite A, B, D. fold w. repeat f_equal.
    assert (Q : i / tpc < P * cpp) by (apply Nat.div_lt_upper_bound; [lia|unfold n in Hi; lia]).
    destruct (nth_error (t_cores t) (i / tpc)) as [c|] eqn:Ec; [|apply nth_error_None in Ec; lia].
    destruct (CP _ _ Ec) as (_ & R & _). injection R as R1 R2. destruct (smt_ids _ _ _ _ I i p _ c Ei A Ec) as (X & _). rewrite R1 in X.
    pose proof (Nat.div_mod i tpc ltac:(lia)). lia.
  - apply table_eq; [exact LC|]. intros q c Ec. destruct (CP q c Ec) as (Q & R & A & B). injection R as R1 R2.
    rewrite Forall_forall in KC. specialize (KC c (nth_error_In _ _ Ec)). injection KC as K1 K2 K3.
    destruct (nth_error (t_packages t) (q / cpp)) as [k|] eqn:Ek; [|apply nth_error_None in Ek; specialize (DIV q Q); lia].
    destruct (core_ids _ _ _ _ I q c _ k Ec B Ek) as (X & _). destruct (KP _ _ Ek) as (_ & _ & Y & _). injection Y as Y1 Y2. rewrite Y1 in X.
    pose proof (Nat.div_mod q cpp ltac:(lia)). destruct c. cbn in *. f_equal; try assumption. lia.
  - apply table_eq; [exact LL|]. intros k l El. destruct (LP k l El) as (K & A).
    assert (E1 : nth_error (map cluster_processors (t_clusters t)) k = Some (cluster_processors l)) by now rewrite nth_error_map, El.
    rewrite RL in E1. apply table_some in E1. destruct E1 as (_ & E1). injection E1 as E1 E1'.
    assert (E2 : nth_error (map cluster_cores (t_clusters t)) k = Some (cluster_cores l)) by now rewrite nth_error_map, El.
    rewrite RCL in E2. apply table_some in E2. destruct E2 as (_ & E2). injection E2 as E2 E2'.
    rewrite Forall_forall in KL. specialize (KL l (nth_error_In _ _ El)). injection KL as K1 K2 K3.
    destruct (nth_error (t_packages t) k) as [p|] eqn:Ek; [|apply nth_error_None in Ek; lia].
    destruct (cluster_ids _ _ _ _ I k l _ p El A Ek) as (X & _). destruct (KP _ _ Ek) as (_ & _ & _ & Y). injection Y as Y1 Y2. rewrite Y1 in X.
    destruct l. cbn in *. fold w. f_equal; try assumption. lia.
  - apply table_eq; [exact LK|]. intros k p Ek. destruct (KP k p Ek) as (K & A & B & D). injection A as A1 A2. injection B as B1 B2. injection D as D1 D2.
    destruct p. cbn in *. fold w. f_equal; assumption.
  - rewrite CO, L, LC, LL, LK. reflexivity.
Qed.
End MACHINE.

Lemma points_at {A B} (xs : list A) (ys : list B) f g i a : points_to (map f xs) (map g ys) -> nth_error xs i = Some a ->
  exists j b, f a = Some j /\ nth_error ys j = Some b.
Proof.
  intros (owner & E & _ & G) H. assert (X : nth_error (map f xs) i = Some (f a)) by now rewrite nth_error_map, H.
  rewrite E, nth_error_map in X. destruct (nth_error owner i) as [j|] eqn:O; [|discriminate]. cbn in X. injection X as X.
  destruct (proj1 (G i j) O) as (s & c & R & _). rewrite nth_error_map in R. destruct (nth_error ys j) as [b|] eqn:Y; [|discriminate].
  exists j, b. now split.
Qed.

(** ** macOS and FreeBSD *)

Lemma describes_written P cpp tpc x t : 0 < P -> 0 < cpp -> 0 < tpc -> describes P cpp tpc x t -> written P cpp tpc x t.
Proof.
  intros HP Hc Ht [Lp Lc Ll Lk CO TC CK C I KC KL _].
  destruct (by_widths tpc (P * cpp) (map p_core (t_processors t)) (map core_processors (t_cores t)) Ht) as (RC & PC).
  { now rewrite map_length. }
  { apply (processors_in_cores _ _ _ _ C). }
  { apply Forall_map. exact TC. }
  destruct (by_widths cpp P (map c_package (t_cores t)) (map package_cores (t_packages t)) Hc) as (_ & PK).
  { now rewrite map_length. }
  { apply (cores_in_packages _ _ _ _ C). }
  { apply Forall_map. exact CK. }
  destruct (by_widths 1 P (map cl_package (t_clusters t)) (map package_clusters (t_packages t)) ltac:(lia)) as (_ & PL).
  { rewrite map_length. lia. }
  { apply (clusters_in_packages _ _ _ _ C). }
  { destruct (clusters_in_packages _ _ _ _ C) as (owner & E & T & _). apply (f_equal (@length _)) in E. rewrite !map_length in E. rewrite <- E, Ll in T.
    apply (tiles_ones _ 0). rewrite map_length, Lk. exact T. }
  assert (PR : forall i p, nth_error (t_processors t) i = Some p -> p_core p = Some (i / tpc) /\ p_package p = Some (i / (cpp * tpc)) /\ p_cluster p = p_package p).
  { intros i p Ei. assert (Ec : nth_error (map p_core (t_processors t)) i = Some (p_core p)) by now rewrite nth_error_map, Ei.
    rewrite PC in Ec. apply table_some in Ec. destruct Ec as (Hi & Ec). split; [exact Ec|].
    assert (Q : i / tpc < P * cpp) by (apply Nat.div_lt_upper_bound; lia).
    destruct (nth_error (t_cores t) (i / tpc)) as [c|] eqn:E; [|apply nth_error_None in E; lia].
    destruct (same_path _ _ _ _ C i p _ c Ei Ec E) as (_ & X).
    assert (Ek : nth_error (map c_package (t_cores t)) (i / tpc) = Some (c_package c)) by now rewrite nth_error_map, E.
    rewrite PK in Ek. apply table_some in Ek. destruct Ek as (_ & Ek). split.
    - rewrite X, Ek, Nat.div_div by lia. now rewrite (Nat.mul_comm tpc).
    - destruct (points_at _ _ _ _ i p (processors_in_clusters _ _ _ _ C) Ei) as (j & l & El & Hl).
      rewrite El, (same_package _ _ _ _ C i p j l Ei El Hl).
      assert (Y : nth_error (map cl_package (t_clusters t)) j = Some (cl_package l)) by now rewrite nth_error_map, Hl.
      rewrite PL in Y. apply table_some in Y. rewrite Nat.div_1_r in Y. now symmetry. }
  apply write; auto.
  - intros i j p q Hi Hj. destruct (PR i p Hi) as (A1 & A2 & A3). destruct (PR j q Hj) as (B1 & B2 & B3).
    rewrite A3, B3, A1, A2, B1, B2. repeat split; congruence.
  - rewrite CO, Lp, Lc, Ll, Lk. reflexivity.
Qed.

Lemma all_none (l : list (option nat)) k : length l = k -> Forall (fun q => q = None) l -> l = repeat None k.
Proof. intros <-. induction 1 as [|q l -> _ IH]; cbn; congruence. Qed.

Lemma cache_table cs g rs : map cache_processors cs = rs -> Forall (fun c => ca_geometry c = g) cs -> cs = map (fun r => Cache g (fst r) (snd r)) rs.
Proof. intros <-. induction 1 as [|c cs E _ IH]; cbn [map]; [reflexivity|]. rewrite <- IH. destruct c. cbn in *. now rewrite E. Qed.

Lemma shared_written g n w m pointers caches count : 0 < w -> n = m * w -> level_shared g n w pointers caches count -> level_written g n w pointers caches.
Proof.
  intros W -> (L & Z & F). unfold level_written. destruct (N.eqb_spec (g_size g) 0) as [E|E].
  - destruct (Z E) as (-> & A). split; [reflexivity|]. now apply all_none.
  - destruct (F E) as (A & _ & B). destruct (by_widths w m pointers (map cache_processors caches) W L A) as (R & ->).
    { apply Forall_map. eapply Forall_impl; [|exact B]. now intros c (_ & X). }
    split; [|reflexivity]. rewrite Nat.div_mul by lia. rewrite (cache_table caches g _ R), map_map; [reflexivity|].
    eapply Forall_impl; [|exact B]. now intros c (X & _).
Qed.

Lemma find_sizes cs : match find (fun n => negb (n =? 0)%N) (map (fun c => g_size (xc_geometry c)) cs) with Some n => n | None => 0%N end =
  match find (fun c => negb (g_size (xc_geometry c) =? 0)%N) cs with Some c => g_size (xc_geometry c) | None => 0%N end.
Proof. induction cs as [|c cs IH]; cbn [map find]; [reflexivity|]. destruct (negb _); auto. Qed.

Lemma shared_usual reported assumed : In reported [0; assumed] -> shared_by reported assumed = assumed.
Proof. unfold shared_by. intros [<-|[<-|[]]]; [reflexivity|]. now destruct (Nat.eqb_spec assumed 0). Qed.

Lemma counted_written P cpp tpc reported x t : 0 < P -> 0 < cpp -> 0 < tpc -> g_size (xc_geometry (xi_l4 x)) = 0%N -> usual_reports x cpp tpc reported ->
  caches_described P cpp tpc reported x t -> written_caches P cpp tpc x t.
Proof.
  intros HP Hc Ht Z (U1 & U2 & U3) [D1 D2 D3 D4 D5 D6].
  assert (W : 0 < cpp * tpc) by nia.
  unfold l1_width, l2_width, l3_width in *. rewrite shared_usual in D1, D2, D3, D4 by assumption.
  constructor.
  - eapply (shared_written _ _ tpc (P * cpp)); eauto.
  - eapply (shared_written _ _ tpc (P * cpp)); eauto.
  - destruct (_ =? 0)%N; [eapply (shared_written _ _ (cpp * tpc) P); eauto; nia|eapply (shared_written _ _ tpc (P * cpp)); eauto].
  - eapply (shared_written _ _ (cpp * tpc) P); eauto; nia.
  - destruct D5 as (L & A & _). destruct (A Z) as (-> & B). split; [reflexivity|]. now apply all_none.
  - rewrite D6. apply find_sizes.
Qed.
