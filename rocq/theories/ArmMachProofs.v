(** Lemmas about the tables of Apple processors. *)
From Verif Require Import Base BaseProofs Loops Fill TopologySpec ApiModel X86CountsModel X86CountsSpec X86CountsProofs ArmMachModel ArmMachSpec.
From Verif Require X86LinuxModel ArmLinuxModel.
Import X86LinuxModel(cstate, CState, cs_caches, cs_pointers, compute_max_cache_size, cache_size_at).
Import ArmLinuxModel(arm_uarch, ArmUarch, arm_uarch0, au_uarch, au_midr, au_processors, au_cores).
Open Scope nat_scope.
Ltac Zify.zify_post_hook ::= idtac.

(** ** Answers *)
Lemma tells_sys_info a v : tells a v <-> sys_info a = v.
Proof.
  unfold tells, sys_info. destruct a as [[s|] [w|]]; cbn [sa_size sa_value];
    try (destruct (N.eqb_spec s 4) as [->|Ne]); (split; [intros [(E1 & E2)|([E1|E1] & ->)]; congruence|]).
  all: intros <-; try (left; now split); right; (split; [|reflexivity]); (left; congruence) || (right; reflexivity).
Qed.

(** ** Kinds of cores *)

(** Every family changes the kind of core at most once. *)
Lemma decode_split family cores : 0 < cores -> exists b u v, 0 < b <= cores /\ (b < cores -> u <> v) /\
  forall i, i < cores -> decode_uarch family i cores = if i <? b then u else v.
Proof.
  intros C. assert (H1 : forall u, (forall i, i < cores -> decode_uarch family i cores = u) -> exists b u v, 0 < b <= cores /\ (b < cores -> u <> v) /\
    forall i, i < cores -> decode_uarch family i cores = if i <? b then u else v).
  { intros u H. exists cores, u, u. split; [lia|]. split; [lia|]. intros i Hi. rewrite H by exact Hi. now destruct (i <? cores). }
  assert (H2 : forall s u v, u <> v -> (forall i, i < cores -> decode_uarch family i cores = if i <? s then u else v) -> exists b u v, 0 < b <= cores /\ (b < cores -> u <> v) /\
    forall i, i < cores -> decode_uarch family i cores = if i <? b then u else v).
  { intros s u v Ne H. destruct (Nat.eq_dec s 0) as [->|Z]; [apply (H1 v); intros i Hi; now rewrite H by exact Hi|].
    destruct (Nat.le_gt_cases cores s) as [L|L].
    - apply (H1 u). intros i Hi. rewrite H by exact Hi. destruct (Nat.ltb_spec i s); [reflexivity|lia].
    - exists s, u, v. split; [lia|]. split; [intros _; exact Ne|exact H]. }
  assert (H4 : forall u v, u <> v -> (forall i, i < cores -> decode_uarch family i cores = if i + 4 <? cores then u else v) -> exists b u v, 0 < b <= cores /\ (b < cores -> u <> v) /\
    forall i, i < cores -> decode_uarch family i cores = if i <? b then u else v).
  { intros u v Ne H. apply (H2 (cores - 4) u v Ne). intros i Hi. rewrite H by exact Hi.
    destruct (Nat.ltb_spec (i + 4) cores), (Nat.ltb_spec i (cores - 4)); try reflexivity; lia. }
  unfold decode_uarch in *.
  destruct (family =? f_cyclone)%N; [eapply H1; reflexivity|]. destruct (family =? f_typhoon)%N; [eapply H1; reflexivity|].
  destruct (family =? f_twister)%N; [eapply H1; reflexivity|]. destruct (family =? f_hurricane)%N; [eapply H1; reflexivity|].
  destruct (family =? f_monsoon)%N; [apply (H2 2 0x700105%N 0x700106%N); [discriminate|reflexivity]|].
  destruct (family =? f_vortex)%N; [eapply H4; [|reflexivity]; discriminate|].
  destruct (family =? f_lightning)%N; [eapply H4; [|reflexivity]; discriminate|].
  destruct (family =? f_firestorm)%N; [eapply H4; [|reflexivity]; discriminate|].
  destruct (family =? f_avalanche)%N; [eapply H4; [|reflexivity]; discriminate|].
  eapply H1; reflexivity.
Qed.

Lemma map_seq_const {A} (f : nat -> A) u n k : (forall i, k <= i < k + n -> f i = u) -> map f (seq k n) = repeat u n.
Proof.
  revert k. induction n as [|n IH]; intros k H; [reflexivity|]. cbn [seq map repeat]. rewrite H by lia. f_equal. apply IH. intros i Hi. apply H. lia.
Qed.
Lemma map_seq_split {A} (f : nat -> A) u v n b : b <= n -> (forall i, i < n -> f i = if i <? b then u else v) ->
  map f (seq 0 n) = repeat u b ++ repeat v (n - b).
Proof.
  intros B H. replace n with (b + (n - b)) at 1 by lia. rewrite seq_app, map_app. cbn [plus]. f_equal; apply map_seq_const; intros i Hi.
  - rewrite H by lia. destruct (Nat.ltb_spec i b); [reflexivity|lia].
  - rewrite H by lia. destruct (Nat.ltb_spec i b); [lia|reflexivity].
Qed.

Lemma decode_kinds family n : core_kinds family n (map (fun i => decode_uarch family i n) (seq 0 n)).
Proof.
  split.
  - intros u H. apply map_seq_const. intros i _.
    cbn [In uniform] in H. repeat destruct H as [H|H]; try contradiction; apply pair_equal_spec in H; destruct H as (<- & <-); reflexivity.
  - intros b l H. rewrite (map_seq_split _ b l n (n - 4)); [f_equal; f_equal; lia|lia|]. intros i Hi.
    assert (E : (i <? n - 4) = (i + 4 <? n)) by (destruct (Nat.ltb_spec i (n - 4)), (Nat.ltb_spec (i + 4) n); lia || reflexivity). rewrite E.
    cbn [In paired] in H. repeat destruct H as [H|H]; try contradiction; apply pair_equal_spec in H; destruct H as (<- & H);
      apply pair_equal_spec in H; destruct H as (<- & <-); reflexivity.
  - intros ->. destruct (Nat.le_gt_cases 2 n) as [L|L].
    + rewrite (map_seq_split _ 0x700105%N 0x700106%N n 2); [f_equal; f_equal; lia|lia|]. reflexivity.
    + replace (n - 2) with 0 by lia. rewrite Nat.min_r by lia. cbn [repeat]. rewrite app_nil_r. apply map_seq_const. intros i Hi.
      change (decode_uarch monsoon_mistral i n) with (if i <? 2 then 0x700105%N else 0x700106%N). destruct (Nat.ltb_spec i 2); [reflexivity|lia].
  - intros U. apply map_seq_const. intros i _. unfold decode_uarch, known_family, uniform, paired, monsoon_mistral in *. cbn [map fst In] in U.
    repeat match goal with |- (if (family =? ?f)%N then _ else _) = _ => destruct (N.eqb_spec family f) as [->|]; [exfalso; apply U; cbv; tauto|] end.
    reflexivity.
Qed.

(** ** Building *)
Lemma modify_head {A} (x : A) l f : modify (x :: l) 0 f = Ok (f x :: l).
Proof. reflexivity. Qed.
Lemma modify_second {A} (x y : A) l f : modify (x :: y :: l) 1 f = Ok (x :: f y :: l).
Proof. reflexivity. Qed.

Section Build.
Variables (family : N) (P C T : nat).
Hypothesis PP : 0 < P.
Hypothesis CP : 0 < C.
Hypothesis TP : 0 < T.
Let tpc := T / C.
Let cpp := C / P.
Let tpp := T / P.

Lemma build_packages_ok : build_packages P C T = Ok (map (fun i => Package (i * tpp) tpp (i * cpp) cpp 0 0) (seq 0 P)).
Proof.
  unfold build_packages. rewrite !divide_pos by exact PP. cbn [bind]. now rewrite (fill_all _ (fun i => Package (i * tpp) tpp (i * cpp) cpp 0 0)).
Qed.

Definition core_of_mach (cluster : option nat) (i : nat) : core :=
  Core (i * tpc) tpc (i mod cpp) cluster (Some (i / cpp)) vendor_apple (decode_uarch family i C) 0.
Definition processor_of_mach (cluster : option nat) (i : nat) : processor :=
  Processor (i mod tpc) (Some (i / tpc)) cluster (Some (i / tpp)) 0 0.

Lemma build_cores_inv l : build_cores family P C tpc cpp = Ok l ->
  0 < cpp /\ (forall i, i < C -> i / cpp <= P) /\ l = map (core_of_mach None) (seq 0 C).
Proof.
  intros E. unfold build_cores in E. destruct (fill_inv _ _ _ _ E) as (L & F); [apply repeat_length|].
  destruct (F 0 CP) as (x & Ex & _). unfold modulo in Ex. destruct (Nat.eqb_spec cpp 0) as [Z|Z]; [discriminate|].
  assert (CPP : 0 < cpp) by (clear - Z; lia). split; [exact CPP|].
  assert (A : forall i, i < C -> i / cpp <= P).
  { intros i Hi. destruct (F i Hi) as (y & Ey & _). rewrite modulo_pos, divide_pos in Ey by exact CPP. cbn [bind] in Ey.
    destruct (address P (i / cpp)) as [k| |] eqn:Ek; try discriminate. now apply address_inv in Ek. }
  split; [exact A|]. rewrite (fill_all _ (core_of_mach None)) in E; [now injection E|].
  intros i Hi. rewrite modulo_pos, divide_pos by exact CPP. cbn [bind]. rewrite address_le by now apply A. reflexivity.
Qed.
Lemma build_cores_ok : 0 < cpp -> (forall i, i < C -> i / cpp <= P) -> build_cores family P C tpc cpp = Ok (map (core_of_mach None) (seq 0 C)).
Proof.
  intros CPP A. unfold build_cores. apply fill_all. intros i Hi. rewrite modulo_pos, divide_pos by exact CPP. cbn [bind]. rewrite address_le by now apply A. reflexivity.
Qed.

Lemma build_processors_inv l : build_processors P C T tpc tpp = Ok l ->
  0 < tpc /\ 0 < tpp /\ l = map (processor_of_mach None) (seq 0 T).
Proof.
  intros E. unfold build_processors in E. destruct (fill_inv _ _ _ _ E) as (L & F); [apply repeat_length|].
  destruct (F 0 TP) as (x & Ex & _). unfold modulo in Ex. destruct (Nat.eqb_spec tpc 0) as [Z|Z]; [discriminate|].
  assert (TPC : 0 < tpc) by (clear - Z; lia). cbn [bind] in Ex. rewrite divide_pos in Ex by exact TPC. cbn [bind] in Ex.
  unfold divide in Ex at 1. destruct (Nat.eqb_spec tpp 0) as [Y|Y]; [discriminate|].
  assert (TPP : 0 < tpp) by (clear - Y; lia). split; [exact TPC|]. split; [exact TPP|].
  rewrite (fill_all _ (processor_of_mach None)) in E; [now injection E|].
  intros i Hi. destruct (F i Hi) as (y & Ey & _). rewrite modulo_pos, !divide_pos in Ey by assumption. cbn [bind] in Ey.
  rewrite modulo_pos, !divide_pos by assumption. cbn [bind].
  destruct (address C (i / tpc)) as [k| |] eqn:Ek; try discriminate. apply address_inv in Ek. destruct Ek as (-> & _). cbn [bind] in *.
  destruct (address P (i / tpp)) as [q| |] eqn:Eq; try discriminate. apply address_inv in Eq. destruct Eq as (-> & _). cbn [bind] in *. reflexivity.
Qed.
Lemma build_processors_ok : 0 < tpc -> 0 < tpp -> (forall i, i < T -> i / tpc <= C) -> (forall i, i < T -> i / tpp <= P) ->
  build_processors P C T tpc tpp = Ok (map (processor_of_mach None) (seq 0 T)).
Proof.
  intros TPC TPP A B. unfold build_processors. apply fill_all. intros i Hi. rewrite modulo_pos, !divide_pos by assumption. cbn [bind].
  rewrite address_le by now apply A. cbn [bind]. rewrite address_le by now apply B. reflexivity.
Qed.

(** *** Clusters: the first [b] cores are of kind [u], the others of kind [v]. *)
Variables (b : nat) (u v : N).
Hypothesis BB : 0 < b <= C.
Hypothesis UV : b < C -> u <> v.
Hypothesis D : forall i, i < C -> decode_uarch family i C = if i <? b then u else v.

Definition cluster_index (i : nat) : nat := if i <? b then 0 else 1.
Definition number_of_clusters : nat := if b <? C then 2 else 1.

Lemma kind_changes l i : 0 < i < C -> (forall j, j < C -> exists k, nth_error l j = Some (core_of_mach k j)) ->
  new_kind l i = Ok (i =? b).
Proof.
  intros Hi N. unfold new_kind, rd. destruct (N i ltac:(lia)) as (x & ->), (N (i - 1) ltac:(lia)) as (y & ->). cbn [bind core_of_mach c_uarch].
  rewrite !D by lia. f_equal. destruct (Nat.ltb_spec i b), (Nat.ltb_spec (i - 1) b), (Nat.eqb_spec i b); try lia; try now rewrite N.eqb_refl.
Qed.

Lemma count_clusters_ok : count_clusters (map (core_of_mach None) (seq 0 C)) C = Ok number_of_clusters.
Proof.
  unfold count_clusters.
  match goal with |- for_each ?f _ _ _ = _ => destruct (for_each_inv f (fun i n => n = if b <? i then 2 else 1) C 0 1) as (s & E & Es) end.
  - now destruct (b <? 0) eqn:E0; [apply Nat.ltb_lt in E0; lia|].
  - intros i s Hi ->. destruct (Nat.eqb_spec i 0) as [->|Z].
    + eexists. split; [reflexivity|]. destruct (Nat.ltb_spec b 0), (Nat.ltb_spec b 1); lia || reflexivity.
    + rewrite kind_changes; [|lia|]. 2: { intros j Hj. exists None. now apply table_some. }
      cbn [bind]. eexists. split; [reflexivity|]. destruct (Nat.eqb_spec i b), (Nat.ltb_spec b i), (Nat.ltb_spec b (S i)); lia || reflexivity.
  - rewrite E, Es. reflexivity.
Qed.

(** The state after [k] cores. *)
Definition cluster_first (k : nat) : cluster := Cluster 0 (Nat.min k b) 0 (Nat.min k b) 0 (Some 0) vendor_apple u 0.
Definition cluster_second (k : nat) : cluster := Cluster (b * tpc) (k - b) b (k - b) 1 (Some (b / cpp)) vendor_apple v 0.
Definition clusters_after (k : nat) : list cluster :=
  (if k =? 0 then cluster0 else cluster_first k) :: (if b <? C then [if k <=? b then cluster0 else cluster_second k] else []).
Definition uarchs_after (k : nat) : list arm_uarch :=
  (if k =? 0 then arm_uarch0 else ArmUarch u 0 (Nat.min k b) (Nat.min k b)) ::
  (if b <? C then [if k <=? b then arm_uarch0 else ArmUarch v 0 (k - b) (k - b)] else []).
Definition cores_after (k : nat) : list core :=
  map (fun i => core_of_mach (if i <? k then Some (cluster_index i) else None) i) (seq 0 C).
Definition kinds_after (k : nat) : kinds :=
  Kinds (if k =? 0 then None else Some (cluster_index (k - 1))) (uarchs_after k) (clusters_after k) (cores_after k).

Lemma cores_after_nth k i : i < C -> nth_error (cores_after k) i = Some (core_of_mach (if i <? k then Some (cluster_index i) else None) i).
Proof. intros H. apply table_some. now split. Qed.

Lemma cores_after_step k : k < C -> modify (cores_after k) k (in_cluster (Some (cluster_index k))) = Ok (cores_after (S k)).
Proof.
  intros H. unfold modify. rewrite cores_after_nth by exact H. f_equal. apply nth_error_ext. intros i.
  destruct (Nat.eq_dec i k) as [->|Ne].
  - rewrite nth_error_upd_eq by (unfold cores_after; now rewrite map_length, seq_length). rewrite cores_after_nth by exact H.
    destruct (Nat.ltb_spec k k), (Nat.ltb_spec k (S k)); try lia. reflexivity.
  - rewrite nth_error_upd_neq by auto. unfold cores_after. rewrite !nth_error_table.
    destruct (i <? C); [|reflexivity]. destruct (Nat.ltb_spec i k), (Nat.ltb_spec i (S k)); try lia; reflexivity.
Qed.

Lemma kind_step_ok k : 0 < cpp -> k < C -> kind_step tpc k (kinds_after k) = Ok (kinds_after (S k)).
Proof.
  intros CPP H. unfold kind_step. cbn [kinds_after k_index k_uarchs k_clusters k_cores].
  assert (NEW : (if k =? 0 then Ok true else new_kind (cores_after k) k) = Ok ((k =? 0) || (k =? b))).
  { destruct (Nat.eqb_spec k 0); [reflexivity|]. apply kind_changes; [lia|]. intros j Hj. eexists. now apply cores_after_nth. }
  rewrite NEW. cbn [bind]. unfold kinds_after. rewrite Nat.sub_succ, Nat.sub_0_r. change (S k =? 0) with false. cbv iota.
  destruct (Nat.eqb_spec k 0) as [->|K0]; cbn [orb].
  - cbn [incr_index k_index k_cores]. unfold rd. rewrite cores_after_nth by exact H. cbn [bind core_of_mach c_uarch c_package c_vendor].
    rewrite D by exact H. destruct (Nat.ltb_spec 0 b) as [_|]; [|lia]. rewrite Nat.div_0_l by lia. cbn [Nat.ltb Nat.leb].
    unfold wr_at, wr. cbn [uarchs_after clusters_after length Nat.ltb Nat.leb upd Nat.eqb bind k_cores k_index].
    assert (I : cluster_index 0 = 0) by (unfold cluster_index; destruct (Nat.ltb_spec 0 b); lia).
    pose proof (cores_after_step 0 H) as M. rewrite I in *. rewrite M. cbn [bind].
    f_equal. unfold uarchs_after, clusters_after, cluster_first. cbn [Nat.eqb]. rewrite Nat.min_l by lia.
    destruct (Nat.leb_spec 1 b); [|lia]. reflexivity.
  - destruct (Nat.eqb_spec k b) as [->|KB].
    + assert (I : cluster_index (b - 1) = 0) by (unfold cluster_index; destruct (Nat.ltb_spec (b - 1) b); lia). rewrite I.
      cbn [incr_index k_index k_cores]. unfold rd. rewrite cores_after_nth by exact H. cbn [bind core_of_mach c_uarch c_package c_vendor].
      rewrite D by exact H. destruct (Nat.ltb_spec b b) as [|_]; [lia|].
      unfold wr_at, wr, uarchs_after, clusters_after. destruct (Nat.eqb_spec b 0); [lia|]. destruct (Nat.ltb_spec b C); [|lia].
      destruct (Nat.leb_spec b b); [|lia]. destruct (Nat.leb_spec (S b) b); [lia|].
      cbn [length Nat.ltb Nat.leb upd bind k_cores k_index k_uarchs k_clusters].
      assert (I' : cluster_index b = 1) by (unfold cluster_index; destruct (Nat.ltb_spec b b); lia).
      pose proof (cores_after_step b H) as M. rewrite I' in M. rewrite M. cbn [bind]. rewrite I'. f_equal.
      unfold cluster_first, cluster_second. rewrite !Nat.min_r by lia. replace (S b - b) with 1 by lia. reflexivity.
    + assert (I : cluster_index (k - 1) = cluster_index k) by (unfold cluster_index; destruct (Nat.ltb_spec (k - 1) b), (Nat.ltb_spec k b); lia).
      rewrite I. unfold modify_at, uarchs_after, clusters_after. destruct (Nat.eqb_spec k 0); [lia|].
      pose proof (cores_after_step k H) as M. unfold cluster_index in *. destruct (Nat.ltb_spec k b) as [L|L].
      * rewrite !modify_head. cbn [bind k_cores k_index k_uarchs k_clusters another_core another_processor au_uarch au_midr au_processors au_cores
             cluster_first cl_processor_start cl_processor_count cl_core_start cl_core_count cl_cluster_id cl_package cl_vendor cl_uarch cl_cpuid].
        rewrite M. cbn [bind]. f_equal. rewrite !Nat.min_l by lia. unfold cluster_first. rewrite !Nat.min_l by lia.
        destruct (Nat.leb_spec k b); [|lia]. destruct (Nat.leb_spec (S k) b); [|lia]. reflexivity.
      * destruct (Nat.ltb_spec b C); [|lia]. destruct (Nat.leb_spec k b); [lia|]. destruct (Nat.leb_spec (S k) b); [lia|].
        rewrite !modify_second. cbn [bind k_cores k_index k_uarchs k_clusters another_core another_processor au_uarch au_midr au_processors au_cores
             cluster_second cl_processor_start cl_processor_count cl_core_start cl_core_count cl_cluster_id cl_package cl_vendor cl_uarch cl_cpuid].
        rewrite M. cbn [bind]. f_equal; unfold cluster_first, cluster_second; rewrite ?Nat.min_r by lia; rewrite ?Nat.sub_succ_l by lia; reflexivity.
Qed.

Lemma kinds_ok : 0 < cpp -> for_each (kind_step tpc) 0 C
  (Kinds None (repeat arm_uarch0 number_of_clusters) (repeat cluster0 number_of_clusters) (map (core_of_mach None) (seq 0 C))) = Ok (kinds_after C).
Proof.
  intros CPP.
  assert (S0 : Kinds None (repeat arm_uarch0 number_of_clusters) (repeat cluster0 number_of_clusters) (map (core_of_mach None) (seq 0 C)) = kinds_after 0).
  { unfold kinds_after, uarchs_after, clusters_after, cores_after, number_of_clusters. cbn [Nat.eqb Nat.leb].
    now destruct (b <? C). }
  rewrite S0. destruct (for_each_inv (kind_step tpc) (fun i s => s = kinds_after i) C 0 (kinds_after 0)) as (s & E & ->); [reflexivity| |exact E].
  intros i s Hi ->. exists (kinds_after (S i)). split; [apply kind_step_ok; [exact CPP|lia]|reflexivity].
Qed.

Definition cores_final : list core := map (fun i => core_of_mach (Some (cluster_index i)) i) (seq 0 C).
Lemma cores_final_after : cores_after C = cores_final.
Proof. apply map_ext_in. intros i Hi. apply in_seq in Hi. destruct (Nat.ltb_spec i C); [reflexivity|lia]. Qed.

(** *** Links *)
Definition processors_final : list processor := map (fun i => processor_of_mach (Some (cluster_index (i / tpc))) i) (seq 0 T).
Definition processors_after (k : nat) : list processor :=
  map (fun i => processor_of_mach (if i <? k then Some (cluster_index (i / tpc)) else None) i) (seq 0 T).

Lemma processors_after_step k : k < T ->
  modify (processors_after k) k (fun p => Processor (p_smt_id p) (p_core p) (Some (cluster_index (k / tpc))) (p_package p) (p_linux_id p) (p_apic_id p)) =
  Ok (processors_after (S k)).
Proof.
  intros H. unfold modify, processors_after at 1. rewrite nth_error_table. destruct (Nat.ltb_spec k T); [|lia]. f_equal. apply nth_error_ext. intros i.
  destruct (Nat.eq_dec i k) as [->|Ne].
  - rewrite nth_error_upd_eq by (unfold processors_after; now rewrite map_length, seq_length). symmetry. unfold processors_after. rewrite nth_error_table.
    destruct (Nat.ltb_spec k T); [|lia]. destruct (Nat.ltb_spec k (S k)); [|lia]. reflexivity.
  - rewrite nth_error_upd_neq by auto. unfold processors_after. rewrite !nth_error_table.
    destruct (i <? T); [|reflexivity]. destruct (Nat.ltb_spec i k), (Nat.ltb_spec i (S k)); try lia; reflexivity.
Qed.

Lemma link_processors_ok : 0 < tpc -> (forall i, i < T -> i / tpc < C) ->
  link_processors tpc T cores_final (map (processor_of_mach None) (seq 0 T)) = Ok processors_final.
Proof.
  intros TPC A. unfold link_processors.
  match goal with |- for_each ?f _ _ _ = _ => destruct (for_each_inv f (fun i s => s = processors_after i) T 0 (map (processor_of_mach None) (seq 0 T))) as (s & E & ->) end.
  - unfold processors_after. apply map_ext_in. reflexivity.
  - intros i s Hi ->. exists (processors_after (S i)). split; [|reflexivity]. rewrite divide_pos by exact TPC. cbn [bind]. unfold rd.
    unfold cores_final. rewrite nth_error_table. destruct (Nat.ltb_spec (i / tpc) C) as [_|L]; [|specialize (A i ltac:(lia)); lia]. cbn [bind core_of_mach c_cluster].
    apply processors_after_step. lia.
  - rewrite E. f_equal. cbn [plus]. apply map_ext_in. intros i Hi. apply in_seq in Hi. destruct (Nat.ltb_spec i T); [reflexivity|lia].
Qed.
Lemma link_processors_inv l : 0 < tpc -> link_processors tpc T cores_final (map (processor_of_mach None) (seq 0 T)) = Ok l ->
  (forall i, i < T -> i / tpc < C).
Proof.
  intros TPC E. unfold link_processors in E.
  refine (for_each_ok_inv _ (fun k _ => forall i, i < k -> i / tpc < C) _ _ _ _ _ _ E); [intros i Hi; lia|].
  intros k s s' Hk F B i Hi. destruct (Nat.eq_dec i k) as [->|]; [|apply F; lia].
  rewrite divide_pos in B by exact TPC. cbn [bind] in B. unfold rd in B. destruct (nth_error cores_final (k / tpc)) as [c|] eqn:Ec; [|discriminate].
  apply table_some in Ec. tauto.
Qed.

Definition packages_final : list package := map (fun i => Package (i * tpp) tpp (i * cpp) cpp 0 number_of_clusters) (seq 0 P).
Lemma link_packages_ok : link_packages number_of_clusters P (map (fun i => Package (i * tpp) tpp (i * cpp) cpp 0 0) (seq 0 P)) = Ok packages_final.
Proof.
  unfold link_packages.
  set (after := fun k => map (fun i => Package (i * tpp) tpp (i * cpp) cpp 0 (if i <? k then number_of_clusters else 0)) (seq 0 P)).
  match goal with |- for_each ?f _ _ ?z = _ => destruct (for_each_inv f (fun i s => s = after i) P 0 z) as (s & E & ->) end.
  - unfold after. apply map_ext. reflexivity.
  - intros k s Hk ->. exists (after (S k)). split; [|reflexivity]. unfold modify, after at 1. rewrite nth_error_table. destruct (Nat.ltb_spec k P); [|lia].
    f_equal. apply nth_error_ext. intros i. destruct (Nat.eq_dec i k) as [->|Ne].
    + rewrite nth_error_upd_eq by (unfold after; rewrite map_length, seq_length; lia). symmetry. unfold after. rewrite nth_error_table.
      destruct (Nat.ltb_spec k P); [|lia]. destruct (Nat.ltb_spec k (S k)); [|lia]. reflexivity.
    + rewrite nth_error_upd_neq by auto. unfold after. rewrite !nth_error_table. destruct (i <? P); [|reflexivity].
      destruct (Nat.ltb_spec i k), (Nat.ltb_spec i (S k)); try lia; reflexivity.
  - rewrite E. f_equal. unfold after, packages_final. apply map_ext_in. intros i Hi. apply in_seq in Hi. cbn [plus]. destruct (Nat.ltb_spec i P); [reflexivity|lia].
Qed.
End Build.
