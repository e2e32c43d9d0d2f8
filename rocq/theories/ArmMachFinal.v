(** The statements about the tables of Apple processors. *)
From Verif Require Import Base BaseProofs Loops Text Fill TopologySpec ApiModel ApiProofs X86CountsModel X86CountsSpec X86CountsProofs X86CountsFinal.
From Verif Require Import ArmMachModel ArmMachSpec ArmMachProofs ArmMachInit ArmMachNameProofs.
From Verif Require X86LinuxModel ArmLinuxModel.
Import X86LinuxModel(cstate, CState, cs_caches, cs_pointers, compute_max_cache_size, cache_size_at).
Import ArmLinuxModel(arm_uarch, ArmUarch, arm_uarch0, au_uarch, au_midr, au_processors, au_cores).
Open Scope nat_scope.
Ltac Zify.zify_post_hook ::= idtac.

Lemma some_same {A} (x y : A) : Some x = Some y -> x = y.
Proof. congruence. Qed.

(** ** One package, one thread for each core *)
Section One.
Variables (family : N) (n b : nat) (u v : N).
Hypothesis SP : split_at family n b u v.

Lemma n_pos : 0 < n. Proof. destruct SP as (B & _). lia. Qed.
Lemma div_self : n / n = 1. Proof. pose proof n_pos. apply Nat.div_same. lia. Qed.

Lemma processors_one : processors_final 1 n n b = map (fun i => Processor 0 (Some i) (Some (cluster_index b i)) (Some 0) 0 0) (seq 0 n).
Proof.
  unfold processors_final, processor_of_mach. rewrite div_self, !Nat.div_1_r. apply map_ext_in. intros i Hi. apply in_seq in Hi.
  rewrite Nat.div_1_r, (Nat.div_small i n) by lia. reflexivity.
Qed.
Lemma cores_one : cores_final family 1 n n b = map (fun i => Core i 1 i (Some (cluster_index b i)) (Some 0) vendor_apple (decode_uarch family i n) 0) (seq 0 n).
Proof.
  unfold cores_final, core_of_mach. rewrite div_self, !Nat.div_1_r. apply map_ext_in. intros i Hi. apply in_seq in Hi.
  rewrite (Nat.div_small i n), (Nat.mod_small i n), Nat.mul_1_r by lia. reflexivity.
Qed.
Definition clusters_of : list cluster :=
  if b <? n then [Cluster 0 b 0 b 0 (Some 0) vendor_apple u 0; Cluster b (n - b) b (n - b) 1 (Some 0) vendor_apple v 0]
  else [Cluster 0 n 0 n 0 (Some 0) vendor_apple u 0].
Lemma clusters_one : clusters_after 1 n n b u v n = clusters_of.
Proof.
  pose proof n_pos. destruct SP as (B & _). unfold clusters_after, cluster_first, cluster_second, clusters_of. rewrite div_self, Nat.mul_1_r, !Nat.div_1_r.
  destruct (Nat.eqb_spec n 0); [lia|]. destruct (Nat.ltb_spec b n).
  - destruct (Nat.leb_spec n b); [lia|]. rewrite Nat.min_r, Nat.div_small by lia. reflexivity.
  - rewrite Nat.min_l by lia. reflexivity.
Qed.
Lemma packages_one : packages_final 1 n n b = [Package 0 n 0 n 0 (number_of_clusters n b)].
Proof. unfold packages_final. now rewrite !Nat.div_1_r. Qed.

Lemma cluster_index_le i : cluster_index b i = if b <=? i then 1 else 0.
Proof. unfold cluster_index. destruct (Nat.ltb_spec i b), (Nat.leb_spec b i); lia. Qed.

(** The clusters are ranges of the first [n] numbers. *)
Lemma clusters_points : points_to (map (fun i => Some (cluster_index b i)) (seq 0 n)) (map cluster_cores clusters_of) /\
  map cluster_processors clusters_of = map cluster_cores clusters_of.
Proof.
  pose proof n_pos. destruct SP as (B & _). unfold clusters_of. destruct (Nat.ltb_spec b n) as [L|L]; (split; [|reflexivity]).
  - rewrite (map_ext _ (fun i => Some (if b <=? i then 1 else 0))) by (intros; now rewrite cluster_index_le). apply points_two; lia.
  - rewrite (map_ext_in _ (fun _ => Some 0)).
    + apply points_one. lia.
    + intros i Hi. apply in_seq in Hi. rewrite cluster_index_le. destruct (Nat.leb_spec b i); [lia|reflexivity].
Qed.

Lemma one_consistent : consistent (processors_final 1 n n b) (cores_final family 1 n n b) (clusters_after 1 n n b u v n) (packages_final 1 n n b).
Proof.
  pose proof n_pos as NP. destruct clusters_points as (CP & CE).
  rewrite processors_one, cores_one, clusters_one, packages_one. split.
  - rewrite !map_map. unfold core_processors. cbn.
    pose proof (points_uniform 1 n ltac:(lia)) as Q. rewrite Nat.mul_1_r in Q.
    rewrite (map_ext (fun i => Some (i / 1)) (fun i => Some i)) in Q by (intros; now rewrite Nat.div_1_r).
    rewrite (map_ext (fun j => (j * 1, 1)) (fun j => (j, 1))) in Q by (intros; now rewrite Nat.mul_1_r). exact Q.
  - rewrite map_map, CE. exact CP.
  - rewrite map_map. cbn. now apply points_one.
  - rewrite map_map. exact CP.
  - rewrite map_map. cbn. now apply points_one.
  - unfold clusters_of, number_of_clusters. destruct (b <? n); cbn; [apply (points_one 2)|apply (points_one 1)]; lia.
  - intros i p j c Hp Hj Hc. apply table_some in Hp. destruct Hp as (_ & ->). cbn in Hj. injection Hj as <-.
    apply table_some in Hc. destruct Hc as (_ & ->). now split.
  - intros i p j l Hp Hj Hl. apply table_some in Hp. destruct Hp as (_ & ->). cbn. unfold clusters_of in Hl.
    destruct (b <? n); destruct j as [|[|j]]; cbn in Hl; try discriminate; try (injection Hl as <-; reflexivity); destruct j; discriminate.
Qed.

Lemma one_ids : ids_are_offsets (processors_final 1 n n b) (cores_final family 1 n n b) (clusters_after 1 n n b u v n) (packages_final 1 n n b).
Proof.
  rewrite processors_one, cores_one, clusters_one, packages_one. split.
  - intros i p j c Hp Hj Hc. apply table_some in Hp. destruct Hp as (_ & ->). cbn in Hj. injection Hj as <-.
    apply table_some in Hc. destruct Hc as (_ & ->). cbn. lia.
  - intros i c j k Hc Hj Hk. apply table_some in Hc. destruct Hc as (Hi & ->). cbn in Hj. injection Hj as <-. injection Hk as <-. cbn. lia.
  - intros i l j k Hl Hj Hk. unfold clusters_of, number_of_clusters in *.
    destruct (b <? n); destruct i as [|[|i]]; cbn in Hl; try discriminate; try (injection Hl as <-; cbn in Hj; injection Hj as <-; injection Hk as <-; cbn; lia);
      destruct i; discriminate.
Qed.

Lemma one_described line l1i l1d l2 l3 max name :
  apple_described family n (AppleTables (mach_tables family 1 n n b u v line l1i l1d l2 l3 max) (uarchs_after n b u v n) name).
Proof.
  pose proof n_pos as NP. pose proof SP as (B & UV & D).
  unfold mach_tables. cbv zeta. split; cbn [at_tables at_uarchs t_processors t_cores t_clusters t_packages t_processors_count t_cores_count t_clusters_count t_packages_count].
  - reflexivity.
  - rewrite processors_one, cores_one, packages_one, !map_length, !seq_length. reflexivity.
  - rewrite clusters_one. unfold clusters_of, number_of_clusters. destruct (b <? n); cbn; lia.
  - exact one_consistent.
  - exact one_ids.
  - rewrite processors_one. intros i q H. apply table_some in H. destruct H as (_ & ->). reflexivity.
  - rewrite cores_one, map_map. cbn [c_uarch]. apply decode_kinds.
  - rewrite cores_one, clusters_one. split.
    + apply Forall_forall. intros c H. apply in_map_iff in H. destruct H as (i & <- & _). reflexivity.
    + unfold clusters_of. destruct (b <? n); repeat constructor.
  - rewrite cores_one, clusters_one. intros i c j l Hc Hj Hl. apply table_some in Hc. destruct Hc as (Hi & ->). cbn in Hj. injection Hj as <-. cbn [c_uarch].
    rewrite D by exact Hi. unfold cluster_index, clusters_of in Hl. destruct (Nat.ltb_spec i b), (Nat.ltb_spec b n); cbn in Hl; try discriminate; injection Hl as <-; reflexivity.
  - rewrite clusters_one. intros i l m Hl Hm. unfold clusters_of in *. destruct (Nat.ltb_spec b n) as [L|L].
    + destruct i as [|[|i]]; cbn in *; try discriminate. injection Hl as <-. injection Hm as <-. cbn. now apply UV.
    + destruct i as [|i]; cbn in *; try discriminate.
  - rewrite clusters_one. unfold uarchs_after, clusters_of. destruct (Nat.eqb_spec n 0); [lia|]. destruct (Nat.ltb_spec b n).
    + destruct (Nat.leb_spec n b); [lia|]. rewrite Nat.min_r by lia. reflexivity.
    + rewrite Nat.min_l by lia. reflexivity.
Qed.

Lemma private_shared size line : (0 < line < 2 ^ 28)%N -> forall count, (size <> 0%N -> count = n) ->
  level_shared (apple_cache size 4 line) n 1 (cs_pointers (private_state size line n)) (cs_caches (private_state size line n)) count.
Proof.
  intros L count HC. pose proof n_pos as NP. unfold private_state. split; [|split].
  - destruct (size =? 0)%N; cbn; [apply repeat_length|now rewrite map_length, seq_length].
  - cbn [apple_cache g_size]. intros ->. cbn. split; [reflexivity|]. apply Forall_forall. intros q H. now apply repeat_spec in H.
  - cbn [apple_cache g_size]. intros Z. destruct (N.eqb_spec size 0) as [|_]; [contradiction|]. cbn [cs_pointers cs_caches].
    rewrite map_map, map_length, seq_length. unfold cache_processors. cbn [ca_processor_start ca_processor_count]. split; [|split; [now apply HC|]].
    + pose proof (points_uniform 1 n ltac:(clear; lia)) as Q. rewrite Nat.mul_1_r in Q.
      rewrite (map_ext (fun i => Some (i / 1)) (fun i => Some i)) in Q by (intros; now rewrite Nat.div_1_r). exact Q.
    + apply Forall_forall. intros c H. apply in_map_iff in H. destruct H as (i & <- & _). cbn [ca_geometry ca_processor_count]. split; [|reflexivity].
      unfold geometry_of, apple_cache, way. rewrite u32_small; [reflexivity|]. clear - L. change (2 ^ 28)%N with 268435456%N in L. unfold two32. lia.
Qed.
Lemma shared_shared size associativity line : (0 < line < 2 ^ 28)%N -> (0 < associativity <= 16)%N ->
  level_shared (apple_cache size associativity line) n n (cs_pointers (shared_state size associativity line n n))
    (cs_caches (shared_state size associativity line n n)) (if (size =? 0)%N then 0 else 1) /\
  length (cs_caches (shared_state size associativity line n n)) <= 1.
Proof.
  intros L A. pose proof n_pos as NP. unfold shared_state. split; [split; [|split]|].
  - destruct (size =? 0)%N; cbn; [apply repeat_length|now rewrite map_length, seq_length].
  - cbn [apple_cache g_size]. intros ->. cbn. split; [reflexivity|]. apply Forall_forall. intros q H. now apply repeat_spec in H.
  - cbn [apple_cache g_size]. intros Z. destruct (N.eqb_spec size 0) as [|_]; [contradiction|]. cbn [cs_pointers cs_caches]. split; [|split; [reflexivity|]].
    + cbn. apply points_one. exact NP.
    + repeat constructor. cbn [ca_geometry]. unfold geometry_of, apple_cache, way. rewrite u32_small; [reflexivity|].
      change (2 ^ 28)%N with 268435456%N in L. unfold two32. clear - L A. assert (associativity * line <= 16 * line)%N by (apply N.mul_le_mono_r; lia). lia.
  - destruct (size =? 0)%N; cbn; clear; lia.
Qed.

Lemma one_caches line l1i l1d l2 l3 : (0 < line < 2 ^ 28)%N ->
  apple_caches line l1i l1d l2 l3 n (mach_tables family 1 n n b u v line l1i l1d l2 l3 (first_nonzero [l3; l2; l1d])).
Proof.
  intros L. unfold mach_tables. cbv zeta.
  split; cbn [t_l1i_of t_l1i t_l1i_count t_l1d_of t_l1d t_l1d_count t_l2_of t_l2 t_l2_count t_l3_of t_l3 t_l3_count t_l4_of t_l4 t_l4_count t_max_cache_size].
  - apply private_shared; [exact L|]. intros Z. destruct (N.eqb_spec l1i 0); [contradiction|reflexivity].
  - apply private_shared; [exact L|]. intros Z. destruct (N.eqb_spec l1d 0); [contradiction|]. now rewrite Bool.orb_true_r.
  - apply shared_shared; [exact L|]. clear. lia.
  - apply shared_shared; [exact L|]. clear. lia.
  - split; [reflexivity|]. split; [reflexivity|]. apply Forall_forall. intros q H. now apply repeat_spec in H.
  - reflexivity.
Qed.
End One.

(** ** The whole *)

Lemma one_each_numbers a n : 0 < n -> one_each (aa_topology a) n ->
  let t := mach_detect_topology (aa_topology a) in mt_packages t = 1 /\ mt_cores t = n /\ mt_threads t = n.
Proof.
  intros NP (E1 & E2 & E3). unfold mach_detect_topology. cbv zeta. cbn [mt_packages mt_cores mt_threads]. rewrite E1, E2. unfold checked.
  destruct (Z.leb_spec (Z.of_nat n) 0); [lia|]. rewrite Nat2Z.id. split; [|now split]. destruct E3 as [->| ->]; reflexivity.
Qed.

Lemma way_nonzero associativity line : (0 < associativity <= 16)%N -> (0 < line < 2 ^ 28)%N -> way associativity line <> 0%N.
Proof.
  intros A L. unfold way. change (2 ^ 28)%N with 268435456%N in L. assert (associativity * line <= 16 * line)%N by (apply N.mul_le_mono_r; lia).
  rewrite u32_small by (unfold two32; lia). intros E. apply N.mul_eq_0 in E. lia.
Qed.

Lemma mach_described calloc_ok a n family line l1i l1d l2 l3 name : 0 < n -> one_each (aa_topology a) n -> tells (aa_family a) family ->
  tells (aa_line a) line -> tells (aa_l1i a) l1i -> tells (aa_l1d a) l1d -> tells (aa_l2 a) l2 -> tells (aa_l3 a) l3 ->
  (0 < line < 2 ^ 28)%N -> package_name a = Ok name -> (forall b, calloc_ok b = true) ->
  exists o p, arm_mach_init calloc_ok a = Ok o /\ mo_published o = Some p /\
    apple_described family n p /\ apple_caches line l1i l1d l2 l3 n (at_tables p).
Proof.
  intros NP ONE TF TL TI TD T2 T3 L EN M. apply tells_sys_info in TF, TL, TI, TD, T2, T3.
  destruct (one_each_numbers a n NP ONE) as (EP & EC & ET).
  destruct (arm_mach_success calloc_ok a name M) as (b & u & v & SP & E); rewrite ?EP, ?EC, ?ET, ?TF, ?TL, ?TI, ?TD, ?T2, ?T3 in *.
  - unfold buildable. rewrite EP, EC, ET, !Nat.div_1_r, Nat.div_same by lia. repeat split; try lia; intros i Hi.
    + rewrite Nat.div_small by lia. lia.
    + rewrite Nat.div_small by lia. lia.
  - exact EN.
  - intros _. now apply way_nonzero.
  - intros _. now apply way_nonzero.
  - intros _. now apply way_nonzero.
  - intros _. now apply way_nonzero.
  - do 2 eexists. split; [exact E|]. unfold mach_published. rewrite EP, EC, ET, TF, TL, TI, TD, T2, T3. cbn [mo_published]. split; [reflexivity|]. split.
    + now apply one_described.
    + cbn [at_tables]. now apply one_caches.
Qed.

(** What is published is consistent exactly for one package and one thread for each core. *)
Lemma tiles_total : forall rs from to, tiles from rs to -> to = from + list_sum (map snd rs).
Proof.
  induction rs as [|(s, c) rs IH]; intros from to H; cbn [tiles map snd] in *.
  - change (list_sum []) with 0. lia.
  - change (list_sum (c :: map snd rs)) with (c + list_sum (map snd rs)). destruct H as (-> & _ & H). apply IH in H. lia.
Qed.

Lemma mach_consistent_iff calloc_ok a o p : arm_mach_init calloc_ok a = Ok o -> mo_published o = Some p ->
  (consistent (t_processors (at_tables p)) (t_cores (at_tables p)) (t_clusters (at_tables p)) (t_packages (at_tables p)) <->
   t_packages_count (at_tables p) = 1 /\ t_processors_count (at_tables p) = t_cores_count (at_tables p)).
Proof.
  intros E PT. destruct (arm_mach_cases calloc_ok a o E) as [(N0 & _)|(b & u & v & name & SP & CPP & TPC & A & R & _ & _ & _ & _ & _ & ->)]; [congruence|].
  unfold mach_published in PT. cbn [mo_published] in PT. apply some_same in PT. subst p.
  destruct (mach_numbers (aa_topology a)) as (PP & CP & TP). cbv zeta in *.
  revert PP CP TP CPP TPC A R SP. generalize (mt_packages (mach_detect_topology (aa_topology a))) as P, (mt_cores (mach_detect_topology (aa_topology a))) as C,
    (mt_threads (mach_detect_topology (aa_topology a))) as T. clear E.
  intros P C T PP CP TP CPP TPC A R SP. unfold mach_tables. cbv zeta. cbn [at_tables t_processors t_cores t_clusters t_packages t_packages_count t_processors_count t_cores_count].
  split.
  - intros H. split.
    + destruct (clusters_in_packages _ _ _ _ H) as (owner & _ & (TL & _)). unfold packages_final in TL. rewrite map_map in TL.
      unfold package_clusters in TL. cbn [pk_cluster_start pk_cluster_count] in TL. destruct P as [|[|P]]; [lia|reflexivity|].
      cbn [seq map tiles] in TL. destruct TL as (_ & Q & W & _). lia.
    + destruct (processors_in_clusters _ _ _ _ H) as (owner & EO & (TL & _)).
      assert (LO : length owner = T).
      { rewrite <- (map_length Some owner), <- EO. unfold processors_final. now rewrite !map_length, seq_length. }
      rewrite LO in TL. apply tiles_total in TL. rewrite map_map in TL. cbn [plus] in TL. rewrite TL.
      destruct SP as (B & _). unfold clusters_after. destruct (Nat.eqb_spec C 0); [lia|]. destruct (Nat.ltb_spec b C).
      * destruct (Nat.leb_spec C b); [lia|]. cbn. lia.
      * cbn. lia.
  - intros (-> & ->). now apply one_consistent.
Qed.

(** The kinds of cores, whatever is published. *)
Lemma mach_kinds calloc_ok a o p family : arm_mach_init calloc_ok a = Ok o -> mo_published o = Some p -> tells (aa_family a) family ->
  core_kinds family (t_cores_count (at_tables p)) (map c_uarch (t_cores (at_tables p))).
Proof.
  intros E PT TF. apply tells_sys_info in TF.
  destruct (arm_mach_cases calloc_ok a o E) as [(N0 & _)|(b & u & v & name & SP & _ & _ & _ & _ & _ & _ & _ & _ & _ & ->)]; [congruence|].
  unfold mach_published in PT. cbn [mo_published] in PT. apply some_same in PT. subst p. unfold mach_tables. cbv zeta. cbn [at_tables t_cores t_cores_count].
  unfold cores_final. rewrite map_map. cbn [core_of_mach c_uarch]. rewrite TF. apply decode_kinds.
Qed.

Lemma repeat_app_inj {A} (x y : A) : x <> y -> forall m k m' k', repeat x m ++ repeat y k = repeat x m' ++ repeat y k' -> m = m' /\ k = k'.
Proof.
  intros Ne. induction m as [|m IH]; intros k [|m'] k' E; cbn [repeat app] in E.
  - split; [reflexivity|]. apply (f_equal (@length A)) in E. now rewrite !repeat_length in E.
  - destruct k; cbn in E; [discriminate|]. injection E. intros _ ->. now destruct Ne.
  - destruct k'; cbn in E; [discriminate|]. injection E. intros _ ->. now destruct Ne.
  - injection E. intros E'. apply IH in E'. lia.
Qed.

Lemma mach_efficiency calloc_ok a o p family big little performance efficiency :
  arm_mach_init calloc_ok a = Ok o -> mo_published o = Some p -> tells (aa_family a) family -> In (family, (big, little)) paired ->
  0 < performance -> t_cores_count (at_tables p) = performance + efficiency ->
  (map c_uarch (t_cores (at_tables p)) = repeat big performance ++ repeat little efficiency <-> efficiency = 4).
Proof.
  intros E PT TF I PP EC. pose proof (mach_kinds calloc_ok a o p family E PT TF) as K. rewrite (ck_paired _ _ _ K big little I), EC.
  assert (Ne : big <> little).
  { cbn [In paired] in I. repeat destruct I as [I|I]; try contradiction; injection I; intros; subst; discriminate. }
  split.
  - intros Q. apply repeat_app_inj in Q; [|exact Ne]. lia.
  - intros ->. f_equal; f_equal; lia.
Qed.

(** ** Memory *)
Lemma mach_memory calloc_ok a o : arm_mach_init calloc_ok a = Ok o ->
  match mo_published o with
  | None => mo_live o = []
  | Some _ => NoDup (mo_live o) /\ forall l1i l1d l2 l3, tells (aa_l1i a) l1i -> tells (aa_l1d a) l1d -> tells (aa_l2 a) l2 -> tells (aa_l3 a) l3 ->
                forall b, In b (mo_live o) <-> apple_block l1i l1d l2 l3 b
  end.
Proof.
  intros E. destruct (arm_mach_cases calloc_ok a o E) as [(-> & L)|(b & u & v & name & _ & _ & _ & _ & _ & _ & _ & _ & _ & _ & ->)]; [exact L|].
  unfold mach_published. cbn [mo_published mo_live]. split.
  - unfold mach_blocks, level_blocks. destruct (sys_info (aa_l1i a) =? 0)%N, (sys_info (aa_l1d a) =? 0)%N, (sys_info (aa_l2 a) =? 0)%N, (sys_info (aa_l3 a) =? 0)%N;
      cbn [app]; repeat constructor; cbn [In]; intuition discriminate.
  - intros l1i l1d l2 l3 TI TD T2 T3 c. apply tells_sys_info in TI, TD, T2, T3. rewrite TI, TD, T2, T3. unfold mach_blocks, level_blocks, apple_block.
    destruct (N.eqb_spec l1i 0), (N.eqb_spec l1d 0), (N.eqb_spec l2 0), (N.eqb_spec l3 0); destruct c; cbn [app In]; intuition (discriminate || congruence).
Qed.

(** ** Getters *)
Lemma mach_lengths family P C T b u v line l1i l1d l2 l3 max : split_at family C b u v ->
  let t := mach_tables family P C T b u v line l1i l1d l2 l3 max in
  length (t_processors t) = T /\ length (t_cores t) = C /\ length (t_clusters t) = number_of_clusters C b /\ length (t_packages t) = P /\
  length (uarchs_after C b u v C) = number_of_clusters C b /\
  length (t_l2 t) = t_l2_count t /\ length (t_l3 t) = t_l3_count t /\
  ((l1i = 0%N <-> l1d = 0%N) -> length (t_l1i t) = t_l1i_count t /\ length (t_l1d t) = t_l1d_count t).
Proof.
  intros SP. cbv zeta. unfold mach_tables. cbv zeta. cbn [t_processors t_cores t_clusters t_packages t_l1i t_l1d t_l2 t_l3 t_l1i_count t_l1d_count t_l2_count t_l3_count].
  unfold processors_final, cores_final, packages_final, clusters_after, uarchs_after, number_of_clusters. rewrite !map_length, !seq_length.
  split; [reflexivity|]. split; [reflexivity|]. split; [now destruct (b <? C)|]. split; [reflexivity|]. split; [now destruct (b <? C)|].
  split; [unfold shared_state; now destruct (l2 =? 0)%N|]. split; [unfold shared_state; now destruct (l3 =? 0)%N|].
  intros H. unfold private_state. destruct (N.eqb_spec l1i 0) as [Z|Z], (N.eqb_spec l1d 0) as [Y|Y]; cbn; rewrite ?map_length, ?seq_length; try tauto.
Qed.

Lemma mach_pointers p : let g := final (arm_mach_commit p) in
  gl_initialized g = true /\
  (forall tb, gl_pointer g tb = match tb with
     | Processors => Some (Processors, length (t_processors (at_tables p))) | Cores => Some (Cores, length (t_cores (at_tables p)))
     | Clusters => Some (Clusters, length (t_clusters (at_tables p))) | Packages => Some (Packages, length (t_packages (at_tables p)))
     | Uarchs => Some (Uarchs, length (at_uarchs p))
     | Caches L1i => block_of (Caches L1i) (t_l1i (at_tables p)) | Caches L1d => block_of (Caches L1d) (t_l1d (at_tables p))
     | Caches L2 => block_of (Caches L2) (t_l2 (at_tables p)) | Caches L3 => block_of (Caches L3) (t_l3 (at_tables p)) | Caches L4 => None end) /\
  (forall tb, gl_count g tb = match tb with
     | Processors => N.of_nat (t_processors_count (at_tables p)) | Cores => N.of_nat (t_cores_count (at_tables p))
     | Clusters | Uarchs => N.of_nat (t_clusters_count (at_tables p)) | Packages => N.of_nat (t_packages_count (at_tables p))
     | Caches L1i => N.of_nat (t_l1i_count (at_tables p)) | Caches L1d => N.of_nat (t_l1d_count (at_tables p))
     | Caches L2 => N.of_nat (t_l2_count (at_tables p)) | Caches L3 => N.of_nat (t_l3_count (at_tables p)) | Caches L4 => 0%N end).
Proof. intros g. unfold g. split; [reflexivity|split; intros [| | | | |[]]; reflexivity]. Qed.

Lemma mach_agree calloc_ok a o p l1i l1d tb : arm_mach_init calloc_ok a = Ok o -> mo_published o = Some p ->
  tells (aa_l1i a) l1i -> tells (aa_l1d a) l1d -> (l1i = 0%N <-> l1d = 0%N) \/ ~ In tb [Caches L1i; Caches L1d] ->
  agrees (final (arm_mach_commit p)) tb.
Proof.
  intros E PT TI TD H. apply tells_sys_info in TI, TD.
  destruct (arm_mach_cases calloc_ok a o E) as [(N0 & _)|(b & u & v & name & SP & _ & _ & _ & _ & _ & _ & _ & _ & _ & ->)]; [congruence|].
  unfold mach_published in PT. cbn [mo_published] in PT. apply some_same in PT. subst p.
  destruct (mach_lengths (sys_info (aa_family a)) (mt_packages (mach_detect_topology (aa_topology a))) (mt_cores (mach_detect_topology (aa_topology a)))
    (mt_threads (mach_detect_topology (aa_topology a))) b u v (sys_info (aa_line a)) (sys_info (aa_l1i a)) (sys_info (aa_l1d a)) (sys_info (aa_l2 a)) (sys_info (aa_l3 a))
    (first_nonzero [sys_info (aa_l3 a); sys_info (aa_l2 a); sys_info (aa_l1d a)]) SP) as (L1 & L2 & L3 & L4 & L5 & L6 & L7 & L8).
  match goal with |- agrees (final (arm_mach_commit ?q)) _ => destruct (mach_pointers q) as (I & PT & CT); set (p := q) in * end.
  unfold agrees.
  rewrite PT, CT. unfold p. cbn [at_tables at_uarchs]. rewrite <- TI, <- TD in H. destruct tb as [| | | | |[]].
  - left. rewrite Nat2N.id, L1. reflexivity.
  - left. rewrite Nat2N.id, L2. reflexivity.
  - left. rewrite Nat2N.id, L3. reflexivity.
  - left. rewrite Nat2N.id, L4. reflexivity.
  - left. rewrite Nat2N.id, L5. reflexivity.
  - apply block_agrees. destruct H as [H|H]; [now apply L8|]. exfalso. apply H. cbn. auto.
  - apply block_agrees. destruct H as [H|H]; [now apply L8|]. exfalso. apply H. cbn. auto.
  - now apply block_agrees.
  - now apply block_agrees.
  - right. now split.
Qed.

Lemma mach_elements calloc_ok a o p l1i l1d cpu tb i : arm_mach_init calloc_ok a = Ok o -> mo_published o = Some p ->
  tells (aa_l1i a) l1i -> tells (aa_l1d a) l1d -> (l1i = 0%N <-> l1d = 0%N) \/ ~ In tb [Caches L1i; Caches L1d] ->
  exists n, ask arm_mach (final (arm_mach_commit p)) cpu (Get_count tb) = Number n /\
    ask arm_mach (final (arm_mach_commit p)) cpu (Get_element tb i) = if (i <? n)%N then Pointer tb (N.to_nat i) else Null.
Proof.
  intros E PT TI TD H. pose proof (mach_agree calloc_ok a o p l1i l1d tb E PT TI TD H) as A. destruct (mach_pointers p) as (I & _).
  exists (gl_count (final (arm_mach_commit p)) tb).
  unfold ask, getter_prog, guarded. cbn [run_prog]. rewrite I.
  destruct tb as [| | | | |[]]; (split; [reflexivity|]); exact (run_indexed _ cpu _ i A).
Qed.

Lemma mach_routine_final calloc_ok a o p : arm_mach_init calloc_ok a = Ok o -> mo_published o = Some p ->
  final (arm_mach_routine o) = final (arm_mach_commit p).
Proof.
  intros E PT. destruct (arm_mach_cases calloc_ok a o E) as [(N0 & _)|(b & u & v & name & _ & _ & _ & _ & _ & _ & _ & _ & _ & _ & ->)]; [congruence|].
  unfold mach_published in *. cbn [mo_published] in PT. apply some_same in PT. subst p. reflexivity.
Qed.
Lemma mach_getters calloc_ok a o p l1i l1d cpu tb i : arm_mach_init calloc_ok a = Ok o -> mo_published o = Some p ->
  tells (aa_l1i a) l1i -> tells (aa_l1d a) l1d -> (l1i = 0%N <-> l1d = 0%N) \/ ~ In tb [Caches L1i; Caches L1d] ->
  exists n, ask arm_mach (final (arm_mach_routine o)) cpu (Get_count tb) = Number n /\
    ask arm_mach (final (arm_mach_routine o)) cpu (Get_element tb i) = if (i <? n)%N then Pointer tb (N.to_nat i) else Null.
Proof.
  intros E PT. rewrite (mach_routine_final calloc_ok a o p E PT). now apply mach_elements with (calloc_ok := calloc_ok) (a := a) (o := o).
Qed.
Lemma mach_name calloc_ok a o p : arm_mach_init calloc_ok a = Ok o -> mo_published o = Some p -> package_name a = Ok (at_name p).
Proof.
  intros E PT. destruct (arm_mach_cases calloc_ok a o E) as [(N0 & _)|(b & u & v & name & _ & _ & _ & _ & _ & EN & _ & _ & _ & _ & ->)]; [congruence|].
  unfold mach_published in *. cbn [mo_published] in PT. apply some_same in PT. subst p. exact EN.
Qed.

(** Nothing is published if the numbers of processors are not equal for all cores. *)
Lemma mach_whole calloc_ok a o p : arm_mach_init calloc_ok a = Ok o -> mo_published o = Some p ->
  Nat.divide (t_cores_count (at_tables p)) (t_processors_count (at_tables p)) /\ t_packages_count (at_tables p) <= t_cores_count (at_tables p) /\
  0 < t_packages_count (at_tables p).
Proof.
  intros E PT. destruct (arm_mach_cases calloc_ok a o E) as [(N0 & _)|(b & u & v & name & SP & CPP & TPC & A & R & _ & _ & _ & _ & _ & ->)]; [congruence|].
  unfold mach_published in PT. cbn [mo_published] in PT. apply some_same in PT. subst p.
  destruct (mach_numbers (aa_topology a)) as (PP & CP & TP). cbv zeta in *. unfold mach_tables. cbv zeta. cbn [at_tables t_packages_count t_processors_count t_cores_count].
  revert PP CP TP CPP TPC A R. generalize (mt_packages (mach_detect_topology (aa_topology a))) as P, (mt_cores (mach_detect_topology (aa_topology a))) as C,
    (mt_threads (mach_detect_topology (aa_topology a))) as T. clear.
  intros P C T PP CP TP CPP TPC A R. split; [|split; [|exact PP]].
  - exists (T / C). pose proof (Nat.div_mod T C ltac:(lia)) as DM. pose proof (Nat.mod_upper_bound T C ltac:(lia)) as MB.
    specialize (R (T - 1) ltac:(lia)). destruct (Nat.eq_dec (T mod C) 0) as [Z|Z]; [lia|]. exfalso.
    assert (C <= (T - 1) / (T / C)); [|lia]. apply Nat.div_le_lower_bound; [lia|]. nia.
  - destruct (Nat.le_gt_cases P C); [assumption|]. rewrite Nat.div_small in CPP by lia. lia.
Qed.

Lemma mach_describes calloc_ok a n family line l1i l1d l2 l3 : 0 < n -> one_each (aa_topology a) n -> tells (aa_family a) family ->
  tells (aa_line a) line -> tells (aa_l1i a) l1i -> tells (aa_l1d a) l1d -> tells (aa_l2 a) l2 -> tells (aa_l3 a) l3 ->
  (0 < line < 2 ^ 28)%N -> strings_defined (aa_brand a) (aa_machine a) -> (forall b, calloc_ok b = true) ->
  exists o p, arm_mach_init calloc_ok a = Ok o /\ mo_published o = Some p /\
    apple_described family n p /\ apple_caches line l1i l1d l2 l3 n (at_tables p).
Proof.
  intros NP ONE TF TL TI TD T2 T3 L S M. destruct (name_defined a S) as (name & EN). now apply mach_described with (name := name).
Qed.
