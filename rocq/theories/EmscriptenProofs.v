(** Lemmas about the tables on WebAssembly. *)
From Verif Require Import Base BaseProofs Loops Fill TopologySpec ApiModel ApiProofs EmscriptenModel EmscriptenSpec.
Open Scope nat_scope.

Section Layout.
Variable y : layout.
Let pc := ly_per_core y.
Hypothesis PC : 0 < pc.
Hypothesis Count : ly_processors y = ly_cores y * pc.
Hypothesis Big : ly_big y <= ly_cores y.
Hypothesis BigPos : 0 < ly_big y.
Hypothesis L2Count : ly_l2 y = if ly_x86 y then ly_cores y else ly_clusters y.
Let n := ly_processors y.

Definition cluster_of (i : nat) : nat := if ly_big y <=? i then 1 else 0.
Definition processor_at (k : nat) : processor := Processor (k mod pc) (Some (k / pc)) (Some (cluster_of (k / pc))) (Some 0) 0 0.
Definition l1_at (k : nat) : option nat := Some (k / pc).
Definition l2_at (k : nat) : option nat := Some (if ly_x86 y then k / pc else cluster_of (k / pc)).
Definition l3_at (k : nat) : option nat := if ly_x86 y then Some 0 else None.
Definition core_at (i : nat) : core := Core (i * pc) pc i (Some (cluster_of i)) (Some 0) 0 0 0.
Definition cache_at (g : geometry) (i : nat) : cache := Cache g (i * pc) pc.
Definition l2_front (i : nat) : list cache :=
  if ly_x86 y then front (cache_at x86_l2) cache0 (ly_cores y) i else repeat cache0 (ly_l2 y).

(** The arrays after [i] cores and [j] processors of the next one. *)
Definition reached (i j : nat) : estate :=
  let k := i * pc + j in
  EState (front processor_at processor0 n k) (front l1_at None n k) (front l1_at None n k) (front l2_at None n k) (front l3_at None n k)
         (front core_at core0 n i) (front (cache_at small_l1) cache0 (ly_cores y) i)
         (front (cache_at small_l1) cache0 (ly_cores y) i) (l2_front i).

Lemma div_at i j : j < pc -> (i * pc + j) / pc = i.
Proof. intros H. symmetry. apply Nat.div_unique with j; lia. Qed.
Lemma mod_at i j : j < pc -> (i * pc + j) mod pc = j.
Proof. intros H. symmetry. apply Nat.mod_unique with i; lia. Qed.

Lemma processor_step_reached i j : i < ly_cores y -> j < pc -> processor_step y i j (reached i j) = Ok (reached i (S j)).
Proof.
  intros Hi Hj. assert (K : i * pc + j < n) by (unfold n; rewrite Count; nia).
  unfold processor_step, reached. cbn [es_processors es_l1i_of es_l1d_of es_l2_of es_l3_of es_cores es_l1i es_l1d es_l2]. fold pc.
  pose proof (front_wr processor_at processor0 n _ K) as E1. unfold processor_at at 2 in E1. rewrite div_at, mod_at in E1 by assumption.
  unfold cluster_of at 1 in E1. rewrite E1. cbn [bind].
  pose proof (front_wr l1_at None n _ K) as E2. unfold l1_at at 2 in E2. rewrite div_at in E2 by assumption. rewrite E2. cbn [bind].
  pose proof (front_wr l2_at None n _ K) as E3. unfold l2_at at 2 in E3. rewrite div_at in E3 by assumption.
  unfold cluster_of at 1 in E3. rewrite E3. cbn [bind].
  pose proof (front_wr l3_at None n _ K) as E4. unfold l3_at at 2 in E4. rewrite E4. cbn [bind].
  now rewrite Nat.add_succ_r.
Qed.

Lemma core_step_reached i : i < ly_cores y -> core_step y i (reached i 0) = Ok (reached (S i) 0).
Proof.
  intros Hi. unfold core_step. fold pc.
  destruct (for_each_inv (processor_step y i) (fun j s => s = reached i j) pc 0 (reached i 0) eq_refl) as (s & E & ->).
  { intros j s Hj ->. exists (reached i (S j)). split; [|reflexivity]. apply processor_step_reached; lia. }
  rewrite E. cbn [bind plus]. clear E. remember (reached (S i) 0) as R eqn:ER. unfold reached. cbn [es_processors es_l1i_of es_l1d_of es_l2_of es_l3_of es_cores es_l1i es_l1d es_l2].
  assert (Hn : i < n) by (unfold n; rewrite Count; nia).
  pose proof (front_wr core_at core0 n i Hn) as E1. unfold core_at at 2, cluster_of in E1. rewrite E1. cbn [bind].
  pose proof (front_wr (cache_at small_l1) cache0 (ly_cores y) i Hi) as E2. unfold cache_at at 2 in E2. rewrite E2. cbn [bind].
  assert (E3 : (if ly_x86 y then wr (l2_front i) i (Cache x86_l2 (i * pc) pc) else Ok (l2_front i)) = Ok (l2_front (S i))).
  { unfold l2_front. destruct (ly_x86 y); [|reflexivity]. apply (front_wr (cache_at x86_l2) cache0 (ly_cores y) i Hi). }
  rewrite E3. cbn [bind]. rewrite ER. unfold reached.
  replace (S i * pc + 0) with (i * pc + pc) by (cbn; lia). reflexivity.
Qed.

Lemma core_loop_reached : for_each (core_step y) 0 (ly_cores y) (reached 0 0) = Ok (reached (ly_cores y) 0).
Proof.
  destruct (for_each_inv (core_step y) (fun i s => s = reached i 0) (ly_cores y) 0 (reached 0 0) eq_refl) as (s & E & ->); [|exact E].
  intros i s Hi ->. exists (reached (S i) 0). split; [|reflexivity]. apply core_step_reached. lia.
Qed.

Lemma start_reached : EState (repeat processor0 n) (repeat None n) (repeat None n) (repeat None n) (repeat None n) (repeat core0 n)
    (repeat cache0 (ly_cores y)) (repeat cache0 (ly_cores y)) (repeat cache0 (ly_l2 y)) = reached 0 0.
Proof.
  unfold reached, l2_front. rewrite Nat.mul_0_l, !front_0, L2Count. now destruct (ly_x86 y).
Qed.

Definition clusters_of : list cluster :=
  if ly_x86 y then [Cluster 0 n 0 (ly_cores y) 0 (Some 0) 0 0 0]
  else if 1 <? ly_clusters y then
    [Cluster 0 (ly_big y) 0 (ly_big y) 0 (Some 0) 0 0 0; Cluster (ly_big y) (n - ly_big y) (ly_big y) (n - ly_big y) 1 (Some 0) 0 0 0]
  else [Cluster 0 (ly_big y) 0 (ly_big y) 0 (Some 0) 0 0 0].
Definition l2_of : list cache :=
  if ly_x86 y then map (cache_at x86_l2) (seq 0 (ly_cores y))
  else if 1 <? ly_clusters y then [Cache big_l2 0 (ly_big y); Cache little_l2 (ly_big y) (n - ly_big y)]
  else [Cache big_l2 0 (ly_big y)].

Hypothesis Clusters : ly_clusters y = 1 \/ ly_clusters y = 2 /\ ly_x86 y = false.

Lemma cluster_stores_exact : cluster_stores y (repeat cluster0 (ly_clusters y)) (l2_front (ly_cores y)) = Ok (clusters_of, l2_of).
Proof.
  unfold cluster_stores, clusters_of, l2_of, l2_front. rewrite L2Count.
  destruct (ly_x86 y).
  - destruct Clusters as [E|(_ & E)]; [|discriminate]. rewrite E, front_all. reflexivity.
  - destruct Clusters as [E|(E & _)]; rewrite E; reflexivity.
Qed.

Definition tables_of : tables :=
  Tables (map processor_at (seq 0 n)) (front core_at core0 n (ly_cores y)) clusters_of [Package 0 n 0 (ly_cores y) 0 (ly_clusters y)]
         (map (cache_at small_l1) (seq 0 (ly_cores y))) (map (cache_at small_l1) (seq 0 (ly_cores y))) l2_of
         (if ly_x86 y then [Cache x86_l3 0 n] else []) []
         (map l1_at (seq 0 n)) (map l1_at (seq 0 n)) (map l2_at (seq 0 n)) (map l3_at (seq 0 n)) (repeat None n)
         n n (ly_clusters y) 1 n n (ly_l2 y) (if ly_x86 y then 1 else 0) 0
         (if ly_x86 y then 128 * 1024 * 1024 else 8 * 1024 * 1024)%N 0 0 n (ly_cores y) 0 [] [].

Lemma emscripten_tables_exact : emscripten_tables y = Ok tables_of.
Proof.
  unfold emscripten_tables. fold n. rewrite start_reached, core_loop_reached. cbn [bind].
  unfold reached at 1. cbn [es_l2]. rewrite cluster_stores_exact. cbn [bind].
  unfold reached. cbn [es_processors es_l1i_of es_l1d_of es_l2_of es_l3_of es_cores es_l1i es_l1d es_l2].
  rewrite Nat.add_0_r, <- Count. fold n. rewrite !front_all. reflexivity.
Qed.

(** ** What these tables say *)
Hypothesis Arm : ly_x86 y = false -> pc = 1 /\ ly_big y = match ly_clusters y with 1 => n | _ => ly_big y end /\ (ly_clusters y = 2 -> ly_big y < n).
Hypothesis X86 : ly_x86 y = true -> ly_big y = ly_cores y.

Let cores := map core_at (seq 0 (ly_cores y)).

Lemma x86_or_arm : ly_x86 y = true \/ ly_x86 y = false.
Proof. destruct (ly_x86 y); auto. Qed.

Lemma n_pos : 0 < n.
Proof. unfold n. rewrite Count. nia. Qed.

Lemma cluster_of_x86 i : ly_x86 y = true -> i < ly_cores y -> cluster_of i = 0.
Proof. intros X H. unfold cluster_of. rewrite X86 by assumption. now destruct (Nat.leb_spec (ly_cores y) i); [lia|]. Qed.

Lemma div_lt k : k < n -> k / pc < ly_cores y.
Proof. intros H. apply Nat.div_lt_upper_bound; [lia|]. unfold n in H. rewrite Count in H. lia. Qed.

Lemma two_clusters : 1 <? ly_clusters y = true -> ly_x86 y = false /\ ly_clusters y = 2.
Proof. intros H. apply Nat.ltb_lt in H. destruct Clusters as [E|(E & X)]; [lia|auto]. Qed.

Lemma owners_clusters (f : nat -> nat) m : (ly_x86 y = false -> m = n /\ forall k, k < n -> f k = k) -> 0 < m ->
  (forall k, k < m -> f k < ly_cores y) -> forall A (rng : A -> nat * nat) l,
  (ly_x86 y = true -> map rng l = [(0, m)]) ->
  (ly_x86 y = false -> map rng l = if 1 <? ly_clusters y then [(0, ly_big y); (ly_big y, n - ly_big y)] else [(0, ly_big y)]) ->
  points_to (map (fun k => Some (cluster_of (f k))) (seq 0 m)) (map rng l).
Proof.
  intros Hf M Lt A rng l HX HA. destruct (x86_or_arm) as [X|X].
  - rewrite HX by assumption. rewrite (map_ext_in _ (fun _ => Some 0)); [now apply points_one|].
    intros k Hk. apply in_seq in Hk. f_equal. apply cluster_of_x86; [assumption|]. apply Lt. lia.
  - rewrite HA by assumption. destruct (Hf X) as (-> & Ef). destruct (Arm X) as (P1 & BE & BL).
    rewrite (map_ext_in _ (fun k => Some (cluster_of k))) by (intros k Hk; apply in_seq in Hk; rewrite Ef by lia; reflexivity).
    destruct (1 <? ly_clusters y) eqn:C2.
    + apply two_clusters in C2. destruct C2 as (_ & C2). apply points_two; auto.
    + assert (C1 : ly_clusters y = 1) by (apply Nat.ltb_ge in C2; destruct Clusters as [E|(E & _)]; lia). rewrite C1 in BE. rewrite BE.
      rewrite (map_ext_in _ (fun _ => Some 0)); [now apply points_one|].
      intros k Hk. apply in_seq in Hk. f_equal. unfold cluster_of. destruct (Nat.leb_spec (ly_big y) k); lia.
Qed.

Lemma cluster_processors_x86 : ly_x86 y = true -> map cluster_processors clusters_of = [(0, n)].
Proof. intros X. unfold clusters_of. now rewrite X. Qed.
Lemma cluster_processors_arm : ly_x86 y = false ->
  map cluster_processors clusters_of = if 1 <? ly_clusters y then [(0, ly_big y); (ly_big y, n - ly_big y)] else [(0, ly_big y)].
Proof. intros X. unfold clusters_of. rewrite X. now destruct (1 <? _). Qed.
Lemma cluster_cores_x86 : ly_x86 y = true -> map cluster_cores clusters_of = [(0, ly_cores y)].
Proof. intros X. unfold clusters_of. now rewrite X. Qed.
Lemma cluster_cores_arm : ly_x86 y = false ->
  map cluster_cores clusters_of = if 1 <? ly_clusters y then [(0, ly_big y); (ly_big y, n - ly_big y)] else [(0, ly_big y)].
Proof. intros X. unfold clusters_of. rewrite X. now destruct (1 <? _). Qed.

Lemma arm_cores : ly_x86 y = false -> ly_cores y = n /\ forall k, k / pc = k.
Proof. intros X. destruct (Arm X) as (P & _). unfold n. rewrite Count. rewrite P. split; [lia|]. intros k. apply Nat.div_1_r. Qed.

Lemma clusters_of_length : length clusters_of = ly_clusters y.
Proof. unfold clusters_of. destruct Clusters as [E|(E & X)]; [rewrite E; now destruct (ly_x86 y)|now rewrite X, E]. Qed.

Lemma cores_pos : 0 < ly_cores y.
Proof. lia. Qed.

Lemma consistent_of : consistent (map processor_at (seq 0 n)) cores clusters_of [Package 0 n 0 (ly_cores y) 0 (ly_clusters y)].
Proof.
  pose proof n_pos as NP. pose proof cores_pos as CP.
  constructor.
  - unfold cores. rewrite !map_map. cbn [processor_at p_core core_at]. unfold core_processors. cbn [core_at c_processor_start c_processor_count].
    unfold n. rewrite Count. now apply points_uniform.
  - rewrite map_map. cbn [processor_at p_cluster]. apply (owners_clusters (fun k => k / pc) n); auto.
    + intros X. destruct (arm_cores X) as (_ & D). split; auto.
    + intros k Hk. now apply div_lt.
    + apply cluster_processors_x86.
    + apply cluster_processors_arm.
  - rewrite map_map. cbn. now apply points_one.
  - unfold cores. rewrite map_map. cbn [core_at c_cluster]. apply (owners_clusters (fun k => k) (ly_cores y)); auto.
    + intros X. destruct (arm_cores X) as (E & _). auto.
    + apply cluster_cores_x86.
    + apply cluster_cores_arm.
  - unfold cores. rewrite map_map. cbn. now apply points_one.
  - assert (E : map cl_package clusters_of = map (fun _ => Some 0) (seq 0 (ly_clusters y))).
    { unfold clusters_of. destruct Clusters as [C|(C & X)]; [rewrite C; now destruct (ly_x86 y)|now rewrite X, C]. }
    rewrite E. cbn. apply points_one. destruct Clusters as [C|(C & _)]; lia.
  - intros i p j c Hp Hj Hc. apply table_some in Hp. destruct Hp as (Hi & ->). cbn in Hj. injection Hj as <-.
    unfold cores in Hc. apply table_some in Hc. destruct Hc as (_ & ->). cbn. now split.
  - intros i p j l Hp Hj Hl. apply table_some in Hp. destruct Hp as (Hi & ->). cbn in Hj |- *.
    apply nth_error_In in Hl. unfold clusters_of in Hl.
    destruct (ly_x86 y); [|destruct (1 <? _)]; cbn in Hl; repeat (destruct Hl as [<-|Hl]; [reflexivity|]); destruct Hl.
Qed.

Lemma ids_of : ids_are_offsets (map processor_at (seq 0 n)) cores clusters_of [Package 0 n 0 (ly_cores y) 0 (ly_clusters y)].
Proof.
  constructor.
  - intros i p j c Hp Hj Hc. apply table_some in Hp. destruct Hp as (Hi & ->). cbn in Hj. injection Hj as <-.
    unfold cores in Hc. apply table_some in Hc. destruct Hc as (_ & ->). cbn.
    pose proof (Nat.div_mod i pc ltac:(lia)). pose proof (Nat.mod_upper_bound i pc ltac:(lia)). split; nia.
  - intros i c j k Hc Hj Hk. unfold cores in Hc. apply table_some in Hc. destruct Hc as (Hi & ->). cbn in Hj. injection Hj as <-.
    cbn in Hk. injection Hk as <-. cbn. lia.
  - intros i l j k Hl Hj Hk.
    assert (J : j = 0 /\ cl_cluster_id l = i).
    { unfold clusters_of in Hl. destruct (ly_x86 y); [|destruct (1 <? _)]; destruct i as [|[|i]]; cbn in Hl; try (destruct i; discriminate Hl); try discriminate Hl;
        injection Hl as <-; cbn in Hj; injection Hj as <-; now split. }
    destruct J as (-> & J). cbn in Hk. injection Hk as <-. cbn [pk_cluster_start pk_cluster_count]. rewrite J. split; [reflexivity|].
    apply nth_error_some_lt in Hl. now rewrite clusters_of_length in Hl.
Qed.

Lemma describes_of : describes n pc (map cl_processor_count clusters_of) tables_of cores.
Proof.
  constructor; unfold tables_of; cbn [t_processors t_cores t_clusters t_packages t_l1i t_l1d t_l2 t_l3 t_l4 t_l1i_of t_l1d_of t_l2_of t_l3_of t_l4_of].
  - now rewrite map_length, seq_length.
  - unfold cores. rewrite map_map, map_length. clear. induction (seq 0 (ly_cores y)) as [|k l IH]; [reflexivity|].
    cbn [map length repeat]. now rewrite IH.
  - reflexivity.
  - reflexivity.
  - apply consistent_of.
  - apply ids_of.
  - rewrite map_map. unfold cache_processors. cbn [cache_at ca_processor_start ca_processor_count]. unfold l1_at, n. rewrite Count. now apply points_uniform.
  - rewrite map_map. unfold cache_processors. cbn [cache_at ca_processor_start ca_processor_count]. unfold l1_at, n. rewrite Count. now apply points_uniform.
  - unfold l2_of, l2_at. destruct x86_or_arm as [X|X]; rewrite X.
    + rewrite map_map. unfold cache_processors. cbn [cache_at ca_processor_start ca_processor_count]. unfold n. rewrite Count. now apply points_uniform.
    + apply (owners_clusters (fun k => k / pc) n); try congruence.
      * intros _. destruct (arm_cores X) as (_ & D). split; auto.
      * apply n_pos.
      * intros k Hk. now apply div_lt.
      * intros _. now destruct (1 <? _).
  - unfold l3_at. destruct x86_or_arm as [X|X]; rewrite X.
    + right. apply points_one. apply n_pos.
    + left. split; [reflexivity|]. apply Forall_forall. intros q Hq. apply in_map_iff in Hq. now destruct Hq as (_ & <- & _).
  - left. split; [reflexivity|]. apply Forall_forall. intros q Hq. now apply repeat_spec in Hq.
  - repeat constructor; now rewrite ?map_length, ?seq_length, ?repeat_length.
Qed.

End Layout.

(** ** The layouts of the code *)

Lemma layout_facts is_x86 logical : let y := emscripten_layout is_x86 logical in let n := ly_processors y in
  ly_x86 y = is_x86 /\ n = processors_of logical /\ 0 < n /\ (is_x86 = true -> ly_clusters y = 1 /\ ly_big y = ly_cores y /\ ly_l2 y = ly_cores y /\ (Nat.Even n -> ly_per_core y = 2 /\ ly_cores y = n / 2) /\ (Nat.Odd n -> ly_per_core y = 1 /\ ly_cores y = n)) /\
  (is_x86 = false -> ly_per_core y = 1 /\ ly_cores y = n /\ ly_l2 y = ly_clusters y /\
     (n <= 4 -> ly_clusters y = 1 /\ ly_big y = n) /\
     (4 < n -> ly_clusters y = 2 /\ ly_big y = if n <=? 7 then 2 else 4)).
Proof.
  intros y n. unfold n, y, emscripten_layout, processors_of.
  assert (P : Z.to_nat (if (logical <=? 0)%Z then 1%Z else logical) = Z.to_nat (Z.max 1 logical)) by (destruct (Z.leb_spec logical 0); f_equal; lia).
  rewrite P. assert (Pos : 0 < Z.to_nat (Z.max 1 logical)) by lia. set (k := Z.to_nat (Z.max 1 logical)) in *. clearbody k. clear P y n.
  assert (EV : Nat.Even k -> k mod 2 = 0) by (intros (j & ->); rewrite Nat.mul_comm; apply Nat.mod_mul; lia).
  assert (OD : Nat.Odd k -> k mod 2 = 1) by (intros (j & ->); rewrite Nat.add_comm, Nat.mul_comm, Nat.mod_add by lia; reflexivity).
  destruct is_x86.
  - destruct (Nat.eqb_spec (k mod 2) 0) as [E|E]; cbn [ly_x86 ly_processors ly_cores ly_clusters ly_big ly_per_core ly_l2];
      repeat split; intros; try discriminate; auto; exfalso; auto; rewrite OD in E by assumption; discriminate.
  - destruct (Nat.ltb_spec 4 k) as [H|H]; cbn [ly_x86 ly_processors ly_cores ly_clusters ly_big ly_per_core ly_l2];
      repeat split; intros; try discriminate; auto; try lia.
    destruct (Nat.leb_spec 8 k), (Nat.leb_spec k 7); auto; lia.
Qed.

(** The tables of both kinds of machines. *)
Lemma emscripten_describes is_x86 logical : let n := processors_of logical in
  let per_core := if is_x86 && Nat.even n then 2 else 1 in
  exists t, emscripten_tables (emscripten_layout is_x86 logical) = Ok t /\
    describes n per_core (if is_x86 then [n] else arm_clusters n) t (firstn (n / per_core) (t_cores t)) /\
    length (t_cores t) = n /\
    (forall i, n / per_core <= i < n -> nth_error (t_cores t) i = Some core0) /\
    length (t_l1i t) = n / per_core /\ length (t_l1d t) = n / per_core /\
    length (t_l2 t) = t_l2_count t /\ length (t_l3 t) = t_l3_count t /\ length (t_clusters t) = t_clusters_count t /\
    t_processors_count t = n /\ t_cores_count t = n /\ t_packages_count t = 1 /\ t_l1i_count t = n /\ t_l1d_count t = n /\
    t_uarch_processor_count t = n /\ t_uarch_core_count t = n / per_core /\ t_l4 t = [] /\ (is_x86 = false -> t_l3 t = []) /\ t = tables_of (emscripten_layout is_x86 logical).
Proof.
  intros n per_core. pose proof (layout_facts is_x86 logical) as F. cbv zeta in F. fold n in F.
  remember (emscripten_layout is_x86 logical) as y eqn:Ey. clear Ey.
  destruct F as (X & N & P & FX & FA).
  assert (PC : ly_per_core y = per_core /\ ly_cores y = n / per_core /\ n = n / per_core * per_core).
  { unfold per_core. destruct is_x86; cbn [andb].
    - destruct (FX eq_refl) as (_ & _ & _ & E & O). rewrite N in E, O. destruct (Nat.even n) eqn:Ev.
      + apply Nat.even_spec in Ev. destruct (E Ev) as (A & B). split; [assumption|]. split; [assumption|]. destruct Ev as (j & ->).
        rewrite (Nat.mul_comm 2 j), Nat.div_mul by lia. reflexivity.
      + assert (O' : Nat.Odd n) by (apply Nat.odd_spec; now rewrite <- Nat.negb_even, Ev). destruct (O O') as (A & B).
        rewrite Nat.div_1_r. repeat split; auto. lia.
    - destruct (FA eq_refl) as (A & B & _). rewrite Nat.div_1_r, B, N. repeat split; auto. lia. }
  destruct PC as (P1 & P2 & P3).
  assert (H1 : 0 < ly_per_core y) by (rewrite P1; unfold per_core; destruct (_ && _); lia).
  assert (H2 : ly_processors y = ly_cores y * ly_per_core y) by (rewrite N, P1, P2; exact P3).
  assert (HL : ly_l2 y = if ly_x86 y then ly_cores y else ly_clusters y) by (rewrite X; destruct is_x86; [apply FX|apply FA]; reflexivity).
  assert (C0 : 0 < ly_cores y) by nia.
  assert (HC : (ly_clusters y = 1 \/ ly_clusters y = 2 /\ ly_x86 y = false) /\ 0 < ly_big y <= ly_cores y).
  { destruct is_x86.
    - destruct (FX eq_refl) as (A & B & _). rewrite A, B. split; [auto|lia].
    - destruct (FA eq_refl) as (A & B & _ & S & L). destruct (Nat.leb_spec n 4) as [K|K].
      + destruct S as (S1 & S2); [lia|]. rewrite S1, S2. split; [auto|lia].
      + destruct L as (S1 & S2); [lia|]. rewrite S1, S2, X, B. split; [auto|]. destruct (_ <=? 7); lia. }
  destruct HC as (HC & HB1 & HB2).
  assert (HA : ly_x86 y = false -> ly_per_core y = 1 /\ ly_big y = match ly_clusters y with 1 => ly_processors y | _ => ly_big y end /\
    (ly_clusters y = 2 -> ly_big y < ly_processors y)).
  { intros E. rewrite X in E. destruct (FA E) as (A & B & _ & S & L). split; [assumption|].
    destruct (Nat.leb_spec n 4) as [K|K].
    - destruct S as (S1 & S2); [lia|]. rewrite S1, S2. split; [reflexivity|discriminate].
    - destruct L as (S1 & S2); [lia|]. rewrite S1, S2. split; [reflexivity|]. intros _. destruct (_ <=? 7); lia. }
  assert (HX : ly_x86 y = true -> ly_big y = ly_cores y) by (intros E; rewrite X in E; now apply FX).
  exists (tables_of y). split; [now apply emscripten_tables_exact|].
  assert (D : describes (ly_processors y) (ly_per_core y) (map cl_processor_count (clusters_of y)) (tables_of y) (map (core_at y) (seq 0 (ly_cores y))))
    by (apply describes_of; auto).
  assert (CE : firstn (n / per_core) (t_cores (tables_of y)) = map (core_at y) (seq 0 (ly_cores y))).
  { unfold tables_of. cbn [t_cores]. unfold front. rewrite <- P2.
    rewrite firstn_app, map_length, seq_length, Nat.sub_diag. cbn [firstn]. rewrite app_nil_r. apply firstn_all2. now rewrite map_length, seq_length. }
  assert (SE : map cl_processor_count (clusters_of y) = if is_x86 then [n] else arm_clusters n).
  { unfold clusters_of, arm_clusters. rewrite X. destruct is_x86; [cbn; now rewrite N|].
    destruct (FA eq_refl) as (_ & _ & _ & S & L). destruct (Nat.leb_spec n 4) as [K|K].
    - destruct S as (S1 & S2); [lia|]. rewrite S1. cbn. rewrite S2. now rewrite N.
    - destruct L as (S1 & S2); [lia|]. rewrite S1. cbn [Nat.ltb Nat.leb map cl_processor_count]. rewrite S2, N. destruct (n <=? 7); reflexivity. }
  rewrite CE, <- SE, <- P1. split; [now rewrite <- N|]. rewrite P1, <- P2. rewrite N in *.
  unfold tables_of. cbn [t_cores t_l1i t_l1d t_l2 t_l3 t_l4 t_clusters t_l2_count t_l3_count t_l4_count t_clusters_count t_processors_count t_cores_count
    t_packages_count t_l1i_count t_l1d_count t_uarch_processor_count t_uarch_core_count].
  rewrite N. split; [apply front_length; nia|]. split.
  { intros i Hi. unfold front. rewrite nth_error_app2 by (rewrite map_length, seq_length; lia). rewrite map_length, seq_length.
    apply nth_error_repeat. lia. }
  rewrite !map_length, !seq_length. do 2 (split; [reflexivity|]).
  split.
  { unfold l2_of. rewrite HL. destruct (ly_x86 y) eqn:XE; [now rewrite map_length, seq_length|].
    destruct HC as [E|(E & _)]; rewrite E; reflexivity. }
  split; [now destruct (ly_x86 y)|]. split; [apply clusters_of_length; rewrite ?N; auto|].
  do 8 (split; [reflexivity|]). split; [intros E; now rewrite X, E|]. reflexivity.
Qed.

(** ** Initialisation and the API *)

Lemma init_cases is_x86 logical calloc_ok : let n := processors_of logical in let y := emscripten_layout is_x86 logical in
  exists o, emscripten_init is_x86 logical calloc_ok = Ok o /\
    ((forallb calloc_ok blocks = true /\ o_live o = blocks /\ exists t, emscripten_tables y = Ok t /\ o_published o = Some t) \/
     (forallb calloc_ok blocks = false /\ o_published o = None /\ o_live o = [])).
Proof.
  intros n y. destruct (emscripten_describes is_x86 logical) as (t & E & _). unfold emscripten_init. cbv zeta. fold y. fold y in E.
  unfold blocks, allocate. cbn [forallb app].
  destruct (calloc_ok B_processors); [|eexists; split; [reflexivity|right; auto]].
  destruct (calloc_ok B_cores); [|eexists; split; [reflexivity|right; auto]].
  destruct (calloc_ok B_clusters); [|eexists; split; [reflexivity|right; auto]].
  destruct (calloc_ok B_l1i); [|eexists; split; [reflexivity|right; auto]].
  destruct (calloc_ok B_l1d); [|eexists; split; [reflexivity|right; auto]].
  destruct (calloc_ok B_l2); [|eexists; split; [reflexivity|right; auto]].
  rewrite E. cbn [bind]. eexists. split; [reflexivity|]. left. split; [reflexivity|]. split; [reflexivity|]. exists t. now split.
Qed.

(** A program that has its memory: what is published. *)
Lemma published_tables is_x86 logical calloc_ok o t : emscripten_init is_x86 logical calloc_ok = Ok o -> o_published o = Some t ->
  emscripten_tables (emscripten_layout is_x86 logical) = Ok t.
Proof.
  intros E P. destruct (init_cases is_x86 logical calloc_ok) as (o' & E' & [(_ & _ & t' & T & P')|(_ & P' & _)]); rewrite E in E'; injection E' as <-; congruence.
Qed.

Lemma published_describes is_x86 logical calloc_ok o t : emscripten_init is_x86 logical calloc_ok = Ok o -> o_published o = Some t ->
  let n := processors_of logical in let per_core := if is_x86 && Nat.even n then 2 else 1 in
  describes n per_core (if is_x86 then [n] else arm_clusters n) t (firstn (n / per_core) (t_cores t)).
Proof.
  intros E P. pose proof (published_tables is_x86 logical calloc_ok o t E P) as T.
  destruct (emscripten_describes is_x86 logical) as (t' & T' & D & _). cbv zeta. rewrite T in T'. now injection T' as <-.
Qed.

Ltac sound_at k := unfold fitting; cbn [ca_geometry cache_at]; split; [constructor; try reflexivity; [exists 6%N; split; [reflexivity|lia]|now left]|]; split; [now exists k|]; cbv; discriminate.

Lemma published_caches_fit is_x86 logical calloc_ok o t : emscripten_init is_x86 logical calloc_ok = Ok o -> o_published o = Some t ->
  (forall c, In c (t_l1i t ++ t_l1d t ++ t_l2 t ++ t_l3 t ++ t_l4 t) -> fitting (t_max_cache_size t) (ca_geometry c)) /\
  (forall a b, In a (t_l1i t ++ t_l1d t) -> In b (t_l2 t) -> (size_of a < size_of b)%N) /\
  (forall a b, In a (t_l2 t) -> In b (t_l3 t) -> (size_of a < size_of b)%N).
Proof.
  intros E P. pose proof (published_tables is_x86 logical calloc_ok o t E P) as T.
  destruct (emscripten_describes is_x86 logical) as (t' & T' & _ & _ & _ & _ & _ & _ & _ & _ & _ & _ & _ & _ & _ & _ & _ & _ & _ & D).
  rewrite T in T'. injection T' as <-. subst t. clear. set (y := emscripten_layout is_x86 logical). clearbody y.
  unfold tables_of. cbn [t_l1i t_l1d t_l2 t_l3 t_l4 t_max_cache_size].
  assert (L1 : forall c, In c (map (cache_at y small_l1) (seq 0 (ly_cores y))) -> ca_geometry c = small_l1)
    by (intros c H; apply in_map_iff in H; destruct H as (i & <- & _); reflexivity).
  assert (L2 : forall c, In c (l2_of y) -> if ly_x86 y then ca_geometry c = x86_l2 else ca_geometry c = big_l2 \/ ca_geometry c = little_l2).
  { unfold l2_of. intros c. destruct (ly_x86 y).
    - intros H. apply in_map_iff in H. destruct H as (i & <- & _). reflexivity.
    - destruct (1 <? ly_clusters y); cbn [In]; [intros [<-|[<-|[]]]|intros [<-|[]]]; auto. }
  assert (L3 : forall c, In c (if ly_x86 y then [Cache x86_l3 0 (ly_processors y)] else []) -> ly_x86 y = true /\ ca_geometry c = x86_l3)
    by (destruct (ly_x86 y); [intros c [<-|[]]; auto|intros c []]).
  split; [|split].
  - intros c. rewrite app_nil_r, !in_app_iff. intros [H|[H|[H|H]]].
    + rewrite (L1 c H). destruct (ly_x86 y); sound_at 7%N.
    + rewrite (L1 c H). destruct (ly_x86 y); sound_at 7%N.
    + specialize (L2 c H). destruct (ly_x86 y); [rewrite L2; sound_at 9%N|]. destruct L2 as [-> | ->]; [sound_at 11%N|sound_at 9%N].
    + destruct (L3 c H) as (-> & ->). sound_at 11%N.
  - intros a b Ha Hb. assert (G : ca_geometry a = small_l1) by (apply in_app_iff in Ha; destruct Ha; auto). unfold size_of. rewrite G.
    specialize (L2 b Hb). destruct (ly_x86 y); [rewrite L2; reflexivity|]. destruct L2 as [-> | ->]; reflexivity.
  - intros a b Ha Hb. destruct (L3 b Hb) as (X & G). unfold size_of. specialize (L2 a Ha). rewrite X in L2. rewrite G, L2. reflexivity.
Qed.

Lemma emscripten_pointer_counts is_x86 t : let g := final (emscripten_commit is_x86 t) in
  gl_initialized g = true /\
  (forall tb, gl_pointer g tb = match tb with
     | Processors => Some (Processors, length (t_processors t)) | Cores => Some (Cores, length (t_cores t))
     | Clusters => Some (Clusters, length (t_clusters t)) | Packages => Some (Packages, length (t_packages t))
     | Uarchs => None
     | Caches L1i => Some (Caches L1i, length (t_l1i t)) | Caches L1d => Some (Caches L1d, length (t_l1d t))
     | Caches L2 => Some (Caches L2, length (t_l2 t))
     | Caches L3 => if is_x86 then Some (Caches L3, length (t_l3 t)) else None | Caches L4 => None end) /\
  (forall tb, gl_count g tb = match tb with
     | Processors => N.of_nat (t_processors_count t) | Cores => N.of_nat (t_cores_count t)
     | Clusters => N.of_nat (t_clusters_count t) | Packages => N.of_nat (t_packages_count t)
     | Uarchs => 0%N
     | Caches L1i => N.of_nat (t_l1i_count t) | Caches L1d => N.of_nat (t_l1d_count t)
     | Caches L2 => N.of_nat (t_l2_count t)
     | Caches L3 => if is_x86 then N.of_nat (t_l3_count t) else 0%N | Caches L4 => 0%N end).
Proof. intros g. unfold g. destruct is_x86; split; [reflexivity|split; intros [| | | | |[]]; reflexivity|reflexivity|split; intros [| | | | |[]]; reflexivity]. Qed.

(** Unless an x86 machine has an even number of processors, every index below a count
    gives an element. *)
Lemma emscripten_agree is_x86 logical calloc_ok o t tb :
  emscripten_init is_x86 logical calloc_ok = Ok o -> o_published o = Some t ->
  is_x86 = false \/ Nat.Odd (processors_of logical) \/ ~ In tb [Caches L1i; Caches L1d] -> tb <> Uarchs ->
  agrees (final (emscripten_commit is_x86 t)) tb.
Proof.
  intros E P C NU.
  pose proof (published_tables is_x86 logical calloc_ok o t E P) as T.
  destruct (emscripten_describes is_x86 logical) as (t' & T' & D & LC & _ & L1 & L2 & L3 & L4 & L5 & N1 & N2 & N3 & N4 & N5 & _ & _ & L6 & L7 & _).
  rewrite T in T'. injection T' as <-.
  destruct (emscripten_pointer_counts is_x86 t) as (I & PT & CT). cbv zeta in *. set (n := processors_of logical) in *.
  unfold agrees.
  rewrite PT, CT. destruct tb as [| | | | |[]].
  - left. now rewrite N1, Nat2N.id, (ds_processors _ _ _ _ _ D).
  - left. now rewrite N2, Nat2N.id, LC.
  - left. now rewrite Nat2N.id, L5.
  - left. now rewrite N3, Nat2N.id, (ds_package _ _ _ _ _ D).
  - now destruct NU.
  - left. rewrite N4, Nat2N.id, L1. destruct C as [->|[O|C]]; [cbn [andb]; now rewrite Nat.div_1_r| |exfalso; apply C; cbn; auto].
    apply Nat.odd_spec in O. rewrite <- Nat.negb_even in O. apply Bool.negb_true_iff in O. rewrite O, Bool.andb_false_r. now rewrite Nat.div_1_r.
  - left. rewrite N5, Nat2N.id, L2. destruct C as [->|[O|C]]; [cbn [andb]; now rewrite Nat.div_1_r| |exfalso; apply C; cbn; auto].
    apply Nat.odd_spec in O. rewrite <- Nat.negb_even in O. apply Bool.negb_true_iff in O. rewrite O, Bool.andb_false_r. now rewrite Nat.div_1_r.
  - left. now rewrite Nat2N.id, L3.
  - destruct is_x86; [left; now rewrite Nat2N.id, L4|right; now split].
  - right. now split.
Qed.

Lemma emscripten_elements is_x86 logical calloc_ok o t cpu tb i :
  emscripten_init is_x86 logical calloc_ok = Ok o -> o_published o = Some t ->
  is_x86 = false \/ Nat.Odd (processors_of logical) \/ ~ In tb [Caches L1i; Caches L1d] ->
  exists n, ask emscripten (final (emscripten_routine is_x86 o)) cpu (Get_count tb) = Number n /\
    ask emscripten (final (emscripten_routine is_x86 o)) cpu (Get_element tb i) = if (i <? n)%N then Pointer tb (N.to_nat i) else Null.
Proof.
  intros E P C. unfold emscripten_routine. rewrite P. pose proof (emscripten_agree is_x86 logical calloc_ok o t tb E P C) as A.
  destruct (emscripten_pointer_counts is_x86 t) as (I & _).
  assert (G : (tb = Uarchs -> False) -> exists k, ask emscripten (final (emscripten_commit is_x86 t)) cpu (Get_count tb) = Number k /\
    ask emscripten (final (emscripten_commit is_x86 t)) cpu (Get_element tb i) = if (i <? k)%N then Pointer tb (N.to_nat i) else Null).
  { intros NU. exists (gl_count (final (emscripten_commit is_x86 t)) tb). unfold ask, getter_prog, guarded. cbn [run_prog]. rewrite I.
    specialize (A NU).
    destruct tb as [| | | | |[]]; try (now destruct NU); (split; [reflexivity|]); exact (run_indexed _ cpu _ i A). }
  destruct tb as [| | | | |[]]; try (apply G; discriminate).
  exists 1%N. unfold ask, getter_prog, guarded. cbn [run_prog]. rewrite I. cbn [getter_body]. unfold uarchs_count, uarchs_indexed. cbn [emscripten cf_multi_uarch].
  split; [reflexivity|]. destruct (N.eqb_spec i 0), (N.ltb_spec i 1); cbn; try lia; subst; reflexivity.
Qed.
