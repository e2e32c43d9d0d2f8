(** Lemmas about the tables built from counts. *)
From Verif Require Import Base BaseProofs Loops Fill TopologySpec ApiModel ApiProofs Masks X86CountsModel X86CountsSpec.
From Verif Require X86LinuxModel.
Import X86LinuxModel(xinfo, xcache, xc_geometry, xi_vendor, xi_uarch, xi_cpuid, xi_thread_offset, xi_thread_length, xi_core_offset,
  xi_core_length, xi_l1i, xi_l1d, xi_l2, xi_l3, xi_l4, bit_mask, cstate, CState, cs_caches, cs_pointers, compute_max_cache_size, cache_size_at).
Open Scope nat_scope.
Ltac Zify.zify_post_hook ::= idtac.

(** ** Arithmetic *)
Lemma divide_pos a b : 0 < b -> divide a b = Ok (a / b).
Proof. intros H. unfold divide. destruct (Nat.eqb_spec b 0); [lia|reflexivity]. Qed.
Lemma divide_inv a b c : divide a b = Ok c -> 0 < b /\ c = a / b.
Proof. unfold divide. destruct (Nat.eqb_spec b 0); [discriminate|]. intros H. injection H as <-. split; [lia|reflexivity]. Qed.
Lemma divide_mul a b : 0 < b -> divide (a * b) b = Ok a.
Proof. intros H. rewrite divide_pos by exact H. now rewrite Nat.div_mul by lia. Qed.
Lemma modulo_pos a b : 0 < b -> modulo a b = Ok (a mod b).
Proof. intros H. unfold modulo. destruct (Nat.eqb_spec b 0); [lia|reflexivity]. Qed.
Lemma address_le n i : i <= n -> address n i = Ok (Some i).
Proof. intros H. unfold address. destruct (Nat.leb_spec i n); [reflexivity|lia]. Qed.
Lemma address_inv n i p : address n i = Ok p -> p = Some i /\ i <= n.
Proof. unfold address. destruct (Nat.leb_spec i n); [|discriminate]. intros E. injection E as <-. now split. Qed.

Lemma mul32_small a b : (N.of_nat (a * b) < two32)%N -> mul32 a b = a * b.
Proof. intros H. unfold mul32. rewrite u32_small by lia. lia. Qed.

Lemma div_lt a m w : a < m * w -> a / w < m.
Proof. intros H. apply Nat.div_lt_upper_bound; nia. Qed.
Lemma div_div_mul a b c : 0 < b -> 0 < c -> a / c / b = a / (b * c).
Proof. intros B C. rewrite Nat.div_div by lia. f_equal. lia. Qed.

Lemma congruent_close c M a b : 0 < c -> (N.of_nat c <= M)%N -> a / c = b / c ->
  (N.of_nat b mod M = N.of_nat a mod M)%N -> a = b.
Proof.
  intros C W D E.
  pose proof (Nat.div_mod a c ltac:(lia)) as Da. pose proof (Nat.div_mod b c ltac:(lia)) as Db.
  pose proof (Nat.mod_upper_bound a c ltac:(lia)) as La. pose proof (Nat.mod_upper_bound b c ltac:(lia)) as Lb. rewrite <- D in Db.
  pose proof (N.div_mod (N.of_nat a) M ltac:(lia)) as Ma. pose proof (N.div_mod (N.of_nat b) M ltac:(lia)) as Mb. rewrite E in Mb.
  revert Da Db La Lb Ma Mb. generalize (a mod c) (b mod c) (a / c) (N.of_nat a mod M)%N (N.of_nat a / M)%N (N.of_nat b / M)%N. clear D E.
  intros r s q m u v Da Db La Lb Ma Mb. destruct (N.lt_trichotomy u v) as [L|[L|L]].
  - assert (M * (u + 1) <= M * v)%N by (apply N.mul_le_mono_l; lia). lia.
  - subst v. lia.
  - assert (M * (v + 1) <= M * u)%N by (apply N.mul_le_mono_l; lia). lia.
Qed.

(** ** APIC ids *)
Definition apic_bits (x : xinfo) (smt core package : nat) (k : N) : bool :=
  ((k <? 32) &&
   ((xi_thread_offset x <=? k) && (k - xi_thread_offset x <? xi_thread_length x) && N.testbit (N.of_nat smt) (k - xi_thread_offset x) ||
    (xi_core_offset x <=? k) && (k - xi_core_offset x <? xi_core_length x) && N.testbit (N.of_nat core) (k - xi_core_offset x) ||
    (package_offset x <=? k) && N.testbit (N.of_nat package) (k - package_offset x)))%N.

Lemma u32_bit a k : N.testbit (u32 a) k = ((k <? 32)%N && N.testbit a k).
Proof.
  unfold u32. rewrite two32_pow, <- N.land_ones, N.land_spec, ones_bit. apply Bool.andb_comm.
Qed.

Lemma shiftl_bit a o k : N.testbit (N.shiftl a o) k = ((o <=? k)%N && N.testbit a (k - o)).
Proof.
  destruct (N.leb_spec o k) as [H|H]; cbn [andb]; [now apply N.shiftl_spec_high'|now apply N.shiftl_spec_low].
Qed.

Lemma apic_of_ok x smt core package : fields_defined x -> exists a, apic_of x smt core package = Ok a /\
  forall k, N.testbit a k = apic_bits x smt core package k.
Proof.
  unfold fields_defined, package_offset. intros F. unfold apic_of.
  rewrite !bit_mask_ones by lia. cbn [bind]. cbv zeta. rewrite !u32_small by (unfold two32; lia).
  unfold shl32. fold (package_offset x).
  replace (xi_thread_offset x <? 32)%N with true by lia. replace (xi_core_offset x <? 32)%N with true by lia.
  replace (package_offset x <? 32)%N with true by (unfold package_offset; lia). cbn [bind]. eexists. split; [reflexivity|].
  intros k. unfold apic_bits. rewrite !N.lor_spec, !u32_bit, !shiftl_bit, !N.land_spec, !ones_bit.
  destruct (k <? 32)%N; cbn [andb]; [|reflexivity].
  now rewrite (Bool.andb_comm (N.testbit (N.of_nat smt) _)), (Bool.andb_comm (N.testbit (N.of_nat core) _)), !Bool.andb_assoc.
Qed.

Lemma field_bits a o l k : N.testbit (field a o l) k = ((k <? l)%N && N.testbit a (k + o)).
Proof.
  unfold field. rewrite <- N.land_ones, N.land_spec, ones_bit, <- N.shiftr_div_pow2, N.shiftr_spec'. apply Bool.andb_comm.
Qed.
Lemma mod_bits a l k : N.testbit (a mod 2 ^ l) k = ((k <? l)%N && N.testbit a k).
Proof. rewrite <- N.land_ones, N.land_spec, ones_bit. apply Bool.andb_comm. Qed.

Lemma apic_of_fields x smt core package a packages : fields_defined x ->
  ((xi_thread_offset x + xi_thread_length x <= xi_core_offset x) \/ (xi_core_offset x + xi_core_length x <= xi_thread_offset x))%N ->
  (N.of_nat packages <= 2 ^ (32 - package_offset x))%N -> package < packages ->
  apic_of x smt core package = Ok a ->
  field a (xi_thread_offset x) (xi_thread_length x) = (N.of_nat smt mod 2 ^ xi_thread_length x)%N /\
  field a (xi_core_offset x) (xi_core_length x) = (N.of_nat core mod 2 ^ xi_core_length x)%N /\
  (a / 2 ^ package_offset x)%N = N.of_nat package.
Proof.
  intros F D K L E. destruct (apic_of_ok x smt core package F) as (a' & E' & B). rewrite E in E'. injection E' as <-.
  pose proof F as F'. unfold fields_defined, package_offset in F'.
  repeat split; apply N.bits_inj; intros k.
  - rewrite field_bits, mod_bits, B. unfold apic_bits. destruct (N.ltb_spec k (xi_thread_length x)) as [H|H]; cbn [andb]; [|reflexivity].
    replace (k + xi_thread_offset x - xi_thread_offset x)%N with k by lia.
    replace (k + xi_thread_offset x <? 32)%N with true by lia. replace (xi_thread_offset x <=? k + xi_thread_offset x)%N with true by lia.
    replace (k <? xi_thread_length x)%N with true by lia.
    replace (package_offset x <=? k + xi_thread_offset x)%N with false by (unfold package_offset; lia).
    replace ((xi_core_offset x <=? k + xi_thread_offset x) && (k + xi_thread_offset x - xi_core_offset x <? xi_core_length x))%N with false by lia.
    cbn [andb orb]. now rewrite !Bool.orb_false_r.
  - rewrite field_bits, mod_bits, B. unfold apic_bits. destruct (N.ltb_spec k (xi_core_length x)) as [H|H]; cbn [andb]; [|reflexivity].
    replace (k + xi_core_offset x - xi_core_offset x)%N with k by lia.
    replace (k + xi_core_offset x <? 32)%N with true by lia. replace (xi_core_offset x <=? k + xi_core_offset x)%N with true by lia.
    replace (k <? xi_core_length x)%N with true by lia.
    replace (package_offset x <=? k + xi_core_offset x)%N with false by (unfold package_offset; lia).
    replace ((xi_thread_offset x <=? k + xi_core_offset x) && (k + xi_core_offset x - xi_thread_offset x <? xi_thread_length x))%N with false by lia.
    cbn [andb orb]. now rewrite !Bool.orb_false_r.
  - rewrite <- N.shiftr_div_pow2, N.shiftr_spec', B. unfold apic_bits.
    replace (k + package_offset x - package_offset x)%N with k by lia. replace (package_offset x <=? k + package_offset x)%N with true by lia.
    replace ((xi_thread_offset x <=? k + package_offset x) && (k + package_offset x - xi_thread_offset x <? xi_thread_length x))%N with false by (unfold package_offset; lia).
    replace ((xi_core_offset x <=? k + package_offset x) && (k + package_offset x - xi_core_offset x <? xi_core_length x))%N with false by (unfold package_offset; lia).
    cbn [andb orb]. destruct (N.ltb_spec (k + package_offset x) 32) as [H|H]; [reflexivity|]. cbn [andb].
    symmetry. apply N.bits_above_log2.
    destruct (N.eq_dec (N.of_nat package) 0) as [->|NZ]; [cbn [N.log2]|]. { unfold fields_defined in F. lia. }
    apply N.log2_lt_pow2; [lia|]. apply N.lt_le_trans with (2 ^ (32 - package_offset x))%N; [lia|]. apply N.pow_le_mono_r; lia.
Qed.

(** ** Processors, cores, clusters, packages *)
Section Machine.
Variables (x : xinfo) (P cpp tpc : nat).
Hypothesis PP : 0 < P.
Hypothesis CP : 0 < cpp.
Hypothesis TP : 0 < tpc.
Hypothesis FD : fields_defined x.
Let n := P * cpp * tpc.
Hypothesis N32 : (N.of_nat n < two32)%N.

Definition apic_at (i : nat) : N := match apic_of x (i mod tpc) (i / tpc) (i / (cpp * tpc)) with Ok a => a | _ => 0%N end.
Definition processor_at (i : nat) : processor :=
  Processor (i mod tpc) (Some (i / tpc)) (Some (i / (cpp * tpc))) (Some (i / (cpp * tpc))) 0 (apic_at i).
Definition core_at (i : nat) : core :=
  Core (i * tpc) tpc (i mod cpp) (Some (i / cpp)) (Some (i / cpp)) (xi_vendor x) (xi_uarch x) (xi_cpuid x).
Definition cluster_at (i : nat) : cluster :=
  Cluster (i * (cpp * tpc)) (cpp * tpc) (i * cpp) cpp 0 (Some i) (xi_vendor x) (xi_uarch x) (xi_cpuid x).
Definition package_at (i : nat) : package := Package (i * (cpp * tpc)) (cpp * tpc) (i * cpp) cpp i 1.
Definition objects_of : objects :=
  Objects (map processor_at (seq 0 n)) (map core_at (seq 0 (P * cpp))) (map cluster_at (seq 0 P)) (map package_at (seq 0 P)).

Lemma width_pos : 0 < cpp * tpc. Proof. nia. Qed.
Lemma n_pos : 0 < n. Proof. unfold n. nia. Qed.
Lemma n_packages : n = P * (cpp * tpc). Proof. unfold n. lia. Qed.

Lemma build_objects_ok : build_objects x P (P * cpp) n tpc = Ok objects_of.
Proof.
  pose proof width_pos as WP. unfold build_objects.
  rewrite n_packages at 1. rewrite (Nat.mul_comm P (cpp * tpc)), divide_mul by exact PP. cbn [bind].
  rewrite (Nat.mul_comm P cpp), divide_mul by exact PP. cbn [bind]. rewrite (Nat.mul_comm cpp P).
  rewrite (fill_all _ cluster_at).
  2: { intros i H. rewrite address_le by lia. reflexivity. }
  cbn [bind]. rewrite (fill_all _ package_at) by reflexivity. cbn [bind].
  rewrite (fill_all _ core_at).
  2: { intros i H. rewrite modulo_pos, divide_pos by exact CP. cbn [bind]. pose proof (div_lt i P cpp H). rewrite address_le by lia.
       cbn [bind]. unfold core_at. rewrite mul32_small; [reflexivity|]. assert (i * tpc <= P * cpp * tpc) by (apply Nat.mul_le_mono_r; lia). unfold n in N32. lia. }
  cbn [bind]. rewrite (fill_all _ processor_at); [reflexivity|].
  intros i H. rewrite modulo_pos, divide_pos by exact TP. cbn [bind]. rewrite divide_pos by exact WP. cbn [bind].
  unfold processor_at, apic_at. destruct (apic_of_ok x (i mod tpc) (i / tpc) (i / (cpp * tpc)) FD) as (a & -> & _). cbn [bind].
  pose proof (div_lt i (P * cpp) tpc H). rewrite address_le by lia. cbn [bind].
  rewrite n_packages in H. pose proof (div_lt i P (cpp * tpc) H). rewrite address_le by lia. reflexivity.
Qed.

Lemma objects_consistent : consistent (ob_processors objects_of) (ob_cores objects_of) (ob_clusters objects_of) (ob_packages objects_of).
Proof.
  pose proof width_pos as WP. unfold objects_of. cbn [ob_processors ob_cores ob_clusters ob_packages]. split.
  - rewrite !map_map. unfold core_processors. cbn. unfold n. now apply (points_uniform tpc (P * cpp)).
  - rewrite !map_map. unfold cluster_processors. cbn. rewrite n_packages. now apply points_uniform.
  - rewrite !map_map. unfold package_processors. cbn. rewrite n_packages. now apply points_uniform.
  - rewrite !map_map. unfold cluster_cores. cbn. now apply (points_uniform cpp P).
  - rewrite !map_map. unfold package_cores. cbn. now apply (points_uniform cpp P).
  - rewrite !map_map. unfold package_clusters. cbn.
    pose proof (points_uniform 1 P ltac:(lia)) as Q. rewrite Nat.mul_1_r in Q.
    rewrite (map_ext (fun i => Some (i / 1)) (fun i => Some i)) in Q by (intros; now rewrite Nat.div_1_r).
    rewrite (map_ext (fun j => (j * 1, 1)) (fun j => (j, 1))) in Q by (intros; now rewrite Nat.mul_1_r). exact Q.
  - intros i p j c Hp Hj Hc. apply table_some in Hp. destruct Hp as (Hi & ->). cbn in Hj. injection Hj as <-.
    apply table_some in Hc. destruct Hc as (_ & ->). cbn. now rewrite div_div_mul.
  - intros i p j l Hp Hj Hl. apply table_some in Hp. destruct Hp as (Hi & ->). cbn in Hj. injection Hj as <-.
    apply table_some in Hl. destruct Hl as (_ & ->). reflexivity.
Qed.

Lemma objects_ids : ids_are_offsets (ob_processors objects_of) (ob_cores objects_of) (ob_clusters objects_of) (ob_packages objects_of).
Proof.
  unfold objects_of. cbn [ob_processors ob_cores ob_clusters ob_packages]. split.
  - intros i p j c Hp Hj Hc. apply table_some in Hp. destruct Hp as (Hi & ->). cbn in Hj. injection Hj as <-.
    apply table_some in Hc. destruct Hc as (_ & ->). cbn [c_processor_start c_processor_count p_smt_id core_at processor_at].
    pose proof (Nat.div_mod i tpc ltac:(lia)). pose proof (Nat.mod_upper_bound i tpc ltac:(lia)). lia.
  - intros i p j c Hp Hj Hc. apply table_some in Hp. destruct Hp as (Hi & ->). cbn in Hj. injection Hj as <-.
    apply table_some in Hc. destruct Hc as (_ & ->). cbn [pk_core_start pk_core_count c_core_id core_at package_at].
    pose proof (Nat.div_mod i cpp ltac:(lia)). pose proof (Nat.mod_upper_bound i cpp ltac:(lia)). lia.
  - intros i p j c Hp Hj Hc. apply table_some in Hp. destruct Hp as (Hi & ->). cbn in Hj. injection Hj as <-.
    apply table_some in Hc. destruct Hc as (_ & ->). cbn. lia.
Qed.

(** The APIC ids of different processors differ, and their fields are the positions. *)
Lemma apic_at_of i : apic_of x (i mod tpc) (i / tpc) (i / (cpp * tpc)) = Ok (apic_at i).
Proof. unfold apic_at. destruct (apic_of_ok x (i mod tpc) (i / tpc) (i / (cpp * tpc)) FD) as (a & -> & _). reflexivity. Qed.

Section Fields.
Hypothesis FS : fields_suffice P cpp tpc x.

Lemma apic_at_fields i : i < n ->
  field (apic_at i) (xi_thread_offset x) (xi_thread_length x) = N.of_nat (i mod tpc) /\
  field (apic_at i) (xi_core_offset x) (xi_core_length x) = (N.of_nat (i / tpc) mod 2 ^ xi_core_length x)%N /\
  (apic_at i / 2 ^ package_offset x)%N = N.of_nat (i / (cpp * tpc)).
Proof.
  intros H. destruct FS as (D & T & C & K). rewrite n_packages in H.
  destruct (apic_of_fields x _ _ _ _ P FD D K (div_lt i P (cpp * tpc) H) (apic_at_of i)) as (A & B & E).
  repeat split; [|exact B|exact E]. rewrite A. apply N.mod_small. apply N.lt_le_trans with (N.of_nat tpc); [|exact T].
  pose proof (Nat.mod_upper_bound i tpc ltac:(lia)). clear - H0. lia.
Qed.

Lemma apic_at_injective i j : i < n -> j < n -> apic_at i = apic_at j -> i = j.
Proof.
  intros Hi Hj E. destruct (apic_at_fields i Hi) as (A & B & C), (apic_at_fields j Hj) as (A' & B' & C').
  rewrite E in A, B, C. rewrite A' in A. rewrite B' in B. rewrite C' in C. destruct FS as (_ & _ & W & _).
  apply Nat2N.inj in A, C. rewrite <- !div_div_mul in C by assumption.
  assert (Q : i / tpc = j / tpc).
  { apply (congruent_close cpp (2 ^ xi_core_length x)%N); auto. }
  pose proof (Nat.div_mod i tpc ltac:(clear - TP; lia)) as Di. pose proof (Nat.div_mod j tpc ltac:(clear - TP; lia)) as Dj. congruence.
Qed.
End Fields.
End Machine.

(** ** Cache levels *)
Definition level_caches (c : xcache) (w count : nat) : list cache := map (fun k => Cache (xc_geometry c) (k * w) w) (seq 0 count).
Definition level_pointers (threads w : nat) : list (option nat) := map (fun t => Some (t / w)) (seq 0 threads).

Lemma div_count t threads w : 0 < w -> t < threads -> t / w <= threads / w.
Proof. intros W H. apply Nat.div_le_mono; lia. Qed.

Lemma build_level_ok c threads w : 0 < w ->
  build_level c threads w (threads / w) = Ok (CState (level_caches c w (threads / w)) (level_pointers threads w) None 0).
Proof.
  intros W. unfold build_level. rewrite (fill_all _ (fun k => Cache (xc_geometry c) (k * w) w)) by reflexivity. cbn [bind].
  rewrite (fill_all _ (fun t => Some (t / w))); [reflexivity|].
  intros t H. rewrite divide_pos by exact W. cbn [bind]. apply address_le. now apply div_count.
Qed.

Lemma level_points c threads w : 0 < w ->
  points_to (level_pointers threads w) (map cache_processors (level_caches c w (threads / w))) <-> Nat.divide w threads.
Proof.
  intros W. unfold level_caches. rewrite map_map. unfold cache_processors. cbn [ca_processor_start ca_processor_count]. split.
  - intros H. apply points_uniform_inv in H. unfold level_pointers in H. rewrite map_length, seq_length in H. exists (threads / w). exact H.
  - intros (m & ->). rewrite Nat.div_mul by lia. now apply points_uniform.
Qed.

(** What the choice of a level gives. *)
Definition level_state (c : xcache) (threads w : nat) : cstate :=
  if present c then CState (level_caches c w (threads / w)) (level_pointers threads w) None 0 else no_level threads.

Lemma level_state_shared c threads w : 0 < w -> Nat.divide w threads ->
  level_shared (xc_geometry c) threads w (cs_pointers (level_state c threads w)) (cs_caches (level_state c threads w)) (threads / w).
Proof.
  intros W D. unfold level_state, present. destruct (N.eqb_spec (g_size (xc_geometry c)) 0) as [E|E]; cbn [negb cs_pointers cs_caches no_level].
  - split; [apply repeat_length|]. split; [|congruence]. intros _. split; [reflexivity|]. apply Forall_forall. intros q H. now apply repeat_spec in H.
  - split; [unfold level_pointers; now rewrite map_length, seq_length|]. split; [congruence|]. intros _. split; [now apply level_points|].
    unfold level_caches. rewrite map_length, seq_length. split; [reflexivity|]. apply Forall_forall. intros q H. apply in_map_iff in H. destruct H as (k & <- & _). now split.
Qed.

Lemma level_state_first c threads w : 0 < w -> 0 < threads -> Nat.divide w threads ->
  (present c = false /\ rd (cs_pointers (level_state c threads w)) 0 = Ok None) \/
  (present c = true /\ rd (cs_pointers (level_state c threads w)) 0 = Ok (Some 0) /\
   cache_size_at (cs_caches (level_state c threads w)) 0 = Ok (g_size (xc_geometry c))).
Proof.
  intros W T (m & ->). unfold level_state. destruct (present c); [right|left]; cbn [cs_pointers cs_caches no_level].
  - assert (0 < m) by nia. split; [reflexivity|]. unfold level_pointers, level_caches, cache_size_at, rd. rewrite !nth_error_table.
    destruct (Nat.ltb_spec 0 (m * w)); [|lia]. rewrite Nat.div_0_l by lia. split; [reflexivity|]. rewrite Nat.div_mul by lia.
    destruct (Nat.ltb_spec 0 m); [reflexivity|lia].
  - split; [reflexivity|]. unfold rd. now rewrite nth_error_repeat.
Qed.

Lemma max_size x threads w1 w2 w3 w4 : 0 < threads -> 0 < w1 -> 0 < w2 -> 0 < w3 -> 0 < w4 ->
  Nat.divide w1 threads -> Nat.divide w2 threads -> Nat.divide w3 threads -> Nat.divide w4 threads ->
  compute_max_cache_size (level_state (xi_l1d x) threads w1) (level_state (xi_l2 x) threads w2)
    (level_state (xi_l3 x) threads w3) (level_state (xi_l4 x) threads w4) =
  Ok match find (fun n => negb (n =? 0)%N) (map (fun c => g_size (xc_geometry c)) [xi_l4 x; xi_l3 x; xi_l2 x; xi_l1d x]) with
     | Some n => n | None => 0%N end.
Proof.
  intros T W1 W2 W3 W4 D1 D2 D3 D4. unfold compute_max_cache_size. cbn [map find].
  destruct (level_state_first (xi_l4 x) threads w4) as [(P & R)|(P & R & S)]; auto; rewrite R; cbn [bind]; unfold present in P; rewrite P; [|exact S].
  destruct (level_state_first (xi_l3 x) threads w3) as [(Q & R')|(Q & R' & S)]; auto; rewrite R'; cbn [bind]; unfold present in Q; rewrite Q; [|exact S].
  destruct (level_state_first (xi_l2 x) threads w2) as [(Q2 & R2)|(Q2 & R2 & S)]; auto; rewrite R2; cbn [bind]; unfold present in Q2; rewrite Q2; [|exact S].
  destruct (level_state_first (xi_l1d x) threads w1) as [(Q1 & R1)|(Q1 & R1 & S)]; auto; rewrite R1; cbn [bind]; unfold present in Q1; rewrite Q1; [reflexivity|exact S].
Qed.

(** ** The widths *)
Lemma mach_width_ok c threads reported assumed w : assumed = Ok w -> 0 < w ->
  mach_width c threads reported assumed = Ok (if c then (shared_by reported w, threads / shared_by reported w) else (0, 0)).
Proof.
  intros E W. unfold mach_width, shared_by. destruct c; [|reflexivity]. subst assumed.
  destruct (Nat.eqb_spec reported 0); cbn [bind]; rewrite divide_pos by lia; reflexivity.
Qed.

Lemma freebsd_width_ok c threads w : 0 < w -> freebsd_width c threads (Ok w) = Ok (Some (if c then (w, threads / w) else (0, 0))).
Proof.
  intros W. unfold freebsd_width. destruct c; [|reflexivity]. cbn [bind]. destruct (Nat.eqb_spec w 0); [lia|]. now rewrite divide_pos.
Qed.
