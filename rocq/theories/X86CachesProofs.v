(** From the leaves of CPUID to the tables of caches. *)
From Verif Require Import Base BaseProofs TopologySpec X86LinuxModel X86LinuxSpec X86FinalProofs X86DescriptorModel X86DecodeModel X86DecodeSpec X86LeavesProofs X86CpuinfoSpec X86OfflineSpec X86OfflineProofs X86CachesSpec.
Open Scope N_scope.

Lemma ends_once type leaf k k' : ends_at type leaf k -> ends_at type leaf k' -> k = k'.
Proof.
  intros (_ & Z & H) (_ & Z' & H'). destruct (Nat.lt_trichotomy k k') as [L|[E|L]]; [|exact E|].
  - now destruct (H' k L).
  - now destruct (H k' L).
Qed.

Lemma sets_fit r : d_size r < two32 -> d_sets r < two32.
Proof.
  unfold d_size, d_ways, d_partitions, d_line_size. set (a := field 22 10 (ebx r)). set (b := field 12 10 (ebx r)). set (c := field 0 12 (ebx r)). intros H.
  assert (1 <= (a + 1) * (b + 1) * (c + 1)) by nia. nia.
Qed.

Lemma level_of_slot char_signed default sorter calloc_ok x files o t s : qsort_contract sorter ->
  x86_linux_init char_signed default sorter calloc_ok x files = Ok o -> o_published o = Some t ->
  exists count, level_reported (xc_geometry (xi_cache x s)) (xc_apic_bits (xi_cache x s)) (t_processors t) (level_pointers t s) (level_caches t s) count.
Proof.
  intros Q I P. destruct (published_caches _ _ _ _ _ _ _ _ Q I P) as (A & B & C & D & E). destruct s; eexists; eassumption.
Qed.

Lemma told_level complex levels leaf char_signed default sorter calloc_ok x files o t s r : qsort_contract sorter ->
  caches_follow complex levels leaf (xi_cache x) -> told_by levels leaf s r ->
  x86_linux_init char_signed default sorter calloc_ok x files = Ok o -> o_published o = Some t ->
  level_told complex r (t_processors t) (level_pointers t s) (level_caches t s).
Proof.
  intros Q (k & E & F) (k' & i & E' & Hi & -> & D & L & Z) I P. assert (k' = k) by (eapply ends_once; eassumption). subst k'.
  destruct (F i s Hi D L) as [F1 F2 F3 F4 F5 F6 F7]. destruct (level_of_slot _ _ _ _ _ _ _ _ s Q I P) as (count & _ & LEN & _ & R).
  assert (S : d_size (leaf (N.of_nat i)) <> 0).
  { unfold d_size, d_ways, d_partitions, d_line_size, d_sets. rewrite !N.eq_mul_0. lia. }
  rewrite (F5 Z) in R. destruct (R S) as (R1 & R2 & R3). split.
  - now split.
  - eapply Forall_impl; [|exact R2]. cbn. intros c ->. split; auto. apply F4, sets_fit, Z.
  - eauto.
Qed.

Lemma linux_caches_from_cpuid b m fuel x char_signed default sorter calloc_ok files o t :
  (forall l i, regs_ok (cpuidex m l i)) -> leaves_end m fuel -> 1 <= eax (cpuid m 0) -> init_processor b m fuel = Ok x -> qsort_contract sorter ->
  x86_linux_init char_signed default sorter calloc_ok x files = Ok o -> o_published o = Some t -> forall s r,
  (tells_by_leaf_1d m -> told_by 3 (cpuidex m 0x8000001D) s r -> level_told false r (t_processors t) (level_pointers t s) (level_caches t s)) /\
  (tells_by_leaf_4 b m -> told_by 4 (cpuidex m 4) s r -> level_told true r (t_processors t) (level_pointers t s) (level_caches t s)).
Proof.
  intros OKR LE MX IP Q I P s r. destruct (caches_reported b m fuel x OKR LE MX IP) as (A & B). split.
  - intros (T1 & T2) T. exact (told_level _ _ _ _ _ _ _ _ _ _ _ _ _ Q (A T1 T2) T I P).
  - intros (V1 & V2 & M & T0) T. refine (told_level _ _ _ _ _ _ _ _ _ _ _ _ _ Q (B V1 V2 M _) T I P).
    destruct (N.lt_ge_cases (eax (cpuid m 0x80000000)) 0x8000001D) as [L|L]; [now left|right]. intros X. apply T0. now split.
Qed.

Lemma agree_up a b x y : a <= b -> agree_above a x y -> agree_above b x y.
Proof.
  unfold agree_above. intros L E. replace b with (a + (b - a)) by lia. rewrite N.pow_add_r, <- !N.div_div by (apply N.pow_nonzero; lia). now rewrite E.
Qed.
Lemma log2_up_mono n n' b b' : n <= n' -> log2_up n b -> log2_up n' b' -> b <= b'.
Proof. intros L (_ & H) (H' & _). apply H. lia. Qed.

Lemma pointer_at pointers caches i : points_to pointers (map cache_processors caches) -> (i < length pointers)%nat ->
  exists k c, nth_error pointers i = Some (Some k) /\ nth_error caches k = Some c.
Proof.
  intros (o & -> & _ & G) H. rewrite map_length in H. destruct (nth_error o i) as [k|] eqn:E; [|apply nth_error_None in E; lia].
  pose proof (proj1 (G i k) E) as (s & n & X & _). rewrite nth_error_map in X. destruct (nth_error caches k) as [c|] eqn:C; [|discriminate X].
  exists k, c. split; [exact (map_nth_error _ _ _ E)|exact C].
Qed.

Lemma shared_up complex ps t s s' r r' i j : level_told complex r ps (level_pointers t s) (level_caches t s) ->
  level_told complex r' ps (level_pointers t s') (level_caches t s') -> d_sharing r <= d_sharing r' -> share t s i j -> share t s' i j.
Proof.
  intros [(L & PT) _ (b & B & S)] [(L' & PT') _ (b' & B' & S')] H (k & I & J). pose proof (nth_error_some_lt _ _ _ _ I) as BI. pose proof (nth_error_some_lt _ _ _ _ J) as BJ.
  destruct (nth_error ps i) as [p|] eqn:P; [|apply nth_error_None in P; lia]. destruct (nth_error ps j) as [q|] eqn:R; [|apply nth_error_None in R; lia].
  assert (A : agree_above b (p_apic_id p) (p_apic_id q)) by (apply (S i j p q P R); congruence).
  apply (agree_up b b') in A; [|exact (log2_up_mono _ _ _ _ H B B')]. apply (S' i j p q P R) in A.
  destruct (pointer_at _ _ i PT' ltac:(lia)) as (k' & c & K & _). exists k'. split; [exact K|congruence].
Qed.

Lemma log2_up_lt n b : 0 < n -> log2_up n b -> 2 ^ b < 2 * n.
Proof.
  intros P (_ & M). destruct (N.eq_dec b 0) as [->|Z]; [cbn; lia|]. replace b with (N.succ (b - 1)) by lia. rewrite N.pow_succ_r'.
  destruct (N.lt_ge_cases (2 ^ (b - 1)) n) as [L|L]; [lia|]. apply M in L. lia.
Qed.
Lemma log2_up_pow n b : log2_up (2 ^ n) b -> b = n.
Proof. intros (H & M). pose proof (M n ltac:(lia)). apply N.pow_le_mono_r_iff in H; lia. Qed.

Lemma told_sharers complex levels leaf char_signed default sorter calloc_ok x files max possible present meanings o t s r : qsort_contract sorter ->
  files_say default files max possible present meanings -> distinct_apic_ids (usable max possible present meanings) meanings ->
  caches_follow complex levels leaf (xi_cache x) -> told_by levels leaf s r ->
  x86_linux_init char_signed default sorter calloc_ok x files = Ok o -> o_published o = Some t ->
  Forall (fun c => N.of_nat (ca_processor_count c) < 2 * d_sharing r /\ forall n, d_sharing r = 2 ^ n -> N.of_nat (ca_processor_count c) <= d_sharing r) (level_caches t s).
Proof.
  intros Q FS D (k & E & F) (k' & i & E' & Hi & -> & DE & L & Z) I P. assert (k' = k) by (eapply ends_once; eassumption). subst k'.
  pose proof (of_sharing _ _ _ (F i s Hi DE L)) as SH.
  assert (B : sharing_allowed (xc_apic_bits (xi_cache x s)) (level_caches t s)).
  { destruct (caches_bound _ _ _ _ _ _ _ _ _ _ _ _ Q FS I P D) as (B1 & B2 & B3 & B4 & B5). destruct s; assumption. }
  eapply Forall_impl; [|exact B]. cbn. intros c H. assert (P1 : 0 < d_sharing (leaf (N.of_nat i))) by (unfold d_sharing; lia). pose proof (log2_up_lt _ _ P1 SH). split; [lia|].
  intros n N0. rewrite N0 in *. now rewrite (log2_up_pow _ _ SH) in H.
Qed.

Lemma linux_sharers_from_cpuid b m fuel x char_signed default sorter calloc_ok files max possible present meanings o t :
  (forall l i, regs_ok (cpuidex m l i)) -> leaves_end m fuel -> 1 <= eax (cpuid m 0) -> init_processor b m fuel = Ok x -> qsort_contract sorter ->
  files_say default files max possible present meanings -> distinct_apic_ids (usable max possible present meanings) meanings ->
  x86_linux_init char_signed default sorter calloc_ok x files = Ok o -> o_published o = Some t -> forall s r,
  (tells_by_leaf_1d m /\ told_by 3 (cpuidex m 0x8000001D) s r) \/ (tells_by_leaf_4 b m /\ told_by 4 (cpuidex m 4) s r) ->
  Forall (fun c => N.of_nat (ca_processor_count c) < 2 * d_sharing r /\ forall n, d_sharing r = 2 ^ n -> N.of_nat (ca_processor_count c) <= d_sharing r) (level_caches t s).
Proof.
  intros OKR LE MX IP Q FS D I P s r H. destruct (caches_reported b m fuel x OKR LE MX IP) as (A & B). destruct H as [((T1 & T2) & T)|((V1 & V2 & M & T0) & T)].
  - exact (told_sharers _ _ _ _ _ _ _ _ _ _ _ _ _ _ _ _ _ Q FS D (A T1 T2) T I P).
  - refine (told_sharers _ _ _ _ _ _ _ _ _ _ _ _ _ _ _ _ _ Q FS D (B V1 V2 M _) T I P).
    destruct (N.lt_ge_cases (eax (cpuid m 0x80000000)) 0x8000001D) as [L|L]; [now left|right]. intros X. apply T0. now split.
Qed.

(** Caches of both levels told: the sharers of the one share the other, if CPUID lets it be shared by no fewer threads. *)
Lemma linux_sharing_nested b m fuel x char_signed default sorter calloc_ok files o t :
  (forall l i, regs_ok (cpuidex m l i)) -> leaves_end m fuel -> 1 <= eax (cpuid m 0) -> init_processor b m fuel = Ok x -> qsort_contract sorter ->
  x86_linux_init char_signed default sorter calloc_ok x files = Ok o -> o_published o = Some t -> forall s s' r r' i j,
  (tells_by_leaf_1d m /\ told_by 3 (cpuidex m 0x8000001D) s r /\ told_by 3 (cpuidex m 0x8000001D) s' r') \/
  (tells_by_leaf_4 b m /\ told_by 4 (cpuidex m 4) s r /\ told_by 4 (cpuidex m 4) s' r') ->
  d_sharing r <= d_sharing r' -> share t s i j -> share t s' i j.
Proof.
  intros OKR LE MX IP Q I P s s' r r' i j H LS. pose proof (linux_caches_from_cpuid _ _ _ _ _ _ _ _ _ _ _ OKR LE MX IP Q I P) as C.
  destruct H as [(T & T1 & T2)|(T & T1 & T2)].
  - exact (shared_up _ _ _ _ _ _ _ _ _ (proj1 (C s r) T T1) (proj1 (C s' r') T T2) LS).
  - exact (shared_up _ _ _ _ _ _ _ _ _ (proj2 (C s r) T T1) (proj2 (C s' r') T T2) LS).
Qed.
