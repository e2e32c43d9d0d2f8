(** The bounds on sharing. *)
From Verif Require Import Base BaseProofs Sorting LinuxTextModel TopologySpec X86CpuinfoModel X86CpuinfoSpec X86LinuxModel X86LinuxSpec X86FinalProofs X86OfflineSpec.
Open Scope N_scope.

Lemma residues_bound bits : forall l v, NoDup l -> Forall (fun a => a / 2 ^ bits = v) l -> N.of_nat (length l) <= 2 ^ bits.
Proof.
  intros l v ND F.
  assert (I : incl (map (fun a => N.to_nat (a mod 2 ^ bits)) l) (seq 0 (N.to_nat (2 ^ bits)))).
  { intros k Hk. apply in_map_iff in Hk. destruct Hk as (a & <- & _). apply in_seq. pose proof (N.mod_lt a (2 ^ bits) (N.pow_nonzero 2 bits ltac:(lia))). lia. }
  assert (N : NoDup (map (fun a => N.to_nat (a mod 2 ^ bits)) l)).
  { clear I. induction ND as [|a r Ha ND IH]; [constructor|]. inversion F as [|x y F1 F2]; subst. cbn [map]. constructor; [|now apply IH].
    intros X. apply in_map_iff in X. destruct X as (b & E & Hb). apply N2Nat.inj in E. rewrite Forall_forall in F2. specialize (F2 b Hb).
    apply Ha. replace a with b; [exact Hb|]. rewrite (N.div_mod a (2 ^ bits)), (N.div_mod b (2 ^ bits)) by (apply N.pow_nonzero; lia). congruence. }
  apply (NoDup_incl_length N) in I. rewrite map_length, seq_length in I. lia.
Qed.

Lemma no_dup_parts {A} (l r : list A) : NoDup (l ++ r) -> NoDup l /\ NoDup r.
Proof.
  induction l as [|a l IH]; cbn [app]; intros H; [split; [constructor|exact H]|]. inversion H as [|x y H1 H2]; subst.
  destruct (IH H2) as (I1 & I2). split; [constructor; [|exact I1]|exact I2]. intros X. apply H1. apply in_or_app. now left.
Qed.

Section BOUNDS.
  Context (ps : list processor).
  Hypothesis (ND : NoDup (map p_apic_id ps)).

  Lemma slice_length start count : (start + count <= length ps)%nat -> length (firstn count (skipn start ps)) = count.
  Proof. intros H. rewrite firstn_length, skipn_length. lia. Qed.
  Lemma slice_in start count p : In p (firstn count (skipn start ps)) -> exists i, (start <= i < start + count)%nat /\ nth_error ps i = Some p.
  Proof.
    intros H. apply In_nth_error in H. destruct H as (k & H). assert (k < count)%nat.
    { assert (X : nth_error (firstn count (skipn start ps)) k <> None) by congruence. apply nth_error_Some in X. rewrite firstn_length in X. lia. }
    exists (start + k)%nat. split; [lia|].
    assert (E : nth_error (skipn start ps) k = Some p).
    { rewrite <- (firstn_skipn count (skipn start ps)). rewrite nth_error_app1; [exact H|]. apply nth_error_Some. congruence. }
    rewrite <- E. clear. revert ps. induction start as [|s IH]; intros l; [reflexivity|]. destruct l as [|x l]; [now destruct k|]. apply IH.
  Qed.
  Lemma slice_ids start count : NoDup (map p_apic_id (firstn count (skipn start ps))).
  Proof.
    clear -ND. rewrite <- firstn_map, <- skipn_map. rewrite <- (firstn_skipn start (map p_apic_id ps)) in ND. apply no_dup_parts, proj2 in ND.
    rewrite <- (firstn_skipn count) in ND. now apply no_dup_parts in ND.
  Qed.

  (** Ranges of processors that agree above some bits are short. *)
  Lemma range_bound bits start count : (start + count <= length ps)%nat ->
    (forall i j p q, (start <= i < start + count)%nat -> (start <= j < start + count)%nat -> nth_error ps i = Some p -> nth_error ps j = Some q ->
       agree_above bits (p_apic_id p) (p_apic_id q)) -> N.of_nat count <= 2 ^ bits.
  Proof.
    intros L A. destruct count as [|n]; [lia|].
    destruct (nth_error ps start) as [p0|] eqn:E0; [|apply nth_error_None in E0; lia].
    rewrite <- (slice_length start (S n) L), <- (map_length p_apic_id). apply (residues_bound bits _ (p_apic_id p0 / 2 ^ bits) (slice_ids start (S n))).
    apply Forall_forall. intros a Ha. apply in_map_iff in Ha. destruct Ha as (p & <- & Hp). apply slice_in in Hp. destruct Hp as (i & Hi & E).
    apply (A i start p p0); auto. lia.
  Qed.

  Lemma tiles_within from rs to s c : tiles from rs to -> In (s, c) rs -> (s + c <= to)%nat.
  Proof.
    revert from. induction rs as [|(s' & c') r IH]; intros from T H; [destruct H|]. cbn [tiles] in T. destruct T as (-> & P & T).
    destruct H as [H|H]; [|now apply (IH (from + c')%nat)]. injection H as -> ->. clear IH P. revert T. generalize (s + c)%nat. clear.
    induction r as [|(s' & c') r IH]; intros n T; cbn [tiles] in T; [lia|]. destruct T as (-> & P & T). specialize (IH _ T). lia.
  Qed.

  (** With pointers that agree exactly above some bits. *)
  Lemma pointed_bound {A} bits pointers (count : A -> nat) range groups :
    (forall g, snd (range g) = count g) -> points_to pointers (map range groups) -> length pointers = length ps ->
    (forall i j p q, nth_error ps i = Some p -> nth_error ps j = Some q -> nth_error pointers i = nth_error pointers j ->
       agree_above bits (p_apic_id p) (p_apic_id q)) -> at_most bits count groups.
  Proof.
    intros R (owner & -> & T & O) L G. apply Forall_forall. intros g Hg. rewrite <- R. apply In_nth_error in Hg. destruct Hg as (k & Hk).
    destruct (range g) as (s & c) eqn:E. cbn [snd]. rewrite map_length in L.
    assert (K : nth_error (map range groups) k = Some (s, c)) by (erewrite map_nth_error by exact Hk; now rewrite E).
    apply (range_bound bits s c).
    - rewrite <- L. eapply tiles_within; [exact T|]. eapply nth_error_In. exact K.
    - intros i j p q Hi Hj Ep Eq. apply (G i j); auto.
      assert (X : forall x, (s <= x < s + c)%nat -> nth_error (map Some owner) x = Some (Some k)).
      { intros x Hx. erewrite map_nth_error; [reflexivity|]. apply O. eauto. }
      now rewrite (X i), (X j).
  Qed.
End BOUNDS.

Lemma apic_ids_distinct is_cpu ms t : lists_cpus (fun cpu apic => is_cpu cpu /\ apic = apic_id_of ms cpu) t -> distinct_apic_ids is_cpu ms ->
  NoDup (map p_apic_id (t_processors t)).
Proof.
  intros LC D. pose proof (lists_once _ _ LC) as ND.
  assert (P : forall p, In p (t_processors t) -> is_cpu (p_linux_id p) /\ p_apic_id p = apic_id_of ms (p_linux_id p)).
  { intros p Hp. apply (lists_exactly _ _ LC). apply in_map_iff. now exists p. }
  clear LC. induction (t_processors t) as [|p r IH]; [constructor|]. cbn [map] in *. inversion ND as [|x y N1 N2]; subst. constructor.
  - intros X. apply in_map_iff in X. destruct X as (q & E & Hq). apply N1. destruct (P p (or_introl eq_refl)) as (P1 & P2), (P q (or_intror Hq)) as (Q1 & Q2).
    replace (p_linux_id p) with (p_linux_id q); [now apply in_map|]. apply D; auto. congruence.
  - apply IH; [exact N2|]. intros q Hq. apply P. now right.
Qed.

Section RUN.
  Context (char_signed : bool) (default : N) (sorter : list xproc -> list xproc) (calloc_ok : block -> bool) (x : xinfo) (files : linux_files)
    (max : N) (possible present : option (list (N * N))) (ms : list meaning) (o : outcome) (t : tables).
  Hypothesis (QS : qsort_contract sorter) (FS : files_say default files max possible present ms)
    (EI : x86_linux_init char_signed default sorter calloc_ok x files = Ok o) (EP : o_published o = Some t).

  Lemma hardware_bound : distinct_apic_ids (usable max possible present ms) ms -> adjacent_fields x -> threads_share_last_level x -> hardware_allows x t.
  Proof.
    intros D AF TS.
    pose proof (apic_ids_distinct _ _ _ (lists_usable _ _ _ _ _ _ _ _ _ _ _ _ QS FS EI EP) D) as ND.
    destruct (published_consistent _ _ _ _ _ _ _ _ QS TS EI EP) as (_ & C).
    destruct (published_grouped _ _ _ _ _ _ _ _ QS AF EI EP) as (G1 & G2 & G3).
    assert (G : forall pointer bits, grouped_by pointer bits (t_processors t) -> forall i j p q, nth_error (t_processors t) i = Some p -> nth_error (t_processors t) j = Some q ->
      nth_error (map pointer (t_processors t)) i = nth_error (map pointer (t_processors t)) j -> agree_above bits (p_apic_id p) (p_apic_id q)).
    { intros pointer bits H i j p q Hp Hq E. apply H; [eapply nth_error_In; eassumption..|].
      rewrite (map_nth_error pointer _ _ Hp), (map_nth_error pointer _ _ Hq) in E. congruence. }
    assert (T : at_most (xi_thread_length x) c_processor_count (t_cores t)).
    { eapply (pointed_bound (t_processors t) ND _ _ _ core_processors); [reflexivity|apply (processors_in_cores _ _ _ _ C)|apply map_length|now apply G]. }
    split; [exact T| | |].
    - apply Forall_forall. intros p Hp. apply In_nth_error in Hp. destruct Hp as (i & Hp).
      pose proof (processors_in_cores _ _ _ _ C) as (owner & E & TT & O).
      assert (exists j, p_core p = Some j /\ nth_error owner i = Some j) as (j & Ej & Oj).
      { pose proof (map_nth_error p_core _ _ Hp) as X. rewrite E in X. destruct (nth_error owner i) as [j|] eqn:Y.
        - rewrite (map_nth_error Some _ _ Y) in X. exists j. split; [congruence|reflexivity].
        - apply nth_error_None in Y. assert (Z : nth_error (map Some owner) i <> None) by congruence. apply nth_error_Some in Z. rewrite map_length in Z. lia. }
      apply O in Oj. destruct Oj as (s & c & Ec & _). destruct (nth_error (t_cores t) j) as [co|] eqn:Eco.
      + destruct (smt_ids _ _ _ _ (published_ids _ _ _ _ _ _ _ _ QS TS EI EP) i p j co Hp Ej Eco) as (_ & L).
        unfold at_most in T. rewrite Forall_forall in T. specialize (T co (nth_error_In _ _ Eco)). lia.
      + apply nth_error_None in Eco. assert (Z : nth_error (map core_processors (t_cores t)) j <> None) by congruence. apply nth_error_Some in Z. rewrite map_length in Z. lia.
    - eapply (pointed_bound (t_processors t) ND _ _ _ cluster_processors); [reflexivity|apply (processors_in_clusters _ _ _ _ C)|apply map_length|now apply G].
    - eapply (pointed_bound (t_processors t) ND _ _ _ package_processors); [reflexivity|apply (processors_in_packages _ _ _ _ C)|apply map_length|now apply G].
  Qed.

  Lemma level_bound g bits pointers caches count : NoDup (map p_apic_id (t_processors t)) ->
    level_reported g bits (t_processors t) pointers caches count -> sharing_allowed bits caches.
  Proof.
    intros ND (_ & L & Z & H). destruct (N.eq_dec (g_size g) 0) as [E|E]; [destruct (Z E) as (-> & _); constructor|]. destruct (H E) as (P & _ & A).
    eapply (pointed_bound (t_processors t) ND _ _ _ cache_processors); [reflexivity|exact P|exact L|]. intros i j p q Hp Hq. now apply A.
  Qed.
  Lemma caches_bound : distinct_apic_ids (usable max possible present ms) ms ->
    sharing_allowed (xc_apic_bits (xi_l1i x)) (t_l1i t) /\ sharing_allowed (xc_apic_bits (xi_l1d x)) (t_l1d t) /\
    sharing_allowed (xc_apic_bits (xi_l2 x)) (t_l2 t) /\ sharing_allowed (xc_apic_bits (xi_l3 x)) (t_l3 t) /\ sharing_allowed (xc_apic_bits (xi_l4 x)) (t_l4 t).
  Proof.
    intros D. pose proof (apic_ids_distinct _ _ _ (lists_usable _ _ _ _ _ _ _ _ _ _ _ _ QS FS EI EP) D) as ND.
    destruct (published_caches _ _ _ _ _ _ _ _ QS EI EP) as (C1 & C2 & C3 & C4 & C5).
    repeat split; eapply level_bound; eassumption.
  Qed.

  (** An offline CPU has the APIC id 0. *)
  Lemma offline_place c p : ~ has_apic_id ms c -> In p (t_processors t) -> p_linux_id p = c -> adjacent_fields x -> forall q, In q (t_processors t) ->
    (p_core p = p_core q <-> p_apic_id q < 2 ^ xi_thread_length x) /\
    (p_package p = p_package q <-> p_apic_id q < 2 ^ (xi_thread_length x + xi_core_length x)).
  Proof.
    intros H Hp Ec AF q Hq. destruct (published_grouped _ _ _ _ _ _ _ _ QS AF EI EP) as (G1 & G2 & _).
    assert (Z : p_apic_id p = 0).
    { assert (X : In (p_linux_id p, p_apic_id p) (map (fun p => (p_linux_id p, p_apic_id p)) (t_processors t))) by (apply in_map_iff; now exists p).
      apply (lists_exactly _ _ (lists_usable _ _ _ _ _ _ _ _ _ _ _ _ QS FS EI EP)) in X. destruct X as (_ & ->). rewrite Ec. unfold apic_id_of, has_apic_id in *.
      destruct (apic_given ms 0 c None); [exfalso; apply H; discriminate|reflexivity]. }
    assert (A : forall bits a, agree_above bits 0 a <-> a < 2 ^ bits).
    { intros bits a. unfold agree_above. rewrite N.div_0_l by (apply N.pow_nonzero; lia). split; intros X.
      - apply N.div_small_iff; [apply N.pow_nonzero; lia|congruence].
      - now rewrite N.div_small. }
    rewrite (G1 p q Hp Hq), (G2 p q Hp Hq), Z, !A. tauto.
  Qed.
End RUN.

(** Two runs, with whatever CPUs online besides the two. *)
Lemma sharing_stable cs cs' default default' sorter sorter' calloc_ok calloc_ok' x files files' max max' possible possible' present present' ms ms' o o' t t' a b :
  qsort_contract sorter -> qsort_contract sorter' -> adjacent_fields x ->
  files_say default files max possible present ms -> files_say default' files' max' possible' present' ms' ->
  x86_linux_init cs default sorter calloc_ok x files = Ok o -> o_published o = Some t ->
  x86_linux_init cs' default' sorter' calloc_ok' x files' = Ok o' -> o_published o' = Some t' ->
  apic_given ms 0 a None = apic_given ms' 0 a None -> apic_given ms 0 b None = apic_given ms' 0 b None -> same_sharing t t' a b.
Proof.
  intros Q Q' AF F F' I P I' P' A B p q p' q' Hp Hq Hp' Hq' E1 E2 E3 E4.
  destruct (published_grouped _ _ _ _ _ _ _ _ Q AF I P) as (G1 & G2 & G3), (published_grouped _ _ _ _ _ _ _ _ Q' AF I' P') as (K1 & K2 & K3).
  assert (AP : forall l, In l (t_processors t) -> p_apic_id l = apic_id_of ms (p_linux_id l)).
  { intros l Hl. apply (lists_exactly _ _ (lists_usable _ _ _ _ _ _ _ _ _ _ _ _ Q F I P)). apply in_map_iff. now exists l. }
  assert (AP' : forall l, In l (t_processors t') -> p_apic_id l = apic_id_of ms' (p_linux_id l)).
  { intros l Hl. apply (lists_exactly _ _ (lists_usable _ _ _ _ _ _ _ _ _ _ _ _ Q' F' I' P')). apply in_map_iff. now exists l. }
  assert (X : p_apic_id p = p_apic_id p') by (rewrite (AP p Hp), (AP' p' Hp'), E1, E3; unfold apic_id_of; now rewrite A).
  assert (Y : p_apic_id q = p_apic_id q') by (rewrite (AP q Hq), (AP' q' Hq'), E2, E4; unfold apic_id_of; now rewrite B).
  rewrite (G1 p q Hp Hq), (G2 p q Hp Hq), (G3 p q Hp Hq), (K1 p' q' Hp' Hq'), (K2 p' q' Hp' Hq'), (K3 p' q' Hp' Hq'), X, Y. tauto.
Qed.
