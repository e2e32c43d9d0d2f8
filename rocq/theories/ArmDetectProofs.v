(** The table of ARM processors before sorting, when the files make sense. *)
From Verif Require Import Base BaseProofs Sorting Loops LinuxTextModel LinuxTextSpec LinuxTextProofs CpulistFileProofs TopologySpec
  X86LinuxSpec X86DetectProofs ArmMidrModel ArmClustersModel ArmClustersSpec ArmClustersProofs ArmClusterMidrModel ArmClusterMidrSpec
  ArmClusterMidrProofs ArmMidrResultProofs ArmCpuinfoModel ArmCpuinfoSpec ArmCpuinfoResultProofs ArmLinuxModel ArmOrderProofs
  ArmScanProofs ArmSortedProofs ArmLinuxSpec ArmMidrSpec.
From Verif Require RiscvInitProofs LinuxTextProps.
Open Scope nat_scope.

(** ** The lists *)

(** What follows the reading of the lists. *)
Definition arm_rest (sg arm32 android : bool) (garbage : known) (sorter : list aproc -> list aproc) (calloc_ok : ablock -> bool)
           (d : arm_decoders) (fs : arm_files) (mask : N) (flags : list N) : res aoutcome :=
  do r <- detect_arm sg arm32 android garbage d mask fs flags;
  match r with
  | None => Ok (AOutcome None [A_linux_processors] false)
  | Some (chip, usable, clusters, ps) => build_arm arm32 d chip calloc_ok usable clusters (sorter ps)
  end.

Record flagged (max : N) (possible present : option (list (N * N))) (mask : N) (flags : list N) : Prop := {
  fg_all : forall c, arm_usable max possible present c -> c < length flags;
  fg_mask : forall b, (2 <= b)%N -> N.testbit mask b = false;
  fg_bits : forall i f, nth_error flags i = Some f -> forall b, (2 <= b)%N -> N.testbit f b = false;
  fg_usable : forall i f, nth_error flags i = Some f -> forall more, N.land more 3 = 0%N ->
    (bitmask_all (N.lor f more) mask = true <-> arm_usable max possible present i)
}.

Lemma small_bits f : (f < 4)%N -> forall b, (2 <= b)%N -> N.testbit f b = false.
Proof.
  intros H b Hb. destruct (N.eq_dec f 0) as [->|]; [apply N.bits_0|]. apply N.bits_above_log2.
  apply N.log2_lt_pow2; [lia|]. apply N.lt_le_trans with (2 ^ 2)%N; [exact H|]. apply N.pow_le_mono_r; lia.
Qed.

Lemma lists_read_any sg arm32 default calloc_ok fs max po pr ms : arm_files_say arm32 default fs max po pr ms ->
  exists mask flags, flagged max po pr mask flags /\ forall A (nothing : A) rest,
    with_lists sg default calloc_ok fs nothing rest = (if calloc_ok A_linux_processors then rest mask flags else Ok nothing).
Proof.
  intros [Hmax Hm (Hpo1 & Hpo2) (Hpr1 & Hpr2) Hor Hc].
  unfold with_lists. rewrite (max_says_exact _ _ _ Hmax). cbn [bind].
  destruct (list_max sg max _ _ Hpo1 (proj1 Hm) (proj2 Hm)) as (rpo & -> & Bpo). cbn [bind].
  destruct (list_max sg max _ _ Hpr1 (proj1 Hm) (proj2 Hm)) as (rpr & -> & Bpr). cbn [bind]. cbv zeta.
  set (po' := u32 (1 + rpo)) in *. set (pr' := u32 (1 + rpr)) in *. clearbody po' pr'.
  set (hp := negb (po' =? 0)%N). set (hq := negb (pr' =? 0)%N).
  assert (Hhp : hp = match po with Some _ => true | None => false end).
  { unfold hp. destruct po; [destruct Bpo as (B & _); apply N.eqb_neq in B; now rewrite B|now rewrite Bpo]. }
  assert (Hhq : hq = match pr with Some _ => true | None => false end).
  { unfold hq. destruct pr; [destruct Bpr as (B & _); apply N.eqb_neq in B; now rewrite B|now rewrite Bpr]. }
  set (count := if hp then N.min (if hq then N.min max pr' else max) po' else if hq then N.min max pr' else max).
  assert (Hcount : (count <= max)%N /\ forall cpu, arm_usable max po pr cpu -> (N.of_nat cpu < count)%N).
  { unfold count, arm_usable, in_list. rewrite Hhp, Hhq. split; [destruct po, pr; lia|]. intros cpu (X1 & X2 & X3).
    destruct po as [rs|], pr as [rs'|]; try (pose proof (proj2 Bpo _ X2 X1)); try (pose proof (proj2 Bpr _ X3 X1)); lia. }
  destruct Hcount as (Hcm & Hcu). clearbody count.
  set (mask := N.lor (if hq then af_present else 0) (if hp then af_possible else 0)).
  assert (Hhor : hq || hp = true) by (rewrite Hhp, Hhq; destruct po, pr; auto; destruct Hor; congruence).
  rewrite Hhor. cbn [negb].
  set (fl0 := repeat 0%N (N.to_nat count)).
  assert (L0 : length fl0 = N.to_nat count) by apply repeat_length.
  assert (N0 : forall i v, nth_error fl0 i = Some v -> v = 0%N).
  { intros i v Hv. apply nth_error_In, repeat_spec in Hv. exact Hv. }
  assert (S1 : exists fl1, (if hp then do r <- detect_listed_processors sg count af_possible (f_contents (amf_possible fs)) (f_reads (amf_possible fs)) fl0; Ok (snd r) else Ok fl0) = Ok fl1 /\
     length fl1 = N.to_nat count /\
     forall i, i < N.to_nat count -> nth_error fl1 i = Some (if X86DetectProofs.in_list po (N.of_nat i) then af_possible else 0)%N).
  { rewrite Hhp. destruct po as [rs|].
    - destruct (list_step sg count af_possible _ _ fl0 Hpo2 L0) as (fl1 & ok & E & L & H); [discriminate|].
      rewrite E. cbn [bind snd]. exists fl1. split; [reflexivity|]. split; [congruence|]. intros i Hi.
      destruct (nth_error_lt _ fl0 i) as (v & Hv); [lia|]. rewrite (H i v Hv). rewrite (N0 i v Hv).
      now rewrite N.lor_0_l.
    - exists fl0. split; [reflexivity|]. split; [exact L0|]. intros i Hi.
      destruct (nth_error_lt _ fl0 i) as (v & Hv); [lia|]. rewrite Hv. now rewrite (N0 i v Hv). }
  destruct S1 as (fl1 & E1 & L1 & H1).
  assert (S2 : exists fl2, (if hq then do r <- detect_listed_processors sg count af_present (f_contents (amf_present fs)) (f_reads (amf_present fs)) fl1; Ok (snd r) else Ok fl1) = Ok fl2 /\
     length fl2 = N.to_nat count /\
     forall i, i < N.to_nat count -> nth_error fl2 i =
       Some (N.lor (if X86DetectProofs.in_list po (N.of_nat i) then af_possible else 0)%N
                   (if X86DetectProofs.in_list pr (N.of_nat i) then af_present else 0)%N)).
  { rewrite Hhq. destruct pr as [rs|].
    - destruct (list_step sg count af_present _ _ fl1 Hpr2 L1) as (fl2 & ok & E & L & H); [discriminate|].
      rewrite E. cbn [bind snd]. exists fl2. split; [reflexivity|]. split; [congruence|]. intros i Hi.
      rewrite (H i _ (H1 i Hi)). f_equal. destruct (X86DetectProofs.in_list (Some rs) (N.of_nat i)); [reflexivity|now rewrite N.lor_0_r].
    - exists fl1. split; [reflexivity|]. split; [exact L1|]. intros i Hi.
      rewrite (H1 i Hi). cbn [X86DetectProofs.in_list]. now rewrite N.lor_0_r. }
  destruct S2 as (fl2 & E2 & L2 & H2).
  exists mask, fl2. split.
  - split.
    + intros c Hu. specialize (Hcu c Hu). lia.
    + apply small_bits. unfold mask. destruct hp, hq; reflexivity.
    + intros i f Hf. apply small_bits. assert (Hi : i < N.to_nat count) by (apply nth_error_some_lt in Hf; lia).
      rewrite (H2 i Hi) in Hf. injection Hf as <-.
      destruct (X86DetectProofs.in_list po _), (X86DetectProofs.in_list pr _); reflexivity.
    + intros i f Hf more Hmore. assert (Hi : i < N.to_nat count) by (apply nth_error_some_lt in Hf; lia).
      rewrite (H2 i Hi) in Hf. injection Hf as <-. unfold arm_usable, in_list.
      assert (EL : (N.land (N.lor (N.lor (if X86DetectProofs.in_list po (N.of_nat i) then af_possible else 0)
        (if X86DetectProofs.in_list pr (N.of_nat i) then af_present else 0)) more) mask =
        N.land (N.lor (if X86DetectProofs.in_list po (N.of_nat i) then af_possible else 0)
        (if X86DetectProofs.in_list pr (N.of_nat i) then af_present else 0)) mask)%N).
      { rewrite N.land_lor_distr_l. assert (X : N.land more mask = 0%N); [|now rewrite X, N.lor_0_r].
        replace mask with (N.land 3 mask) by (unfold mask; destruct hp, hq; reflexivity).
        now rewrite N.land_assoc, Hmore. }
      unfold bitmask_all. rewrite EL. unfold mask. rewrite Hhp, Hhq. clear EL. assert (Hx : (N.of_nat i < max)%N) by lia.
      destruct po as [rs|], pr as [rs'|]; cbn [X86DetectProofs.in_list]; rewrite <- ?existsb_listed;
        repeat match goal with |- context [existsb ?a ?b] => destruct (existsb a b) end; cbn; intuition congruence.
  - intros A nothing rest. destruct (calloc_ok A_linux_processors); [|reflexivity]. cbn [negb]. unfold listed_flags. fold fl0. rewrite E1. cbn [bind].
    rewrite E2. cbn [bind]. reflexivity.
Qed.

Lemma lists_read sg arm32 android garbage default sorter calloc_ok d fs max po pr ms : arm_files_say arm32 default fs max po pr ms ->
  exists mask flags, flagged max po pr mask flags /\
    arm_linux_init sg arm32 android garbage default sorter calloc_ok d fs =
      (if calloc_ok A_linux_processors then arm_rest sg arm32 android garbage sorter calloc_ok d fs mask flags
       else Ok (AOutcome None [] false)).
Proof.
  intros FS. destruct (lists_read_any sg arm32 default calloc_ok fs max po pr ms FS) as (mask & flags & FG & E).
  exists mask, flags. split; [exact FG|]. unfold arm_linux_init. rewrite E. reflexivity.
Qed.

(** ** /proc/cpuinfo *)

(** What is known of the processors from here to the assignment of the clusters. *)
Record seen (arm32 : bool) (usable : nat -> Prop) (ms : list arm_meaning) (ps : list aproc) : Prop := {
  se_ids : forall i, i < length ps -> a_id (entry ps i) = i;
  se_usable : forall c, usable c <-> ArmClustersSpec.usable ps c;
  se_version : forall i, i < length ps -> ar_architecture_version (a_report (entry ps i)) = version_of ms i;
  se_online : forall i, i < length ps -> (in_cpuinfo (entry ps i) = true <-> online ms i);
  se_midr : forall c midr, c < length ps -> gives_midr ms c midr -> reports (entry ps c) = true /\
    forall f, f <> Architecture -> field_of f (a_midr (entry ps c)) = field_of f midr;
  se_features : forall i b, i < length ps -> (N.testbit (ar_features (a_report (entry ps i))) (N.of_nat b) = true <->
    exists names w, In (Feats names) (about ms i) /\ In w names /\ stands_for arm32 false w b);
  se_l1 : forall i data, i < length ps ->
    (forall which, N.testbit (a_flags (entry ps i)) (cache_flag data which) = true <-> exists n, In (L1 data which n) (about ms i)) /\
    (forall which, l1_value data which (a_report (entry ps i)) = last_said (cache_said data which) (about ms i) 0%N);
  se_count : forall i, a_count (entry ps i) = 0
}.

Lemma records_l1 s data which : records s (cache_flag data which) <-> exists n, s = L1 data which n.
Proof.
  split; [|intros (n & ->); now right].
  intros [H|H]; [destruct data, which; discriminate|].
  destruct s as [|[] ?| | |[] [] n]; cbn in H; try contradiction; destruct data, which; try discriminate; eauto.
Qed.

Lemma number_length ps : length (number_processors ps) = length ps.
Proof. unfold number_processors. rewrite map_length, combine_length, seq_length. lia. Qed.

Lemma nth_combine_seq {A} : forall (l : list A) s i x, nth_error l i = Some x -> nth_error (combine (seq s (length l)) l) i = Some (s + i, x).
Proof.
  induction l as [|a l IH]; intros s [|i] x H; try discriminate; cbn in *.
  - injection H as ->. now rewrite Nat.add_0_r.
  - rewrite (IH (S s) i x H). f_equal. f_equal. lia.
Qed.

Lemma number_entry ps i : i < length ps -> entry (number_processors ps) i = with_aid i (entry ps i).
Proof.
  intros H. unfold entry. apply nth_error_nth. unfold number_processors.
  erewrite map_nth_error; [|apply nth_combine_seq; apply nth_error_nth'; exact H]. reflexivity.
Qed.

Lemma entry_map f ps i : i < length ps -> entry (map f ps) i = f (entry ps i).
Proof. intros H. unfold entry. rewrite (nth_indep _ aproc0 (f aproc0)) by (now rewrite map_length). apply map_nth. Qed.

Lemma nth_entry ps i p : nth_error ps i = Some p -> entry ps i = p.
Proof. intros H. unfold entry. now apply nth_error_nth. Qed.

Lemma bits_disjoint a m : (forall b, N.testbit m b = true -> N.testbit a b = false) -> N.land a m = 0%N.
Proof.
  intros H. apply N.bits_inj. intros b. rewrite N.land_spec, N.bits_0. destruct (N.testbit m b) eqn:E; [now rewrite (H b E)|apply andb_false_r].
Qed.

Lemma three_bits b : N.testbit 3 b = true -> b = 0%N \/ b = 1%N.
Proof. intros H. destruct (N.lt_ge_cases b 2) as [L|L]; [lia|]. rewrite (small_bits 3) in H; [discriminate|reflexivity|exact L]. Qed.

Lemma testbit_pow k b : N.testbit (2 ^ k) b = (b =? k)%N.
Proof. rewrite N.pow2_bits_eqb. apply N.eqb_sym. Qed.

Lemma cpuinfo_read sg arm32 fs max po pr mask flags ms : flagged max po pr mask flags -> arm_cpuinfo_says arm32 (amf_cpuinfo fs) ms ->
  exists st, arm_parse_proc_cpuinfo arm32 sg (N.of_nat (length flags)) (f_contents (amf_cpuinfo fs)) (f_reads (amf_cpuinfo fs))
      (repeat None hardware_value_max) (repeat None revision_value_max) (map (fun f => with_aflags f aproc0) flags) = Ok (true, st) /\
    let ps := number_processors (map (mark_valid mask) (cs_procs st)) in
    length ps = length flags /\ seen arm32 (arm_usable max po pr) ms ps /\
    forall i, a_max (entry ps i) = 0%N /\ (forall b, In b [2; 6; 10]%N -> N.testbit (a_flags (entry ps i)) b = false).
Proof.
  intros [Fa Fm Fb Fu] (Hw & lines & Ec & Hl & Hn & Hf & Hm). rewrite Ec.
  destruct (arm_file_result arm32 sg (N.of_nat (length flags)) (f_reads (amf_cpuinfo fs)) (repeat None hardware_value_max)
              (repeat None revision_value_max) (map (fun f => with_aflags f aproc0) flags) lines ms Hw Hl Hn Hf Hm)
    as (st & E & L & P); [now rewrite map_length, Nat2N.id|apply repeat_length|apply repeat_length|].
  exists st. split; [exact E|]. rewrite map_length in L. cbv zeta. set (ps := number_processors _).
  assert (LP : length ps = length flags) by (unfold ps; now rewrite number_length, map_length).
  split; [exact LP|].
  assert (EN : forall i, i < length flags -> exists f p', nth_error flags i = Some f /\ nth_error (cs_procs st) i = Some p' /\
     entry ps i = with_aid i (mark_valid mask p')).
  { intros i Hi. destruct (nth_error_lt _ flags i Hi) as (f & Ef). rewrite <- L in Hi. destruct (nth_error_lt _ _ i Hi) as (p' & Ep).
    exists f, p'. split; [exact Ef|]. split; [exact Ep|]. unfold ps. rewrite number_entry by (now rewrite map_length).
    rewrite entry_map by exact Hi. now rewrite (nth_entry _ _ _ Ep). }
  assert (FL : forall i f p', nth_error flags i = Some f -> nth_error (cs_procs st) i = Some p' ->
     forall b, N.testbit (a_flags p') b = true <-> N.testbit f b = true \/ exists s, In s (about ms i) /\ records s b).
  { intros i f p' Ef Ep b. destruct (P i _ (map_nth_error _ _ _ Ef) ltac:(reflexivity)) as (q & Eq & _ & _ & _ & _ & _ & _ & _ & _ & _ & X & _).
    assert (q = p') by congruence. subst q. apply X. }
  assert (VL : forall i f p', nth_error flags i = Some f -> nth_error (cs_procs st) i = Some p' ->
     (bitmask_all (a_flags p') mask = true <-> arm_usable max po pr i) /\ N.testbit (a_flags p') 12 = false).
  { intros i f p' Ef Ep. pose proof (FL i f p' Ef Ep) as X.
    assert (R : forall b, (exists s, In s (about ms i) /\ records s b) -> (16 <= b)%N).
    { intros b (s & _ & [->|H]); [lia|]. destruct s as [|[] ?| | |[] [] ?]; cbn in H; try contradiction; unfold cache_flag in H; lia. }
    split.
    - rewrite <- (Fu i f Ef (N.ldiff (a_flags p') 3)).
      + unfold bitmask_all. assert (Y : N.land (a_flags p') mask = N.land (N.lor f (N.ldiff (a_flags p') 3)) mask); [|now rewrite Y].
        apply N.bits_inj. intros b. rewrite !N.land_spec, N.lor_spec, N.ldiff_spec.
        destruct (N.lt_ge_cases b 2) as [H|H]; [|now rewrite (Fm b H), !andb_false_r].
        f_equal. assert (T : N.testbit 3 b = true) by (assert (b = 0 \/ b = 1)%N as [-> | ->] by lia; reflexivity).
        rewrite T. cbn [negb]. rewrite andb_false_r, orb_false_r.
        destruct (N.testbit f b) eqn:Ebf; [now apply X; left|].
        destruct (N.testbit (a_flags p') b) eqn:Eb; [|reflexivity]. apply X in Eb. destruct Eb as [Eb|Eb]; [congruence|]. specialize (R b Eb). lia.
      + apply bits_disjoint. intros b Hb. now rewrite N.ldiff_spec, Hb, andb_false_r.
    - destruct (N.testbit (a_flags p') 12) eqn:Eb; [|reflexivity]. apply X in Eb. destruct Eb as [Eb|Eb]; [rewrite (Fb i f Ef) in Eb; [discriminate|lia]|].
      specialize (R _ Eb). lia. }
  assert (MV : forall p, a_id (mark_valid mask p) = a_id p /\ a_midr (mark_valid mask p) = a_midr p /\ a_report (mark_valid mask p) = a_report p /\
     a_count (mark_valid mask p) = a_count p /\ forall b, N.testbit (a_flags (mark_valid mask p)) b = N.testbit (a_flags p) b || (bitmask_all (a_flags p) mask && (b =? 12)%N)).
  { intros p. unfold mark_valid. destruct (bitmask_all (a_flags p) mask); repeat split; intros b; cbn [a_flags add_aflag with_aflags andb].
    - rewrite N.lor_spec. f_equal. change af_valid with (2 ^ 12)%N. apply testbit_pow.
    - now rewrite orb_false_r. }
  split; [split|].
  - intros i Hi. destruct (EN i) as (f & p' & _ & _ & ->); [lia|]. reflexivity.
  - intros c. unfold ArmClustersSpec.usable. rewrite valid_flags. split.
    + intros Hu. destruct (EN c (Fa c Hu)) as (f & p' & Ef & Ep & ->). cbn [a_flags with_aid].
      destruct (MV p') as (_ & _ & _ & _ & ->). destruct (VL c f p' Ef Ep) as (V & _). apply V in Hu. rewrite Hu. apply orb_true_r.
    + intros Hv. destruct (Nat.lt_ge_cases c (length ps)) as [Hc|Hc]; [|now rewrite entry_out in Hv by exact Hc].
      destruct (EN c) as (f & p' & Ef & Ep & EE); [lia|]. rewrite EE in Hv. cbn [a_flags with_aid] in Hv.
      destruct (MV p') as (_ & _ & _ & _ & EV). rewrite EV in Hv. destruct (VL c f p' Ef Ep) as (V & V'). rewrite V' in Hv. cbn [orb] in Hv.
      rewrite andb_true_r in Hv. now apply V.
  - intros i Hi. destruct (EN i) as (f & p' & Ef & Ep & ->); [lia|]. cbn [a_report with_aid]. destruct (MV p') as (_ & _ & -> & _).
    destruct (P i _ (map_nth_error _ _ _ Ef) ltac:(reflexivity)) as (q & Eq & _ & _ & _ & _ & X & _).
    assert (q = p') by congruence. subst q. rewrite X. reflexivity.
  - intros i Hi. destruct (EN i) as (f & p' & Ef & Ep & ->); [lia|]. unfold in_cpuinfo. cbn [a_flags with_aid].
    destruct (MV p') as (_ & _ & _ & _ & ->). rewrite andb_false_r, orb_false_r. rewrite (FL i f p' Ef Ep). rewrite (Fb i f Ef) by lia.
    unfold online. split.
    + intros [H|(s & H & _)]; [discriminate|]. intros H0. now rewrite H0 in H.
    + intros H. right. destruct (about ms i) as [|s l]; [congruence|]. exists s. split; [now left|now left].
  - intros c midr Hc (Ga & Gf). destruct (EN c) as (f & p' & Ef & Ep & ->); [lia|].
    assert (HB : forall b, N.testbit (a_flags (with_aid c (mark_valid mask p'))) b = true <-> N.testbit f b = true \/ (exists s, In s (about ms c) /\ records s b) \/ (bitmask_all (a_flags p') mask = true /\ b = 12%N)).
    { intros b. cbn [a_flags with_aid]. destruct (MV p') as (_ & _ & _ & _ & ->). rewrite orb_true_iff, andb_true_iff, (FL c f p' Ef Ep b), N.eqb_eq. tauto. }
    destruct Ga as (v & letters & Ga). split.
    + unfold reports. apply forallb_forall. intros b Hb. apply HB. right. left. cbn [In] in Hb.
      destruct Hb as [<-|[<-|[<-|[<-|[<-|[<-|[]]]]]]].
      * exists (Arch v letters). split; [exact Ga|right; reflexivity].
      * destruct (Gf Implementer) as ((x & Hx) & _); [discriminate|]. exists (Field Implementer x). split; [exact Hx|right; reflexivity].
      * destruct (Gf Variant) as ((x & Hx) & _); [discriminate|]. exists (Field Variant x). split; [exact Hx|right; reflexivity].
      * destruct (Gf PartNumber) as ((x & Hx) & _); [discriminate|]. exists (Field PartNumber x). split; [exact Hx|right; reflexivity].
      * destruct (Gf Revision) as ((x & Hx) & _); [discriminate|]. exists (Field Revision x). split; [exact Hx|right; reflexivity].
      * exists (Arch v letters). split; [exact Ga|left; reflexivity].
    + intros g Hg. cbn [a_midr with_aid]. destruct (MV p') as (_ & -> & _).
      destruct (P c _ (map_nth_error _ _ _ Ef) ltac:(reflexivity)) as (q & Eq & _ & X & _).
      assert (q = p') by congruence. subst q. rewrite (X g Hg). destruct (Gf g Hg) as (_ & <-). cbn [a_midr with_aflags aproc0].
      change (told ms 0 (N.of_nat c)) with (about ms c). f_equal.
  - intros i b Hi. destruct (EN i) as (f & p' & Ef & Ep & ->); [lia|]. cbn [a_report with_aid]. destruct (MV p') as (_ & _ & -> & _).
    destruct (P i _ (map_nth_error _ _ _ Ef) ltac:(reflexivity)) as (q & Eq & _ & _ & _ & _ & _ & _ & X & _).
    assert (q = p') by congruence. subst q. rewrite X. cbn [ar_features a_report with_aflags aproc0 areport0]. rewrite N.bits_0.
    split; [intros [H|H]; [discriminate|exact H]|tauto].
  - intros i data Hi. destruct (EN i) as (f & p' & Ef & Ep & ->); [lia|]. cbn [a_report a_flags with_aid].
    destruct (MV p') as (_ & _ & ER & _ & EF). rewrite ER. split; intros which.
    + rewrite EF. rewrite (proj2 (N.eqb_neq (cache_flag data which) 12)) by (destruct data, which; discriminate).
      rewrite andb_false_r, orb_false_r, (FL i f p' Ef Ep), (Fb i f Ef) by (destruct data, which; discriminate). split.
      * intros [H|(s & H & R)]; [discriminate|]. apply records_l1 in R. destruct R as (n & ->). eauto.
      * intros (n & H). right. exists (L1 data which n). split; [exact H|]. apply records_l1. eauto.
    + destruct (P i _ (map_nth_error _ _ _ Ef) ltac:(reflexivity)) as (q & Eq & X).
      assert (q = p') by congruence. subst q. destruct X as (_ & _ & _ & _ & _ & _ & _ & _ & X & _). rewrite X.
      change (told ms 0 (N.of_nat i)) with (about ms i). now destruct data, which.
  - intros i. destruct (Nat.lt_ge_cases i (length ps)) as [Hi|Hi]; [|now rewrite entry_out by exact Hi].
    destruct (EN i) as (f & p' & Ef & Ep & ->); [lia|]. cbn [a_count with_aid]. destruct (MV p') as (_ & _ & _ & -> & _).
    destruct (P i _ (map_nth_error _ _ _ Ef) ltac:(reflexivity)) as (q & Eq & X).
    assert (q = p') by congruence. subst q. destruct X as (_ & _ & _ & _ & _ & _ & _ & _ & _ & _ & _ & _ & _ & X & _). exact X.
  - intros i. destruct (Nat.lt_ge_cases i (length ps)) as [Hi|Hi]; [|rewrite entry_out by exact Hi; split; [reflexivity|intros b _; apply N.bits_0]].
    destruct (EN i) as (f & p' & Ef & Ep & ->); [lia|]. cbn [a_max a_flags with_aid]. split.
    + assert (M : a_max (mark_valid mask p') = a_max p') by (unfold mark_valid; now destruct (bitmask_all _ _)). rewrite M.
      destruct (P i _ (map_nth_error _ _ _ Ef) ltac:(reflexivity)) as (q & Eq & X). assert (q = p') by congruence. subst q.
      destruct X as (_ & _ & _ & _ & _ & _ & _ & _ & _ & _ & X & _). exact X.
    + intros b Hb. assert (Rb : (2 <= b <= 10)%N) by (cbn in Hb; lia). destruct (MV p') as (_ & _ & _ & _ & ->).
      rewrite (proj2 (N.eqb_neq b 12)) by lia. rewrite andb_false_r, orb_false_r.
      destruct (N.testbit (a_flags p') b) eqn:Eb; [|reflexivity]. apply (FL i f p' Ef Ep) in Eb.
      destruct Eb as [Eb|(s & _ & [H|H])]; [rewrite (Fb i f Ef) in Eb; [discriminate|lia]|lia|].
      destruct s as [|[] ?| | |[] [] ?]; cbn in H; try contradiction; try lia; unfold cache_flag in H; lia.
Qed.

(** ** Frequencies and clusters *)
Record same_cpu (p q : aproc) : Prop := {
  sc_flags : forall b, ~ In b [2; 3; 6; 10]%N -> N.testbit (a_flags q) b = N.testbit (a_flags p) b;
  sc_id : a_id q = a_id p;
  sc_midr : a_midr q = a_midr p;
  sc_report : a_report q = a_report p
}.

Lemma same_cpu_refl p : same_cpu p p.
Proof. now split. Qed.

Lemma same_cpu_valid p q : same_cpu p q -> a_valid q = a_valid p.
Proof. intros [F _ _ _]. rewrite !valid_flags. apply F. cbn. intuition discriminate. Qed.

Lemma seen_same arm32 usable ms ps qs : seen arm32 usable ms ps -> length qs = length ps -> (forall i, same_cpu (entry ps i) (entry qs i)) ->
  (forall i, a_count (entry qs i) = 0) -> seen arm32 usable ms qs.
Proof.
  intros [A1 A2 A3 A4 A5 A6 A8 A7] L S Z. split.
  - intros i Hi. rewrite (sc_id _ _ (S i)). apply A1. lia.
  - intros c. rewrite A2. unfold ArmClustersSpec.usable. now rewrite (same_cpu_valid _ _ (S c)).
  - intros i Hi. rewrite (sc_report _ _ (S i)). apply A3. lia.
  - intros i Hi. rewrite <- A4 by lia. unfold in_cpuinfo. rewrite (sc_flags _ _ (S i)); [reflexivity|]. cbn. intuition discriminate.
  - intros c m Hc G. destruct (A5 c m) as (B1 & B2); [lia|exact G|]. split.
    + unfold reports in *. rewrite forallb_forall in *. intros b Hb. rewrite (sc_flags _ _ (S c)); [now apply B1|].
      cbn in Hb. intros X. cbn in X. repeat (destruct Hb as [<-|Hb]; [intuition discriminate|]). destruct Hb.
    + intros f Hf. rewrite (sc_midr _ _ (S c)). now apply B2.
  - intros i b Hi. rewrite (sc_report _ _ (S i)). apply A6. lia.
  - intros i data Hi. rewrite (sc_report _ _ (S i)). destruct (A8 i data) as (B1 & B2); [lia|]. split; [|exact B2]. intros which.
    rewrite (sc_flags _ _ (S i)); [apply B1|]. destruct data, which; cbn; intuition discriminate.
  - exact Z.
Qed.

Lemma frequency_total f w : exists v, get_processor_frequency f w = Ok v.
Proof.
  unfold get_processor_frequency.
  destruct (small_file_total (uint32_parser false) small_filesize f w 0%N) as [(t & _ & _ & E)|(E & _)];
    [unfold small_filesize; lia|..]; rewrite E; [|cbn; eauto]. destruct (uint32_parser false 0%N t). cbn. eauto.
Qed.

Lemma id_file_read f : id_file f -> exists id, get_processor_id_file (f_contents f) (f_reads f) = Ok (Some id).
Proof.
  intros (digits & tail & -> & H1 & H2 & H3 & H4 & H5 & H6).
  destruct (LinuxTextProps.small_file_number_exact (f_reads f) digits tail) as (_ & E & _); auto. eauto.
Qed.

Definition freq_done (files : nat -> acpu_files) (p q : aproc) (i : nat) : Prop :=
  same_cpu p q /\ a_count q = a_count p /\
  (a_valid p = true -> id_file (ac_package_id (files i)) -> bitmask_all (a_flags q) af_package_id = true) /\
  (a_valid p = true -> exists mx, get_processor_frequency (f_contents (ac_max_frequency (files i))) (f_reads (ac_max_frequency (files i))) = Ok mx /\
     a_max q = (if (mx =? 0)%N then a_max p else mx) /\ knows_max q = negb (mx =? 0)%N || knows_max p) /\
  N.testbit (a_flags q) 10 = N.testbit (a_flags p) 10 /\
  (f_contents (ac_package_id (files i)) = None -> N.testbit (a_flags q) 6 = N.testbit (a_flags p) 6).
(** The clock of a CPU is what its file says. *)
Definition clock_read (files : nat -> acpu_files) (ps : list aproc) (i : nat) : Prop := exists mx, get_processor_frequency (f_contents (ac_max_frequency (files i))) (f_reads (ac_max_frequency (files i))) = Ok mx /\
  a_max (entry ps i) = mx /\ knows_max (entry ps i) = negb (mx =? 0)%N.

Lemma add_flag_same f p : (forall b, N.testbit f b = true -> In b [2; 3; 6; 10]%N) -> same_cpu p (add_aflag f p).
Proof.
  intros H. split; try reflexivity. intros b Hb. cbn [a_flags add_aflag with_aflags]. rewrite N.lor_spec.
  destruct (N.testbit f b) eqn:E; [now apply H in E|apply orb_false_r].
Qed.

Lemma same_cpu_trans p q r : same_cpu p q -> same_cpu q r -> same_cpu p r.
Proof. intros [A1 A2 A3 A4] [B1 B2 B3 B4]. split; try congruence. intros b Hb. rewrite (B1 b Hb). now apply A1. Qed.

Lemma one_bit k b : N.testbit (2 ^ k) b = true -> b = k.
Proof. rewrite testbit_pow. apply N.eqb_eq. Qed.

Lemma frequencies_read files ps : exists qs, detect_frequencies files ps = Ok qs /\ length qs = length ps /\
  forall i, i < length ps -> freq_done files (entry ps i) (entry qs i) i.
Proof.
  unfold detect_frequencies.
  destruct (for_each_inv (frequency_step files)
    (fun k qs => length qs = length ps /\ forall i, i < length ps -> if i <? k then freq_done files (entry ps i) (entry qs i) i else entry qs i = entry ps i)
    (length ps) 0 ps) as (qs & E & L & H).
  - split; [reflexivity|]. intros i _. reflexivity.
  - intros k qs Hk (L & H). cbn [plus] in Hk. unfold frequency_step. rewrite rd_entry by lia. cbn [bind].
    pose proof (H k) as Hkk. rewrite Nat.ltb_irrefl in Hkk. specialize (Hkk ltac:(lia)). rewrite Hkk.
    assert (Up : forall q, freq_done files (entry ps k) q k -> length (upd qs k q) = length ps /\
       forall i, i < length ps -> if i <? S k then freq_done files (entry ps i) (entry (upd qs k q) i) i else entry (upd qs k q) i = entry ps i).
    { intros q Hq. split; [rewrite upd_length; exact L|]. intros i Hi. rewrite entry_upd by lia. specialize (H i Hi).
      destruct (Nat.eqb_spec i k) as [->|Ne].
      - rewrite (proj2 (Nat.ltb_lt k (S k))) by lia. exact Hq.
      - destruct (Nat.ltb_spec i k), (Nat.ltb_spec i (S k)); try lia; exact H. }
    destruct (a_valid (entry ps k)) eqn:V.
    + destruct (frequency_total (f_contents (ac_max_frequency (files k))) (f_reads (ac_max_frequency (files k)))) as (mx & Emx). rewrite Emx. cbn [bind].
      destruct (frequency_total (f_contents (ac_min_frequency (files k))) (f_reads (ac_min_frequency (files k)))) as (mn & ->). cbn [bind].
      set (p := entry ps k) in *.
      set (p1 := if (mx =? 0)%N then p else add_aflag af_max_frequency (with_amax mx p)).
      set (p2 := if (mn =? 0)%N then p1 else add_aflag af_min_frequency (with_amin mn p1)).
      assert (S2 : same_cpu p p2 /\ a_count p2 = a_count p).
      { assert (S1 : same_cpu p p1 /\ a_count p1 = a_count p).
        { unfold p1. destruct (mx =? 0)%N; [split; [apply same_cpu_refl|reflexivity]|]. split; [|reflexivity].
          apply same_cpu_trans with (with_amax mx p); [split; reflexivity|]. apply add_flag_same. intros b Hb.
          apply (one_bit 2) in Hb. subst b. cbn. tauto. }
        unfold p2. destruct (mn =? 0)%N; [exact S1|]. destruct S1 as (S1 & C1). split; [|exact C1].
        apply same_cpu_trans with p1; [exact S1|]. apply same_cpu_trans with (with_amin mn p1); [split; reflexivity|].
        apply add_flag_same. intros b Hb. apply (one_bit 3) in Hb. subst b. cbn. tauto. }
      destruct S2 as (S2 & C2).
      assert (K2 : a_max p2 = (if (mx =? 0)%N then a_max p else mx) /\ knows_max p2 = negb (mx =? 0)%N || knows_max p).
      { unfold p2, p1, knows_max. destruct (mx =? 0)%N, (mn =? 0)%N; cbn [a_max a_flags add_aflag with_aflags with_amax with_amin negb orb];
          rewrite ?N.lor_spec; change (N.testbit af_max_frequency 2) with true; change (N.testbit af_min_frequency 2) with false;
          rewrite ?orb_true_r, ?orb_false_r, ?orb_true_r; split; reflexivity. }
      assert (K6 : forall b, In b [6; 10]%N -> N.testbit (a_flags p2) b = N.testbit (a_flags p) b).
      { intros b Hb. unfold p2, p1. destruct (mx =? 0)%N, (mn =? 0)%N; cbn [a_flags add_aflag with_aflags with_amax with_amin];
          rewrite ?N.lor_spec; cbn in Hb; destruct Hb as [<-|[<-|[]]];
          change (N.testbit af_max_frequency 6) with false; change (N.testbit af_min_frequency 6) with false;
          change (N.testbit af_max_frequency 10) with false; change (N.testbit af_min_frequency 10) with false; now rewrite ?orb_false_r. }
      destruct (RiscvInitProofs.processor_id_total (f_contents (ac_package_id (files k))) (f_reads (ac_package_id (files k)))) as (id & Eid).
      rewrite Eid. cbn [bind]. rewrite wr_ok by lia. eexists. split; [reflexivity|]. apply Up. destruct id as [id|].
      * split; [|split; [exact C2|split; [|split; [|split]]]].
        -- apply same_cpu_trans with p2; [exact S2|]. apply add_flag_same. intros b Hb. apply (one_bit 6) in Hb. subst b. cbn. tauto.
        -- intros _ _. change af_package_id with (2 ^ 6)%N. rewrite bitmask_all_bit. cbn [a_flags add_aflag with_aflags]. rewrite N.lor_spec.
           apply orb_true_r.
        -- intros _. exists mx. split; [exact Emx|]. destruct K2 as (K2 & K3). split; [exact K2|]. rewrite <- K3. unfold knows_max.
           cbn [a_flags add_aflag with_aflags]. rewrite N.lor_spec. change (N.testbit af_package_id 2) with false. apply orb_false_r.
        -- cbn [a_flags add_aflag with_aflags]. rewrite N.lor_spec. change (N.testbit af_package_id 10) with false. rewrite orb_false_r. apply K6. cbn. tauto.
        -- intros G. rewrite G in Eid. discriminate Eid.
      * split; [exact S2|]. split; [exact C2|]. split; [|split; [intros _; exists mx; split; [exact Emx|exact K2]|split; [|intros _]; apply K6; cbn; tauto]].
        intros _ G. apply id_file_read in G. destruct G as (id & G). congruence.
    + eexists. split; [reflexivity|]. split; [exact L|]. intros i Hi. specialize (H i Hi).
      destruct (Nat.ltb_spec i k), (Nat.ltb_spec i (S k)); try lia; try exact H.
      assert (i = k) by lia. subst i. rewrite H. split; [apply same_cpu_refl|]. split; [reflexivity|]. split; [intros; congruence|]. split; [intros; congruence|]. split; reflexivity.
  - exists qs. split; [exact E|]. split; [exact L|]. intros i Hi. specialize (H i Hi). cbn [plus] in H.
    now rewrite (proj2 (Nat.ltb_lt i (length ps))) in H.
Qed.

Lemma changed_same p q : only_leaders_differ p (with_acount (a_count p) q) -> same_cpu p q.
Proof.
  intros [F _ M _ _ _ I _ _ _ R]. split.
  - intros b Hb. specialize (F (2 ^ b)%N). cbn [a_flags with_acount] in F.
    assert (D : N.land (2 ^ b) af_cluster = 0%N).
    { apply bits_disjoint. intros c Hc. rewrite testbit_pow. apply N.eqb_neq. intros ->.
      apply Hb. apply (one_bit 10) in Hc. subst b. cbn. tauto. }
    specialize (F D). assert (X : N.testbit (N.land (a_flags q) (2 ^ b)) b = N.testbit (N.land (a_flags p) (2 ^ b)) b) by now rewrite F.
    rewrite !N.land_spec, !testbit_pow, N.eqb_refl, !andb_true_r in X. exact X.
  - exact I.
  - exact M.
  - exact R.
Qed.

(** ** The table that is sorted *)

Lemma usable_count_same ps qs : length qs = length ps -> (forall i, i < length ps -> a_valid (entry qs i) = a_valid (entry ps i)) ->
  usable_count qs = usable_count ps.
Proof.
  intros L H. unfold usable_count, usable_below. rewrite L. f_equal. apply filter_ext_in. intros i Hi. apply in_seq in Hi. apply H. lia.
Qed.

(** The number of usable processors in /proc/cpuinfo. *)
Definition online_count (ps : list aproc) : nat :=
  length (filter (fun i => a_valid (entry ps i) && in_cpuinfo (entry ps i)) (seq 0 (length ps))).

Lemma count_online ps : count_listed ps = online_count ps.
Proof.
  unfold count_listed, online_count. rewrite <- (filter_nth (fun p => a_valid p && any_flag (a_flags p) af_processor) aproc0 ps). f_equal.
  apply filter_ext_in. intros i Hi. fold (entry ps i). now rewrite ArmClusterMidrProofs.listed_flags.
Qed.

Lemma online_all ps : (forall i, ArmClustersSpec.usable ps i -> in_cpuinfo (entry ps i) = true) -> online_count ps = usable_count ps.
Proof.
  intros H. unfold online_count, usable_count, usable_below. f_equal. apply filter_ext_in.
  intros i Hi. destruct (a_valid (entry ps i)) eqn:V; [|reflexivity]. now apply H.
Qed.

(** What detection hands to the sort. *)
Record detected_arm (arm32 : bool) (d : arm_decoders) (usable : nat -> Prop) (ms : list arm_meaning) (fs : arm_files) (ps1 ps2 ps3 : list aproc) : Prop := {
  da_seen : seen arm32 usable ms ps1;
  da_package : forall i, usable i -> id_file (ac_package_id (amf_cpu fs i)) -> bitmask_all (a_flags (entry ps1 i)) af_package_id = true;
  da_clock : forall i, usable i -> clock_read (amf_cpu fs) ps1 i;
  da_clusters : clusters_ok ps2;
  da_sizes : sizes_ok ps2;
  da_same : only_clusters_changed ps1 ps2;
  da_length : length ps3 = length ps2;
  da_midr : forall i, only_midr_differs (entry ps2 i) (entry ps3 i);
  da_max : forall i x, usable i -> cluster_max ps2 (leader ps2 i) = Some x -> a_max (entry ps3 i) = x;
  da_no_max : forall i, usable i -> cluster_max ps2 (leader ps2 i) = None -> a_max (entry ps3 i) = a_max (entry ps2 (leader ps2 i));
  da_follows : forall i, usable i -> follows_leader (entry ps3 (leader ps2 i)) (entry ps3 i) /\
     (a_vendor (entry ps3 i), a_uarch (entry ps3 i)) =
       ad_uarch d (a_midr (entry ps3 i)) (any_flag (ar_features (a_report (entry ps2 (leader ps2 i)))) feature_vfpv4)
}.

Section DETECTED.
  Variables (arm32 : bool) (d : arm_decoders) (usable : nat -> Prop) (ms : list arm_meaning) (fs : arm_files) (ps1 ps2 ps3 : list aproc).
  Hypothesis D : detected_arm arm32 d usable ms fs ps1 ps2 ps3.

  Lemma same_2 i : same_cpu (entry ps1 i) (entry ps2 i).
  Proof. apply changed_same, (da_same _ _ _ _ _ _ _ _ D). Qed.

  Lemma valid_3 i : a_valid (entry ps3 i) = a_valid (entry ps2 i).
  Proof. rewrite !valid_flags. apply (om_flags _ _ (da_midr _ _ _ _ _ _ _ _ D i)); [discriminate|lia]. Qed.

  Lemma leader_3 i : leader ps3 i = leader ps2 i.
  Proof. apply (om_leader _ _ (da_midr _ _ _ _ _ _ _ _ D i)). Qed.

  Lemma usable_2 c : usable c <-> ArmClustersSpec.usable ps2 c.
  Proof.
    rewrite (se_usable _ _ _ _ (da_seen _ _ _ _ _ _ _ _ D)). unfold ArmClustersSpec.usable. now rewrite (same_cpu_valid _ _ (same_2 c)).
  Qed.

  Lemma usable_3 c : usable c <-> ArmClustersSpec.usable ps3 c.
  Proof. rewrite usable_2. unfold ArmClustersSpec.usable. now rewrite valid_3. Qed.

  Lemma members_3 l : cluster_members ps3 l = cluster_members ps2 l.
  Proof.
    unfold cluster_members. rewrite (da_length _ _ _ _ _ _ _ _ D). apply filter_ext. intros j. now rewrite valid_3, leader_3.
  Qed.

  Lemma leaders_3 : cluster_leaders ps3 = cluster_leaders ps2.
  Proof.
    unfold cluster_leaders. rewrite (da_length _ _ _ _ _ _ _ _ D). apply filter_ext. intros j. unfold leads. now rewrite valid_3, leader_3.
  Qed.

  Lemma detected_sortable : sortable ps3.
  Proof.
    split.
    - intros i Hi. rewrite (om_id _ _ (da_midr _ _ _ _ _ _ _ _ D i)), (sc_id _ _ (same_2 i)).
      apply (se_ids _ _ _ _ (da_seen _ _ _ _ _ _ _ _ D)). rewrite (da_length _ _ _ _ _ _ _ _ D), (proj1 (da_same _ _ _ _ _ _ _ _ D)) in Hi. exact Hi.
    - intros i Hi. rewrite !leader_3. destruct (da_clusters _ _ _ _ _ _ _ _ D i) as (C1 & C2 & C3); [now apply usable_2, usable_3|].
      split; [exact C1|]. split; [|exact C3]. now apply usable_3, usable_2.
    - intros i Hi. rewrite members_3, leader_3, (om_count _ _ (da_midr _ _ _ _ _ _ _ _ D i)).
      apply (da_sizes _ _ _ _ _ _ _ _ D). now apply usable_2, usable_3.
    - intros i Hi. rewrite leader_3. apply (da_follows _ _ _ _ _ _ _ _ D). now apply usable_3.
  Qed.

  Lemma report_3 i : a_report (entry ps3 i) = a_report (entry ps1 i).
  Proof. now rewrite (om_report _ _ (da_midr _ _ _ _ _ _ _ _ D i)), (sc_report _ _ (same_2 i)). Qed.

  (** The first-level caches are still as the kernel told them. *)
  Lemma l1_3 i (data : bool) : usable i ->
    (bitmask_all (a_flags (entry ps3 i)) (if data then af_dcache else af_icache) = true <-> tells_l1 ms i data) /\
    forall which, l1_value data which (a_report (entry ps3 i)) = last_said (cache_said data which) (about ms i) 0%N.
  Proof.
    intros U. assert (L : i < length ps1).
    { apply usable_lt. now apply (se_usable _ _ _ _ (da_seen _ _ _ _ _ _ _ _ D)). }
    destruct (se_l1 _ _ _ _ (da_seen _ _ _ _ _ _ _ _ D) i data L) as (F & V). split; [|intros which; rewrite report_3; apply V].
    assert (K : forall which, N.testbit (a_flags (entry ps3 i)) (cache_flag data which) = N.testbit (a_flags (entry ps1 i)) (cache_flag data which)).
    { intros which. rewrite (om_flags _ _ (da_midr _ _ _ _ _ _ _ _ D i)) by (unfold cache_flag; destruct data, which; lia).
      apply (sc_flags _ _ (same_2 i)). destruct data, which; cbn; intuition discriminate. }
    rewrite bitmask_all_spec. unfold tells_l1. split.
    - intros H which. apply F. rewrite <- K. apply H. now destruct data, which.
    - intros H b Hb. assert (exists which, b = cache_flag data which) as (which & ->); [|rewrite K; apply F, H].
      destruct (N.lt_ge_cases b 32) as [B|B].
      + assert (X : In b (map N.of_nat (seq 0 32))).
        { apply in_map_iff. exists (N.to_nat b). split; [apply N2Nat.id|]. apply in_seq. lia. }
        revert b B Hb X. destruct data; intros b B Hb X; cbn in X;
          repeat (destruct X as [<-|X]; [first [discriminate Hb|now exists CacheSize|now exists CacheSets|now exists CacheWays|now exists CacheLine]|]); destruct X.
      + rewrite N.bits_above_log2 in Hb; [discriminate|]. destruct data; (refine (N.lt_le_trans _ _ _ _ B); reflexivity).
  Qed.

  Lemma version_3 i : usable i -> ar_architecture_version (a_report (entry ps3 i)) = version_of ms i.
  Proof.
    intros H. rewrite report_3. apply (se_version _ _ _ _ (da_seen _ _ _ _ _ _ _ _ D)).
    apply (se_usable _ _ _ _ (da_seen _ _ _ _ _ _ _ _ D)) in H. now apply usable_lt.
  Qed.
End DETECTED.

(** The sibling lists do not make the parser leave its buffer. *)
Definition sibling_commas (fs : arm_files) : Prop := forall i,
  commas (f_contents (sf_cluster_cpus (ac_siblings (amf_cpu fs i)))) /\ commas (f_contents (sf_core_siblings (ac_siblings (amf_cpu fs i)))).

Lemma groups_kernel_lists arm32 usable ms fs ps group : seen arm32 usable ms ps ->
  (forall i, usable i -> id_file (ac_package_id (amf_cpu fs i)) -> bitmask_all (a_flags (entry ps i)) af_package_id = true) ->
  groups_say usable fs group -> kernel_lists ps (fun i => ac_siblings (amf_cpu fs i)) group.
Proof.
  intros S P [G1 G2]. pose proof (se_usable _ _ _ _ S) as U. split.
  - intros i Hi. apply U in Hi. auto.
  - assert (T : forall list_of, siblings_say usable list_of fs group -> lists_group ps list_of (fun i => ac_siblings (amf_cpu fs i)) group).
    { intros list_of H i Hi. apply U in Hi. destruct (H i Hi) as (rs & H1 & H2). exists rs. split; [exact H1|]. intros j Hj. apply U in Hj. auto. }
    destruct G2 as [G2|(G2 & G3)]; [left; auto|]. right. split; [|auto]. intros i Hi Hf. apply G2; [now apply U|]. intros j Hj. rewrite U. auto.
Qed.

Lemma last_text_said (question : arm_meaning -> option (list N)) ms : forall before v, last_text question ms before = Some v ->
  before = Some v \/ exists m, In m ms /\ question m = Some v.
Proof.
  induction ms as [|m ms IH]; intros before v E; cbn [last_text] in E; [now left|]. destruct (IH _ _ E) as [H|(m' & I & H)].
  - destruct (question m) eqn:Q; [right; exists m; split; [now left|congruence]|now left].
  - right. exists m'. split; [now right|exact H].
Qed.
Lemma Forall2_in_right {A B} (R : A -> B -> Prop) l l' : Forall2 R l l' -> forall y, In y l' -> exists x, R x y.
Proof. induction 1 as [|x y l l' H F IH]; intros z []; [subst; eauto|auto]. Qed.

Section INIT.
  Variables (sg arm32 android : bool) (garbage : known) (d : arm_decoders) (fs : arm_files) (max : N)
    (po pr : option (list (N * N))) (ms : list arm_meaning) (mask : N) (flags : list N).
  Notation usable := (arm_usable max po pr).
  Hypothesis FG : flagged max po pr mask flags.
  Hypothesis CS : arm_cpuinfo_says arm32 (amf_cpuinfo fs) ms.
  Hypothesis DA : decoders_answer d ms.

  (** The buffers after /proc/cpuinfo has been read. *)
  Lemma buffers_read st :
    arm_parse_proc_cpuinfo arm32 sg (N.of_nat (length flags)) (f_contents (amf_cpuinfo fs)) (f_reads (amf_cpuinfo fs))
      (repeat None hardware_value_max) (repeat None revision_value_max) (map (fun f => with_aflags f aproc0) flags) = Ok (true, st) ->
    board_texts ms (cs_hardware st) (cs_revision st).
  Proof.
    intros E. destruct CS as (Hw & lines & Hc & H1 & H2 & H3 & H4).
    destruct (arm_file_strings arm32 sg (N.of_nat (length flags)) (f_reads (amf_cpuinfo fs)) (repeat None hardware_value_max)
      (repeat None revision_value_max) (map (fun f => with_aflags f aproc0) flags) lines ms Hw H1 H2 H3 H4) as (st' & E' & S0 & S1 & S2 & S3 & S4);
      [now rewrite map_length, Nat2N.id|apply repeat_length|apply repeat_length|].
    rewrite <- Hc, E in E'. injection E' as <-. split; try assumption. clear - H4. split; intros v L; apply last_text_said in L; destruct L as [L|(m & I & Q)];
      try discriminate; destruct m; try discriminate; injection Q as ->; destruct (Forall2_in_right _ _ _ H4 _ I) as (line & M); inversion M; assumption.
  Qed.

  (** [v] processors are online. *)
  Lemma detection_any : exists hardware revision ps0 chip ps1 v,
    v = online_count ps1 /\
    read_board sg arm32 mask fs flags = Ok (Some (hardware, revision, v, ps0)) /\
    board_texts ms hardware revision /\
    ad_chipset d hardware revision v = Ok chip /\
    seen arm32 usable ms ps1 /\
    (forall i, usable i -> id_file (ac_package_id (amf_cpu fs i)) -> bitmask_all (a_flags (entry ps1 i)) af_package_id = true) /\
    (forall i, usable i -> clock_read (amf_cpu fs) ps1 i) /\
    (forall i, clustered (entry ps1 i) = false /\
       (f_contents (ac_package_id (amf_cpu fs i)) = None -> bitmask_all (a_flags (entry ps1 i)) af_package_id = false)) /\
    detect_arm sg arm32 android garbage d mask fs flags =
      do ps2 <- detect_clusters sg (android && arm32) garbage (fun i => ac_siblings (amf_cpu fs i)) v ps1;
      do cm <- assign_midrs arm32 (ad_uarch d) chip v ps2;
      let '(clusters, ps3) := cm in Ok (Some (chip, v, clusters, ps3)).
  Proof.
    destruct (cpuinfo_read sg arm32 fs max po pr mask flags ms FG CS) as (st & E & L & S & K). cbv zeta in L, S, K. set (ps := number_processors _) in *.
    destruct (frequencies_read (amf_cpu fs) ps) as (ps1 & EF & LF & HF).
    assert (HF' : forall i, same_cpu (entry ps i) (entry ps1 i) /\ a_count (entry ps1 i) = 0).
    { intros i. destruct (Nat.lt_ge_cases i (length ps)) as [Hi|Hi].
      - destruct (HF i Hi) as (H1 & H2 & _). split; [exact H1|]. rewrite H2. apply (se_count _ _ _ _ S).
      - rewrite !entry_out by lia. split; [apply same_cpu_refl|reflexivity]. }
    assert (S1 : seen arm32 usable ms ps1) by (apply (seen_same arm32 usable ms ps); auto; apply HF').
    set (v := count_listed ps).
    assert (EC : v = online_count ps1).
    { unfold v. rewrite count_online. unfold online_count. rewrite LF. f_equal. apply filter_ext_in. intros i Hi.
      destruct (HF' i) as (SC & _). rewrite (same_cpu_valid _ _ SC). f_equal. unfold in_cpuinfo. rewrite (sc_flags _ _ SC); [reflexivity|cbn; intuition discriminate]. }
    pose proof (buffers_read st E) as BT.
    destruct (proj1 DA (cs_hardware st) (cs_revision st) (v) BT) as (chip & ECH).
    assert (RB : read_board sg arm32 mask fs flags = Ok (Some (cs_hardware st, cs_revision st, v, ps)))
      by (unfold read_board; cbv zeta; rewrite E; cbn [bind negb]; fold ps; reflexivity).
    exists (cs_hardware st), (cs_revision st), ps, chip, ps1, v. split; [exact EC|]. split; [exact RB|]. split; [exact BT|]. split; [exact ECH|]. split; [exact S1|]. split; [|split; [|split]].
    - intros i Hi G. apply (se_usable _ _ _ _ S) in Hi. destruct (HF i (usable_lt _ _ Hi)) as (_ & _ & H & _). now apply H.
    - intros i Hi. apply (se_usable _ _ _ _ S) in Hi. destruct (HF i (usable_lt _ _ Hi)) as (_ & _ & _ & H & _). destruct (H Hi) as (mx & E1 & E2 & E3).
      exists mx. split; [exact E1|]. destruct (K i) as (K1 & K2). rewrite K1 in E2. unfold knows_max in E3 at 2. rewrite (K2 2%N) in E3 by (cbn; tauto). rewrite orb_false_r in E3. split; [|exact E3].
      destruct (N.eqb_spec mx 0) as [Z|_]; congruence.
    - intros i. unfold clustered. change af_cluster with (2 ^ 10)%N. change af_package_id with (2 ^ 6)%N. rewrite bitmask_all_bit, any_flag_bit.
      destruct (K i) as (_ & K2). destruct (Nat.lt_ge_cases i (length ps)) as [Hi|Hi]; [|rewrite entry_out by lia; split; reflexivity].
      destruct (HF i Hi) as (_ & _ & _ & _ & H1 & H2). split; [rewrite H1|intros G; rewrite (H2 G)]; apply K2; cbn; tauto.
    - unfold detect_arm. rewrite RB. cbn [bind]. rewrite ECH. cbn [bind]. rewrite EF. reflexivity.
  Qed.

  Variable version : N.
  Hypothesis ON : all_online usable ms version.

  Lemma detection_steps : exists hardware revision ps0 chip ps1,
    read_board sg arm32 mask fs flags = Ok (Some (hardware, revision, usable_count ps1, ps0)) /\
    board_texts ms hardware revision /\
    ad_chipset d hardware revision (usable_count ps1) = Ok chip /\
    seen arm32 usable ms ps1 /\
    (forall i, usable i -> id_file (ac_package_id (amf_cpu fs i)) -> bitmask_all (a_flags (entry ps1 i)) af_package_id = true) /\
    (forall i, usable i -> clock_read (amf_cpu fs) ps1 i) /\
    detect_arm sg arm32 android garbage d mask fs flags =
      do ps2 <- detect_clusters sg (android && arm32) garbage (fun i => ac_siblings (amf_cpu fs i)) (usable_count ps1) ps1;
      do cm <- assign_midrs arm32 (ad_uarch d) chip (usable_count ps1) ps2;
      let '(clusters, ps3) := cm in Ok (Some (chip, usable_count ps1, clusters, ps3)).
  Proof.
    destruct detection_any as (hardware & revision & ps0 & chip & ps1 & v & EV & RB & BT & ECH & S & PK & CK & _ & ED).
    exists hardware, revision, ps0, chip, ps1. assert (E : v = usable_count ps1); [|subst v; rewrite E in *; now repeat (split; [assumption|])].
    rewrite EV. apply online_all. intros i Hi. apply (se_online _ _ _ _ S); [now apply usable_lt|]. apply (ao_online _ _ _ ON). now apply (se_usable _ _ _ _ S).
  Qed.
End INIT.
