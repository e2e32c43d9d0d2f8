(** The main loop of cpuinfo_x86_linux_init on a list of usable processors: the
    closed form of every table. *)
From Verif Require Import Base BaseProofs Runs GroupArray TopologySpec X86CpuinfoModel X86LinuxModel.
Open Scope nat_scope.

Definition offs (outer inner : nat -> bool) (k : nat) : nat :=
  match k with O => 0 | S k' => off outer inner k' end.

Lemma offs_step (outer inner : nat -> bool) k : outer 0 = true ->
  (if outer k then 0 else if inner k then S (offs outer inner k) else offs outer inner k) = off outer inner k.
Proof. intros H. destruct k as [|k]; [now rewrite H|reflexivity]. Qed.

Lemma firstn_S_nth A (d : A) : forall l k, k < length l -> firstn (S k) l = firstn k l ++ [nth k l d].
Proof.
  induction l as [|a l IH]; intros [|k] Hk; cbn in *; try lia; auto.
  f_equal. apply IH. lia.
Qed.

Section LOOP.
  Variable x : xinfo.
  Variables cm pm lm : N.
  Variable V : list xproc.
  Variable M : nat.

  Definition at_ (i : nat) : xproc := nth i V (XProc 0 0 0).
  Definition apic (i : nat) : N := x_apic_id (at_ i).
  Definition lid (i : nat) : nat := N.to_nat (x_linux_id (at_ i)).
  Definition newC : nat -> bool := new_key (fun i => N.land (apic i) cm).
  Definition newL : nat -> bool := new_key (fun i => N.land (apic i) lm).
  Definition newP : nat -> bool := new_key (fun i => N.land (apic i) pm).
  Definition one (_ : nat) : bool := true.
  Let n := length V.

  Definition starts (m : N) : Prop := N.land (apic 0) m <> u32max.
  Hypothesis start_core : starts cm.
  Hypothesis start_cluster_ : starts lm.
  Hypothesis start_package_ : starts pm.
  Hypothesis lids_ok : forall i, i < n -> lid i < M.
  Hypothesis lids_distinct : forall i j, i < n -> j < n -> lid i = lid j -> i = j.

  Lemma land_le a m : (N.land a m <= a)%N.
  Proof.
    apply N.ldiff_le. apply N.bits_inj. intros b. rewrite N.ldiff_spec, N.land_spec, N.bits_0.
    destruct (N.testbit a b), (N.testbit m b); reflexivity.
  Qed.

  Lemma first_key m : (apic 0 < u32max)%N -> starts m.
  Proof. intros H E. pose proof (land_le (apic 0) m) as L. rewrite E in L. clear - H L. lia. Qed.

  (** Members of group [j] among the first [k]: all, or those satisfying [f]. *)
  Definition members (new : nat -> bool) (f : nat -> bool) (k s : nat) : nat :=
    cnt k (fun i => f i && (grp new i =? cnt s new)).

  Definition ent_processor (_ i : nat) : processor :=
    Processor (off newC one i) (Some (grp newC i)) (Some (grp newL i)) (Some (grp newP i))
              (x_linux_id (at_ i)) (apic i).
  Definition ent_core (k s : nat) : core :=
    Core s (members newC one k s) (off newP newC s) (Some (grp newL s)) (Some (grp newP s))
         (xi_vendor x) (xi_uarch x) (xi_cpuid x).
  Definition ent_cluster (k s : nat) : cluster :=
    Cluster s (members newL one k s) (grp newC s) (members newL newC k s) (off newP newL s)
            (Some (grp newP s)) (xi_vendor x) (xi_uarch x) (xi_cpuid x).
  Definition ent_package (k s : nat) : package :=
    Package s (members newP one k s) (grp newC s) (members newP newC k s)
            (grp newL s) (members newP newL k s).

  Definition mapped (g : nat -> nat) (k : nat) (m : list (option nat)) : Prop :=
    length m = M /\
    (forall i, i < k -> nth_error m (lid i) = Some (Some (g i))) /\
    (forall j, j < M -> (forall i, i < k -> lid i <> j) -> nth_error m j = Some None).

  Record inv (k : nat) (s : lstate) : Prop := Inv {
    i_processors : filled one n processor0 ent_processor k (s_processors s);
    i_cores : filled newC n core0 ent_core k (s_cores s);
    i_clusters : filled newL n cluster0 ent_cluster k (s_clusters s);
    i_packages : filled newP n package0 ent_package k (s_packages s);
    i_pmap : mapped (fun i => i) k (s_processor_map s);
    i_cmap : mapped (grp newC) k (s_core_map s);
    i_pi : s_processor_index s = idx one k;
    i_ci : s_core_index s = idx newC k;
    i_li : s_cluster_index s = idx newL k;
    i_ki : s_package_index s = idx newP k;
    i_cluster_id : s_cluster_id s = offs newP newL k;
    i_core_id : s_core_id s = offs newP newC k;
    i_smt_id : s_smt_id s = offs newC one k;
    i_last_core : s_last_core s = last_key (fun i => N.land (apic i) cm) k;
    i_last_cluster : s_last_cluster s = last_key (fun i => N.land (apic i) lm) k;
    i_last_package : s_last_package s = last_key (fun i => N.land (apic i) pm) k
  }.

  Lemma inv_init : inv 0 (initial_topology n (cnt n newC) (cnt n newL) (cnt n newP) M).
  Proof.
    constructor; try reflexivity; try apply filled_init; cbn [initial_topology s_processors s_processor_map s_core_map].
    - pose proof (filled_init one n processor0 ent_processor) as H. unfold one in H at 2. now rewrite cnt_all in H.
    - split; [apply repeat_length|]. split; [intros; lia|]. intros. now apply nth_error_repeat.
    - split; [apply repeat_length|]. split; [intros; lia|]. intros. now apply nth_error_repeat.
  Qed.

  Lemma mapped_step g k m : k < n -> mapped g k m ->
    exists m', wr m (lid k) (Some (g k)) = Ok m' /\ mapped g (S k) m'.
  Proof.
    intros Hk (L & H1 & H2). exists (upd m (lid k) (Some (g k))).
    split; [apply wr_ok; rewrite L; auto|]. split; [now rewrite upd_length|]. split.
    - intros i Hi. destruct (Nat.eq_dec i k) as [->|Hne].
      + apply nth_error_upd_eq. rewrite L. auto.
      + rewrite nth_error_upd_neq; [apply H1; lia|]. intros E. apply Hne. symmetry. apply lids_distinct; auto; lia.
    - intros j Hj Hn. rewrite nth_error_upd_neq; [|apply Hn; lia]. apply H2; auto.
  Qed.

  Lemma modify_compose A (a a1 a2 : list A) i f g :
    modify_at a i f = Ok a1 -> modify_at a i (fun z => g (f z)) = Ok a2 -> modify_at a1 i g = Ok a2.
  Proof.
    destruct i as [i|]; [|discriminate]. cbn. unfold modify.
    destruct (nth_error a i) as [z|] eqn:E; [|discriminate]. intros H1 H2.
    injection H1 as <-. injection H2 as <-.
    rewrite nth_error_upd_eq by (apply nth_error_Some; congruence). f_equal.
    revert i E. clear. induction a as [|h t IH]; intros [|i] E; cbn in *; try discriminate; auto. f_equal. now apply IH.
  Qed.

  Lemma modify_some A (a a2 : list A) i f g :
    modify_at a i f = Ok a2 -> exists a1, modify_at a i g = Ok a1.
  Proof.
    destruct i as [i|]; [|discriminate]. cbn. unfold modify.
    destruct (nth_error a i) as [z|]; [eauto|discriminate].
  Qed.

  Lemma chain A (a a2 : list A) i f g :
    modify_at a i (fun z => g (f z)) = Ok a2 -> exists a1, modify_at a i f = Ok a1 /\ modify_at a1 i g = Ok a2.
  Proof.
    intros H. destruct (modify_some _ _ _ _ _ f H) as (a1 & H1). exists a1. split; [exact H1|].
    exact (modify_compose _ _ _ _ _ _ _ H1 H).
  Qed.

  Lemma new0 m : new_key (fun i => N.land (apic i) m) 0 = true.
  Proof. reflexivity. Qed.

  Lemma land_test m k : starts m ->
    negb (N.land (apic k) m =? last_key (fun i => N.land (apic i) m) k)%N = new_key (fun i => N.land (apic i) m) k.
  Proof.
    intros H. exact (last_key_test (fun i => N.land (apic i) m) k H).
  Qed.

  Lemma idx_if m k :
    (if new_key (fun i => N.land (apic i) m) k then incr_index (idx (new_key (fun i => N.land (apic i) m)) k)
     else idx (new_key (fun i => N.land (apic i) m)) k) = Some (grp (new_key (fun i => N.land (apic i) m)) k).
  Proof.
    destruct (new_key _ k) eqn:E; [now apply idx_new|now apply idx_old].
  Qed.

  Definition maybe {A} (b : bool) (f : A -> A) (z : A) : A := if b then f z else z.

  Lemma members_one_start (new : nat -> bool) k : new 0 = true -> new k = true -> members new one (S k) k = 1.
  Proof. intros H0 H. unfold members. now rewrite members_start. Qed.

  Lemma clusters_step k a : k < n -> filled newL n cluster0 ent_cluster k a ->
    exists a', modify_at a (Some (grp newL k))
      (fun z => (if newL k then start_cluster x k (grp newC k) (off newP newL k) (Some (grp newP k))
                 else add_cluster_processor) (maybe (newC k) add_cluster_core z)) = Ok a' /\
      filled newL n cluster0 ent_cluster (S k) a'.
  Proof.
    intros Hk HF. apply filled_step; [reflexivity|exact Hk|exact HF| | |].
    - intros E. rewrite E. unfold ent_cluster, members.
      rewrite !members_start by (reflexivity || assumption). unfold maybe.
      destruct (newC k); reflexivity.
    - intros s Hs Es E Hg. rewrite E. unfold ent_cluster, members.
      rewrite !members_more by assumption. unfold maybe, one.
      destruct (newC k); unfold add_cluster_processor, add_cluster_core; cbn; f_equal; lia.
    - intros s Hs Es Hg. unfold ent_cluster, members.
      now rewrite !members_step by (reflexivity || assumption).
  Qed.

  Lemma packages_step k a : k < n -> filled newP n package0 ent_package k a ->
    exists a', modify_at a (Some (grp newP k))
      (fun z => (if newP k then start_package k (grp newC k) (grp newL k) else add_package_processor)
                (maybe (newL k) add_package_cluster (maybe (newC k) add_package_core z))) = Ok a' /\
      filled newP n package0 ent_package (S k) a'.
  Proof.
    intros Hk HF. apply filled_step; [reflexivity|exact Hk|exact HF| | |].
    - intros E. rewrite E. unfold ent_package, members.
      rewrite !members_start by (reflexivity || assumption). unfold maybe.
      destruct (newC k), (newL k); reflexivity.
    - intros s Hs Es E Hg. rewrite E. unfold ent_package, members.
      rewrite !members_more by assumption. unfold maybe, one.
      destruct (newC k), (newL k); unfold add_package_processor, add_package_core, add_package_cluster; cbn; f_equal; lia.
    - intros s Hs Es Hg. unfold ent_package, members.
      now rewrite !members_step by (reflexivity || assumption).
  Qed.

  Lemma cores_step k a : k < n -> filled newC n core0 ent_core k a ->
    exists a', (if newC k
       then wr_at a (Some (grp newC k)) (Core k 1 (off newP newC k) (Some (grp newL k)) (Some (grp newP k))
         (xi_vendor x) (xi_uarch x) (xi_cpuid x))
       else modify_at a (Some (grp newC k)) add_core_processor) = Ok a' /\
      filled newC n core0 ent_core (S k) a'.
  Proof.
    intros Hk HF.
    assert (Hother : forall s, s < k -> newC s = true -> grp newC k <> cnt s newC -> ent_core (S k) s = ent_core k s).
    { intros s Hs Es Hg. unfold ent_core, members. now rewrite !members_step by (reflexivity || assumption). }
    destruct (newC k) eqn:E.
    - apply filled_start; [reflexivity|exact Hk|exact HF|exact E| |exact Hother].
      unfold ent_core. now rewrite members_one_start.
    - apply filled_step; [reflexivity|exact Hk|exact HF| | |exact Hother].
      + congruence.
      + intros s Hs Es _ Hg. unfold ent_core, members. rewrite members_more by assumption.
        unfold add_core_processor, one; cbn. f_equal. lia.
  Qed.

  Lemma processors_step k a : k < n -> filled one n processor0 ent_processor k a ->
    exists a', wr a k (ent_processor k k) = Ok a' /\ filled one n processor0 ent_processor (S k) a'.
  Proof.
    intros Hk HF.
    destruct (filled_start one n processor0 ent_processor eq_refl k a (ent_processor k k) Hk HF)
      as (a' & H1 & H2); try reflexivity.
    change (grp one k) with (grp (fun _ => true) k) in H1. rewrite grp_all in H1. eauto.
  Qed.

  Lemma topology_step_inv k s :
    k < n -> inv k s ->
    exists s', topology_step x (cm, pm, lm) (at_ k) s = Ok s' /\ inv (S k) s'.
  Proof.
    intros Hk [Ip Ic Il Ik Ipm Icm Epi Eci Eli Eki Elid Ecid Esid Elc Ell Elp].
    unfold topology_step. rewrite Epi, Eci, Eli, Eki, Elid, Ecid, Esid, Elc, Ell, Elp.
    fold (apic k). rewrite !land_test by assumption. fold newC newL newP. cbv zeta.
    change (idx one k) with (idx (fun _ => true) k). rewrite idx_all.
    pose proof (idx_if cm k) as XC. pose proof (idx_if lm k) as XL. pose proof (idx_if pm k) as XP.
    fold newC in XC. fold newL in XL. fold newP in XP.
    fold newC newL newP. rewrite XC, XL, XP.
    pose proof (offs_step newC one k eq_refl) as OS. cbn [one] in OS.
    change (if newC k then 0 else S (offs newC one k)) with
      (if newC k then 0 else if one k then S (offs newC one k) else offs newC one k).
    rewrite (offs_step newC one k eq_refl), (offs_step newP newC k eq_refl), (offs_step newP newL k eq_refl).
    cbn [index_value bind].
    destruct (processors_step k _ Hk Ip) as (ps & Hps & Ip').
    destruct (cores_step k _ Hk Ic) as (cs & Hcs & Ic').
    destruct (clusters_step k _ Hk Il) as (ls & Hls & Il').
    destruct (packages_step k _ Hk Ik) as (ks & Hks & Ik').
    destruct (mapped_step (fun i => i) k _ Hk Ipm) as (pmap & Hpm & Ipm').
    destruct (mapped_step (grp newC) k _ Hk Icm) as (cmap & Hcm & Icm').
    unfold ent_processor in Hps. rewrite Hps. cbn [bind].
    fold (lid k).
    eexists. split.
    - unfold maybe in Hls, Hks. destruct (newC k) eqn:EC.
      + rewrite Hcs. cbn [bind].
        apply chain in Hls. destruct Hls as (ls1 & Hls1 & Hls2). rewrite Hls1. cbn [bind].
        destruct (newL k) eqn:EL.
        * apply (chain _ _ _ _ (fun z => add_package_cluster (add_package_core z))) in Hks.
          destruct Hks as (ks2 & Hks2 & Hks3).
          apply chain in Hks2. destruct Hks2 as (ks1 & Hks1 & Hks2).
          rewrite Hks1. cbn [bind]. rewrite Hls2. cbn [bind]. rewrite Hks2. cbn [bind].
          destruct (newP k); rewrite Hks3; cbn [bind]; rewrite Hpm; cbn [bind]; rewrite Hcm; reflexivity.
        * apply chain in Hks. destruct Hks as (ks1 & Hks1 & Hks2).
          rewrite Hks1. cbn [bind]. rewrite Hls2. cbn [bind].
          destruct (newP k); rewrite Hks2; cbn [bind]; rewrite Hpm; cbn [bind]; rewrite Hcm; reflexivity.
      + rewrite Hcs. cbn [bind].
        destruct (newL k) eqn:EL.
        * apply chain in Hks. destruct Hks as (ks1 & Hks1 & Hks2).
          change (modify_at (s_clusters s) (Some (grp newL k)) (start_cluster x k (grp newC k) (off newP newL k) (Some (grp newP k))) = Ok ls) in Hls.
          rewrite Hls. cbn [bind]. rewrite Hks1. cbn [bind].
          destruct (newP k); rewrite Hks2; cbn [bind]; rewrite Hpm; cbn [bind]; rewrite Hcm; reflexivity.
        * change (modify_at (s_clusters s) (Some (grp newL k)) add_cluster_processor = Ok ls) in Hls.
          rewrite Hls. cbn [bind].
          assert (Hks' : (if newP k then modify_at (s_packages s) (Some (grp newP k)) (start_package k (grp newC k) (grp newL k))
                   else modify_at (s_packages s) (Some (grp newP k)) add_package_processor) = Ok ks)
            by (destruct (newP k); exact Hks).
          rewrite Hks'. cbn [bind]. rewrite Hpm; cbn [bind]; rewrite Hcm; reflexivity.
    - constructor; cbn; auto.
      change (grp one k) with (grp (fun _ => true) k). now rewrite grp_all.
  Qed.

  (** ** One cache level *)
  Section CACHE.
    Variable c : xcache.
    Variable m : N.
    Hypothesis has_size : g_size (xc_geometry c) <> 0%N.
    Hypothesis mask_ok : bit_mask (xc_apic_bits c) = Ok m.
    Hypothesis start_cache : starts (not32 m).

    Definition newK : nat -> bool := new_key (fun i => N.land (apic i) (not32 m)).
    Definition ent_cache (k s : nat) : cache := Cache (xc_geometry c) s (members newK one k s).
    Record cinv (k : nat) (s : cstate) : Prop := CInv {
      ci_caches : filled newK n cache0 ent_cache k (cs_caches s);
      ci_pointers : filled one n None (fun _ i => Some (grp newK i)) k (cs_pointers s);
      ci_index : cs_index s = idx newK k;
      ci_last : cs_last s = last_key (fun i => N.land (apic i) (not32 m)) k
    }.

    Lemma cinv_init : cinv 0 (initial_caches (cnt n newK) n).
    Proof.
      constructor; try reflexivity; [apply filled_init|].
      pose proof (filled_init one n (@None nat) (fun _ i => Some (grp newK i))) as H.
      unfold one in H at 2. now rewrite cnt_all in H.
    Qed.

    Lemma cache_step_inv k s : k < n -> cinv k s ->
      exists s', cache_step c k k (apic k) s = Ok s' /\ cinv (S k) s'.
    Proof. clear lids_ok lids_distinct.
      intros Hk [Ic Ip Ei El]. unfold cache_step.
      replace (g_size (xc_geometry c) =? 0)%N with false by (symmetry; now apply N.eqb_neq).
      rewrite mask_ok. cbn [bind]. rewrite Ei, El, land_test by exact start_cache. fold newK.
      assert (Hother : forall s, s < k -> newK s = true -> grp newK k <> cnt s newK -> ent_cache (S k) s = ent_cache k s).
      { intros s' Hs Es Hg. unfold ent_cache, members. now rewrite !members_step by (reflexivity || assumption). }
      destruct (filled_start one n (@None nat) (fun _ i => Some (grp newK i)) eq_refl k _ (Some (grp newK k)) Hk Ip)
        as (ptrs & Hp & Ip'); try reflexivity.
      change (grp one k) with (grp (fun _ => true) k) in Hp. rewrite grp_all in Hp. cbn [wr_at] in Hp.
      destruct (newK k) eqn:E.
      - destruct (filled_start newK n cache0 ent_cache eq_refl k _ (Cache (xc_geometry c) k 1) Hk Ic E)
          as (cs & Hc & Ic'); [|exact Hother|].
        { unfold ent_cache. now rewrite members_one_start. }
        rewrite (idx_new newK k eq_refl E). rewrite Hc. cbn [bind]. rewrite Hp. cbn [bind].
        eexists. split; [reflexivity|]. constructor; cbn [cs_caches cs_pointers cs_index cs_last]; [exact Ic'|exact Ip'|reflexivity|try reflexivity].
      - destruct (filled_step newK n cache0 ent_cache eq_refl k (cs_caches s)
                    (fun k => Cache (ca_geometry k) (ca_processor_start k) (S (ca_processor_count k))) Hk Ic)
          as (cs & Hc & Ic'); [congruence| |exact Hother|].
        { intros s' Hs Es _ Hg. unfold ent_cache, members. rewrite members_more by assumption. cbn. f_equal. lia. }
        rewrite (idx_old newK k eq_refl E). rewrite Hc. cbn [bind]. rewrite Hp. cbn [bind].
        eexists. split; [reflexivity|]. constructor; cbn [cs_caches cs_pointers cs_index cs_last]; [exact Ic'|exact Ip'|reflexivity|try reflexivity].
        exact (last_key_same (fun i => N.land (apic i) (not32 m)) k E).
    Qed.
  End CACHE.

  (** A level: nothing is recorded when the size is 0. *)
  Definition level_inv (c : xcache) (k : nat) (s : cstate) : Prop :=
    (g_size (xc_geometry c) = 0%N /\ s = CState [] (repeat None n) None u32max) \/
    (g_size (xc_geometry c) <> 0%N /\ exists m, bit_mask (xc_apic_bits c) = Ok m /\ starts (not32 m) /\ cinv c m k s).

  Lemma level_step c k s : k < n -> level_inv c k s ->
    exists s', cache_step c k k (apic k) s = Ok s' /\ level_inv c (S k) s'.
  Proof. clear lids_ok lids_distinct.
    intros Hk [(Hz & ->)|(Hz & m & Hm & Hs & HI)].
    - eexists. split; [|left; split; [exact Hz|reflexivity]]. unfold cache_step. now rewrite Hz.
    - destruct (cache_step_inv c m Hz Hm Hs k s Hk HI) as (s' & E & HI'). exists s'. split; [exact E|].
      right. eauto.
  Qed.

  Record minv (k : nat) (s : mstate) : Prop := MInv {
    mi_topology : inv k (m_topology s);
    mi_l1i : level_inv (xi_l1i x) k (m_l1i s);
    mi_l1d : level_inv (xi_l1d x) k (m_l1d s);
    mi_l2 : level_inv (xi_l2 x) k (m_l2 s);
    mi_l3 : level_inv (xi_l3 x) k (m_l3 s);
    mi_l4 : level_inv (xi_l4 x) k (m_l4 s)
  }.

  Lemma main_step_inv k s : k < n -> is_valid (at_ k) = true -> minv k s ->
    exists s', main_step x (cm, pm, lm) k (at_ k) s = Ok s' /\ minv (S k) s'.
  Proof.
    intros Hk Hv [I0 I1 I2 I3 I4 I5]. unfold main_step. unfold is_valid in Hv. rewrite Hv.
    destruct (topology_step_inv k _ Hk I0) as (t & Ht & It). rewrite Ht. cbn [bind].
    rewrite (i_pi _ _ It). cbn [idx index_value bind].
    change (grp one k) with (grp (fun _ => true) k). rewrite grp_all. fold (apic k).
    destruct (level_step _ k _ Hk I1) as (s1 & E1 & J1). rewrite E1. cbn [bind].
    destruct (level_step _ k _ Hk I2) as (s2 & E2 & J2). rewrite E2. cbn [bind].
    destruct (level_step _ k _ Hk I3) as (s3 & E3 & J3). rewrite E3. cbn [bind].
    destruct (level_step _ k _ Hk I4) as (s4 & E4 & J4). rewrite E4. cbn [bind].
    destruct (level_step _ k _ Hk I5) as (s5 & E5 & J5). rewrite E5. cbn [bind].
    eexists. split; [reflexivity|]. constructor; assumption.
  Qed.

  Lemma main_loop_inv W : (forall i, i < n -> is_valid (at_ i) = true) ->
    Forall (fun p => is_valid p = false) W ->
    forall rest k s, V = firstn k V ++ rest -> k + length rest = n -> minv k s ->
    exists s', main_loop x (cm, pm, lm) k (rest ++ W) s = Ok s' /\ minv n s'.
  Proof.
    intros HV HW. induction rest as [|p rest IH]; intros k s Hr Hk HI.
    - replace k with n in * by (cbn in Hk; lia). clear Hr Hk. exists s. split; [|exact HI].
      cbn [app]. generalize n as i. induction HW as [|p W Hp HW IHW]; intros i; cbn [main_loop]; [reflexivity|].
      unfold main_step. unfold is_valid in Hp. rewrite Hp. cbn [bind]. apply IHW.
    - cbn [length] in Hk. assert (Hp : p = at_ k).
      { unfold at_. rewrite Hr. rewrite app_nth2; rewrite firstn_length_le by (fold n; lia); [|lia].
        now rewrite Nat.sub_diag. }
      cbn [app main_loop]. rewrite Hp.
      destruct (main_step_inv k s ltac:(lia) (HV k ltac:(lia)) HI) as (s1 & E1 & I1).
      rewrite E1. cbn [bind]. apply IH; [|cbn in *; lia|exact I1].
      rewrite Hr at 1. rewrite Hp. 
      assert (Hf : firstn (S k) V = firstn k V ++ [at_ k]).
      { apply firstn_S_nth. fold n. lia. }
      rewrite Hf, <- app_assoc. reflexivity.
  Qed.

  Lemma count_keys_valid mask mk W : starts mk ->
    (forall p, In p (V ++ W) -> bitmask_all (x_flags p) mask = is_valid p) ->
    (forall i, i < n -> is_valid (at_ i) = true) -> Forall (fun p => is_valid p = false) W ->
    count_objects mask mk (V ++ W) = cnt n (new_key (fun i => N.land (apic i) mk)).
  Proof. clear lids_ok lids_distinct.
    intros Hst Hm HV HW. unfold count_objects.
    assert (HW0 : forall last c, count_keys mask (fun a => N.land a mk) W last c = c).
    { intros last c. assert (Hm' : forall p, In p W -> bitmask_all (x_flags p) mask = false).
      { intros p Hp. rewrite Hm by (apply in_or_app; auto). rewrite Forall_forall in HW. now apply HW. }
      clear - Hm'. revert last c. induction W as [|p W IH]; intros last c; cbn; [reflexivity|].
      rewrite Hm' by now left. apply IH. intros; apply Hm'; now right. }
    assert (HG : forall rest k, V = firstn k V ++ rest -> k + length rest = n ->
      count_keys mask (fun a => N.land a mk) (rest ++ W) (last_key (fun i => N.land (apic i) mk) k)
        (cnt k (new_key (fun i => N.land (apic i) mk))) = cnt n (new_key (fun i => N.land (apic i) mk))).
    { induction rest as [|p rest IH]; intros k Hr Hk.
      - cbn [app]. rewrite HW0. f_equal. cbn in Hk. lia.
      - cbn [length] in Hk. assert (Hp : p = at_ k).
        { unfold at_. rewrite Hr. rewrite app_nth2; rewrite firstn_length_le by (fold n; lia); [|lia].
          now rewrite Nat.sub_diag. }
        assert (Hf : firstn (S k) V = firstn k V ++ [at_ k]).
        { apply firstn_S_nth. fold n. lia. }
        assert (Hr' : V = firstn (S k) V ++ rest).
        { rewrite Hf, <- app_assoc. rewrite <- Hp. exact Hr. }
        specialize (IH (S k) Hr' ltac:(lia)).
        cbn [app count_keys]. rewrite Hm; [|rewrite Hr; rewrite <- app_assoc; apply in_or_app; right; now left].
        rewrite Hp, HV by lia. fold (apic k). pose proof (land_test mk k Hst) as T.
        destruct (N.land (apic k) mk =? last_key (fun i => N.land (apic i) mk) k)%N eqn:E; cbn [negb] in T.
        + rewrite cnt_S_false in IH by auto. cbn [last_key] in IH.
          apply N.eqb_eq in E. rewrite <- E. exact IH.
        + rewrite cnt_S_true in IH by auto. cbn [last_key] in IH. exact IH. }
    exact (HG V 0 eq_refl eq_refl).
  Qed.
End LOOP.
