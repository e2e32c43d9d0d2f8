(** Windows for ARM: what is published. *)
From Verif Require Import Base BaseProofs Loops TopologySpec ArmUarchModel ArmWindowsModel ArmWindowsSpec ArmWindowsLoops ArmWindowsCaches ArmWindowsPasses ArmWindowsConnect.
From Verif Require X86WindowsSpec X86WindowsModel X86WindowsProofs ArmLinuxModel.
Import X86WindowsSpec(group_start, mask_processors, mask_valid, says, numbered).
Import X86WindowsModel(winfo, wi_expected, wi_groups, before_groups, total, mask_bits, each).
Import X86WindowsProofs(total_sum).
Import ArmLinuxModel(arm_uarch, ArmUarch, arm_uarch0, au_uarch, au_midr, au_processors, au_cores).
Ltac Zify.zify_post_hook ::= idtac.
Open Scope nat_scope.

Lemma Forall2_nth {A B} (R : A -> B -> Prop) : forall l l', length l = length l' ->
  (forall i b, nth_error l' i = Some b -> exists a, nth_error l i = Some a /\ R a b) -> Forall2 R l l'.
Proof.
  induction l as [|a l IH]; intros [|b l'] L H; try discriminate; [constructor|]. constructor.
  - destruct (H 0 b eq_refl) as (x & E & Rx). cbn in E. injection E as <-. exact Rx.
  - apply IH; [now injection L|]. intros i y Hy. exact (H (S i) y Hy).
Qed.
Lemma Forall2_swap {A B} (R : A -> B -> Prop) : forall l l', Forall2 (fun b a => R a b) l' l -> Forall2 R l l'.
Proof. induction 1; constructor; assumption. Qed.
Lemma nth_firstn {A} : forall m (l : list A) i, i < m -> nth_error (firstn m l) i = nth_error l i.
Proof. induction m as [|m IH]; intros l i H; [lia|]. destruct l as [|a l], i as [|i]; cbn; try reflexivity. apply IH. lia. Qed.
Lemma nth_skipn {A} : forall b (l : list A) i, nth_error (skipn b l) i = nth_error l (b + i).
Proof. induction b as [|b IH]; intros l i; [reflexivity|]. destruct l as [|a l]; cbn; [now destruct i|]. apply IH. Qed.

(** ** The table of microarchitectures *)

Lemma uarchs_unknown : forall table, Forall (fun c => c_uarch c = 0%N) table -> count_uarchs 0 table = 0.
Proof. induction 1 as [|c l E F IH]; [reflexivity|]. cbn [count_uarchs]. now rewrite E. Qed.
Lemma fill_unknown : forall table first index us, Forall (fun c => c_uarch c = 0%N) table -> fill_uarchs first 0 index table us = Ok us.
Proof. induction table as [|c l IH]; intros first index us F; [reflexivity|]. apply Forall_cons_iff in F. destruct F as (E & F). cbn [fill_uarchs]. rewrite E. cbn. now apply IH. Qed.
Lemma count_same u : forall table, Forall (fun c => c_uarch c = u) table -> count_uarchs u table = 0.
Proof. induction 1 as [|c l E F IH]; [reflexivity|]. cbn [count_uarchs]. now rewrite E, N.eqb_refl. Qed.
Lemma fill_same u : u <> 0%N -> forall table x, Forall (fun c => c_uarch c = u) table ->
  fill_uarchs false u 0 table [x] = Ok [ArmUarch (au_uarch x) (au_midr x) (au_processors x + list_sum (map c_processor_count table)) (au_cores x + length table)].
Proof.
  intros Hu. induction table as [|c l IH]; intros x F; cbn [fill_uarchs]; [destruct x; cbn; now rewrite !Nat.add_0_r|]. apply Forall_cons_iff in F. destruct F as (E & F).
  rewrite E, N.eqb_refl. apply N.eqb_neq in Hu. rewrite Hu. cbn [negb]. unfold modify. cbn [nth_error bind upd]. rewrite IH by exact F.
  cbn [au_uarch au_midr au_processors au_cores length map]. change (list_sum (c_processor_count c :: map c_processor_count l)) with (c_processor_count c + list_sum (map c_processor_count l)).
  do 2 f_equal. f_equal; lia.
Qed.

Lemma uarch_table u table : Forall (fun c => c_uarch c = u) table -> table <> [] ->
  exists us, fill_uarchs true 0 0 table (repeat arm_uarch0 (count_uarchs 0 table)) = Ok us /\
    (u = 0%N -> us = []) /\ (u <> 0%N -> us = [ArmUarch u 0 (list_sum (map c_processor_count table)) (length table)]).
Proof.
  intros F Ne. destruct (N.eq_dec u 0) as [->|Hu].
  - exists []. rewrite uarchs_unknown, fill_unknown by exact F. repeat split; congruence.
  - destruct table as [|c l]; [congruence|]. apply Forall_cons_iff in F. destruct F as (E & F). cbn [count_uarchs fill_uarchs]. rewrite E.
    assert (Q : (0 =? u)%N = false) by (apply N.eqb_neq; congruence). rewrite Q. cbn [negb]. rewrite count_same by exact F. cbn [repeat]. unfold modify. cbn [nth_error bind upd].
    rewrite (fill_same u Hu) by exact F. eexists. split; [reflexivity|]. split; [congruence|]. intros _. reflexivity.
Qed.

Lemma list_sum_lengths (sets : list (list nat)) : list_sum (map (@length nat) sets) = length (concat sets).
Proof. induction sets as [|s l IH]; [reflexivity|]. cbn [map concat]. rewrite app_length, <- IH. reflexivity. Qed.

(** The blocks that this part needs. *)
Definition all_ok (heap_ok : hblock -> bool) : Prop := forall b, ~ leaked b -> heap_ok b = true.

Theorem arm_windows_published heap_ok chip a sizes cores packages infos name s live : arm_windows_says a sizes cores packages -> caches_say a sizes infos ->
  ci_name chip = Some name -> converted (Some name) = Some s -> all_ok heap_ok -> Forall leaked live ->
  exists t, init_by_logical_sys_info heap_ok chip a live = Ok (WindowsOutcome (Some t) (live ++ kept_blocks)) /\
    placed sizes cores packages t /\
    uniform (list_sum sizes) (length cores) (length packages) (ci_vendor chip) (ci_uarch chip) (ci_frequency chip) s t /\
    (forall k, level_described sizes infos k t) /\ awt_max_cache_size t = last_level t.
Proof.
  intros [Es H0 (ik & Ek & Sk) (ic & Ec & Sc) (ic2 & Ec2 & Sc2) Pc Pk Nest] Cs Hname Hconv Ok0 Leak.
  unfold init_by_logical_sys_info, with_heap. rewrite !Ok0 by (unfold leaked; intuition discriminate). cbv zeta. rewrite <- Es, total_sum, Ek, Ec, Ec2. set (n := list_sum sizes) in *.
  destruct (packages_pass sizes ik packages H0 Sk Pk) as (ps0 & E0 & L0 & NP & V0). fold n in E0, L0. unfold otherwise at 1. rewrite E0. cbn [bind]. cbv beta iota.
  pose proof (count_cores sizes ic cores H0 Sc Pc) as EC. fold n in EC. unfold otherwise at 1. rewrite EC. cbn [bind]. cbv beta iota.
  destruct (caches_rounds sizes a infos true true ps0 Cs L0 NP eq_refl) as (numbers & E1 & C1 & caches & E2 & E3). destruct (E3 eq_refl) as (k & E4 & St).
  unfold otherwise at 1. rewrite E1. cbn [bind]. cbv beta iota. rewrite E2. cbn [bind]. unfold otherwise at 1. rewrite E4. cbn [bind]. cbv beta iota.
  destruct St as [S1 S2 S3 S4 S5 S6].
  destruct (cores_pass sizes chip ic2 cores (ks_processors k) H0 Sc2 Pc S1) as (c & E5 & L5 & V5 & C5 & F5). fold n in E5, L5.
  unfold otherwise at 1. rewrite E5. cbn [bind]. cbv beta iota. set (ps := cs_processors c) in *. rewrite C5, F5, Hname.
  assert (L0' : length ps0 = n) by exact L0.
  assert (FACT : forall i p, nth_error ps i = Some p -> exists p0 q j s, nth_error ps0 i = Some p0 /\ nth_error (ks_processors k) i = Some q /\ p = set_core j q /\
    nth_error cores j = Some s /\ In i s /\ wp_package q = wp_package p0 /\ wp_group q = wp_group p0 /\ wp_number q = wp_number p0 /\
    forall kd, pointer_ok sizes numbers kd infos i (cache_pointer q kd)).
  { intros i p Hp. destruct (V5 i p Hp) as (q & j & s' & Hq & Hs' & Is' & ->). pose proof (nth_error_some_lt _ _ _ _ Hp) as Li. rewrite L5, <- L0' in Li.
    apply nth_error_lt in Li. destruct Li as (p0 & Hp0). destruct (S5 i p0 Hp0) as (q' & Hq' & _ & _ & A3 & A4 & A5 & A6). assert (q' = q) by congruence. subst q'.
    exists p0, q, j, s'. repeat split; assumption. }
  assert (PC : forall i p, nth_error ps i = Some p -> wp_core p = Some (wp_cluster p) /\ exists s, nth_error cores (wp_cluster p) = Some s /\ In i s).
  { intros i p Hp. destruct (FACT i p Hp) as (p0 & q & j & s' & _ & _ & -> & Hs' & Is' & _). cbn [set_core wp_core wp_cluster]. split; [reflexivity|]. now exists s'. }
  assert (PK : forall i p, nth_error ps i = Some p -> exists q, nth_error packages (wp_package p) = Some q /\ In i q).
  { intros i p Hp. destruct (FACT i p Hp) as (p0 & q & j & s' & H1 & _ & -> & _ & _ & E & _). cbn [set_core wp_package]. rewrite E. now apply (V0 i p0). }
  destruct (processors_connected n cores packages ps (ci_uarch chip) (Some name) s L5 Pc Pk PC PK Hconv (repeat (ci_frequency chip) (length cores)))
    as (cs & cls & pks & E6 & M1 & M2 & M3 & VC & VK).
  unfold otherwise at 1. rewrite E6. cbn [bind]. cbv beta iota.
  destruct (cores_connected n cores packages ps (ci_uarch chip) (ci_vendor chip) L5 Pc Pk Nest PC PK cs cls pks (repeat s (length packages))
    (repeat (ci_frequency chip) (length cores)) M1 M2 M3 VC VK) as (cs' & cls' & pks' & E7 & M1' & M2' & M3' & VC' & VK').
  unfold otherwise at 1. rewrite E7. cbn [bind]. cbv beta iota. cbn [ob_cores ob_clusters ob_packages ob_names ob_frequencies].
  rewrite Nat.leb_refl. cbn [bind]. rewrite !firstn_all2 by (rewrite ?repeat_length; lia).
  assert (INC : forall c, In c cs' -> exists j x start kk, nth_error cores j = Some x /\ c = Core start (length x) j (Some j) (Some kk) (ci_vendor chip) (ci_uarch chip) 0).
  { intros x Hx. apply In_nth_error in Hx. destruct Hx as (j & Hj). pose proof (nth_error_some_lt _ _ _ _ Hj) as Lj. rewrite M1' in Lj. apply nth_error_lt in Lj.
    destruct Lj as (y & Hy). destruct (VC' j y Hy) as (start & kk & q & _ & _ & _ & E & _). exists j, y, start, kk. split; [exact Hy|congruence]. }
  assert (INL : forall c, In c cls' -> exists j x start kk, nth_error cores j = Some x /\ c = Cluster start (length x) j 1 0 (Some kk) (ci_vendor chip) (ci_uarch chip) 0).
  { intros x Hx. apply In_nth_error in Hx. destruct Hx as (j & Hj). pose proof (nth_error_some_lt _ _ _ _ Hj) as Lj. rewrite M2' in Lj. apply nth_error_lt in Lj.
    destruct Lj as (y & Hy). destruct (VC' j y Hy) as (start & kk & q & _ & _ & _ & _ & E). exists j, y, start, kk. split; [exact Hy|congruence]. }
  destruct (uarch_table (ci_uarch chip) cs') as (us & EU & U0 & U1).
  { rewrite Forall_forall. intros x Hx. destruct (INC x Hx) as (j & y & start & kk & _ & ->). reflexivity. }
  { intros X. subst cs'. cbn in M1'. pose proof (partition_some sizes cores H0 Pc) as Z. rewrite <- M1' in Z. discriminate. }
  rewrite EU. cbn [bind].
  set (t := fun max => ArmWindowsTables (map published_processor ps) (map (fun p => (wp_group p, wp_number p)) ps) cs' cls' pks' (repeat s (length packages))
    (repeat (ci_frequency chip) (length cores)) (map (cluster_frequency (repeat (ci_frequency chip) (length cores))) cls') us
    (caches_of numbers (ks_caches k)) (pointers_of numbers ps) max).
  assert (CO : forall kd j, j < of_kind numbers kd -> nth_error (caches_of numbers (ks_caches k) kd) j = nth_error (ks_caches k) (base_of numbers kd + j)).
  { intros kd j Hj. unfold caches_of. now rewrite nth_firstn, nth_skipn. }
  assert (LCO : forall kd, length (caches_of numbers (ks_caches k) kd) = of_kind numbers kd).
  { intros kd. unfold caches_of. rewrite firstn_length, skipn_length, S6. destruct kd; cbn; lia. }
  assert (LD : forall max kd, level_described sizes infos kd (t max)).
  { intros max kd. split; cbn [awt_caches awt_cache_of t].
    - apply Forall2_swap. apply Forall2_nth; [now rewrite LCO, C1|]. intros j info Hj. pose proof (nth_error_some_lt _ _ _ _ Hj) as Lj. rewrite <- C1 in Lj.
      rewrite CO by exact Lj. now apply S3.
    - unfold pointers_of. now rewrite map_length.
    - intros i j Hi. unfold pointers_of in Hi. rewrite nth_error_map in Hi. destruct (nth_error ps i) as [p|] eqn:Hp; [|discriminate]. cbn [option_map] in Hi.
      destruct (FACT i p Hp) as (p0 & q & j0 & s' & _ & _ & -> & _ & _ & _ & _ & _ & P). assert (EP : cache_pointer (set_core j0 q) kd = cache_pointer q kd) by (destruct kd; reflexivity).
      rewrite EP in Hi. specialize (P kd). unfold pointer_ok in P. destruct (cache_pointer q kd) as [x|]; [|discriminate]. destruct P as (j1 & info & -> & A & B & C). cbn [option_map] in Hi.
      assert (j1 = j) by (assert (base_of numbers kd + j1 - base_of numbers kd = j) by congruence; lia). subst j1. exists info. auto.
    - intros i Hi. unfold pointers_of in Hi. rewrite nth_error_map in Hi. destruct (nth_error ps i) as [p|] eqn:Hp; [|discriminate]. cbn [option_map] in Hi.
      destruct (FACT i p Hp) as (p0 & q & j0 & s' & _ & _ & -> & _ & _ & _ & _ & _ & P). assert (EP : cache_pointer (set_core j0 q) kd = cache_pointer q kd) by (destruct kd; reflexivity).
      rewrite EP in Hi. specialize (P kd). unfold pointer_ok in P. destruct (cache_pointer q kd) as [x|]; [discriminate|]. exact P. }
  assert (MAX : exists max, max_cache_size ps (ks_caches k) = Ok max /\ forall m, last_level (t m) = max).
  { assert (Z : 0 < length ps) by (rewrite L5; exact H0). apply nth_error_lt in Z. destruct Z as (p & Hp). unfold max_cache_size, rd at 1. rewrite Hp. cbn [bind].
    assert (PS : forall m kd, pointed_size (t m) kd = match cache_pointer p kd with Some x => match nth_error (ks_caches k) x with Some c => Some (g_size (wc_geometry c)) | None => None end | None => None end /\
      forall x, cache_pointer p kd = Some x -> exists c, nth_error (ks_caches k) x = Some c).
    { intros m kd. unfold pointed_size. cbn [awt_caches awt_cache_of t]. unfold pointers_of. rewrite nth_error_map, Hp. cbn [option_map].
      destruct (FACT 0 p Hp) as (p0 & q & j0 & s' & _ & _ & -> & _ & _ & _ & _ & _ & P). assert (EP : cache_pointer (set_core j0 q) kd = cache_pointer q kd) by (destruct kd; reflexivity).
      rewrite EP. specialize (P kd). unfold pointer_ok in P. destruct (cache_pointer q kd) as [x|]; [|cbn; split; [reflexivity|discriminate]].
      destruct P as (j1 & info & -> & A & _). pose proof (nth_error_some_lt _ _ _ _ A) as Lj. rewrite <- C1 in Lj. cbn [option_map].
      replace (base_of numbers kd + j1 - base_of numbers kd) with j1 by lia. rewrite CO by exact Lj. split; [reflexivity|]. intros y [= <-].
      destruct (S3 kd j1 info A) as (cc & Hcc & _). now exists cc. }
    pose proof (fun m => PS m K3) as P3. pose proof (fun m => PS m K2) as P2. pose proof (fun m => PS m K1d) as P1. cbn [cache_pointer] in P1, P2, P3.
    destruct (wp_l3 p) as [x|].
    { destruct (proj2 (P3 0%N) x eq_refl) as (cc & Hcc). unfold rd. rewrite Hcc. cbn [bind]. eexists. split; [reflexivity|]. intros m. unfold last_level. rewrite (proj1 (P3 m)), Hcc. reflexivity. }
    destruct (wp_l2 p) as [x|].
    { destruct (proj2 (P2 0%N) x eq_refl) as (cc & Hcc). unfold rd. rewrite Hcc. cbn [bind]. eexists. split; [reflexivity|]. intros m. unfold last_level. rewrite (proj1 (P3 m)), (proj1 (P2 m)), Hcc. reflexivity. }
    destruct (wp_l1d p) as [x|].
    { destruct (proj2 (P1 0%N) x eq_refl) as (cc & Hcc). unfold rd. rewrite Hcc. cbn [bind]. eexists. split; [reflexivity|]. intros m. unfold last_level.
      rewrite (proj1 (P3 m)), (proj1 (P2 m)), (proj1 (P1 m)), Hcc. reflexivity. }
    eexists. split; [reflexivity|]. intros m. unfold last_level. rewrite (proj1 (P3 m)), (proj1 (P2 m)), (proj1 (P1 m)). reflexivity. }
  destruct MAX as (max & EM & LM). rewrite EM. cbn [bind]. exists (t max). split.
  { f_equal. f_equal. unfold windows_cleanup. rewrite <- !app_assoc, filter_app. f_equal.
    clear - Leak. induction Leak as [|b l H F IH]; [reflexivity|]. destruct H as [->|[->| ->]]; exact (f_equal (cons _) IH). }
  split; [|split; [|split; [apply LD|cbn [awt_max_cache_size t]; now rewrite LM]]].
  - split; cbn [t awt_processors awt_cores awt_clusters awt_packages awt_ids].
    + now rewrite map_length.
    + intros i p Hp. rewrite nth_error_map in Hp. destruct (nth_error ps i) as [p'|] eqn:Hp'; [|discriminate]. injection Hp as <-.
      destruct (PC i p' Hp') as (A & s' & Hs' & Is'). exists (wp_cluster p'), s'. cbn [published_processor p_core p_cluster]. rewrite A. auto.
    + intros i p Hp. rewrite nth_error_map in Hp. destruct (nth_error ps i) as [p'|] eqn:Hp'; [|discriminate]. injection Hp as <-.
      destruct (PK i p' Hp') as (q & Hq & Iq). exists (wp_package p'), q. cbn [published_processor p_package]. auto.
    + apply Forall2_nth; [exact M1'|]. intros j x Hj. destruct (VC' j x Hj) as (start & kk & q & D & Hq & Inc & A & _). eexists. split; [exact A|].
      cbn [c_processor_start c_processor_count c_package]. split; [exact D|]. split; [reflexivity|]. now exists kk, q.
    + intros j x Hj. pose proof (nth_error_some_lt _ _ _ _ Hj) as Lj. rewrite M1' in Lj. apply nth_error_lt in Lj. destruct Lj as (y & Hy).
      destruct (VC' j y Hy) as (start & kk & q & _ & _ & _ & A & _). assert (E : x = Core start (length y) j (Some j) (Some kk) (ci_vendor chip) (ci_uarch chip) 0) by congruence.
      rewrite E. split; reflexivity.
    + apply Forall2_nth; [exact M2'|]. intros j x Hj. destruct (VC' j x Hj) as (start & kk & q & D & Hq & Inc & _ & A). eexists. split; [exact A|].
      cbn [cl_processor_start cl_processor_count cl_package]. split; [exact D|]. split; [reflexivity|]. now exists kk, q.
    + intros j x Hj. pose proof (nth_error_some_lt _ _ _ _ Hj) as Lj. rewrite M2' in Lj. apply nth_error_lt in Lj. destruct Lj as (y & Hy).
      destruct (VC' j y Hy) as (start & kk & q & _ & _ & _ & _ & A). assert (E : x = Cluster start (length y) j 1 0 (Some kk) (ci_vendor chip) (ci_uarch chip) 0) by congruence.
      rewrite E. reflexivity.
    + apply Forall2_nth; [exact M3'|]. intros kk q Hq. destruct (VK' kk q Hq) as (start & first & D1 & D2 & A). eexists. split; [exact A|].
      cbn [pk_processor_start pk_processor_count pk_core_start pk_core_count]. repeat split; try assumption; apply D1 || apply D2.
    + split; [now rewrite map_length|]. intros i g b H. rewrite nth_error_map in H. destruct (nth_error ps i) as [p|] eqn:Hp; [|discriminate].
      destruct (FACT i p Hp) as (p0 & q & j & s' & H1 & _ & -> & _ & _ & _ & Eg & En & _). cbn [option_map set_core wp_group wp_number] in H. rewrite Eg, En in H.
      assert (g = wp_group p0) by congruence. assert (b = wp_number p0) by congruence. subst g b. now apply (V0 i p0).
  - split; cbn [t awt_processors awt_cores awt_clusters awt_packages awt_names awt_core_frequencies awt_cluster_frequencies awt_uarchs].
    + rewrite Forall_forall. intros x Hx. destruct (INC x Hx) as (j & y & start & kk & _ & ->). split; reflexivity.
    + rewrite Forall_forall. intros x Hx. destruct (INL x Hx) as (j & y & start & kk & _ & ->). split; reflexivity.
    + reflexivity.
    + assert (HF : Forall (eq (ci_frequency chip)) (map (cluster_frequency (repeat (ci_frequency chip) (length cores))) cls')).
      { rewrite Forall_map, Forall_forall. intros x Hx. destruct (INL x Hx) as (j & y & start & kk & Hj & ->). unfold cluster_frequency. cbn [cl_core_start].
        apply nth_error_some_lt in Hj. rewrite (nth_error_nth _ _ _ (nth_error_repeat _ _ _ _ Hj)). reflexivity. }
      apply Forall_eq_repeat in HF. rewrite map_length, M2' in HF. exact HF.
    + reflexivity.
    + split; [exact U0|]. intros Hu. eexists. split; [now apply U1|]. cbn [au_uarch au_processors au_cores]. split; [reflexivity|]. split; [|exact M1'].
      assert (EQ : map c_processor_count cs' = map (@length nat) cores).
      { apply nth_error_ext. intros j. rewrite !nth_error_map. destruct (nth_error cores j) as [y|] eqn:Hj.
        - destruct (VC' j y Hj) as (start & kk & q & _ & _ & _ & A & _). rewrite A. reflexivity.
        - apply nth_error_None in Hj. rewrite (proj2 (nth_error_None cs' j)) by lia. reflexivity. }
      rewrite EQ, list_sum_lengths. rewrite (Permutation_length (proj1 Pc)). apply seq_length.
Qed.

(** ** Names that cannot be converted *)

Lemma connect_unnamed name cores ps n o : converted name = None -> 0 < n -> n <= length ps -> down_opt (connect_processor name cores ps) n o = Ok None.
Proof.
  intros C H L. destruct n as [|n]; [lia|]. cbn [down_opt]. unfold connect_processor at 1. assert (Ln : n < length ps) by lia. apply nth_error_lt in Ln. destruct Ln as (p & Hp).
  unfold rd. rewrite Hp. cbn [bind]. rewrite C. destruct (_ <=? _); [reflexivity|]. destruct (_ <=? _); reflexivity.
Qed.

Lemma windows_unnamed heap_ok chip a sizes cores packages infos live : arm_windows_says a sizes cores packages -> caches_say a sizes infos ->
  converted (ci_name chip) = None -> all_ok heap_ok -> Forall leaked live ->
  init_by_logical_sys_info heap_ok chip a live = Ok (WindowsOutcome None live).
Proof.
  intros [Es H0 (ik & Ek & Sk) (ic & Ec & Sc) (ic2 & Ec2 & Sc2) Pc Pk Nest] Cs Hconv Ok0 Leak.
  unfold init_by_logical_sys_info, with_heap. rewrite !Ok0 by (unfold leaked; intuition discriminate). cbv zeta. rewrite <- Es, total_sum, Ek, Ec, Ec2. set (n := list_sum sizes) in *.
  destruct (packages_pass sizes ik packages H0 Sk Pk) as (ps0 & E0 & L0 & NP & V0). fold n in E0, L0. unfold otherwise at 1. rewrite E0. cbn [bind]. cbv beta iota.
  pose proof (count_cores sizes ic cores H0 Sc Pc) as EC. fold n in EC. unfold otherwise at 1. rewrite EC. cbn [bind]. cbv beta iota.
  destruct (caches_rounds sizes a infos true true ps0 Cs L0 NP eq_refl) as (numbers & E1 & C1 & caches & E2 & E3). destruct (E3 eq_refl) as (k & E4 & St).
  unfold otherwise at 1. rewrite E1. cbn [bind]. cbv beta iota. rewrite E2. cbn [bind]. unfold otherwise at 1. rewrite E4. cbn [bind]. cbv beta iota.
  destruct St as [S1 S2 S3 S4 S5 S6].
  destruct (cores_pass sizes chip ic2 cores (ks_processors k) H0 Sc2 Pc S1) as (c & E5 & L5 & V5 & C5 & F5). fold n in E5, L5.
  unfold otherwise at 1. rewrite E5. cbn [bind]. cbv beta iota.
  unfold otherwise at 1. rewrite connect_unnamed; [|exact Hconv|exact H0|lia]. cbn [bind]. do 2 f_equal. unfold windows_cleanup. rewrite <- !app_assoc, filter_app.
  cbn [filter app existsb hblock_eqb windows_frees orb negb]. rewrite app_nil_r. clear - Leak. induction Leak as [|b l H F IH]; [reflexivity|].
  destruct H as [->|[->| ->]]; exact (f_equal (cons _) IH).
Qed.
