(** RISC-V Linux: the vendors, core ids and frequencies in the published tables. *)
From Verif Require Import Base BaseProofs Sorting Runs GroupArray LinuxTextModel LinuxTextSpec LinuxTextProofs CpulistFileProofs
  TopologySpec X86LinuxSpec X86DetectProofs RiscvLinuxModel RiscvLinuxSpec RiscvGroupProofs RiscvTablesProofs RiscvReportProofs RiscvInitProofs.
From Coq Require Import Permutation.
Open Scope nat_scope.

(** ** Detection *)
Definition details (p : rproc) : N * N * N := (r_vendor p, r_core_id p, r_frequency p).
Definition vkeeps (a b : list rproc) : Prop :=
  forall i q, nth_error b i = Some q -> exists p, nth_error a i = Some p /\ details q = details p.
Lemma vkeeps_refl a : vkeeps a a.
Proof. intros i q H. now exists q. Qed.
Lemma vkeeps_trans a b c : vkeeps a b -> vkeeps b c -> vkeeps a c.
Proof. intros H K i r Hr. destruct (K i r Hr) as (q & Hq & E). destruct (H i q Hq) as (p & Hp & F). exists p. split; [exact Hp|congruence]. Qed.
Lemma vkeeps_upd a i p q : nth_error a i = Some p -> details q = details p -> vkeeps a (upd a i q).
Proof.
  intros Hp E j r Hr. destruct (Nat.eq_dec i j) as [->|Ne].
  - rewrite nth_error_upd_eq in Hr by (now apply nth_error_some_lt in Hp). exists p. split; [exact Hp|congruence].
  - rewrite nth_error_upd_neq in Hr by exact Ne. now exists r.
Qed.
Lemma group_vendor v g p : details (with_group v g p) = details p.
Proof. now destruct v. Qed.

Lemma scan_range_vendor v : forall cpus s procs s' procs', scan_range v cpus s procs = Ok (s', procs') -> vkeeps procs procs'.
Proof.
  induction cpus as [|c cpus IH]; intros s procs s' procs' H; cbn [scan_range] in H; [injection H as _ <-; apply vkeeps_refl|].
  unfold rd in H. destruct (nth_error procs c) as [p|] eqn:Hp; [|discriminate]. cbn [bind] in H. destruct (negb (r_valid p)); [now apply IH in H|].
  apply bind_inv in H. destruct H as (procs1 & E & H). apply wr_inv in E. destruct E as (_ & ->). apply IH in H.
  eapply vkeeps_trans; [|exact H]. eapply vkeeps_upd; [exact Hp|apply group_vendor].
Qed.
Lemma cpus_parser_vendor v i procs first end_ procs' : snd (cpus_parser v i (Ok procs) first end_) = Ok procs' -> vkeeps procs procs'.
Proof.
  intros H. unfold cpus_parser in H. cbn [bind] in H. unfold rd at 1 in H. destruct (nth_error procs i) as [p|]; [|discriminate H]. cbn [bind] in H.
  destruct (scan_range v _ _ procs) as [(s, procs1)| |] eqn:E; cbn [bind] in H; try discriminate H. apply scan_range_vendor in E.
  unfold rd in H. destruct (nth_error procs1 i) as [q|] eqn:Hq; [|discriminate H]. cbn [bind] in H.
  rewrite wr_ok in H by (now apply nth_error_some_lt in Hq). cbn [bind snd] in H. injection H as <-. eapply vkeeps_trans; [exact E|].
  eapply vkeeps_upd; [exact Hq|]. now destruct v.
Qed.

Definition vctx (procs : list rproc) (c : res (list rproc)) : Prop := forall p, c = Ok p -> vkeeps procs p.
Lemma siblings_vendor max v i procs c a b : vctx procs c -> vctx procs (snd (siblings_parser max (cpus_parser v i) c a b)).
Proof.
  intros H p E. unfold siblings_parser in E. destruct c as [q| |]; [|discriminate E|discriminate E].
  apply cpus_parser_vendor in E. eapply vkeeps_trans; [|exact E]. now apply H.
Qed.
Lemma detect_group_vendor sg max v i f procs ok procs' : detect_group sg max v i f procs = Ok (ok, procs') -> vkeeps procs procs'.
Proof.
  intros H. unfold detect_group, detect_siblings in H.
  destruct (parse_cpulist (siblings_parser max (cpus_parser v i)) sg (f_contents f) (f_reads f) (Ok procs)) as [[ok' ctx]| |] eqn:E;
    try discriminate. cbn [bind] in H.
  assert (K : vctx procs ctx).
  { refine (cpulist_invariant (siblings_parser max (cpus_parser v i)) sg (vctx procs) _ _ _ _ _ (fun c a b => siblings_vendor max v i procs c a b) _ E).
    intros p Q. injection Q as <-. apply vkeeps_refl. }
  destruct ctx as [p| |]; try discriminate. cbn [bind] in H. injection H as _ <-. now apply K.
Qed.

(** The entries that are done have the details the kernel tells. *)
Definition told_details (c : rcpu_files) : N * N * N :=
  (fst (hwprobe_decode (rc_hwprobe c)),
   match get_processor_id_file (f_contents (rc_core_id c)) (f_reads (rc_core_id c)) with Ok (Some i) => i | _ => 0%N end,
   match get_processor_frequency (f_contents (rc_frequency c)) (f_reads (rc_frequency c)) with Ok f => f | _ => 0%N end).
Definition told (files : nat -> rcpu_files) (done : nat -> Prop) (procs : list rproc) : Prop :=
  forall i p, done i -> nth_error procs i = Some p -> r_valid p = true -> details p = told_details (files i).

Lemma told_kept files done a b : keeps a b -> vkeeps a b -> told files done a -> told files done b.
Proof.
  intros (L & K) V T i q Di Hq Vq. destruct (V i q Hq) as (p & Hp & E). destruct (K i p Hp) as (q' & Hq' & Ev & _).
  assert (q' = q) by congruence. subst. rewrite E. apply (T i p Di Hp). congruence.
Qed.

(** The entries still to be done hold zeros. *)
Definition untold (todo : list nat) (procs : list rproc) : Prop :=
  forall i p, In i todo -> nth_error procs i = Some p -> r_core_id p = 0%N /\ r_frequency p = 0%N.
Lemma untold_kept todo a b : vkeeps a b -> untold todo a -> untold todo b.
Proof.
  intros V U i q Hi Hq. destruct (V i q Hq) as (p & Hp & E). destruct (U i p Hi Hp) as (U1 & U2). unfold details in E. split; congruence.
Qed.

Lemma level_told sg max files v (done0 : nat -> Prop) : forall todo procs procs', Forall (fun c => c < length procs) todo -> length procs = N.to_nat max ->
  detect_level sg max files v todo procs = Ok (Some procs') -> forall done, told files done procs ->
  (v = RCore -> NoDup todo /\ untold todo procs) ->
  (v = RCore -> forall i, done0 i -> done i \/ In i todo) -> (v <> RCore -> forall i, done0 i -> done i) -> told files done0 procs'.
Proof.
  induction todo as [|i todo IH]; intros procs procs' Ht Hl H done T Un Dc Do; cbn [detect_level] in H.
  { injection H as <-. intros j q Dj. destruct v; [destruct (Dc eq_refl j Dj) as [D|[]]; now apply T|..]; apply T, Do; auto; discriminate. }
  apply Forall_cons_iff in Ht. destruct Ht as (Hi & Ht). pose proof Hi as Hx. apply nth_error_lt in Hx. destruct Hx as (p & Hp).
  unfold rd in H. rewrite Hp in H. cbn [bind] in H. destruct (r_valid p) eqn:Vp; cbn [negb] in H.
  2: { apply (IH procs procs' Ht Hl H (fun j => done j \/ j = i)).
    - intros j q [Dj| ->] Hq Vq; [now apply (T j q)|]. congruence.
    - intros E. destruct (Un E) as (U1 & U2). split; [now inversion U1|]. intros j q Hj. apply U2. now right.
    - intros E j Dj. destruct (Dc E j Dj) as [D|[D|D]]; [tauto|subst; tauto|tauto].
    - intros E j Dj. left. now apply Do. }
  destruct (detect_group sg max v i (level_file v (files i)) procs) as [(ok & procs1)| |] eqn:E; try discriminate. cbn [bind] in H.
  pose proof (detect_group_vendor _ _ _ _ _ _ _ _ E) as V1. apply detect_group_keeps in E; [|exact Hi|exact Hl]. destruct ok; [|discriminate]. cbn [negb] in H.
  pose proof (told_kept files done procs procs1 E V1 T) as T1.
  assert (L1 : length procs1 = length procs) by apply E.
  destruct v.
  - destruct (fill_core_keeps i (files i) procs1) as (procs2 & E2 & K2); [lia|]. rewrite E2 in H. cbn [bind] in H.
    assert (L2 : length procs2 = length procs1) by apply K2.
    apply (IH procs2 procs') with (done := fun j => done j \/ j = i) in H; [exact H|rewrite L2, L1; exact Ht|congruence| | |intros _ j Dj; destruct (Dc eq_refl j Dj) as [D|[D|D]]; [tauto|subst; tauto|tauto]|congruence].
    all: destruct (Un eq_refl) as (U1 & U2); pose proof (untold_kept _ _ _ V1 U2) as U3; apply NoDup_cons_iff in U1; destruct U1 as (U0 & U1).
    all: unfold fill_core in E2; apply bind_inv in E2; destruct E2 as (id & Eid & E2);
      destruct (hwprobe_decode (rc_hwprobe (files i))) as (vendor & uarch) eqn:ED;
      apply bind_inv in E2; destruct E2 as (khz & Ekhz & E2); unfold modify in E2;
      destruct (nth_error procs1 i) as [p1|] eqn:Hp1; [|discriminate]; injection E2 as <-.
    + intros j q Dj Hq Vq. destruct (Nat.eq_dec i j) as [<-|Ne].
      * rewrite nth_error_upd_eq in Hq by lia. injection Hq as <-. destruct (U3 i p1 (or_introl eq_refl) Hp1) as (Z1 & Z2).
        unfold details, told_details. cbn [r_vendor r_core_id r_frequency]. rewrite ED, Eid, Ekhz, Z1, Z2. cbn [fst].
        destruct (N.eqb_spec khz 0) as [->|_]; reflexivity.
      * rewrite nth_error_upd_neq in Hq by exact Ne. destruct Dj as [Dj|Dj]; [|congruence]. now apply (T1 j q).
    + intros _. split; [exact U1|]. intros j q Hj Hq. rewrite nth_error_upd_neq in Hq by (intros ->; contradiction). apply (U3 j q); [now right|exact Hq].
  - cbn [bind] in H. apply (IH procs1 procs') with (done := done) in H; [exact H|rewrite L1; exact Ht|congruence|exact T1|discriminate|discriminate|exact Do].
  - cbn [bind] in H. apply (IH procs1 procs') with (done := done) in H; [exact H|rewrite L1; exact Ht|congruence|exact T1|discriminate|discriminate|exact Do].
Qed.

Lemma detect_told sg max fs procs : detect_riscv sg max fs = Ok (Some procs) -> told (rf_cpu fs) (fun i => i < length procs) procs.
Proof.
  intros H. pose proof (detect_numbered _ _ _ _ H) as (_ & L). unfold detect_riscv in H. destruct (detect_listed_processors _ _ _ _ _ _) as [(ok & fl)| |] eqn:E; try discriminate.
  cbn [bind] in H. apply listed_length in E; [|apply repeat_length]. rewrite repeat_length in E. destruct ok; [|discriminate]. cbn [negb] in H.
  pose proof (initial_length fl) as L0. rewrite E in L0.
  destruct (detect_level sg max (rf_cpu fs) RCore _ _) as [[p1|]| |] eqn:E1; try discriminate. cbn [bind] in H.
  assert (T1 : told (rf_cpu fs) (fun i => i < length procs) p1).
  { apply (level_told _ _ _ _ _ _ _ _ (all_below _ _ _ L0) L0 E1 (fun _ => False)); [intros i p []| | |congruence].
    { intros _. split; [apply seq_NoDup|]. intros i p _ Hp. rewrite initial_nth in Hp. destruct (nth_error fl i); [|discriminate]. injection Hp as <-. now split. }
    intros _ i Hi. right. apply in_seq. lia. }
  apply detect_level_keeps in E1; [|now apply all_below|exact L0]. pose proof (proj1 E1) as L1. rewrite L0 in L1.
  destruct (detect_level sg max (rf_cpu fs) RCluster _ p1) as [[p2|]| |] eqn:E2; try discriminate. cbn [bind] in H.
  assert (T2 : told (rf_cpu fs) (fun i => i < length procs) p2).
  { apply (level_told _ _ _ _ _ _ _ _ (all_below _ _ _ L1) L1 E2 _ T1); [discriminate|discriminate|auto]. }
  apply detect_level_keeps in E2; [|now apply all_below|exact L1]. pose proof (proj1 E2) as L2. rewrite L1 in L2.
  apply (level_told _ _ _ _ _ _ _ _ (all_below _ _ _ L2) L2 H _ T2); [discriminate|discriminate|auto].
Qed.

(** ** Publication *)

(** Every record written so far was copied from an entry whose processor points to it. *)
Record from_entries (done : list rproc) (s : rstate) : Prop := {
  fe_np : st_np s = length done;
  fe_ids : forall i p, nth_error done i = Some p -> exists x, nth_error (st_processors s) i = Some x /\ p_linux_id x = r_linux_id p;
  fe_cores : forall j c, j < st_nc s -> nth_error (st_cores s) j = Some c -> exists i p x, nth_error done i = Some p /\
    nth_error (st_processors s) i = Some x /\ p_core x = Some j /\ c_vendor c = r_vendor p /\ c_uarch c = r_uarch p;
  fe_clusters : forall j l, j < st_nl s -> nth_error (st_clusters s) j = Some l -> exists i p x, nth_error done i = Some p /\
    nth_error (st_processors s) i = Some x /\ p_cluster x = Some j /\ cl_vendor l = r_vendor p /\ cl_uarch l = r_uarch p;
  fe_nc : st_nc s = length (filter (leads RCore) done);
  fe_nl : st_nl s = length (filter (leads RCluster) done)
}.

Lemma modify_get {A} (l : list A) i f l' j x : modify l i f = Ok l' -> nth_error l' j = Some x ->
  exists y, nth_error l j = Some y /\ (x = y \/ j = i /\ x = f y).
Proof.
  unfold modify. destruct (nth_error l i) as [z|] eqn:Hz; intros E; [|discriminate]. injection E as <-. intros H. destruct (Nat.eq_dec i j) as [<-|Ne].
  - rewrite nth_error_upd_eq in H by (now apply nth_error_some_lt in Hz). exists z. split; [exact Hz|right]. split; [reflexivity|congruence].
  - rewrite nth_error_upd_neq in H by exact Ne. exists x. auto.
Qed.
Lemma copy_get {A} b (a : list A) n x a' n' j y : copy_if b a n x = Ok (a', n') -> j < n' -> nth_error a' j = Some y ->
  j < n /\ nth_error a j = Some y \/ b = true /\ j = n /\ n' = S n /\ y = x.
Proof.
  unfold copy_if. destruct b; intros E.
  - apply bind_inv in E. destruct E as (a1 & E & Q). apply wr_inv in E. destruct E as (L & ->). injection Q as <- <-. intros Hj Hy.
    destruct (Nat.eq_dec n j) as [<-|Ne].
    + rewrite nth_error_upd_eq in Hy by exact L. right. injection Hy as <-. auto.
    + rewrite nth_error_upd_neq in Hy by exact Ne. left. split; [lia|exact Hy].
  - injection E as <- <-. auto.
Qed.
Lemma copy_count {A} b (a : list A) n x a' n' : copy_if b a n x = Ok (a', n') -> n' = n + if b then 1 else 0.
Proof.
  unfold copy_if. destruct b; intros E.
  - apply bind_inv in E. destruct E as (a1 & _ & Q). injection Q as _ <-. lia.
  - injection E as _ <-. lia.
Qed.

Lemma transfer_one_from done p s s' : from_entries done s -> transfer_one p s = Ok s' -> from_entries (done ++ [p]) s'.
Proof.
  intros [F1 F2 F3 F4 F5 F6] H. unfold transfer_one in H.
  apply bind_inv in H. destruct H as ((uarchs & nu) & EU & H). apply bind_inv in H. destruct H as (processors & EP & H).
  apply bind_inv in H. destruct H as (u & EU0 & H). apply bind_inv in H. destruct H as (uarchs1 & EU1 & H).
  apply bind_inv in H. destruct H as ((cores & nc) & EC & H). apply bind_inv in H. destruct H as (uarchs2 & EU2 & H).
  apply bind_inv in H. destruct H as ((clusters & nl) & EL & H). apply bind_inv in H. destruct H as ((packages & nk) & _ & H).
  cbn [pred_index bind] in H. apply bind_inv in H. destruct H as (c & EPC & H). apply bind_inv in H. destruct H as (l & EPL & H).
  apply bind_inv in H. destruct H as (k & _ & H). apply bind_inv in H. destruct H as (processors1 & EP1 & H).
  apply bind_inv in H. destruct H as (cores1 & EC1 & H). apply bind_inv in H. destruct H as (clusters1 & EL1 & H).
  apply bind_inv in H. destruct H as (pm & EM1 & H). apply bind_inv in H. destruct H as (cm & EM2 & H).
  apply bind_inv in H. destruct H as (um & EM3 & H).
  injection H as <-. apply wr_inv in EP. destruct EP as (A1 & ->). rewrite F1 in *. apply wr_inv in EP1. destruct EP1 as (A2 & ->). rewrite upd_length in A2.
  assert (NC : nc = S c) by (destruct nc; [discriminate|]; now injection EPC as ->).
  assert (NL : nl = S l) by (destruct nl; [discriminate|]; now injection EPL as ->).
  set (x := Processor 0 (Some c) (Some l) (Some k) (r_linux_id p) 0) in *.
  assert (Hnew : nth_error (upd (upd (st_processors s) (length done) (Processor 0 None None None (r_linux_id p) 0)) (length done) x) (length done) = Some x)
    by (apply nth_error_upd_eq; now rewrite upd_length).
  assert (Hold : forall i y, i < length done -> nth_error (st_processors s) i = Some y ->
    nth_error (upd (upd (st_processors s) (length done) (Processor 0 None None None (r_linux_id p) 0)) (length done) x) i = Some y)
    by (intros i y Li Hy; rewrite !nth_error_upd_neq by lia; exact Hy).
  assert (Hend : nth_error (done ++ [p]) (length done) = Some p) by (rewrite nth_error_app2, Nat.sub_diag by lia; reflexivity).
  assert (Hmid : forall i q, nth_error done i = Some q -> nth_error (done ++ [p]) i = Some q)
    by (intros i q Hq; rewrite nth_error_app1 by (now apply nth_error_some_lt in Hq); exact Hq).
  split; cbn [st_np st_processors st_nc st_nl st_cores st_clusters].
  - rewrite app_length. cbn. lia.
  - intros i q Hq. destruct (Nat.eq_dec i (length done)) as [->|Ne].
    + assert (q = p) by congruence. subst q. exists x. split; [exact Hnew|reflexivity].
    + assert (Li : i < length done) by (apply nth_error_some_lt in Hq; rewrite app_length in Hq; cbn in Hq; lia).
      rewrite nth_error_app1 in Hq by exact Li. destruct (F2 i q Hq) as (y & Hy & Ey). exists y. split; [now apply Hold|exact Ey].
  - intros j cc Hj Hc. apply (modify_get _ _ _ _ _ _ EC1) in Hc. destruct Hc as (c0 & Hc0 & Ecc).
    assert (Q : c_vendor cc = c_vendor c0 /\ c_uarch cc = c_uarch c0) by (destruct Ecc as [->|(_ & ->)]; now split).
    destruct Q as (-> & ->). destruct (copy_get _ _ _ _ _ _ _ _ EC Hj Hc0) as [(Lj & Hj0)|(_ & Ej & En & ->)].
    + destruct (F3 j c0 Lj Hj0) as (i & q & y & Hq & Hy & X1 & X2 & X3). exists i, q, y. split; [now apply Hmid|].
      split; [apply Hold; [now apply nth_error_some_lt in Hq|exact Hy]|auto].
    + exists (length done), p, x. split; [exact Hend|]. split; [exact Hnew|]. split; [|now split]. cbn. f_equal. lia.
  - intros j cc Hj Hc. apply (modify_get _ _ _ _ _ _ EL1) in Hc. destruct Hc as (c0 & Hc0 & Ecc).
    assert (Q : cl_vendor cc = cl_vendor c0 /\ cl_uarch cc = cl_uarch c0) by (destruct Ecc as [->|(_ & ->)]; now split).
    destruct Q as (-> & ->). destruct (copy_get _ _ _ _ _ _ _ _ EL Hj Hc0) as [(Lj & Hj0)|(_ & Ej & En & ->)].
    + destruct (F4 j c0 Lj Hj0) as (i & q & y & Hq & Hy & X1 & X2 & X3). exists i, q, y. split; [now apply Hmid|].
      split; [apply Hold; [now apply nth_error_some_lt in Hq|exact Hy]|auto].
    + exists (length done), p, x. split; [exact Hend|]. split; [exact Hnew|]. split; [|now split]. cbn. f_equal. lia.
  - apply copy_count in EC. rewrite EC, F5, filter_app, app_length. cbn [filter]. destruct (leads RCore p); reflexivity.
  - apply copy_count in EL. rewrite EL, F6, filter_app, app_length. cbn [filter]. destruct (leads RCluster p); reflexivity.
Qed.

Lemma transfer_from : forall l done s s', from_entries done s -> (forall p, In p l -> r_valid p = true) -> transfer l s = Ok s' -> from_entries (done ++ l) s'.
Proof.
  induction l as [|p l IH]; intros done s s' F V H; cbn [transfer] in H; [injection H as <-; now rewrite app_nil_r|].
  rewrite (V p (or_introl eq_refl)) in H. cbn [negb] in H. apply bind_inv in H. destruct H as (a & E & H).
  change (done ++ p :: l) with (done ++ [p] ++ l). rewrite app_assoc. apply (IH (done ++ [p]) a); [|intros q Hq; apply V; now right|exact H].
  now apply (transfer_one_from done p s a).
Qed.

Lemma transfer_one_lengths p s s' : transfer_one p s = Ok s' -> length (st_cores s') = length (st_cores s) /\ length (st_clusters s') = length (st_clusters s).
Proof.
  intros H. unfold transfer_one in H.
  apply bind_inv in H. destruct H as ((uarchs & nu) & EU & H). apply bind_inv in H. destruct H as (processors & EP & H).
  apply bind_inv in H. destruct H as (u & EU0 & H). apply bind_inv in H. destruct H as (uarchs1 & EU1 & H).
  apply bind_inv in H. destruct H as ((cores & nc) & EC & H). apply bind_inv in H. destruct H as (uarchs2 & EU2 & H).
  apply bind_inv in H. destruct H as ((clusters & nl) & EL & H). apply bind_inv in H. destruct H as ((packages & nk) & _ & H).
  cbn [pred_index bind] in H. apply bind_inv in H. destruct H as (c & EPC & H). apply bind_inv in H. destruct H as (l & EPL & H).
  apply bind_inv in H. destruct H as (k & _ & H). apply bind_inv in H. destruct H as (processors1 & EP1 & H).
  apply bind_inv in H. destruct H as (cores1 & EC1 & H). apply bind_inv in H. destruct H as (clusters1 & EL1 & H).
  apply bind_inv in H. destruct H as (pm & EM1 & H). apply bind_inv in H. destruct H as (cm & EM2 & H).
  apply bind_inv in H. destruct H as (um & EM3 & H). injection H as <-. cbn [st_cores st_clusters].
  apply modify_inv in EC1, EL1. apply copy_inv in EC, EL. split; [rewrite EC1; apply EC|rewrite EL1; apply EL].
Qed.
Lemma transfer_lengths : forall l s s', transfer l s = Ok s' -> length (st_cores s') = length (st_cores s) /\ length (st_clusters s') = length (st_clusters s).
Proof.
  induction l as [|p l IH]; intros s s' H; cbn [transfer] in H; [injection H as <-; auto|]. destruct (negb (r_valid p)); [now apply IH|].
  apply bind_inv in H. destruct H as (a & E & H). apply transfer_one_lengths in E. apply IH in H. destruct E, H. split; congruence.
Qed.

Lemma riscv_vendors sg default sorter calloc_ok fs o t : riscv_sorter sorter ->
  riscv_linux_init sg default sorter calloc_ok fs = Ok o -> ro_published o = Some t ->
  (forall j c, nth_error (rt_cores t) j = Some c -> exists p, In p (rt_processors t) /\ p_core p = Some j /\
     riscv_vendor_told (rc_hwprobe (rf_cpu fs (N.to_nat (p_linux_id p)))) (c_vendor c) /\ c_uarch c = 0%N) /\
  (forall j l, nth_error (rt_clusters t) j = Some l -> exists p, In p (rt_processors t) /\ p_cluster p = Some j /\
     riscv_vendor_told (rc_hwprobe (rf_cpu fs (N.to_nat (p_linux_id p)))) (cl_vendor l) /\ cl_uarch l = 0%N).
Proof.
  intros Hs H Ho. unfold riscv_linux_init in H. apply bind_inv in H. destruct H as (max & _ & H).
  apply bind_inv in H. destruct H as (last & _ & H).
  destruct (u32 (1 + last) =? 0)%N; [injection H as <-; discriminate|]. destruct (negb (calloc_ok R_linux_processors)); [injection H as <-; discriminate|].
  apply bind_inv in H. destruct H as ([procs|] & E & H); [|injection H as <-; discriminate].
  destruct (rallocate calloc_ok riscv_allocations [R_linux_processors]) as (ok & live). destruct ok; [|injection H as <-; discriminate].
  apply bind_inv in H. destruct H as (t' & B & H). injection H as <-. cbn in Ho. injection Ho as ->.
  pose proof (detect_told _ _ _ _ E) as T. apply detect_numbered in E. destruct E as (Hn & _).
  assert (HU : Forall enum_uarch procs).
  { rewrite Forall_forall. intros p Hp. apply In_nth_error in Hp. destruct Hp as (c & Hc). unfold enum_uarch. rewrite (proj2 (Hn c p Hc)). reflexivity. }
  destruct (Hs procs HU) as (HP & _). unfold build_riscv in B. apply bind_inv in B. destruct B as (s & B & Q). injection Q as <-.
  cbn [rt_cores rt_clusters rt_processors]. rewrite transfer_filter in B. pose proof (transfer_lengths _ _ _ B) as (LC & LL). cbn [st_cores st_clusters] in LC, LL.
  rewrite repeat_length in LC, LL.
  assert (F : from_entries ([] ++ filter r_valid (sorter procs)) s).
  { apply (transfer_from _ _ _ _) with (3 := B); [|intros p Hp; now apply filter_In in Hp].
    split; cbn; try reflexivity; try (intros j c Hj; now apply Nat.nlt_0_r in Hj). intros i p Hp. destruct i; discriminate. }
  cbn [app] in F. destruct F as [F1 F2 F3 F4 F5 F6].
  assert (EC : count_entries (leads RCore) (sorter procs) = length (filter (leads RCore) (filter r_valid (sorter procs)))).
  { rewrite count_entries_filter. unfold count_entries. f_equal. apply filter_ext_in. intros p Hp. apply filter_In in Hp. destruct Hp as (_ & ->). reflexivity. }
  assert (EL : count_entries (leads RCluster) (sorter procs) = length (filter (leads RCluster) (filter r_valid (sorter procs)))).
  { rewrite count_entries_filter. unfold count_entries. f_equal. apply filter_ext_in. intros p Hp. apply filter_In in Hp. destruct Hp as (_ & ->). reflexivity. }
  assert (G : forall i p x, nth_error (filter r_valid (sorter procs)) i = Some p -> nth_error (st_processors s) i = Some x ->
    riscv_vendor_told (rc_hwprobe (rf_cpu fs (N.to_nat (p_linux_id x)))) (r_vendor p) /\ r_uarch p = 0%N).
  { intros i p x Hp Hx. destruct (F2 i p Hp) as (x' & Hx' & Ex). assert (x' = x) by congruence. subst x'. rewrite Ex.
    apply nth_error_In in Hp. apply filter_In in Hp. destruct Hp as (Hp & Vp). apply (Permutation_in _ (Permutation_sym HP)) in Hp.
    apply In_nth_error in Hp. destruct Hp as (c & Hc). destruct (Hn c p Hc) as (Hid & Hu). rewrite (Hid Vp), Nat2N.id. split; [|exact Hu].
    assert (Lc : c < length procs) by (now apply nth_error_some_lt in Hc). replace (r_vendor p) with (fst (hwprobe_decode (rc_hwprobe (rf_cpu fs c))))
      by (symmetry; exact (f_equal (fun d => fst (fst d)) (T c p Lc Hc Vp))). unfold hwprobe_decode, riscv_vendor_told, riscv_decode.
    destruct (rc_hwprobe (rf_cpu fs c)) as [[[a b] d]|]; [|reflexivity]. cbn [fst]. unfold riscv_vendor, u32. destruct (N.eqb_spec (a mod two32) 1161) as [Q|Q]; split; intros X; try reflexivity; try contradiction. }
  split.
  - intros j c Hc. pose proof Hc as Lj. apply nth_error_some_lt in Lj. destruct (F3 j c) as (i & p & x & Hp & Hx & X1 & X2 & X3); [lia|exact Hc|].
    destruct (G i p x Hp Hx) as (G1 & G2). exists x. split; [now apply nth_error_In in Hx|]. rewrite X2, X3. auto.
  - intros j c Hc. pose proof Hc as Lj. apply nth_error_some_lt in Lj. destruct (F4 j c) as (i & p & x & Hp & Hx & X1 & X2 & X3); [lia|exact Hc|].
    destruct (G i p x Hp Hx) as (G1 & G2). exists x. split; [now apply nth_error_In in Hx|]. rewrite X2, X3. auto.
Qed.
