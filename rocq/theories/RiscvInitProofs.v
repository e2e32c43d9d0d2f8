(** RISC-V Linux: initialization as a whole. *)
From Verif Require Import Base BaseProofs Sorting Runs GroupArray LinuxTextModel LinuxTextSpec LinuxTextProofs CpulistFileProofs
  TopologySpec X86LinuxSpec X86DetectProofs RiscvLinuxModel RiscvLinuxSpec RiscvGroupProofs RiscvTablesProofs RiscvReportProofs.
Open Scope nat_scope.

(** ** Files that describe a machine *)

Lemma initial_nth flags i : nth_error (initial_procs flags) i =
  option_map (fun f => RProc f (if has_flags f rflag_valid then N.of_nat i else 0) 0 0 0 0 rgroup0 rgroup0 rgroup0) (nth_error flags i).
Proof.
  unfold initial_procs.
  enough (H : forall l k i, nth_error (map (fun iq => let '(i, f) := iq in
      RProc f (if has_flags f rflag_valid then N.of_nat i else 0) 0 0 0 0 rgroup0 rgroup0 rgroup0) (combine (seq k (length l)) l)) i =
    option_map (fun f => RProc f (if has_flags f rflag_valid then N.of_nat (k + i) else 0) 0 0 0 0 rgroup0 rgroup0 rgroup0) (nth_error l i))
    by apply (H flags 0).
  induction l as [|f l IH]; intros k j; [now destruct j|]. cbn [length seq combine map].
  destruct j as [|j]; cbn [nth_error option_map]; [now rewrite Nat.add_0_r|]. rewrite IH. now rewrite Nat.add_succ_r.
Qed.

Lemma initial_length flags : length (initial_procs flags) = length flags.
Proof. unfold initial_procs. rewrite map_length, combine_length, seq_length. lia. Qed.

Lemma processor_id_total f w : exists id, get_processor_id_file f w = Ok id.
Proof.
  unfold get_processor_id_file.
  destruct (small_file_total (uint32_parser false) small_filesize f w 0%N) as [(t & _ & _ & E)|(E & _)];
    [unfold small_filesize; lia|..]; rewrite E; [|cbn; eauto]. destruct (uint32_parser false 0%N t). cbn. eauto.
Qed.

Lemma frequency_total f w : exists n, get_processor_frequency f w = Ok n.
Proof.
  unfold get_processor_frequency.
  destruct (small_file_total (uint32_parser false) small_filesize f w 0%N) as [(t & _ & _ & E)|(E & _)];
    [unfold small_filesize; lia|..]; rewrite E; [|cbn; eauto]. destruct (uint32_parser false 0%N t). cbn. eauto.
Qed.

Lemma detect_describes sg default fs cpus group : riscv_files_say default fs cpus group ->
  exists max last procs,
    get_max_processors_count default (f_contents (rf_kernel_max fs)) (f_reads (rf_kernel_max fs)) = Ok max /\
    get_max_listed_processor sg max (f_contents (rf_present_max fs)) (f_reads (rf_present_max fs)) = Ok last /\
    u32 (1 + last) <> 0%N /\
    detect_riscv sg (u32 (1 + last)) fs = Ok (Some procs) /\ ready cpus procs /\ length procs = N.to_nat (u32 (1 + last)) /\
    forall v c p, nth_error procs c = Some p -> r_valid p = true -> group_of v p = full cpus group v c.
Proof.
  intros [Hs (max & Hm & (H0 & H32) & Hbelow) (rs & Hpm & Hp & Hin) Hg].
  inversion Hpm as [f1 c1 r1 E1 W1 L1|]; subst. inversion Hp as [f2 c2 r2 E2 W2 L2|]; subst.
  destruct (max_listed_exact sg max (f_reads (rf_present_max fs)) c1 rs W1 L1 H0 H32) as (m & Hml & Hub & Em).
  exists max, (N.min m (max - 1)).
  assert (Eu : u32 (1 + N.min m (max - 1)) = (1 + N.min m (max - 1))%N) by (apply u32_small; unfold two32 in *; lia).
  rewrite Eu. set (mx := (1 + N.min m (max - 1))%N) in *.
  assert (Hmx : (mx < two32)%N) by (unfold mx, two32 in *; lia).
  assert (Hbelow' : Forall (fun c => (N.of_nat c < mx)%N) cpus).
  { rewrite Forall_forall in *. intros c Hc. specialize (Hbelow c Hc). apply Hin in Hc. specialize (Hub _ Hc). unfold mx. lia. }
  destruct (detect_listed_exact sg mx (N.lor rflag_present rflag_valid) (f_reads (rf_present fs)) c2 rs (repeat 0%N (N.to_nat mx)) W2 L2)
    as (fl & Ef & Lf & Hfl); [apply repeat_length|]. rewrite repeat_length in Lf.
  assert (Hflag : forall c f, nth_error fl c = Some f -> (In c cpus -> f = 0x1001%N) /\ (~ In c cpus -> f = 0%N)).
  { intros c f Hc. pose proof Hc as Hlt. apply nth_error_some_lt in Hlt. rewrite Lf in Hlt.
    destruct (Hfl c 0%N) as (A & B); [now apply nth_error_repeat|]. split; intros H.
    - apply Hin in H. rewrite (A H) in Hc. now injection Hc as <-.
    - rewrite B in Hc; [now injection Hc as <-|]. intros X. now apply H, Hin. }
  assert (HR : ready cpus (initial_procs fl)).
  { split.
    - split.
      + intros c p Hc. rewrite initial_nth in Hc. destruct (nth_error fl c) as [f|] eqn:Ec; [|discriminate]. injection Hc as <-.
        destruct (Hflag c f Ec) as (A & B). unfold r_valid. cbn [r_flags]. destruct (in_dec Nat.eq_dec c cpus) as [I|I].
        * rewrite (A I). now split.
        * rewrite (B I). split; [discriminate|contradiction].
      + intros c Hc. rewrite initial_nth. assert (Hx : exists f, nth_error fl c = Some f).
        { apply nth_error_lt. rewrite Lf. rewrite Forall_forall in Hbelow'. specialize (Hbelow' c Hc). lia. }
        destruct Hx as (f & ->). cbn. eauto.
    - intros c p Hc Hv. rewrite initial_nth in Hc. destruct (nth_error fl c) as [f|]; [|discriminate]. injection Hc as <-.
      unfold r_valid in Hv. cbn in Hv |- *. now rewrite Hv.
    - intros c p Hc. rewrite initial_nth in Hc. destruct (nth_error fl c) as [f|]; [|discriminate]. now injection Hc as <-. }
  assert (HF : forall v c p, nth_error (initial_procs fl) c = Some p -> r_valid p = true -> fresh v p).
  { intros v c p Hc Hv. rewrite initial_nth in Hc. destruct (nth_error fl c) as [f|] eqn:Ec; [|discriminate]. injection Hc as <-.
    destruct (Hflag c f Ec) as (A & B). unfold fresh. cbn [r_flags]. split; [|destruct v; repeat split].
    destruct (in_dec Nat.eq_dec c cpus) as [I|I]; [rewrite (A I)|rewrite (B I)]; destruct v; reflexivity. }
  destruct (three_levels sg mx (rf_cpu fs) cpus group Hmx Hs Hbelow' Hg (initial_procs fl) HR) as (p1 & p2 & p3 & D1 & D2 & D3 & R3 & L3 & F3).
  { now rewrite initial_length. } { exact HF. } { intros c. apply processor_id_total. } { intros c. apply frequency_total. }
  exists p3. split; [now apply max_says_exact|]. rewrite E1. split; [exact Em|]. split; [unfold mx; lia|].
  split; [|split; [exact R3|split; [now rewrite L3, initial_length|exact F3]]].
  unfold detect_riscv. rewrite E2, Ef. cbn [bind negb]. rewrite D1. cbn [bind]. rewrite D2. cbn [bind]. exact D3.
Qed.

Lemma zero_uarch_sorted l : Forall (fun p => r_uarch p = 0%N) l -> Forall enum_uarch l /\ in_uarch_order l.
Proof.
  induction 1 as [|p l Hp Hl (IH1 & IH2)]; [split; constructor|]. split; constructor; auto.
  - unfold enum_uarch. rewrite Hp. reflexivity.
  - rewrite Forall_forall in *. intros q Hq. unfold cmp_riscv_linux_processors. rewrite Hp, (Hl q Hq). reflexivity.
Qed.

Lemma sorted_table sorter cpus procs : order_keeping sorter -> ready cpus procs -> sorter procs = procs.
Proof.
  intros (_ & H) HR.
  assert (HU : Forall (fun p => r_uarch p = 0%N) procs).
  { rewrite Forall_forall. intros p Hp. apply In_nth_error in Hp. destruct Hp as (c & Hc). now apply (rd_uarch _ _ HR c). }
  destruct (zero_uarch_sorted procs HU) as (A & B). now apply H.
Qed.

Lemma allocations_succeed : rallocate (fun _ => true) riscv_allocations [R_linux_processors] =
  (true, [R_uarch_map; R_core_map; R_processor_map; R_uarchs; R_packages; R_clusters; R_cores; R_processors; R_linux_processors]).
Proof. reflexivity. Qed.

Lemma init_reports_leaders sg default sorter fs cpus group :
  riscv_files_say default fs cpus group -> nested cpus group -> contiguous cpus group -> order_keeping sorter ->
  exists max procs t o, detect_riscv sg max fs = Ok (Some procs) /\
    riscv_linux_init sg default sorter (fun _ => true) fs = Ok o /\ ro_published o = Some t /\ leaders_copied cpus group procs t /\
    riscv_reports cpus group t /\ riscv_maps t /\
    length (rt_processors t) = length cpus /\ length (rt_cores t) = distinct_groups group RCore cpus /\
    length (rt_clusters t) = distinct_groups group RCluster cpus /\ length (rt_packages t) = distinct_groups group RPackage cpus /\
    rt_uarchs t = (if length cpus =? 0 then [] else [UarchInfo 0 (length cpus) (length (rt_cores t))]) /\
    (forall u, In u (rt_uarch_index_map t) -> u = 0).
Proof.
  intros Hf Hn Hc Hs. destruct (detect_describes sg default fs cpus group Hf) as (max & last & procs & E1 & E2 & E3 & E4 & HR & HL & HF).
  destruct (build_reports cpus group procs (rs_ordered _ _ _ _ Hf) Hn Hc HR HF) as (t & B1 & B2 & B3 & B4 & B5 & B6 & B7 & B8 & B9 & B10 & B11).
  exists (u32 (1 + last)), procs, t. eexists. split; [exact E4|]. unfold riscv_linux_init. rewrite E1. cbn [bind]. rewrite E2. cbn [bind].
  replace (u32 (1 + last) =? 0)%N with false by (symmetry; now apply N.eqb_neq). cbn [negb]. rewrite E4. cbn [bind].
  rewrite (sorted_table sorter cpus procs Hs HR), allocations_succeed, B1. cbn [bind].
  split; [reflexivity|]. cbn [ro_published]. auto 14.
Qed.

Lemma init_reports sg default sorter fs cpus group :
  riscv_files_say default fs cpus group -> nested cpus group -> contiguous cpus group -> order_keeping sorter ->
  exists t o, riscv_linux_init sg default sorter (fun _ => true) fs = Ok o /\ ro_published o = Some t /\
    riscv_reports cpus group t /\ riscv_maps t /\
    length (rt_processors t) = length cpus /\ length (rt_cores t) = distinct_groups group RCore cpus /\
    length (rt_clusters t) = distinct_groups group RCluster cpus /\ length (rt_packages t) = distinct_groups group RPackage cpus /\
    rt_uarchs t = (if length cpus =? 0 then [] else [UarchInfo 0 (length cpus) (length (rt_cores t))]) /\
    (forall u, In u (rt_uarch_index_map t) -> u = 0).
Proof.
  intros Hf Hn Hc Hs. destruct (init_reports_leaders sg default sorter fs cpus group Hf Hn Hc Hs) as (max & procs & t & o & _ & H1 & H2 & _ & H).
  exists t, o. auto.
Qed.

(** ** Any files *)

(** Detection leaves the set of CPUs and their numbers alone. *)
Definition keeps (procs0 procs : list rproc) : Prop :=
  length procs = length procs0 /\
  forall c p0, nth_error procs0 c = Some p0 -> exists p, nth_error procs c = Some p /\
    r_valid p = r_valid p0 /\ r_linux_id p = r_linux_id p0 /\ (r_uarch p0 = 0%N -> r_uarch p = 0%N).

Lemma keeps_refl procs : keeps procs procs.
Proof. split; [reflexivity|]. intros c p H. exists p. auto. Qed.
Lemma keeps_trans a b c : keeps a b -> keeps b c -> keeps a c.
Proof.
  intros (L1 & H1) (L2 & H2). split; [congruence|]. intros i p Hp. destruct (H1 i p Hp) as (q & Hq & A1 & A2 & A3).
  destruct (H2 i q Hq) as (r & Hr & B1 & B2 & B3). exists r. split; [exact Hr|]. split; [congruence|]. split; [congruence|auto].
Qed.
Lemma keeps_upd procs i p q : nth_error procs i = Some p -> r_valid q = r_valid p -> r_linux_id q = r_linux_id p ->
  (r_uarch p = 0%N -> r_uarch q = 0%N) -> keeps procs (upd procs i q).
Proof.
  intros Hp H1 H2 H3. split; [apply upd_length|]. intros c p0 Hc. destruct (Nat.eq_dec i c) as [->|Hne].
  - assert (p0 = p) by congruence. subst. exists q. split; [apply nth_error_upd_eq; now apply nth_error_some_lt in Hp|auto].
  - exists p0. rewrite nth_error_upd_neq by exact Hne. auto.
Qed.

Lemma with_group_keeps v g p : r_valid (with_group v g p) = r_valid p /\ r_linux_id (with_group v g p) = r_linux_id p /\
  r_uarch (with_group v g p) = r_uarch p.
Proof. now destruct v. Qed.

Lemma lor_keeps f m : N.testbit m 12 = false -> has_flags (N.lor f m) rflag_valid = has_flags f rflag_valid.
Proof. intros H. now rewrite !has_valid, N.lor_spec, H, orb_false_r. Qed.

Lemma scan_range_keeps v : forall cpus s procs, Forall (fun c => c < length procs) cpus ->
  exists s' procs', scan_range v cpus s procs = Ok (s', procs') /\ keeps procs procs'.
Proof.
  induction cpus as [|c cpus IH]; intros s procs H; cbn [scan_range]; [exists s, procs; split; [reflexivity|apply keeps_refl]|].
  apply Forall_cons_iff in H. destruct H as (Hc & H). apply nth_error_lt in Hc. destruct Hc as (p & Hp).
  unfold rd. rewrite Hp. cbn [bind]. destruct (negb (r_valid p)); [now apply IH|].
  rewrite wr_ok by (now apply nth_error_some_lt in Hp). cbn [bind]. set (q := with_group v _ p).
  assert (K : keeps procs (upd procs c q)) by (destruct (with_group_keeps v (with_leader (sc_start (scan_one v c p s)) (group_of v p)) p)
    as (A & B & C); apply (keeps_upd procs c p q Hp); [exact A|exact B|unfold q; congruence]).
  destruct (IH (scan_one v c p s) (upd procs c q)) as (s' & procs' & E & K'); [rewrite upd_length; exact H|].
  exists s', procs'. split; [exact E|]. now apply (keeps_trans _ (upd procs c q)).
Qed.

Lemma cpus_parser_keeps v i procs first end_ : i < length procs -> N.to_nat end_ <= length procs ->
  exists procs', snd (cpus_parser v i (Ok procs) first end_) = Ok procs' /\ keeps procs procs'.
Proof.
  intros Hi He. unfold cpus_parser. cbn [bind]. pose proof Hi as Hx. apply nth_error_lt in Hx. destruct Hx as (p & Hp).
  unfold rd at 1. rewrite Hp. cbn [bind]. set (start := if has_flags _ _ then _ else _).
  destruct (scan_range_keeps v (seq (N.to_nat first) (N.to_nat end_ - N.to_nat first)) (RScan start 0 0 0) procs) as (s & procs' & E & K).
  { rewrite Forall_forall. intros c Hc. apply in_seq in Hc. lia. }
  rewrite E. cbn [bind]. pose proof (proj1 K) as L. assert (Hx : i < length procs') by lia. apply nth_error_lt in Hx. destruct Hx as (q & Hq).
  unfold rd. rewrite Hq. cbn [bind]. rewrite wr_ok by lia. cbn [bind snd]. eexists. split; [reflexivity|].
  apply (keeps_trans _ procs'); [exact K|]. apply (keeps_upd procs' i q); [exact Hq|..].
  - unfold r_valid. cbn [with_rflags r_flags]. apply lor_keeps. now destruct v.
  - destruct v; reflexivity.
  - now destruct v.
Qed.

Lemma siblings_keeps max v i procs c a b : i < length procs -> length procs = N.to_nat max ->
  (exists p, c = Ok p /\ keeps procs p) ->
  exists p, snd (siblings_parser max (cpus_parser v i) c a b) = Ok p /\ keeps procs p.
Proof.
  intros Hi Hl (p & -> & K). unfold siblings_parser. pose proof (proj1 K) as L.
  destruct (cpus_parser_keeps v i p a (if (max <? b)%N then max else b)) as (p' & Ep & K').
  { lia. } { destruct (N.ltb_spec max b); lia. }
  exists p'. split; [exact Ep|]. now apply (keeps_trans _ p).
Qed.

Lemma detect_group_keeps sg max v i f procs ok procs' : i < length procs -> length procs = N.to_nat max ->
  detect_group sg max v i f procs = Ok (ok, procs') -> keeps procs procs'.
Proof.
  intros Hi Hl H. unfold detect_group, detect_siblings in H.
  destruct (parse_cpulist (siblings_parser max (cpus_parser v i)) sg (f_contents f) (f_reads f) (Ok procs)) as [[ok' ctx]| |] eqn:E;
    try discriminate. cbn [bind] in H.
  destruct (cpulist_invariant (siblings_parser max (cpus_parser v i)) sg (fun c => exists p, c = Ok p /\ keeps procs p)
    _ _ _ _ _ (fun c a b => siblings_keeps max v i procs c a b Hi Hl) (ex_intro _ procs (conj eq_refl (keeps_refl procs))) E)
    as (p & -> & K).
  cbn [bind] in H. injection H as _ <-. exact K.
Qed.

Lemma detect_group_total sg max v i f procs : i < length procs -> length procs = N.to_nat max -> commas (f_contents f) ->
  exists ok procs', detect_group sg max v i f procs = Ok (ok, procs').
Proof.
  intros Hi Hl Hc. unfold detect_group, detect_siblings.
  destruct (cpulist_safe (siblings_parser max (cpus_parser v i)) sg (f_contents f) (f_reads f) (Ok procs) Hc) as ((ok & ctx) & E).
  rewrite E. cbn [bind].
  destruct (cpulist_invariant (siblings_parser max (cpus_parser v i)) sg (fun c => exists p, c = Ok p /\ keeps procs p)
    _ _ _ _ _ (fun c a b => siblings_keeps max v i procs c a b Hi Hl) (ex_intro _ procs (conj eq_refl (keeps_refl procs))) E)
    as (p & -> & K).
  cbn [bind]. eauto.
Qed.

Lemma fill_core_keeps i c procs : i < length procs -> exists procs', fill_core i c procs = Ok procs' /\ keeps procs procs'.
Proof.
  intros Hi. unfold fill_core. destruct (processor_id_total (f_contents (rc_core_id c)) (f_reads (rc_core_id c))) as (id & ->). cbn [bind].
  apply nth_error_lt in Hi. destruct Hi as (p & Hp). destruct (hwprobe_decode (rc_hwprobe c)) as (vendor & uarch) eqn:E.
  destruct (frequency_total (f_contents (rc_frequency c)) (f_reads (rc_frequency c))) as (khz & ->). cbn [bind].
  rewrite (modify_ok _ _ _ _ p Hp). eexists. split; [reflexivity|]. apply (keeps_upd procs i p); [exact Hp|..]; cbn.
  - unfold r_valid. cbn. destruct (khz =? 0)%N, id; try rewrite lor_keeps by reflexivity; try reflexivity; now apply lor_keeps.
  - reflexivity.
  - intros _. unfold hwprobe_decode in E. destruct (rc_hwprobe c) as [((a & b) & d)|]; cbn in E; now injection E as _ <-.
Qed.

Lemma detect_level_keeps sg max files v : forall todo procs procs', Forall (fun c => c < length procs) todo -> length procs = N.to_nat max ->
  detect_level sg max files v todo procs = Ok (Some procs') -> keeps procs procs'.
Proof.
  induction todo as [|i todo IH]; intros procs procs' Ht Hl H; cbn [detect_level] in H; [injection H as <-; apply keeps_refl|].
  apply Forall_cons_iff in Ht. destruct Ht as (Hi & Ht). pose proof Hi as Hx. apply nth_error_lt in Hx. destruct Hx as (p & Hp).
  unfold rd in H. rewrite Hp in H. cbn [bind] in H. destruct (negb (r_valid p)); [now apply IH|].
  destruct (detect_group sg max v i (level_file v (files i)) procs) as [(ok & procs1)| |] eqn:E; try discriminate. cbn [bind] in H.
  apply detect_group_keeps in E; [|exact Hi|exact Hl]. destruct ok; [|discriminate]. cbn [negb] in H.
  assert (K : exists procs2, (match v with RCore => fill_core i (files i) procs1 | _ => Ok procs1 end) = Ok procs2 /\ keeps procs1 procs2).
  { destruct v; [apply fill_core_keeps; rewrite (proj1 E); exact Hi|..]; exists procs1; (split; [reflexivity|apply keeps_refl]). }
  destruct K as (procs2 & E2 & K). rewrite E2 in H. cbn [bind] in H.
  pose proof (keeps_trans _ _ _ E K) as K2. pose proof (proj1 K2) as L2. apply IH in H; [|rewrite L2; exact Ht|congruence].
  now apply (keeps_trans _ procs2).
Qed.

Lemma detect_level_total sg max files v : forall todo procs, Forall (fun c => c < length procs) todo -> length procs = N.to_nat max ->
  (forall c, commas (f_contents (level_file v (files c)))) -> exists r, detect_level sg max files v todo procs = Ok r.
Proof.
  induction todo as [|i todo IH]; intros procs Ht Hl Hc; cbn [detect_level]; [eauto|].
  apply Forall_cons_iff in Ht. destruct Ht as (Hi & Ht). pose proof Hi as Hx. apply nth_error_lt in Hx. destruct Hx as (p & Hp).
  unfold rd. rewrite Hp. cbn [bind]. destruct (negb (r_valid p)); [now apply IH|].
  destruct (detect_group_total sg max v i (level_file v (files i)) procs Hi Hl (Hc i)) as (ok & procs1 & E). rewrite E. cbn [bind].
  apply detect_group_keeps in E; [|exact Hi|exact Hl]. destruct ok; [|cbn; eauto]. cbn [negb].
  assert (K : exists procs2, (match v with RCore => fill_core i (files i) procs1 | _ => Ok procs1 end) = Ok procs2 /\ keeps procs1 procs2).
  { destruct v; [apply fill_core_keeps; rewrite (proj1 E); exact Hi|..]; exists procs1; (split; [reflexivity|apply keeps_refl]). }
  destruct K as (procs2 & E2 & K). rewrite E2. cbn [bind]. pose proof (proj1 (keeps_trans _ _ _ E K)) as L2.
  apply IH; [rewrite L2; exact Ht|congruence|exact Hc].
Qed.

(** A detected table: every CPU of it carries the number of its entry. *)
Definition numbered (procs : list rproc) : Prop :=
  forall c p, nth_error procs c = Some p -> (r_valid p = true -> r_linux_id p = N.of_nat c) /\ r_uarch p = 0%N.

Lemma keeps_numbered a b : keeps a b -> numbered a -> numbered b.
Proof.
  intros (L & K) H c p Hp. assert (Hx : exists q, nth_error a c = Some q) by (apply nth_error_lt; apply nth_error_some_lt in Hp; lia).
  destruct Hx as (q & Hq). destruct (K c q Hq) as (p' & Hp' & A & B & C). assert (p' = p) by congruence. subst.
  destruct (H c q Hq) as (D & E). split; [|auto]. intros Hv. rewrite B. apply D. congruence.
Qed.

Lemma listed_keeps max flag (fl : list N) c a b : length fl = N.to_nat max -> (exists l, c = Ok l /\ length l = length fl) ->
  exists l, snd (detect_processor_parser max flag c a b) = Ok l /\ length l = length fl.
Proof.
  intros Hl (l & -> & L). unfold detect_processor_parser. cbn [bind snd].
  destruct (detect_range_spec max flag (N.to_nat (N.min b max - a)) a b l) as (l' & E & L' & _); [congruence|lia|].
  exists l'. split; [exact E|congruence].
Qed.

Lemma listed_length sg max flag f w fl ok fl' : length fl = N.to_nat max ->
  detect_listed_processors sg max flag f w fl = Ok (ok, fl') -> length fl' = length fl.
Proof.
  intros Hl H. unfold detect_listed_processors in H.
  destruct (parse_cpulist (detect_processor_parser max flag) sg f w (Ok fl)) as [(ok' & ctx)| |] eqn:E; try discriminate. cbn [bind] in H.
  destruct (cpulist_invariant (detect_processor_parser max flag) sg (fun c => exists l, c = Ok l /\ length l = length fl)
    f w (Ok fl) ok' ctx (fun c a b => listed_keeps max flag fl c a b Hl) (ex_intro _ fl (conj eq_refl eq_refl)) E) as (l & -> & L).
  cbn [bind] in H. now injection H as _ <-.
Qed.

Lemma listed_total sg max flag f w fl : length fl = N.to_nat max -> commas f ->
  exists ok fl', detect_listed_processors sg max flag f w fl = Ok (ok, fl').
Proof.
  intros Hl Hc. unfold detect_listed_processors.
  destruct (cpulist_safe (detect_processor_parser max flag) sg f w (Ok fl) Hc) as ((ok & ctx) & E). rewrite E. cbn [bind].
  destruct (cpulist_invariant (detect_processor_parser max flag) sg (fun c => exists l, c = Ok l /\ length l = length fl)
    f w (Ok fl) ok ctx (fun c a b => listed_keeps max flag fl c a b Hl) (ex_intro _ fl (conj eq_refl eq_refl)) E) as (l & -> & L).
  cbn [bind]. eauto.
Qed.

Lemma initial_numbered fl : numbered (initial_procs fl).
Proof.
  intros c p Hc. rewrite initial_nth in Hc. destruct (nth_error fl c) as [f|]; [|discriminate]. injection Hc as <-.
  cbn. split; [|reflexivity]. unfold r_valid. cbn. intros Hv. now rewrite Hv.
Qed.

Lemma all_below A (l : list A) n : length l = n -> Forall (fun c => c < length l) (seq 0 n).
Proof. intros <-. rewrite Forall_forall. intros c Hc. apply in_seq in Hc. lia. Qed.

Lemma detect_numbered sg max fs procs : detect_riscv sg max fs = Ok (Some procs) -> numbered procs /\ length procs = N.to_nat max.
Proof.
  intros H. unfold detect_riscv in H. destruct (detect_listed_processors _ _ _ _ _ _) as [(ok & fl)| |] eqn:E; try discriminate.
  cbn [bind] in H. apply listed_length in E; [|apply repeat_length]. rewrite repeat_length in E. destruct ok; [|discriminate]. cbn [negb] in H.
  pose proof (initial_length fl) as L0. rewrite E in L0.
  destruct (detect_level sg max (rf_cpu fs) RCore _ _) as [[p1|]| |] eqn:E1; try discriminate. cbn [bind] in H.
  apply detect_level_keeps in E1; [|now apply all_below|exact L0]. pose proof (proj1 E1) as L1. rewrite L0 in L1.
  destruct (detect_level sg max (rf_cpu fs) RCluster _ p1) as [[p2|]| |] eqn:E2; try discriminate. cbn [bind] in H.
  apply detect_level_keeps in E2; [|now apply all_below|exact L1]. pose proof (proj1 E2) as L2. rewrite L1 in L2.
  apply detect_level_keeps in H; [|now apply all_below|exact L2]. split; [|rewrite (proj1 H); exact L2].
  apply (keeps_numbered p2 _ H), (keeps_numbered p1 _ E2), (keeps_numbered _ _ E1), initial_numbered.
Qed.

(** ** Any table *)

(** What the transfer loop guarantees without assumptions about the groups:
    [done] are the entries transferred so far. *)
Record wstate (M n : nat) (done : list rproc) (s : rstate) : Prop := {
  ws_np : st_np s = length done;
  ws_lengths : length (st_processors s) = n /\ length (st_processor_map s) = M /\ length (st_core_map s) = M /\ length (st_uarch_map s) = M;
  ws_listed : forall i p, nth_error done i = Some p -> exists x, nth_error (st_processors s) i = Some x /\
     p_linux_id x = r_linux_id p /\ nth_error (st_processor_map s) (N.to_nat (r_linux_id p)) = Some (Some i) /\
     nth_error (st_core_map s) (N.to_nat (r_linux_id p)) = Some (p_core x);
  ws_unlisted : forall c, c < M -> (forall p, In p done -> N.to_nat (r_linux_id p) <> c) ->
     nth_error (st_processor_map s) c = Some None /\ nth_error (st_core_map s) c = Some None;
  ws_uarch : st_nu s <= length (st_uarchs s) /\ (done <> [] -> 0 < st_nu s) /\
     (forall u, In u (st_uarch_map s) -> u = 0 \/ u < st_nu s)
}.

Lemma In_upd A (l : list A) i x y : In y (upd l i x) -> y = x \/ In y l.
Proof.
  intros H. apply In_nth_error in H. destruct H as (j & Hj). destruct (Nat.eq_dec i j) as [<-|Hne].
  - left. pose proof Hj as Hlt. apply nth_error_some_lt in Hlt. rewrite upd_length in Hlt. rewrite nth_error_upd_eq in Hj by exact Hlt. congruence.
  - right. rewrite nth_error_upd_neq in Hj by exact Hne. now apply nth_error_In in Hj.
Qed.

Lemma modify_inv A (l : list A) i f l' : modify l i f = Ok l' -> length l' = length l.
Proof. unfold modify. destruct (nth_error l i); intros H; [|discriminate]. injection H as <-. apply upd_length. Qed.

Lemma copy_inv A b (a : list A) n x a' n' : copy_if b a n x = Ok (a', n') -> length a' = length a /\ n <= n' /\
  (n <= length a -> n' <= length a) /\ (b = true -> 0 < n').
Proof.
  unfold copy_if. destruct b.
  - unfold wr. destruct (Nat.ltb_spec n (length a)) as [Hlt|Hlt]; cbn; intros H; [|discriminate]. injection H as <- <-. rewrite upd_length.
    repeat split; lia.
  - intros H. injection H as <- <-. repeat split; auto. discriminate.
Qed.

Lemma wr_inv A (l : list A) i x l' : wr l i x = Ok l' -> i < length l /\ l' = upd l i x.
Proof.
  unfold wr. destruct (Nat.ltb_spec i (length l)) as [H|H]; intros E; [|discriminate]. injection E as <-. auto.
Qed.

Lemma bind_inv A B (e : res A) (f : A -> res B) b : bind e f = Ok b -> exists a, e = Ok a /\ f a = Ok b.
Proof. destruct e as [a| |]; cbn; [eauto|discriminate|discriminate]. Qed.

Lemma transfer_one_wstate M n done p s s' : wstate M n done s -> transfer_one p s = Ok s' ->
  (forall q, In q done -> r_linux_id q <> r_linux_id p) -> wstate M n (done ++ [p]) s'.
Proof.
  intros [W1 (L1 & L2 & L3 & L4) W3 W4 (U1 & U2 & U3)] H Hd. unfold transfer_one in H.
  apply bind_inv in H. destruct H as ((uarchs & nu) & EU & H). apply bind_inv in H. destruct H as (processors & EP & H).
  apply bind_inv in H. destruct H as (u & EU0 & H). apply bind_inv in H. destruct H as (uarchs1 & EU1 & H).
  apply bind_inv in H. destruct H as ((cores & nc) & _ & H). apply bind_inv in H. destruct H as (uarchs2 & EU2 & H).
  apply bind_inv in H. destruct H as ((clusters & nl) & _ & H). apply bind_inv in H. destruct H as ((packages & nk) & _ & H).
  cbn [pred_index bind] in H. apply bind_inv in H. destruct H as (c & _ & H). apply bind_inv in H. destruct H as (l & _ & H).
  apply bind_inv in H. destruct H as (k & _ & H). apply bind_inv in H. destruct H as (processors1 & EP1 & H).
  apply bind_inv in H. destruct H as (cores1 & _ & H). apply bind_inv in H. destruct H as (clusters1 & _ & H).
  apply bind_inv in H. destruct H as (pm & EM1 & H). apply bind_inv in H. destruct H as (cm & EM2 & H).
  apply bind_inv in H. destruct H as (um & EM3 & H).
  injection H as <-. apply wr_inv in EP. destruct EP as (A1 & ->). rewrite W1 in *.
  repeat match goal with E : wr _ _ _ = Ok _ |- _ => apply wr_inv in E; destruct E as (? & ->) end.
  rewrite ?upd_length in *.
  split; cbn [st_np st_processors st_processor_map st_core_map st_uarch_map].
  - rewrite app_length. cbn. lia.
  - rewrite !upd_length. auto.
  - intros i q Hq. destruct (Nat.eq_dec i (length done)) as [->|Hi].
    + rewrite nth_error_app2, Nat.sub_diag in Hq by lia. injection Hq as <-.
      eexists. split; [apply nth_error_upd_eq; rewrite upd_length; lia|]. cbn [p_linux_id p_core].
      split; [reflexivity|]. split; apply nth_error_upd_eq; lia.
    + assert (Hlt : i < length done) by (apply nth_error_some_lt in Hq; rewrite app_length in Hq; cbn in Hq; lia).
      rewrite nth_error_app1 in Hq by exact Hlt. destruct (W3 i q Hq) as (x & X1 & X2 & X3 & X4).
      assert (Hne : N.to_nat (r_linux_id p) <> N.to_nat (r_linux_id q)) by (specialize (Hd q (nth_error_In _ _ Hq)); lia).
      exists x. rewrite !nth_error_upd_neq by lia. auto.
  - intros cpu Hc Hno. assert (Hne : N.to_nat (r_linux_id p) <> cpu) by (apply Hno, in_or_app; right; now left).
    rewrite !nth_error_upd_neq by exact Hne. apply W4; [exact Hc|]. intros q Hq. apply Hno, in_or_app. now left.
  - cbn [st_nu st_uarchs]. apply copy_inv in EU. destruct EU as (C1 & C2 & C3 & C4). apply modify_inv in EU1.
    assert (LU : length uarchs2 = length uarchs1).
    { destruct (leads RCore p); [now apply modify_inv in EU2|now injection EU2 as <-]. }
    assert (Hu : S u = nu) by (destruct nu; [discriminate|]; now injection EU0 as ->).
    split; [lia|]. split; [lia|]. intros x Hx. apply In_upd in Hx. destruct Hx as [->|Hx]; [right; lia|]. destruct (U3 x Hx); [now left|right; lia].
Qed.

Lemma transfer_wstate M n : forall l done s s', wstate M n done s -> (forall p, In p l -> r_valid p = true) ->
  NoDup (map r_linux_id (done ++ l)) -> transfer l s = Ok s' -> wstate M n (done ++ l) s'.
Proof.
  induction l as [|p l IH]; intros done s s' HW Hv Hd H; cbn [transfer] in H; [injection H as <-; now rewrite app_nil_r|].
  rewrite (Hv p (or_introl eq_refl)) in H. cbn [negb] in H. apply bind_inv in H. destruct H as (a & E & H).
  change (done ++ p :: l) with (done ++ [p] ++ l) in *. rewrite app_assoc in *.
  apply (IH (done ++ [p]) a); [|intros q Hq; apply Hv; now right|exact Hd|exact H].
  apply (transfer_one_wstate M n done p s a HW E). intros q Hq Heq.
  rewrite !map_app in Hd. cbn [map] in Hd. rewrite <- app_assoc in Hd. cbn [app] in Hd. apply NoDup_remove_2 in Hd.
  apply Hd, in_or_app. left. apply in_map_iff. eauto.
Qed.

Lemma numbered_ids procs : numbered procs -> NoDup (map r_linux_id (filter r_valid procs)).
Proof.
  intros H.
  enough (G : forall l k, (forall i p, nth_error l i = Some p -> r_valid p = true -> r_linux_id p = N.of_nat (k + i)) ->
    NoDup (map r_linux_id (filter r_valid l)) /\ Forall (fun x => (N.of_nat k <= x)%N) (map r_linux_id (filter r_valid l)))
    by (apply (G procs 0); intros i p Hp; now apply (H i p)).
  induction l as [|p l IH]; intros k Hk; cbn [filter map]; [split; constructor|].
  destruct (IH (S k)) as (A & B). { intros i q Hq Hv. replace (S k + i) with (k + S i) by lia. now apply Hk. }
  destruct (r_valid p) eqn:Ev; cbn [map].
  - rewrite (Hk 0 p eq_refl Ev), Nat.add_0_r. split; constructor; auto; [|lia|].
    + intros X. rewrite Forall_forall in B. specialize (B _ X). lia.
    + eapply Forall_impl; [|exact B]. intros a Ha. cbn in Ha. lia.
  - split; [exact A|]. eapply Forall_impl; [|exact B]. intros a Ha. cbn in Ha. lia.
Qed.

Lemma count_all l : count_entries (fun _ => true) l = length (filter r_valid l).
Proof. unfold count_entries. f_equal. apply filter_ext. intros p. apply andb_true_r. Qed.

Lemma build_lists procs l t : numbered procs -> Permutation procs l -> build_riscv l = Ok t ->
  riscv_maps t /\ NoDup (map p_linux_id (rt_processors t)) /\ rt_linux_cpu_max t = N.of_nat (length procs) /\
  (rt_processors t <> [] -> Forall (fun u => u < length (rt_uarchs t)) (rt_uarch_index_map t)) /\
  forall c, In (N.of_nat c) (map p_linux_id (rt_processors t)) <-> exists p, nth_error procs c = Some p /\ r_valid p = true.
Proof.
  intros Hn Hp H. unfold build_riscv in H. apply bind_inv in H. destruct H as (a & E & H). injection H as <-.
  rewrite transfer_filter in E. rewrite count_all in E. set (W := filter r_valid l) in *.
  assert (HPW : Permutation (filter r_valid procs) W).
  { unfold W. clear -Hp. induction Hp; cbn; auto.
    - destruct (r_valid x); auto.
    - destruct (r_valid x), (r_valid y); auto. apply perm_swap.
    - eapply perm_trans; eauto. }
  assert (HND : NoDup (map r_linux_id W)) by (apply (Permutation_NoDup (Permutation_map r_linux_id HPW)), numbered_ids, Hn).
  apply (transfer_wstate (length l) (length W) W []) in E; [|split|intros p Hin; now apply filter_In in Hin|exact HND].
  2:{ reflexivity. }
  2:{ cbn. rewrite !repeat_length. auto. }
  2:{ intros [|i] p X; discriminate. }
  2:{ intros c Hc _. cbn. split; now apply nth_error_repeat. }
  2:{ cbn. split; [lia|]. split; [congruence|]. intros u Hu. apply repeat_spec in Hu. now left. }
  cbn [app] in E. destruct E as [E1 (L1 & L2 & L3 & L4) E3 E4 (U1 & U2 & U3)].
  assert (EID : map p_linux_id (st_processors a) = map r_linux_id W).
  { apply nth_error_ext. intros i. destruct (nth_error W i) as [p|] eqn:Ei.
    - rewrite (map_nth_error _ _ _ Ei). destruct (E3 i p Ei) as (x & Hx & Hid & _). rewrite (map_nth_error _ _ _ Hx). now rewrite Hid.
    - apply nth_error_None in Ei. rewrite !(proj2 (nth_error_None _ i)); [reflexivity|rewrite map_length; lia|rewrite map_length; lia]. }
  split; [split; cbn|].
  - rewrite Nat2N.id. auto.
  - intros i x Hx. assert (Hi : i < length W) by (apply nth_error_some_lt in Hx; lia). apply nth_error_lt in Hi. destruct Hi as (p & Hi).
    destruct (E3 i p Hi) as (x' & Hx' & Hid & A & B). assert (x' = x) by congruence. subst x'. rewrite Hid. auto.
  - rewrite Nat2N.id. intros c Hc Hno. apply E4; [exact Hc|]. intros p Hin. apply In_nth_error in Hin. destruct Hin as (i & Hi).
    destruct (E3 i p Hi) as (x & Hx & Hid & _). rewrite <- Hid. apply Hno. now apply nth_error_In in Hx.
  - cbn. rewrite EID. split; [exact HND|]. split; [now rewrite (Permutation_length Hp)|]. split.
    { intros Hne. assert (W <> []) by (intros X; rewrite X in L1; destruct (st_processors a); [now apply Hne|discriminate]).
      rewrite Forall_forall. intros u Hu. specialize (U2 H). destruct (U3 u Hu); lia. }
    intros c. rewrite in_map_iff. split.
    + intros (p & Hid & Hin). apply (Permutation_in _ (Permutation_sym HPW)) in Hin. apply filter_In in Hin. destruct Hin as (Hin & Hv).
      apply In_nth_error in Hin. destruct Hin as (i & Hi). destruct (Hn i p Hi) as (Hx & _). rewrite (Hx Hv) in Hid.
      assert (i = c) by lia. subst. eauto.
    + intros (p & Hc & Hv). exists p. split; [now apply (Hn c p)|]. apply (Permutation_in _ HPW), filter_In. split; [now apply nth_error_In in Hc|exact Hv].
Qed.

(** ** No access outside the tables when the first CPU leads its groups *)

Lemma modify_total A (l : list A) i f : i < length l -> exists l', modify l i f = Ok l' /\ length l' = length l.
Proof.
  intros H. apply nth_error_lt in H. destruct H as (x & Hx). rewrite (modify_ok _ _ _ _ _ Hx).
  eexists. split; [reflexivity|apply upd_length].
Qed.
Lemma wr_total A (l : list A) i x : i < length l -> exists l', wr l i x = Ok l' /\ length l' = length l.
Proof. intros H. rewrite wr_ok by exact H. eexists. split; [reflexivity|apply upd_length]. Qed.

Section TOTAL.
  Variables (W : list rproc) (M : nat).
  Let n := length W.
  Hypothesis Hvalid : forall p, In p W -> r_valid p = true.
  Hypothesis Huarch : forall p, In p W -> r_uarch p = 0%N.
  Hypothesis Hid : forall p, In p W -> N.to_nat (r_linux_id p) < M.
  Hypothesis Hfirst : forall v, 0 < n -> nw W v 0 = true.

  Record lstate (k : nat) (s : rstate) : Prop := {
    ls_processors : length (st_processors s) = n;
    ls_cores : length (st_cores s) = cnt n (nw W RCore); ls_clusters : length (st_clusters s) = cnt n (nw W RCluster);
    ls_packages : length (st_packages s) = cnt n (nw W RPackage);
    ls_uarchs : length (st_uarchs s) = min 1 n;
    ls_maps : length (st_processor_map s) = M /\ length (st_core_map s) = M /\ length (st_uarch_map s) = M;
    ls_np : st_np s = k; ls_nc : st_nc s = cnt k (nw W RCore); ls_nl : st_nl s = cnt k (nw W RCluster);
    ls_nk : st_nk s = cnt k (nw W RPackage); ls_nu : st_nu s = min 1 k; ls_last : st_last s = 0%N
  }.

  Lemma copy_total A (a : list A) v k x : k < n -> length a = cnt n (nw W v) ->
    exists a', copy_if (nw W v k) a (cnt k (nw W v)) x = Ok (a', cnt (S k) (nw W v)) /\ length a' = length a.
  Proof.
    intros Hk Hl. destruct (nw W v k) eqn:E; cbn [copy_if].
    - pose proof (cnt_mono (nw W v) (S k) n Hk) as HM. rewrite (cnt_S_true _ _ E) in HM.
      destruct (wr_total _ a (cnt k (nw W v)) x ltac:(lia)) as (a' & -> & L). cbn [bind]. rewrite (cnt_S_true _ _ E). eauto.
    - rewrite (cnt_S_false _ _ E). eauto.
  Qed.

  Lemma transfer_one_total k p s : k < n -> nth_error W k = Some p -> lstate k s -> exists s', transfer_one p s = Ok s' /\ lstate (S k) s'.
  Proof.
    intros Hk Hp [T1 T2 T3 T4 T5 (T6 & T7 & T8) T9 T10 T11 T12 T13 T14].
    assert (Hn : 0 < n) by lia. assert (Hin : In p W) by (now apply nth_error_In in Hp).
    assert (Hlead : forall v, leads v p = nw W v k) by (intros v; unfold nw; now rewrite Hp).
    unfold transfer_one. rewrite T9, T10, T11, T12, T13, T14, (Huarch p Hin), !Hlead. change (negb (0 =? 0)%N) with false. cbn [orb].
    assert (EU : exists uarchs, copy_if (min 1 k =? 0) (st_uarchs s) (min 1 k) (UarchInfo 0 0 0) = Ok (uarchs, 1) /\ length uarchs = min 1 n).
    { destruct k as [|k]; cbn [Nat.min Nat.eqb copy_if].
      - destruct (wr_total _ (st_uarchs s) 0 (UarchInfo 0 0 0)) as (a & -> & L); [lia|]. cbn [bind]. exists a. split; [reflexivity|exact (eq_trans L T5)].
      - exists (st_uarchs s). destruct k; auto. }
    destruct EU as (uarchs & -> & LU). cbn [bind].
    destruct (wr_total _ (st_processors s) k (Processor 0 None None None (r_linux_id p) 0) ltac:(lia)) as (ps & -> & LP). cbn [bind pred_index].
    destruct (modify_total _ uarchs 0 (fun i => UarchInfo (ua_uarch i) (S (ua_processors i)) (ua_cores i)) ltac:(lia)) as (uarchs1 & -> & LU1). cbn [bind].
    destruct (copy_total _ (st_cores s) RCore k (core_record p) Hk T2) as (cores & -> & LC). cbn [bind].
    assert (EU2 : exists u2, (if nw W RCore k then modify uarchs1 0 (fun i => UarchInfo (ua_uarch i) (ua_processors i) (S (ua_cores i))) else Ok uarchs1)
      = Ok u2 /\ length u2 = length uarchs1).
    { destruct (nw W RCore k); [apply modify_total; lia|eauto]. }
    destruct EU2 as (uarchs2 & -> & LU2). cbn [bind].
    destruct (copy_total _ (st_clusters s) RCluster k (cluster_record p) Hk T3) as (clusters & -> & LL). cbn [bind].
    destruct (copy_total _ (st_packages s) RPackage k (package_record p) Hk T4) as (packages & -> & LK). cbn [bind].
    assert (HP : forall v, pred_index (cnt (S k) (nw W v)) = Ok (grp (nw W v) k) /\ grp (nw W v) k < cnt n (nw W v)).
    { intros v. pose proof (cnt_mono (nw W v) (S k) n Hk). rewrite (cnt_grp _ (Hfirst v Hn)) in *. split; [reflexivity|lia]. }
    rewrite !(proj1 (HP _)). cbn [bind].
    destruct (wr_total _ ps k (Processor 0 (Some (grp (nw W RCore) k)) (Some (grp (nw W RCluster) k)) (Some (grp (nw W RPackage) k)) (r_linux_id p) 0)
      ltac:(lia)) as (ps2 & -> & LP2). cbn [bind].
    pose proof (proj2 (HP RCore)). pose proof (proj2 (HP RCluster)).
    match goal with |- context [modify cores ?i ?f] => destruct (modify_total _ cores i f ltac:(lia)) as (cores2 & -> & LC2) end. cbn [bind].
    match goal with |- context [modify clusters ?i ?f] => destruct (modify_total _ clusters i f ltac:(lia)) as (clusters2 & -> & LL2) end. cbn [bind].
    pose proof (Hid p Hin).
    match goal with |- context [wr (st_processor_map s) ?i ?x] => destruct (wr_total _ (st_processor_map s) i x ltac:(lia)) as (m1 & -> & LM1) end. cbn [bind].
    match goal with |- context [wr (st_core_map s) ?i ?x] => destruct (wr_total _ (st_core_map s) i x ltac:(lia)) as (m2 & -> & LM2) end. cbn [bind].
    match goal with |- context [wr (st_uarch_map s) ?i ?x] => destruct (wr_total _ (st_uarch_map s) i x ltac:(lia)) as (m3 & -> & LM3) end. cbn [bind].
    eexists. split; [reflexivity|]. split; cbn [st_processors st_cores st_clusters st_packages st_uarchs st_processor_map st_core_map st_uarch_map
      st_np st_nc st_nl st_nk st_nu st_last]; try congruence; try lia.
    all: try (split; [|split]; congruence). all: try (destruct (min 1 k =? 0); reflexivity).
  Qed.

  Lemma transfer_total : forall m k s, k + m = n -> lstate k s -> exists s', transfer (skipn k W) s = Ok s'.
  Proof.
    induction m as [|m IH]; intros k s Hkm HL.
    - assert (k = n) as -> by lia. unfold n. rewrite skipn_all. cbn. eauto.
    - assert (Hk : k < n) by lia. pose proof Hk as Hx. apply nth_error_lt in Hx. destruct Hx as (p & Hp).
      assert (E : skipn k W = p :: skipn (S k) W).
      { clear -Hp. revert k Hp. induction W as [|a l IH]; intros [|k] Hp; try discriminate; cbn in *; [now injection Hp as ->|now apply IH]. }
      rewrite E. cbn [transfer]. rewrite (Hvalid p) by (now apply nth_error_In in Hp). cbn [negb].
      destruct (transfer_one_total k p s Hk Hp HL) as (s' & -> & HL'). cbn [bind]. apply (IH (S k)); [lia|exact HL'].
  Qed.

  Lemma initial_lstate : lstate 0 (RState (repeat processor0 n) (repeat core0 (count_entries (leads RCore) W)) (repeat cluster0 (count_entries (leads RCluster) W))
       (repeat package0 (count_entries (leads RPackage) W)) (repeat uarch_info0 (count_uarchs 0 0 W))
       (repeat None M) (repeat None M) (repeat 0 M) 0 0 0 0 0 0%N).
  Proof.
    split; cbn; rewrite ?repeat_length; auto; try (now rewrite count_entries_cnt by exact Hvalid).
    unfold n. destruct W as [|p l]; [reflexivity|]. cbn [length count_uarchs].
    rewrite (Hvalid p), (Huarch p) by (now left). cbn [negb N.eqb Nat.eqb orb].
    rewrite count_uarchs_one; [destruct (length l); reflexivity| |lia]. intros q Hq. split; [apply Hvalid|apply Huarch]; now right.
  Qed.
End TOTAL.

Lemma build_total procs : numbered procs ->
  (forall v, match filter r_valid procs with [] => True | p :: _ => leads v p = true end) -> exists t, build_riscv procs = Ok t.
Proof.
  intros Hn Hf. set (W := filter r_valid procs) in *.
  assert (HV : forall p, In p W -> r_valid p = true) by (intros p H; now apply filter_In in H).
  assert (HI : forall p, In p W -> exists c, nth_error procs c = Some p /\ r_valid p = true).
  { intros p H. apply filter_In in H. destruct H as (H & Hv). apply In_nth_error in H. destruct H as (c & Hc). eauto. }
  assert (HU : forall p, In p W -> r_uarch p = 0%N) by (intros p H; destruct (HI p H) as (c & Hc & _); now apply (Hn c)).
  assert (HD : forall p, In p W -> N.to_nat (r_linux_id p) < length procs).
  { intros p H. destruct (HI p H) as (c & Hc & Hv). destruct (Hn c p Hc) as (E & _). rewrite (E Hv), Nat2N.id. now apply nth_error_some_lt in Hc. }
  assert (HF : forall v, 0 < length W -> nw W v 0 = true).
  { intros v H. specialize (Hf v). unfold nw. destruct W; [cbn in H; lia|exact Hf]. }
  unfold build_riscv. rewrite transfer_filter, count_all, (count_entries_filter (leads RCore) procs),
      (count_entries_filter (leads RCluster) procs), (count_entries_filter (leads RPackage) procs), (count_uarchs_filter procs).
  change (filter r_valid procs) with W.
  pose proof (initial_lstate W (length procs) HV HU) as HL.
  repeat match type of HL with (forall _, _) -> _ => specialize (HL ltac:(assumption)) end.
  destruct (transfer_total W (length procs) HV HU HD HF (length W) 0 _ eq_refl HL) as (s & E). cbn [skipn] in E. rewrite E. cbn [bind]. eauto.
Qed.

(** ** Initialization *)

Lemma first_leads cpus group procs v : StronglySorted lt cpus -> ready cpus procs ->
  (forall v c p, nth_error procs c = Some p -> r_valid p = true -> group_of v p = full cpus group v c) ->
  match filter r_valid procs with [] => True | p :: _ => leads v p = true end.
Proof.
  intros Hs HR HF. rewrite (filter_table procs cpus Hs (rd_marks _ _ HR)). destruct cpus as [|c cpus]; [exact I|]. cbn [map].
  destruct (proj2 (rd_marks _ _ HR) c (or_introl eq_refl)) as (p & Hp). rewrite (nth_error_nth _ _ rproc0 Hp).
  assert (Hv : r_valid p = true) by (apply (proj1 (rd_marks _ _ HR) c p Hp); now left).
  unfold leads. rewrite (rd_ids _ _ HR c p Hp Hv), (HF v c p Hp Hv). unfold full. cbn [rg_leader]. apply N.eqb_eq. f_equal.
  unfold members. cbn [filter]. rewrite Nat.eqb_refl. reflexivity.
Qed.

Lemma ready_numbered cpus procs : ready cpus procs -> numbered procs.
Proof. intros HR c p Hp. split; [now apply (rd_ids _ _ HR)|now apply (rd_uarch _ _ HR c)]. Qed.

(** Whatever the groups: the CPUs listed, the maps, and no access out of bounds. *)
Lemma init_lists_machine sg default sorter calloc_ok fs cpus group :
  riscv_files_say default fs cpus group -> order_keeping sorter ->
  exists o, riscv_linux_init sg default sorter calloc_ok fs = Ok o /\
    ((forall b, calloc_ok b = true) -> ro_published o <> None) /\
    forall t, ro_published o = Some t -> riscv_maps t /\ NoDup (map p_linux_id (rt_processors t)) /\
      forall c, In (N.of_nat c) (map p_linux_id (rt_processors t)) <-> In c cpus.
Proof.
  intros Hf Hs. destruct (detect_describes sg default fs cpus group Hf) as (max & last & procs & E1 & E2 & E3 & E4 & HR & HL & HF).
  destruct (build_total procs (ready_numbered cpus procs HR) (fun v => first_leads cpus group procs v (rs_ordered _ _ _ _ Hf) HR HF)) as (t & B).
  unfold riscv_linux_init. rewrite E1. cbn [bind]. rewrite E2. cbn [bind].
  replace (u32 (1 + last) =? 0)%N with false by (symmetry; now apply N.eqb_neq).
  destruct (calloc_ok R_linux_processors) eqn:EC; cbn [negb].
  2:{ eexists. split; [reflexivity|]. split; [intros H; rewrite H in EC; discriminate|discriminate]. }
  rewrite E4. cbn [bind]. rewrite (sorted_table sorter cpus procs Hs HR), B.
  assert (HA : (forall b, calloc_ok b = true) -> fst (rallocate calloc_ok riscv_allocations [R_linux_processors]) = true).
  { intros H. unfold riscv_allocations. cbn. now rewrite !H. }
  destruct (rallocate calloc_ok riscv_allocations [R_linux_processors]) as (ok & live). cbn [fst] in HA.
  destruct ok; cbn [bind]; eexists; (split; [reflexivity|]); cbn [ro_published].
  - split; [discriminate|]. intros t' X. injection X as <-.
    destruct (build_lists procs procs t (ready_numbered cpus procs HR) (Permutation_refl _) B) as (A1 & A2 & _ & _ & A3).
    split; [exact A1|]. split; [exact A2|]. intros c. rewrite A3. split.
    + intros (p & Hp & Hv). now apply (proj1 (rd_marks _ _ HR) c p Hp).
    + intros Hc. destruct (proj2 (rd_marks _ _ HR) c Hc) as (p & Hp). exists p. split; [exact Hp|]. now apply (proj1 (rd_marks _ _ HR) c p Hp).
  - split; [intros H; specialize (HA H); discriminate|discriminate].
Qed.

(** Any files, any sort: what is published has consistent maps. *)
Lemma init_maps sg default sorter calloc_ok fs o t : riscv_sorter sorter ->
  riscv_linux_init sg default sorter calloc_ok fs = Ok o -> ro_published o = Some t ->
  riscv_maps t /\ NoDup (map p_linux_id (rt_processors t)) /\
  Forall (fun p => p_linux_id p < rt_linux_cpu_max t)%N (rt_processors t) /\
  (rt_processors t <> [] -> Forall (fun u => u < length (rt_uarchs t)) (rt_uarch_index_map t)).
Proof.
  intros Hs H Ho. unfold riscv_linux_init in H. apply bind_inv in H. destruct H as (max & _ & H).
  apply bind_inv in H. destruct H as (last & _ & H).
  destruct (u32 (1 + last) =? 0)%N; [injection H as <-; discriminate|]. destruct (negb (calloc_ok R_linux_processors)); [injection H as <-; discriminate|].
  apply bind_inv in H. destruct H as ([procs|] & E & H); [|injection H as <-; discriminate].
  destruct (rallocate calloc_ok riscv_allocations [R_linux_processors]) as (ok & live). destruct ok; [|injection H as <-; discriminate].
  apply bind_inv in H. destruct H as (t' & B & H). injection H as <-. cbn in Ho. injection Ho as ->.
  apply detect_numbered in E. destruct E as (Hn & HL).
  assert (HU : Forall enum_uarch procs).
  { rewrite Forall_forall. intros p Hp. apply In_nth_error in Hp. destruct Hp as (c & Hc). unfold enum_uarch. rewrite (proj2 (Hn c p Hc)). reflexivity. }
  destruct (Hs procs HU) as (HP & _). destruct (build_lists procs (sorter procs) t Hn HP B) as (A1 & A2 & A3 & A5 & A4).
  split; [exact A1|]. split; [exact A2|]. split; [|exact A5]. rewrite Forall_forall. intros p Hp.
  assert (X : In (N.of_nat (N.to_nat (p_linux_id p))) (map p_linux_id (rt_processors t))) by (rewrite N2Nat.id; now apply in_map).
  apply A4 in X. destruct X as (q & Hq & _). apply nth_error_some_lt in Hq. rewrite A3. lia.
Qed.

(** Memory. *)
Definition riscv_published_blocks : list rblock :=
  [R_uarch_map; R_core_map; R_processor_map; R_uarchs; R_packages; R_clusters; R_cores; R_processors].

Lemma init_memory sg default sorter calloc_ok fs o : riscv_linux_init sg default sorter calloc_ok fs = Ok o ->
  match ro_published o with None => ro_live o = [] | Some _ => ro_live o = riscv_published_blocks end.
Proof.
  intros H. unfold riscv_linux_init in H. apply bind_inv in H. destruct H as (max & _ & H).
  apply bind_inv in H. destruct H as (last & _ & H).
  destruct (u32 (1 + last) =? 0)%N; [injection H as <-; reflexivity|]. destruct (negb (calloc_ok R_linux_processors)); [injection H as <-; reflexivity|].
  apply bind_inv in H. destruct H as ([procs|] & E & H); [|injection H as <-; reflexivity].
  unfold riscv_allocations in H. cbn [rallocate] in H.
  repeat match type of H with context [if calloc_ok ?b then _ else _] => destruct (calloc_ok b) end;
    try (injection H as <-; reflexivity).
  apply bind_inv in H. destruct H as (t & _ & H). injection H as <-. reflexivity.
Qed.

(** Detection never leaves its table, whatever the files (of lists with commas). *)
Lemma detect_riscv_total sg max fs : commas (f_contents (rf_present fs)) ->
  (forall v c, commas (f_contents (level_file v (rf_cpu fs c)))) -> exists r, detect_riscv sg max fs = Ok r.
Proof.
  intros Hc Hl. unfold detect_riscv.
  destruct (listed_total sg max (N.lor rflag_present rflag_valid) (f_contents (rf_present fs)) (f_reads (rf_present fs)) (repeat 0%N (N.to_nat max)))
    as (ok & fl & E); [apply repeat_length|exact Hc|]. rewrite E. cbn [bind]. destruct ok; [|cbn; eauto]. cbn [negb].
  apply listed_length in E; [|apply repeat_length]. rewrite repeat_length in E.
  pose proof (initial_length fl) as L0. rewrite E in L0.
  destruct (detect_level_total sg max (rf_cpu fs) RCore (seq 0 (N.to_nat max)) (initial_procs fl) (all_below _ _ _ L0) L0 (Hl RCore)) as (r1 & E1).
  rewrite E1. cbn [bind]. destruct r1 as [p1|]; [|eauto].
  apply detect_level_keeps in E1; [|now apply all_below|exact L0]. pose proof (proj1 E1) as L1. rewrite L0 in L1.
  destruct (detect_level_total sg max (rf_cpu fs) RCluster (seq 0 (N.to_nat max)) p1 (all_below _ _ _ L1) L1 (Hl RCluster)) as (r2 & E2).
  rewrite E2. cbn [bind]. destruct r2 as [p2|]; [|eauto].
  apply detect_level_keeps in E2; [|now apply all_below|exact L1]. pose proof (proj1 E2) as L2. rewrite L1 in L2.
  apply (detect_level_total sg max (rf_cpu fs) RPackage _ p2 (all_below _ _ _ L2) L2 (Hl RPackage)).
Qed.

(** ** The comparator *)
Lemma riscv_cmp_exact a b : enum_uarch a -> enum_uarch b ->
  (cmp_riscv_linux_processors a b = Z.of_N (r_uarch a) - Z.of_N (r_uarch b))%Z.
Proof.
  intros Ha Hb. unfold enum_uarch in *. unfold cmp_riscv_linux_processors, sub32, u32, two32.
  destruct (N.le_gt_cases (r_uarch b) (r_uarch a)) as [H|H].
  - replace (r_uarch a + (4294967296 - r_uarch b))%N with ((r_uarch a - r_uarch b) + 1 * 4294967296)%N by lia.
    rewrite N.mod_add, N.mod_small by lia. destruct (N.ltb_spec (r_uarch a - r_uarch b) 2147483648); lia.
  - rewrite N.mod_small by lia. destruct (N.ltb_spec (r_uarch a + (4294967296 - r_uarch b)) 2147483648); lia.
Qed.

(** ** Instruction set *)
Lemma has_hwcap_bit hwcap letter : has_hwcap hwcap letter = N.testbit hwcap (letter - 65).
Proof.
  unfold has_hwcap, hwcap_bit. rewrite N.shiftl_1_l.
  destruct (N.testbit hwcap (letter - 65)) eqn:E.
  - apply negb_true_iff, N.eqb_neq. intros X. assert (Y : N.testbit (N.land hwcap (2 ^ (letter - 65))) (letter - 65) = false) by (rewrite X; apply N.bits_0).
    rewrite N.land_spec, E, N.pow2_bits_true in Y. discriminate.
  - apply negb_false_iff, N.eqb_eq, N.bits_inj. intros i. rewrite N.land_spec, N.bits_0, N.pow2_bits_eqb.
    destruct (N.eqb_spec (letter - 65) i) as [<-|]; [now rewrite E|apply andb_false_r].
Qed.
