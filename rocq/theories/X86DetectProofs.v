(** The table of Linux processors built from the kernel's files. *)
From Verif Require Import Base BaseProofs Text LinuxTextModel LinuxTextSpec LinuxTextProofs CpulistProofs CpulistFileProofs
  TopologySpec X86CpuinfoModel X86CpuinfoSpec X86CpuinfoProofs X86LinuxModel X86LinuxSpec.
Open Scope N_scope.

(** ** CPU lists with arbitrary contents *)

Lemma feed_entries_invariant {S} (cb : S -> N -> N -> bool * S) sg (P : S -> Prop) :
  (forall c a b, P c -> P (snd (cb c a b))) -> forall es status c, P c -> P (snd (feed_entries cb sg status c es)).
Proof.
  intros H. induction es as [|e es IH]; intros status c Hc; cbn [feed_entries]; [exact Hc|].
  assert (H2 : P (snd (parse_entry cb sg c e))).
  { unfold parse_entry. destruct (trim_ws e); [exact Hc|].
    destruct (parse_number sg (n :: l)) as [f r]. destruct (length r =? length (n :: l))%nat; [exact Hc|].
    destruct r as [|d r]; [apply H; exact Hc|]. destruct (negb (d =? chr_dash)); [exact Hc|].
    destruct (parse_number sg r) as [la r2]. destruct (length r2 =? length r)%nat; [exact Hc|].
    destruct (la <? f); [exact Hc|]. apply H; exact Hc. }
  destruct (parse_entry cb sg c e) as [ok c']. apply IH. exact H2.
Qed.

Lemma cpulist_loop_invariant {S} (cb : S -> N -> N -> bool * S) sg (P : S -> Prop) b :
  (forall c x y, P c -> P (snd (cb c x y))) -> forall fuel wants status partial rest c ok c',
  P c -> cpulist_loop cb sg fuel b wants status partial rest c = Ok (ok, c') -> P c'.
Proof.
  intros H. induction fuel as [|fuel IH]; intros wants status partial rest c ok c' Hc; cbn [cpulist_loop]; [discriminate|].
  destruct (b <? length partial)%nat; [discriminate|].
  destruct (read_call _ _ rest) as [[|n]|].
  - destruct (_ && _); [discriminate|]. intros E. injection E as E.
    pose proof (feed_entries_invariant cb sg P H [partial] status c Hc) as HH. cbn [feed_entries] in HH.
    rewrite E in HH. exact HH.
  - destruct (scan_entries chr_comma [] _) as [es p'].
    pose proof (feed_entries_invariant cb sg P H es status c Hc) as HH.
    destruct (feed_entries cb sg status c es) as [st c2]. apply IH. exact HH.
  - intros E. injection E as _ <-. exact Hc.
Qed.

Lemma cpulist_invariant {S} (cb : S -> N -> N -> bool * S) sg (P : S -> Prop) file wants c ok c' :
  (forall c x y, P c -> P (snd (cb c x y))) -> P c -> parse_cpulist cb sg file wants c = Ok (ok, c') -> P c'.
Proof.
  intros H Hc. unfold parse_cpulist. destruct file as [contents|].
  - now apply cpulist_loop_invariant.
  - intros E. injection E as _ <-. exact Hc.
Qed.

(** Every 256 consecutive bytes contain a comma. *)
Definition commas (file : option (list N)) : Prop :=
  forall c a w b, file = Some c -> c = a ++ w ++ b -> (256 <= length w)%nat -> In 44 w.

Lemma join_snoc sep : forall es r, exists q, join sep (es ++ [r]) = q ++ r.
Proof.
  induction es as [|e es IH]; intros r; cbn [app]; [exists []; reflexivity|].
  destruct (IH r) as (q & Hq). rewrite join_cons by (destruct es; discriminate). rewrite Hq.
  exists (e ++ sep :: q). now rewrite <- app_assoc.
Qed.

Lemma cpulist_loop_safe {S} (cb : S -> N -> N -> bool * S) sg contents : commas (Some contents) ->
  forall fuel wants status partial rest pre c,
  contents = pre ++ partial ++ rest -> ~ In 44 partial -> (length rest < fuel)%nat ->
  exists r, cpulist_loop cb sg fuel cpulist_buffer_size wants status partial rest c = Ok r.
Proof.
  intros HC. induction fuel as [|fuel IH]; intros wants status partial rest pre c E Hn Hf; [lia|].
  assert (Hl : (length partial < 256)%nat).
  { destruct (Nat.lt_ge_cases (length partial) 256) as [|G]; auto. exfalso. apply Hn.
    now apply (HC contents pre partial rest). }
  cbn [cpulist_loop]. unfold cpulist_buffer_size at 1.
  replace (256 <? length partial)%nat with false by (symmetry; apply Nat.ltb_ge; lia).
  destruct (read_call _ _ rest) as [[|n]|] eqn:R; [| |eauto].
  - unfold cpulist_buffer_size. replace (length partial =? 256)%nat with false by (symmetry; apply Nat.eqb_neq; lia).
    cbn [andb]. eauto.
  - destruct (scan_entries chr_comma [] (partial ++ firstn (Datatypes.S n) rest)) as [es p'] eqn:Sc.
    destruct (feed_entries cb sg status c es) as [st c2].
    apply scan_entries_spec in Sc as Sc'. 2:{ intros []. } clear Sc. rename Sc' into Sc. cbn [app rev] in Sc.
    pose proof (read_call_some _ _ _ _ R) as (_ & R2 & _).
    assert (Hd : exists q, partial ++ firstn (Datatypes.S n) rest = q ++ p' /\ ~ In 44 p').
    { destruct Sc as (J & _ & Hr). destruct (join_snoc chr_comma es p') as (q & Hq).
      exists q. split; [congruence|exact Hr]. }
    destruct Hd as (q & Hq & Hp').
    apply (IH _ _ _ _ (pre ++ q)); [|exact Hp'|rewrite skipn_length; lia].
    rewrite E. rewrite <- (firstn_skipn (Datatypes.S n) rest) at 1.
    rewrite (app_assoc partial), Hq, <- !app_assoc. reflexivity.
Qed.

Lemma cpulist_safe {S} (cb : S -> N -> N -> bool * S) sg file wants c : commas file ->
  exists r, parse_cpulist cb sg file wants c = Ok r.
Proof.
  intros H. unfold parse_cpulist. destruct file as [contents|]; [|eauto].
  apply (cpulist_loop_safe cb sg contents H _ _ _ [] contents []); [reflexivity|intros []|lia].
Qed.

(** ** Flags *)

Definition flags_ok (max : N) (fl : list N) : Prop :=
  length fl = N.to_nat max /\ Forall (fun f => N.testbit f 12 = false) fl.

Lemma detect_listed_flags sg max flag file wants fl : N.testbit flag 12 = false -> flags_ok max fl ->
  (forall ok fl', detect_listed_processors sg max flag file wants fl = Ok (ok, fl') -> flags_ok max fl') /\
  (commas file -> exists ok fl', detect_listed_processors sg max flag file wants fl = Ok (ok, fl')).
Proof.
  intros Hflag Hfl.
  set (P := fun r : res (list N) => exists l, r = Ok l /\ flags_ok max l).
  assert (HP : forall c x y, P c -> P (snd (detect_processor_parser max flag c x y))).
  { intros c x y (l & -> & L & F). unfold detect_processor_parser. cbn [bind snd].
    destruct (detect_range_spec max flag (N.to_nat (N.min y max - x)) x y l L) as (l' & E & L' & H'); [lia|].
    exists l'. split; [exact E|]. split; [congruence|].
    apply Forall_forall. intros f Hf. apply In_nth_error in Hf. destruct Hf as (i & Hi).
    destruct (nth_error l i) as [f0|] eqn:E0.
    - rewrite (H' i f0 E0) in Hi. rewrite Forall_forall in F. specialize (F f0 (nth_error_In _ _ E0)).
      injection Hi as <-. destruct (_ && _); [|exact F]. now rewrite N.lor_spec, F, Hflag.
    - apply nth_error_None in E0. apply nth_error_some_lt in Hi. lia. }
  assert (H0 : P (Ok fl)) by (exists fl; auto).
  unfold detect_listed_processors. split.
  - intros ok fl'. destruct (parse_cpulist _ sg file wants (Ok fl)) as [[ok' r]| |] eqn:E; cbn [bind]; try discriminate.
    destruct (cpulist_invariant _ sg P file wants (Ok fl) ok' r HP H0 E) as (l & -> & HL). cbn [bind].
    intros X. injection X as _ <-. exact HL.
  - intros HC. destruct (cpulist_safe (detect_processor_parser max flag) sg file wants (Ok fl) HC) as ((ok & r) & E).
    rewrite E. cbn [bind]. destruct (cpulist_invariant _ sg P file wants (Ok fl) ok r HP H0 E) as (l & -> & HL).
    cbn [bind]. eauto.
Qed.

Lemma with_flags_nth : forall ps fl i, length fl = length ps ->
  nth_error (with_flags ps fl) i =
  match nth_error ps i, nth_error fl i with
  | Some p, Some f => Some (XProc (x_apic_id p) (x_linux_id p) f)
  | _, _ => None
  end.
Proof.
  induction ps as [|p ps IH]; intros [|f fl] i H; cbn in H; try discriminate.
  - destruct i; reflexivity.
  - destruct i as [|i]; [reflexivity|]. cbn. apply IH. lia.
Qed.

Lemma with_flags_length : forall ps fl, length fl = length ps -> length (with_flags ps fl) = length ps.
Proof. induction ps as [|p ps IH]; intros [|f fl] H; cbn in *; try discriminate; auto. Qed.

Lemma set_linux_ids_nth : forall l i k, nth_error (set_linux_ids i l) k =
  option_map (fun p => if is_valid p then XProc (x_apic_id p) (N.of_nat (i + k)) (x_flags p) else p) (nth_error l k).
Proof.
  induction l as [|p l IH]; intros i k; [destruct k; reflexivity|].
  destruct k as [|k]; cbn [set_linux_ids nth_error option_map].
  - now rewrite Nat.add_0_r.
  - rewrite IH. now replace (S i + k)%nat with (i + S k)%nat by lia.
Qed.

Lemma bitmask_all_spec f mask : bitmask_all f mask = true <-> forall b, N.testbit mask b = true -> N.testbit f b = true.
Proof.
  unfold bitmask_all. rewrite N.eqb_eq. split.
  - intros H b Hb. rewrite <- H, N.land_spec in Hb. now apply andb_prop in Hb.
  - intros H. apply N.bits_inj. intros b. rewrite N.land_spec. specialize (H b).
    destruct (N.testbit mask b); [rewrite H by reflexivity|]; now rewrite ?andb_true_r, ?andb_false_r.
Qed.

Lemma flag_valid_bit b : N.testbit flag_valid b = true <-> b = 12.
Proof.
  change flag_valid with (2 ^ 12). split; [|intros ->; reflexivity].
  intros H. destruct (N.eq_dec b 12) as [|Hne]; auto. rewrite N.pow2_bits_false in H by congruence. discriminate.
Qed.

Lemma is_valid_bit p : is_valid p = N.testbit (x_flags p) 12.
Proof.
  apply eq_iff_eq_true. unfold is_valid. rewrite bitmask_all_spec. split.
  - intros H. apply H. now apply flag_valid_bit.
  - intros H b Hb. apply flag_valid_bit in Hb. now subst.
Qed.

Lemma mark_valid_spec mask p : N.testbit mask 12 = false -> N.testbit (x_flags p) 12 = false ->
  is_valid (mark_valid mask p) = bitmask_all (x_flags p) mask /\
  bitmask_all (x_flags (mark_valid mask p)) mask = bitmask_all (x_flags p) mask /\
  x_apic_id (mark_valid mask p) = x_apic_id p.
Proof.
  intros Hm Hp. unfold mark_valid. destruct (bitmask_all (x_flags p) mask) eqn:E.
  - split; [|split].
    + rewrite is_valid_bit. cbn [x_flags]. rewrite N.lor_spec. now rewrite orb_true_r.
    + cbn [x_flags]. apply bitmask_all_spec. intros b Hb. rewrite N.lor_spec.
      rewrite (proj1 (bitmask_all_spec _ _) E b Hb). reflexivity.
    + reflexivity.
  - split; [|split]; auto. now rewrite is_valid_bit.
Qed.

Lemma limits_mask max po pr : N.testbit (snd (x86_limits max po pr)) 12 = false.
Proof. unfold x86_limits. destruct (negb (pr =? 0)), (negb (po =? 0)); reflexivity. Qed.

(** What holds of the table for arbitrary files. *)
Record detected (procs : list xproc) (mask : N) : Prop := {
  det_valid : forall p, In p procs -> bitmask_all (x_flags p) mask = is_valid p;
  det_linux_id : forall i p, nth_error procs i = Some p -> is_valid p = true -> x_linux_id p = N.of_nat i;
  det_u32 : apics_u32 procs
}.

Lemma finish_detected mask procs : N.testbit mask 12 = false ->
  (forall p, In p procs -> N.testbit (x_flags p) 12 = false) -> apics_u32 procs ->
  detected (set_linux_ids 0 (map (mark_valid mask) procs)) mask /\
  length (set_linux_ids 0 (map (mark_valid mask) procs)) = length procs /\
  forall i p, nth_error procs i = Some p ->
    exists p', nth_error (set_linux_ids 0 (map (mark_valid mask) procs)) i = Some p' /\
      is_valid p' = bitmask_all (x_flags p) mask /\ x_apic_id p' = x_apic_id p.
Proof.
  intros Hm Hp Hu.
  assert (H : forall i p, nth_error procs i = Some p ->
    exists p', nth_error (set_linux_ids 0 (map (mark_valid mask) procs)) i = Some p' /\
      is_valid p' = bitmask_all (x_flags p) mask /\ x_apic_id p' = x_apic_id p /\
      bitmask_all (x_flags p') mask = bitmask_all (x_flags p) mask /\
      (is_valid p' = true -> x_linux_id p' = N.of_nat i)).
  { intros i p Hi. destruct (mark_valid_spec mask p Hm (Hp p (nth_error_In _ _ Hi))) as (A & B & C).
    rewrite set_linux_ids_nth, nth_error_map, Hi. cbn [option_map].
    eexists. split; [reflexivity|]. destruct (is_valid (mark_valid mask p)) eqn:E.
    - unfold is_valid in *. cbn [x_flags x_apic_id x_linux_id]. repeat split; auto. congruence.
    - repeat split; auto; congruence. }
  assert (L : length (set_linux_ids 0 (map (mark_valid mask) procs)) = length procs).
  { assert (G : forall l i, length (set_linux_ids i l) = length l) by (induction l; intros; cbn; auto).
    rewrite G. apply map_length. }
  assert (H' : forall i p', nth_error (set_linux_ids 0 (map (mark_valid mask) procs)) i = Some p' ->
    exists p, nth_error procs i = Some p).
  { intros i p' Hi. apply nth_error_some_lt in Hi. apply nth_error_lt. lia. }
  split; [|split].
  - constructor.
    + intros p' Hin. apply In_nth_error in Hin. destruct Hin as (i & Hi).
      destruct (H' i p' Hi) as (p & Hpi). destruct (H i p Hpi) as (q & Hq & A & B & C & D).
      assert (q = p') by congruence. subst q. congruence.
    + intros i p' Hi Hv. destruct (H' i p' Hi) as (p & Hpi). destruct (H i p Hpi) as (q & Hq & A & B & C & D).
      assert (q = p') by congruence. subst q. auto.
    + apply Forall_forall. intros p' Hin. apply In_nth_error in Hin. destruct Hin as (i & Hi).
      destruct (H' i p' Hi) as (p & Hpi). destruct (H i p Hpi) as (q & Hq & A & B & C & D).
      assert (q = p') by congruence. subst q. rewrite B. unfold apics_u32 in Hu. rewrite Forall_forall in Hu.
      apply Hu. eapply nth_error_In; eassumption.
  - exact L.
  - intros i p Hi. destruct (H i p Hi) as (q & Hq & A & B & C & D). eauto.
Qed.

Lemma evolves_no_valid ps ps' : evolves ps ps' -> (forall p, In p ps -> N.testbit (x_flags p) 12 = false) ->
  forall p, In p ps' -> N.testbit (x_flags p) 12 = false.
Proof.
  intros (L & H) Hp p' Hin. apply In_nth_error in Hin. destruct Hin as (i & Hi).
  assert (Hi' : exists p, nth_error ps i = Some p) by (apply nth_error_lt; apply nth_error_some_lt in Hi; lia).
  destruct Hi' as (p & Hpi). destruct (H i p Hpi) as (q & Hq & _ & e & He & Hf).
  assert (q = p') by congruence. subst q. rewrite Hf, N.lor_spec, (Hp p (nth_error_In _ _ Hpi)). cbn [orb].
  destruct (N.testbit e 12) eqn:E; auto. exfalso.
  assert (X : N.testbit (N.lor e (N.lor flag_apic_id flag_proc_cpuinfo)) 12 = true) by (rewrite N.lor_spec, E; reflexivity).
  rewrite He in X. discriminate.
Qed.

Lemma procs0_flags n : flags_ok n (map x_flags (repeat (XProc 0 0 0) (N.to_nat n))).
Proof.
  split; [now rewrite map_length, repeat_length|]. apply Forall_forall. intros f Hf.
  apply in_map_iff in Hf. destruct Hf as (p & <- & Hp). apply repeat_spec in Hp. now subst.
Qed.

Lemma with_flags_no_valid n fl : flags_ok n fl ->
  forall p, In p (with_flags (repeat (XProc 0 0 0) (N.to_nat n)) fl) -> N.testbit (x_flags p) 12 = false.
Proof.
  intros (L & F) p Hin. apply In_nth_error in Hin. destruct Hin as (i & Hi).
  rewrite with_flags_nth in Hi by (now rewrite repeat_length).
  destruct (nth_error (repeat _ _) i); [|discriminate]. destruct (nth_error fl i) as [f|] eqn:E; [|discriminate].
  injection Hi as <-. rewrite Forall_forall in F. apply F. eapply nth_error_In; eassumption.
Qed.

Lemma with_flags_u32 n fl : apics_u32 (with_flags (repeat (XProc 0 0 0) n) fl).
Proof.
  revert fl. induction n as [|n IH]; intros [|f fl]; cbn; constructor; [reflexivity|apply IH].
Qed.

Definition tame (fs : linux_files) : Prop :=
  commas (f_contents (lf_possible_max fs)) /\ commas (f_contents (lf_present_max fs)) /\
  commas (f_contents (lf_possible fs)) /\ commas (f_contents (lf_present fs)).

Lemma max_count_total d file wants : exists m, get_max_processors_count d file wants = Ok m.
Proof.
  unfold get_max_processors_count.
  destruct (small_file_total (uint32_parser false) small_filesize file wants 0) as [(t & _ & _ & E)|(E & _)];
    [unfold small_filesize; lia|..]; rewrite E; [|cbn; eauto].
  destruct (uint32_parser false 0 t). cbn. eauto.
Qed.

Lemma max_listed_total sg m file wants : commas file -> exists r, get_max_listed_processor sg m file wants = Ok r.
Proof.
  intros H. unfold get_max_listed_processor.
  destruct (cpulist_safe max_processor_number_parser sg file wants 0 H) as ((ok & r) & E). rewrite E. cbn. eauto.
Qed.

Lemma detect_shape sg dm fs :
  (forall procs mask, detect_linux_processors sg dm fs = Ok (Some (procs, mask)) -> detected procs mask) /\
  (tame fs -> exists r, detect_linux_processors sg dm fs = Ok r).
Proof.
  unfold detect_linux_processors.
  destruct (max_count_total dm (f_contents (lf_kernel_max fs)) (f_reads (lf_kernel_max fs))) as (max & ->). cbn [bind].
  set (mpo := get_max_listed_processor sg max (f_contents (lf_possible_max fs)) (f_reads (lf_possible_max fs))).
  set (mpr := get_max_listed_processor sg max (f_contents (lf_present_max fs)) (f_reads (lf_present_max fs))).
  assert (T1 : tame fs -> exists r, mpo = Ok r) by (intros T; apply max_listed_total; apply T).
  assert (T2 : tame fs -> exists r, mpr = Ok r) by (intros T; apply max_listed_total; apply T).
  destruct mpo as [po| |]; cbn [bind];
    [|split; [discriminate|intros T; destruct (T1 T); discriminate]..].
  destruct mpr as [pr| |]; cbn [bind];
    [|split; [discriminate|intros T; destruct (T2 T); discriminate]..].
  clear T1 T2.
  pose proof (limits_mask max (u32 (1 + po)) (u32 (1 + pr))) as Hm.
  destruct (x86_limits max (u32 (1 + po)) (u32 (1 + pr))) as [count mask]. cbn [snd] in Hm.
  set (fl0 := map x_flags (repeat (XProc 0 0 0) (N.to_nat count))).
  set (step1 := if negb (u32 (1 + po) =? 0) then _ else Ok fl0).
  assert (S1 : (forall fl1, step1 = Ok fl1 -> flags_ok count fl1) /\ (tame fs -> exists fl1, step1 = Ok fl1)).
  { unfold step1. destruct (negb (u32 (1 + po) =? 0)).
    - destruct (detect_listed_flags sg count flag_possible (f_contents (lf_possible fs)) (f_reads (lf_possible fs)) fl0 eq_refl (procs0_flags count)) as (A & B).
      split.
      + intros fl1. destruct (detect_listed_processors _ _ _ _ _ _) as [[ok f]| |]; cbn; try discriminate.
        intros E. injection E as <-. eapply A. reflexivity.
      + intros T. destruct (B ltac:(apply T)) as (ok & f & ->). cbn. eauto.
    - split; [|eauto]. intros fl1 E. injection E as <-. apply procs0_flags. }
  destruct S1 as (A1 & B1).
  destruct step1 as [fl1| |]; cbn [bind];
    [|split; [discriminate|intros T; destruct (B1 T); discriminate]..].
  specialize (A1 fl1 eq_refl). clear B1.
  set (step2 := if negb (u32 (1 + pr) =? 0) then _ else Ok fl1).
  assert (S2 : (forall fl2, step2 = Ok fl2 -> flags_ok count fl2) /\ (tame fs -> exists fl2, step2 = Ok fl2)).
  { unfold step2. destruct (negb (u32 (1 + pr) =? 0)).
    - destruct (detect_listed_flags sg count flag_present (f_contents (lf_present fs)) (f_reads (lf_present fs)) fl1 eq_refl A1) as (A & B).
      split.
      + intros fl2. destruct (detect_listed_processors _ _ _ _ _ _) as [[ok f]| |]; cbn; try discriminate.
        intros E. injection E as <-. eapply A. reflexivity.
      + intros T. destruct (B ltac:(apply T)) as (ok & f & ->). cbn. eauto.
    - split; [|eauto]. intros fl2 E. injection E as <-. exact A1. }
  destruct S2 as (A2 & B2).
  destruct step2 as [fl2| |]; cbn [bind];
    [|split; [discriminate|intros T; destruct (B2 T); discriminate]..].
  specialize (A2 fl2 eq_refl). clear B2.
  destruct (proc_cpuinfo_safe sg count (f_contents (lf_cpuinfo fs)) (f_reads (lf_cpuinfo fs))
              (with_flags (repeat (XProc 0 0 0) (N.to_nat count)) fl2)) as (ok & procs & E & EV).
  { rewrite with_flags_length; rewrite repeat_length; [reflexivity|]. apply A2. }
  rewrite E. cbn [bind]. split.
  - intros procs' mask' X. destruct ok; [|discriminate]. injection X as <- <-.
    apply finish_detected; [exact Hm|..]. { apply (evolves_no_valid _ _ EV). now apply with_flags_no_valid. }
    apply (proc_cpuinfo_u32 _ _ _ _ _ _ _ E). apply with_flags_u32.
  - intros _. destruct ok; eauto.
Qed.

(** ** Meaningful files *)

Definition in_list (o : option (list (N * N))) (c : N) : bool :=
  match o with Some rs => existsb (in_range c) rs | None => false end.

Lemma list_max sg max f o : list_says f o -> 0 < max -> max < two32 ->
  exists r, get_max_listed_processor sg max (f_contents f) (f_reads f) = Ok r /\
    match o with
    | None => u32 (1 + r) = 0
    | Some rs => u32 (1 + r) <> 0 /\ forall c, listed rs c -> c < max -> c < u32 (1 + r)
    end.
Proof.
  intros H H1 H2. destruct H as [f contents rs Hc Hw Hl|f Hc]; rewrite Hc.
  - destruct (max_listed_exact sg max (f_reads f) contents rs Hw Hl H1 H2) as (m & Hm & Hub & E).
    exists (N.min m (max - 1)). split; [exact E|]. rewrite u32_small by (unfold two32 in *; lia).
    split; [lia|]. intros c Hc' Hlt. specialize (Hub c Hc'). lia.
  - exists u32max. split; [reflexivity|reflexivity].
Qed.

Lemma list_step sg max flag f o fl : list_says f o -> length fl = N.to_nat max -> o <> None ->
  exists fl' ok, detect_listed_processors sg max flag (f_contents f) (f_reads f) fl = Ok (ok, fl') /\
    length fl' = length fl /\
    forall i v, nth_error fl i = Some v ->
      nth_error fl' i = Some (if in_list o (N.of_nat i) then N.lor v flag else v).
Proof.
  intros H HL Ho. destruct H as [f contents rs Hc Hw Hl|f Hc]; [|congruence]. rewrite Hc.
  destruct (detect_listed_exact sg max flag (f_reads f) contents rs fl Hw Hl HL) as (fl' & E & L & H).
  exists fl', true. split; [exact E|]. split; [exact L|]. intros i v Hv. destruct (H i v Hv) as (A & B).
  cbn [in_list]. destruct (existsb (in_range (N.of_nat i)) rs) eqn:X.
  - apply A. now apply existsb_listed.
  - apply B. intros Y. apply existsb_listed in Y. congruence.
Qed.

Lemma announced_iff ms cpu : announced ms cpu = true <-> In (Announces cpu) ms.
Proof.
  unfold announced. rewrite existsb_exists. split.
  - intros (m & Hi & Hm). destruct m; try discriminate. apply N.eqb_eq in Hm. now subst.
  - intros Hi. eexists. split; [exact Hi|]. apply N.eqb_refl.
Qed.

Lemma max_says_exact d f m : max_says d f m ->
  get_max_processors_count d (f_contents f) (f_reads f) = Ok m.
Proof.
  intros [f' ds tail Hc Hw Hd Hb Hs Hl Hm|f' Hc]; rewrite Hc; [|reflexivity].
  unfold get_max_processors_count.
  destruct (small_file_total (uint32_parser false) small_filesize (Some (ds ++ tail)) (f_reads f') 0)
    as [(t & Ht & _ & E)|(_ & H)]; [unfold small_filesize; lia|..].
  - injection Ht as <-. rewrite E. rewrite uint32_parser_decimal by (auto; unfold two32, u32max in *; lia).
    cbn. rewrite u32_small by (unfold two32, u32max in *; lia). reflexivity.
  - specialize (H Hw _ eq_refl). unfold small_filesize in H. lia.
Qed.

Definition usableb (max : N) (po pr : option (list (N * N))) (ms : list meaning) (cpu : N) : bool :=
  (match pr with Some rs => existsb (in_range cpu) rs | None => announced ms cpu end)
  && (match po with Some rs => existsb (in_range cpu) rs | None => true end).

Lemma usableb_spec max po pr ms cpu :
  usable max po pr ms cpu <-> cpu < max /\ usableb max po pr ms cpu = true.
Proof.
  unfold usable, usableb. rewrite andb_true_iff.
  destruct pr as [rs|], po as [rs'|]; rewrite ?existsb_listed, ?announced_iff; tauto.
Qed.

Lemma detect_exact sg dm fs max po pr ms :
  max_says dm (lf_kernel_max fs) max -> 0 < max -> max < two32 ->
  list_says (lf_possible_max fs) po -> list_says (lf_possible fs) po ->
  list_says (lf_present_max fs) pr -> list_says (lf_present fs) pr ->
  cpuinfo_says (lf_cpuinfo fs) ms ->
  exists procs mask, detect_linux_processors sg dm fs = Ok (Some (procs, mask)) /\
    N.of_nat (length procs) <= max /\
    (forall cpu, usable max po pr ms cpu -> cpu < N.of_nat (length procs)) /\
    forall i p, nth_error procs i = Some p ->
      x_apic_id p = apic_id_of ms (N.of_nat i) /\
      (is_valid p = true <-> usable max po pr ms (N.of_nat i)) /\
      (is_valid p = true -> x_linux_id p = N.of_nat i).
Proof.
  intros Hmax Hm1 Hm2 Hpo1 Hpo2 Hpr1 Hpr2 (Hw & lines & Hlc & Hl1 & Hl2 & Hl3 & Hl4).
  unfold detect_linux_processors. rewrite (max_says_exact _ _ _ Hmax). cbn [bind].
  destruct (list_max sg max _ _ Hpo1 Hm1 Hm2) as (rpo & -> & Bpo). cbn [bind].
  destruct (list_max sg max _ _ Hpr1 Hm1 Hm2) as (rpr & -> & Bpr). cbn [bind].
  set (po' := u32 (1 + rpo)) in *. set (pr' := u32 (1 + rpr)) in *.
  destruct (x86_limits max po' pr') as [count mask] eqn:EL.
  assert (Hcount : count <= max /\ forall cpu, usable max po pr ms cpu -> cpu < count).
  { unfold x86_limits in EL. unfold usable.
    destruct (N.eqb_spec pr' 0) as [Epr|Epr], (N.eqb_spec po' 0) as [Epo|Epo]; cbn [negb] in EL; injection EL as <- _;
    (split; [lia|]); intros cpu (X1 & X2 & X3).
    - destruct po; lia.
    - destruct po as [rs|]; [|congruence]. specialize (proj2 Bpo cpu X3 X1). lia.
    - destruct pr as [rs|]; [|congruence]. specialize (proj2 Bpr cpu X2 X1). lia.
    - destruct po as [rs|]; [|congruence]. specialize (proj2 Bpo cpu X3 X1).
      destruct pr as [rs'|]; [|congruence]. specialize (proj2 Bpr cpu X2 X1). lia. }
  destruct Hcount as (Hcm & Hcu).
  assert (Hmask : mask = N.lor (match pr with Some _ => flag_present | None => flag_proc_cpuinfo end)
                               (match po with Some _ => flag_possible | None => 0 end)).
  { unfold x86_limits in EL. destruct pr as [rs|], po as [rs'|];
      repeat match goal with
      | H : _ /\ _ |- _ => destruct H
      | H : ?a = 0 |- _ => rewrite H in EL
      | H : ?a <> 0 |- _ => apply N.eqb_neq in H; rewrite H in EL
      end; cbn in EL; now injection EL. }
  set (fl0 := map x_flags (repeat (XProc 0 0 0) (N.to_nat count))).
  assert (L0 : length fl0 = N.to_nat count) by (unfold fl0; now rewrite map_length, repeat_length).
  assert (N0 : forall i v, nth_error fl0 i = Some v -> v = 0).
  { intros i v Hv. unfold fl0 in Hv. rewrite nth_error_map in Hv.
    destruct (nth_error (repeat _ _) i) as [q|] eqn:Q; [|discriminate]. apply nth_error_In, repeat_spec in Q.
    subst q. now injection Hv as <-. }
  set (step1 := if negb (po' =? 0) then _ else Ok fl0).
  assert (S1 : exists fl1, step1 = Ok fl1 /\ length fl1 = N.to_nat count /\
     forall i, (i < N.to_nat count)%nat -> nth_error fl1 i = Some (if in_list po (N.of_nat i) then flag_possible else 0)).
  { unfold step1. destruct po as [rs|].
    - destruct Bpo as (Bpo & _). apply N.eqb_neq in Bpo. rewrite Bpo. cbn [negb].
      destruct (list_step sg count flag_possible _ _ fl0 Hpo2 L0) as (fl1 & ok & E & L & H); [discriminate|].
      rewrite E. cbn. exists fl1. split; [reflexivity|]. split; [congruence|]. intros i Hi.
      destruct (nth_error_lt _ fl0 i) as (v & Hv); [lia|]. rewrite (H i v Hv). rewrite (N0 i v Hv). cbn [in_list].
      now rewrite N.lor_0_l.
    - rewrite Bpo. cbn. exists fl0. split; [reflexivity|]. split; [exact L0|]. intros i Hi.
      destruct (nth_error_lt _ fl0 i) as (v & Hv); [lia|]. rewrite Hv. now rewrite (N0 i v Hv). }
  destruct S1 as (fl1 & -> & L1 & H1). cbn [bind].
  set (step2 := if negb (pr' =? 0) then _ else Ok fl1).
  assert (S2 : exists fl2, step2 = Ok fl2 /\ length fl2 = N.to_nat count /\
     forall i, (i < N.to_nat count)%nat -> nth_error fl2 i =
       Some (N.lor (if in_list po (N.of_nat i) then flag_possible else 0)
                   (if in_list pr (N.of_nat i) then flag_present else 0))).
  { unfold step2. destruct pr as [rs|].
    - destruct Bpr as (Bpr & _). apply N.eqb_neq in Bpr. rewrite Bpr. cbn [negb].
      destruct (list_step sg count flag_present _ _ fl1 Hpr2 L1) as (fl2 & ok & E & L & H); [discriminate|].
      rewrite E. cbn. exists fl2. split; [reflexivity|]. split; [congruence|]. intros i Hi.
      rewrite (H i _ (H1 i Hi)). cbn [in_list]. f_equal.
      destruct (existsb (in_range (N.of_nat i)) rs); [reflexivity|now rewrite N.lor_0_r].
    - rewrite Bpr. cbn. exists fl1. split; [reflexivity|]. split; [exact L1|]. intros i Hi.
      rewrite (H1 i Hi). now rewrite N.lor_0_r. }
  destruct S2 as (fl2 & -> & L2 & H2). cbn [bind].
  set (procs0 := with_flags (repeat (XProc 0 0 0) (N.to_nat count)) fl2).
  assert (LP : length procs0 = N.to_nat count).
  { unfold procs0. rewrite with_flags_length; rewrite repeat_length; auto. }
  rewrite Hlc.
  destruct (proc_cpuinfo_meaning sg count (f_reads (lf_cpuinfo fs)) procs0 lines ms Hw Hl1 Hl2 Hl3 Hl4 LP)
    as (procs & E & L & H). rewrite E. cbn [bind].
  assert (HP : forall i, (i < N.to_nat count)%nat -> nth_error procs0 i =
     Some (XProc 0 0 (N.lor (if in_list po (N.of_nat i) then flag_possible else 0)
                   (if in_list pr (N.of_nat i) then flag_present else 0)))).
  { intros i Hi. unfold procs0. rewrite with_flags_nth by (rewrite repeat_length; exact L2).
    rewrite nth_error_repeat by exact Hi. rewrite (H2 i Hi). reflexivity. }
  assert (Hbits : forall p, In p procs -> N.testbit (x_flags p) 12 = false).
  { intros p Hin. apply In_nth_error in Hin. destruct Hin as (i & Hi).
    assert (Hic : (i < N.to_nat count)%nat) by (apply nth_error_some_lt in Hi; lia).
    rewrite (H i _ (HP i Hic)) in Hi. injection Hi as <-. unfold updated. cbn [x_flags].
    destruct (in_list po (N.of_nat i)), (in_list pr (N.of_nat i)), (announced ms (N.of_nat i)),
      (apic_given ms 0 (N.of_nat i) None); reflexivity. }
  assert (Hmb : N.testbit mask 12 = false) by (rewrite Hmask; destruct pr, po; reflexivity).
  destruct (finish_detected mask procs Hmb Hbits (proc_cpuinfo_u32 _ _ _ _ _ _ _ E (with_flags_u32 _ _))) as (D & LF & F).
  exists (set_linux_ids 0 (map (mark_valid mask) procs)), mask. split; [reflexivity|].
  rewrite LF, L, LP. split; [lia|]. split.
  { intros cpu Hu. specialize (Hcu cpu Hu). lia. }
  intros i p' Hp'.
  assert (Hic : (i < N.to_nat count)%nat) by (apply nth_error_some_lt in Hp'; lia).
  pose proof (H i _ (HP i Hic)) as Hi. destruct (F i _ Hi) as (q & Hq & V & A).
  assert (q = p') by congruence. subst q.
  split; [rewrite A; unfold updated, apic_id_of; cbn [x_apic_id]; destruct (apic_given ms 0 (N.of_nat i) None); reflexivity|].
  split; [|intros Hv; exact (det_linux_id _ _ D i p' Hp' Hv)].
  rewrite V, usableb_spec. unfold updated, usableb. cbn [x_flags]. rewrite Hmask.
  transitivity (usableb max po pr ms (N.of_nat i) = true); [|split; [intros X; split; [lia|exact X]|intros (_ & X); exact X]].
  unfold usableb, in_list.
  destruct pr as [rs|], po as [rs'|];
    repeat match goal with |- context [existsb ?a ?b] => destruct (existsb a b) end;
    destruct (announced ms (N.of_nat i)), (apic_given ms 0 (N.of_nat i) None); cbn; split; (reflexivity || discriminate).
Qed.
