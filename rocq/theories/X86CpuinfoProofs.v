From Verif Require Import Base BaseProofs Text LinuxTextModel LinuxTextSpec LinuxTextProofs CpulistProofs CpulistFileProofs
  CpuinfoLineModel CpuinfoLineSpec CpuinfoLineProofs X86CpuinfoModel X86CpuinfoSpec.
Open Scope N_scope.
Ltac Zify.zify_post_hook ::= Z.div_mod_to_equations.

Lemma pnum_from_digits sg : forall ds acc, Forall is_digit ds ->
  parse_processor_number_from sg (u32 acc) ds = u32 (fold_left (fun acc c => acc * 10 + (c - 48)) ds acc).
Proof.
  induction ds as [|d ds IH]; intros acc H; [reflexivity|]. inversion H as [|? ? Hd Hds]; subst.
  cbn [parse_processor_number_from fold_left]. rewrite digit_of_digit by exact Hd.
  unfold is_digit in Hd. replace (10 <? d - 48) with false by lia.
  rewrite <- (IH (acc * 10 + (d - 48)) Hds). f_equal. unfold u32, two32. lia.
Qed.

Lemma pnum_decimal sg ds : is_decimal ds -> dec_value ds < two32 -> parse_processor_number sg ds = dec_value ds.
Proof.
  intros (_ & H) Hv. unfold parse_processor_number. change 0 with (u32 0) at 1.
  rewrite pnum_from_digits by exact H. now apply u32_small.
Qed.

Lemma all_digits_from sg : forall ds acc, Forall is_digit ds ->
  parse_all_digits_from sg (u32 acc) ds = Some (u32 (fold_left (fun acc c => acc * 10 + (c - 48)) ds acc)).
Proof.
  induction ds as [|d ds IH]; intros acc H; [reflexivity|]. inversion H as [|? ? Hd Hds]; subst.
  cbn [parse_all_digits_from fold_left]. rewrite digit_of_digit by exact Hd.
  unfold is_digit in Hd. replace (10 <=? d - 48) with false by lia.
  rewrite <- (IH (acc * 10 + (d - 48)) Hds). f_equal. unfold u32, two32. lia.
Qed.

Lemma all_digits_decimal sg ds : is_decimal ds -> dec_value ds < two32 -> parse_all_digits sg ds = Some (dec_value ds).
Proof.
  intros (_ & H) Hv. unfold parse_all_digits. change 0 with (u32 0) at 1.
  rewrite all_digits_from by exact H. f_equal. now apply u32_small.
Qed.

Lemma all_digits_bad sg : forall s acc, bytes s -> ~ Forall is_digit s -> parse_all_digits_from sg acc s = None.
Proof.
  induction s as [|c s IH]; intros acc Hb Hn; [exfalso; apply Hn; constructor|].
  cbn. inversion Hb as [|? ? Hc Hs]; subst. destruct (N.leb_spec 10 (digit_of sg c)) as [H|H]; [reflexivity|].
  apply IH; [exact Hs|]. intros Hf. apply Hn. constructor; [|exact Hf]. now apply (digit_of_lt sg).
Qed.

Lemma bytes_eqb_refl a : bytes_eqb a a = true.
Proof. unfold bytes_eqb. destruct (list_eq_dec N.eq_dec a a); congruence. Qed.

Lemma bytes_eqb_neq a b : a <> b -> bytes_eqb a b = false.
Proof. unfold bytes_eqb. destruct (list_eq_dec N.eq_dec a b); congruence. Qed.

(** One line, arbitrary bytes: defined behaviour, and only the announced
    processors may change. *)
Lemma parse_line_safe sg max st line : length (ps_procs st) = N.to_nat max ->
  exists st', x86_parse_line sg max st line = Ok st' /\ length (ps_procs st') = length (ps_procs st) /\
    (forall cpu, cpu <> N.to_nat (ps_index st) -> cpu <> N.to_nat (ps_index st') ->
       nth_error (ps_procs st') cpu = nth_error (ps_procs st) cpu) /\
    (forall cpu p, nth_error (ps_procs st) cpu = Some p -> exists p',
       nth_error (ps_procs st') cpu = Some p' /\ x_linux_id p' = x_linux_id p /\
       exists extra, N.lor extra (N.lor flag_apic_id flag_proc_cpuinfo) = N.lor flag_apic_id flag_proc_cpuinfo /\
                     x_flags p' = N.lor (x_flags p) extra).
Proof.
  intros Hlen. unfold x86_parse_line.
  assert (Hsame : length (ps_procs st) = length (ps_procs st) /\
    (forall cpu, cpu <> N.to_nat (ps_index st) -> cpu <> N.to_nat (ps_index st) ->
       nth_error (ps_procs st) cpu = nth_error (ps_procs st) cpu) /\
    (forall cpu p, nth_error (ps_procs st) cpu = Some p -> exists p',
       nth_error (ps_procs st) cpu = Some p' /\ x_linux_id p' = x_linux_id p /\
       exists extra, N.lor extra (N.lor flag_apic_id flag_proc_cpuinfo) = N.lor flag_apic_id flag_proc_cpuinfo /\
                     x_flags p' = N.lor (x_flags p) extra)).
  { repeat split; auto. intros cpu p Hp. exists p. repeat split; auto. exists 0. split; [reflexivity|].
    now rewrite N.lor_0_r. }
  destruct (split_line_total line) as [E|(key & value & E & _)]; rewrite E; cbn [bind].
  { exists st. split; [reflexivity|exact Hsame]. }
  destruct (bytes_eqb key (text "apicid")).
  - destruct (N.ltb_spec (ps_index st) max) as [Hlt|Hge]; [|exists st; split; [reflexivity|exact Hsame]].
    destruct (nth_error_lt _ (ps_procs st) (N.to_nat (ps_index st))) as (p & Hp); [lia|].
    rewrite (modify_ok _ _ _ _ _ Hp). cbn [bind]. eexists. split; [reflexivity|]. cbn.
    split; [apply upd_length|]. split; [intros; now apply nth_error_upd_neq; auto|].
    intros cpu q Hq. rewrite nth_error_upd.
    destruct (Nat.eqb_spec (N.to_nat (ps_index st)) cpu) as [Heq|Hne]; cbn [andb].
    + rewrite Heq in *. assert (p = q) by congruence. subst q.
      replace (cpu <? length (ps_procs st))%nat with true
        by (symmetry; apply Nat.ltb_lt; eapply nth_error_some_lt; eassumption).
      eexists. split; [reflexivity|]. unfold parse_apic_id. destruct (parse_all_digits sg value); cbn.
      * split; [reflexivity|]. exists flag_apic_id. split; reflexivity.
      * split; [reflexivity|]. exists 0. split; [reflexivity|]. now rewrite N.lor_0_r.
    + exists q. repeat split; auto. exists 0. split; [reflexivity|]. now rewrite N.lor_0_r.
  - destruct (bytes_eqb key (text "processor")); [|exists st; split; [reflexivity|exact Hsame]].
    set (new := parse_processor_number sg value). clearbody new.
    destruct (N.leb_spec max new) as [Hge|Hlt].
    { exists (PState new (ps_procs st)). split; [reflexivity|]. cbn. destruct Hsame as (H1 & H2 & H3).
      split; [reflexivity|]. split; [reflexivity|exact H3]. }
    destruct (nth_error_lt _ (ps_procs st) (N.to_nat new)) as (p & Hp); [lia|].
    rewrite (modify_ok _ _ _ _ _ Hp). cbn [bind]. eexists. split; [reflexivity|]. cbn.
    split; [apply upd_length|]. split; [intros; now apply nth_error_upd_neq; auto|].
    intros cpu q Hq. rewrite nth_error_upd.
    destruct (Nat.eqb_spec (N.to_nat new) cpu) as [Heq|Hne]; cbn [andb].
    + rewrite Heq in *. assert (p = q) by congruence. subst q.
      replace (cpu <? length (ps_procs st))%nat with true
        by (symmetry; apply Nat.ltb_lt; eapply nth_error_some_lt; eassumption).
      eexists. split; [reflexivity|]. split; [reflexivity|]. exists flag_proc_cpuinfo. split; reflexivity.
    + exists q. repeat split; auto. exists 0. split; [reflexivity|]. now rewrite N.lor_0_r.
Qed.

(** What may happen to a processor record over a whole file. *)
Definition evolves (ps ps' : list xproc) : Prop :=
  length ps' = length ps /\
  forall cpu p, nth_error ps cpu = Some p -> exists p',
    nth_error ps' cpu = Some p' /\ x_linux_id p' = x_linux_id p /\
    exists extra, N.lor extra (N.lor flag_apic_id flag_proc_cpuinfo) = N.lor flag_apic_id flag_proc_cpuinfo /\
                  x_flags p' = N.lor (x_flags p) extra.

Lemma evolves_refl ps : evolves ps ps.
Proof.
  split; [reflexivity|]. intros cpu p H. exists p. repeat split; auto. exists 0.
  split; [reflexivity|now rewrite N.lor_0_r].
Qed.

Lemma evolves_trans a b c : evolves a b -> evolves b c -> evolves a c.
Proof.
  intros (L1 & H1) (L2 & H2). split; [congruence|]. intros cpu p Hp.
  destruct (H1 cpu p Hp) as (q & Hq & Iq & e1 & E1 & F1).
  destruct (H2 cpu q Hq) as (r & Hr & Ir & e2 & E2 & F2).
  exists r. split; [exact Hr|]. split; [congruence|]. exists (N.lor e1 e2). split.
  - rewrite <- N.lor_assoc, E2. exact E1.
  - rewrite F2, F1. now rewrite N.lor_assoc.
Qed.

Lemma feed_lines_safe sg max : forall lines st, length (ps_procs st) = N.to_nat max ->
  exists st', feed_lines (x86_line_callback sg max) (Ok st) lines = (true, Ok st') /\
              evolves (ps_procs st) (ps_procs st').
Proof.
  induction lines as [|l ls IH]; intros st Hlen; cbn [feed_lines].
  - exists st. split; [reflexivity|apply evolves_refl].
  - unfold x86_line_callback at 1. cbn [bind].
    destruct (parse_line_safe sg max st l Hlen) as (st1 & E1 & L1 & _ & H1). rewrite E1.
    destruct (IH st1) as (st2 & E2 & H2); [congruence|]. exists st2. split; [exact E2|].
    apply evolves_trans with (ps_procs st1); [split; [exact L1|exact H1]|exact H2].
Qed.

Lemma proc_cpuinfo_safe sg max file wants procs : length procs = N.to_nat max ->
  exists ok procs', x86_parse_proc_cpuinfo sg max file wants procs = Ok (ok, procs') /\ evolves procs procs'.
Proof.
  intros Hlen. unfold x86_parse_proc_cpuinfo. destruct file as [contents|].
  2:{ cbn. exists false, procs. split; [reflexivity|apply evolves_refl]. }
  destruct (split_pieces chr_nl contents) as (lines & Hne & Hl & ->).
  destruct (multiline_total (x86_line_callback sg max) proc_cpuinfo_buffer_size wants
              (Ok (PState 0 procs)) lines Hne Hl) as (ok & es & l' & tail & _ & [(E & _)|(p & E & _)]); rewrite E.
  - destruct (feed_lines_safe sg max es (PState 0 procs) Hlen) as (st & F & G). rewrite F. cbn.
    exists false, (ps_procs st). split; [reflexivity|exact G].
  - destruct (feed_lines_safe sg max (es ++ [p]) (PState 0 procs) Hlen) as (st & F & G). rewrite F. cbn.
    exists true, (ps_procs st). split; [reflexivity|exact G].
Qed.

(** APIC ids are 32-bit values. *)
Definition apics_u32 (ps : list xproc) : Prop := Forall (fun p => x_apic_id p < two32) ps.

Lemma all_digits_u32 sg : forall s acc a, acc < two32 -> parse_all_digits_from sg acc s = Some a -> a < two32.
Proof.
  induction s as [|c s IH]; intros acc a Hacc H; cbn [parse_all_digits_from] in H; [congruence|].
  destruct (10 <=? digit_of sg c); [discriminate|]. eapply IH; [|exact H].
  apply N.mod_lt. discriminate.
Qed.

Lemma modify_Forall A (P : A -> Prop) l i f l' : modify l i f = Ok l' ->
  Forall P l -> (forall a, P a -> P (f a)) -> Forall P l'.
Proof.
  unfold modify. destruct (nth_error l i) as [a|] eqn:E; [|discriminate]. intros H HF Hf. injection H as <-.
  assert (Pa : P (f a)). { apply Hf. rewrite Forall_forall in HF. apply HF. eapply nth_error_In; eassumption. }
  clear E. generalize (f a) Pa. clear - HF. intros b Pb. revert i. induction HF as [|c l Hc HF IH]; intros [|i]; cbn; auto.
Qed.

Lemma parse_line_u32 sg max st line st' : x86_parse_line sg max st line = Ok st' ->
  apics_u32 (ps_procs st) -> apics_u32 (ps_procs st').
Proof.
  unfold x86_parse_line. destruct (split_line line) as [[[key value]|]| |]; cbn [bind]; try discriminate;
    [|intros H; injection H as <-; auto].
  destruct (bytes_eqb key (text "apicid")).
  - destruct (ps_index st <? max); [|intros H; injection H as <-; auto].
    destruct (modify _ _ _) as [ps| |] eqn:E; cbn [bind]; try discriminate.
    intros H HF. injection H as <-. cbn. eapply modify_Forall; [exact E|exact HF|].
    intros p Hp. unfold parse_apic_id. destruct (parse_all_digits sg value) as [a|] eqn:Ea; [|exact Hp].
    cbn. eapply all_digits_u32; [|exact Ea]. reflexivity.
  - destruct (bytes_eqb key (text "processor")); [|intros H; injection H as <-; auto].
    destruct (max <=? parse_processor_number sg value); [intros H; injection H as <-; auto|].
    destruct (modify _ _ _) as [ps| |] eqn:E; cbn [bind]; try discriminate.
    intros H HF. injection H as <-. cbn. eapply modify_Forall; [exact E|exact HF|]. auto.
Qed.

Lemma feed_lines_u32 sg max : forall lines c b st', feed_lines (x86_line_callback sg max) c lines = (b, Ok st') ->
  (forall st, c = Ok st -> apics_u32 (ps_procs st)) -> apics_u32 (ps_procs st').
Proof.
  induction lines as [|l ls IH]; intros c b st' H HF; cbn [feed_lines] in H.
  - injection H as _ ->. auto.
  - unfold x86_line_callback at 1 in H. eapply IH; [exact H|].
    intros st1 E1. destruct c as [st| |]; cbn in E1; try discriminate.
    eapply parse_line_u32; [exact E1|]. auto.
Qed.

Lemma proc_cpuinfo_u32 sg max file wants procs ok procs' :
  x86_parse_proc_cpuinfo sg max file wants procs = Ok (ok, procs') -> apics_u32 procs -> apics_u32 procs'.
Proof.
  intros H HF. unfold x86_parse_proc_cpuinfo in H. destruct file as [contents|].
  2:{ cbn in H. now injection H as _ <-. }
  destruct (split_pieces chr_nl contents) as (lines & Hne & Hl & ->).
  assert (G : forall es b st, feed_lines (x86_line_callback sg max) (Ok (PState 0 procs)) es = (b, Ok st) ->
                apics_u32 (ps_procs st)).
  { intros es b st E. eapply feed_lines_u32; [exact E|]. intros st0 E0. now injection E0 as <-. }
  destruct (multiline_total (x86_line_callback sg max) proc_cpuinfo_buffer_size wants
              (Ok (PState 0 procs)) lines Hne Hl) as (ok' & es & l' & tail & _ & [(E & _)|(p & E & _)]);
    rewrite E in H; cbn [bind] in H.
  - destruct (feed_lines _ _ es) as [b [st| |]] eqn:F; cbn in H; try discriminate.
    injection H as _ <-. eauto.
  - destruct (feed_lines _ _ (es ++ [p])) as [b [st| |]] eqn:F; cbn in H; try discriminate.
    injection H as _ <-. eauto.
Qed.

(** ** Meaningful lines *)

(** The record of [cpu] after the lines. *)
Definition announced (ms : list meaning) (cpu : N) : bool :=
  existsb (fun m => match m with Announces n => n =? cpu | _ => false end) ms.

Definition updated (ms : list meaning) (cur cpu : N) (p : xproc) : xproc :=
  XProc (match apic_given ms cur cpu None with Some a => a | None => x_apic_id p end)
        (x_linux_id p)
        (N.lor (x_flags p)
           (N.lor (if announced ms cpu then flag_proc_cpuinfo else 0)
                  (match apic_given ms cur cpu None with Some _ => flag_apic_id | None => 0 end))).

Lemma apic_given_acc : forall ms cur cpu acc,
  apic_given ms cur cpu acc = match apic_given ms cur cpu None with Some a => Some a | None => acc end.
Proof.
  induction ms as [|m ms IH]; intros cur cpu acc; cbn; [reflexivity|].
  destruct m as [n|a|]; [apply IH| |apply IH].
  destruct (cur =? cpu); [|apply IH].
  rewrite (IH cur cpu (Some a)). destruct (apic_given ms cur cpu None); reflexivity.
Qed.

Lemma lor_swap a b c d : N.lor (N.lor a b) (N.lor c d) = N.lor a (N.lor (N.lor b c) d).
Proof. now rewrite !N.lor_assoc. Qed.

Lemma lines_meaning sg max : forall lines ms st,
  Forall2 line_means lines ms -> length (ps_procs st) = N.to_nat max ->
  exists st', feed_lines (x86_line_callback sg max) (Ok st) lines = (true, Ok st') /\
    length (ps_procs st') = length (ps_procs st) /\
    forall cpu p, nth_error (ps_procs st) cpu = Some p ->
      nth_error (ps_procs st') cpu = Some (updated ms (ps_index st) (N.of_nat cpu) p).
Proof.
  induction lines as [|l ls IH]; intros ms st H Hlen; inversion H as [|? m ? ms' Hm Hms]; subst; cbn [feed_lines].
  - exists st. split; [reflexivity|]. split; [reflexivity|]. intros cpu p Hp. rewrite Hp. f_equal.
    unfold updated; cbn. rewrite N.lor_0_r. now destruct p.
  - unfold x86_line_callback at 1. cbn [bind].
    destruct Hm as [line v Hkv Hd Hv|line v Hkv Hd Hv|line Hno]; unfold x86_parse_line.
    + rewrite (split_line_key_value _ _ _ Hkv). cbn [bind].
      rewrite (bytes_eqb_neq (text "processor") (text "apicid")) by discriminate.
      rewrite bytes_eqb_refl, (pnum_decimal sg v Hd Hv).
      destruct (N.leb_spec max (dec_value v)) as [Hge|Hlt].
      * destruct (IH ms' (PState (dec_value v) (ps_procs st)) Hms Hlen) as (st2 & E & L & P).
        exists st2. split; [exact E|]. split; [exact L|]. intros cpu p Hp. rewrite (P cpu p Hp). f_equal.
        assert ((cpu < length (ps_procs st))%nat) by (eapply nth_error_some_lt; eassumption).
        unfold updated, announced. cbn. replace (dec_value v =? N.of_nat cpu) with false by lia. reflexivity.
      * destruct (nth_error_lt _ (ps_procs st) (N.to_nat (dec_value v))) as (q & Hq); [lia|].
        rewrite (modify_ok _ _ _ _ _ Hq). cbn [bind].
        match goal with |- context [Ok (PState ?i ?a)] => destruct (IH ms' (PState i a) Hms) as (st2 & E & L & P) end.
        { cbn. rewrite upd_length. exact Hlen. }
        exists st2. split; [exact E|]. cbn in L. rewrite upd_length in L. split; [exact L|].
        intros cpu p Hp. cbn [ps_procs ps_index] in P.
        destruct (Nat.eq_dec (N.to_nat (dec_value v)) cpu) as [<-|Hne].
        -- assert (q = p) by congruence. subst q.
           rewrite (P _ _ (nth_error_upd_eq _ _ _ _ (nth_error_some_lt _ _ _ _ Hq))). f_equal.
           unfold updated, announced; cbn [x_apic_id x_linux_id x_flags existsb apic_given].
           rewrite N2Nat.id, N.eqb_refl. cbn [orb]. f_equal.
           rewrite <- !N.lor_assoc. f_equal. rewrite N.lor_assoc. f_equal.
           match goal with |- context [if ?b then _ else 0] => destruct b end; reflexivity.
        -- rewrite (P cpu p) by (rewrite nth_error_upd_neq by exact Hne; exact Hp). f_equal.
           unfold updated, announced; cbn. replace (dec_value v =? N.of_nat cpu) with false by lia. reflexivity.
    + rewrite (split_line_key_value _ _ _ Hkv). cbn [bind]. rewrite bytes_eqb_refl.
      destruct (N.ltb_spec (ps_index st) max) as [Hlt|Hge].
      * destruct (nth_error_lt _ (ps_procs st) (N.to_nat (ps_index st))) as (q & Hq); [lia|].
        rewrite (modify_ok _ _ _ _ _ Hq). cbn [bind].
        match goal with |- context [Ok (PState ?i ?a)] => destruct (IH ms' (PState i a) Hms) as (st2 & E & L & P) end.
        { cbn. rewrite upd_length. exact Hlen. }
        exists st2. split; [exact E|]. cbn in L. rewrite upd_length in L. split; [exact L|].
        intros cpu p Hp. cbn [ps_procs ps_index] in P.
        destruct (Nat.eq_dec (N.to_nat (ps_index st)) cpu) as [<-|Hne].
        -- assert (q = p) by congruence. subst q.
           rewrite (P _ _ (nth_error_upd_eq _ _ _ _ (nth_error_some_lt _ _ _ _ Hq))). f_equal.
           unfold parse_apic_id. rewrite (all_digits_decimal sg v Hd Hv).
           unfold updated; cbn [x_apic_id x_linux_id x_flags apic_given].
           rewrite N2Nat.id, N.eqb_refl. rewrite (apic_given_acc ms' (ps_index st) (ps_index st) (Some (dec_value v))).
           change (announced (Gives (dec_value v) :: ms') (ps_index st)) with (announced ms' (ps_index st)).
           destruct (apic_given ms' (ps_index st) (ps_index st) None); f_equal;
             rewrite <- !N.lor_assoc; f_equal; rewrite ?N.lor_0_r.
           ++ rewrite (N.lor_comm flag_apic_id), <- N.lor_assoc, N.lor_diag. reflexivity.
           ++ apply N.lor_comm.
        -- rewrite (P cpu p) by (rewrite nth_error_upd_neq by exact Hne; exact Hp). f_equal.
           unfold updated, announced; cbn. replace (ps_index st =? N.of_nat cpu) with false by lia. reflexivity.
      * destruct (IH ms' st Hms Hlen) as (st2 & E & L & P).
        exists st2. split; [exact E|]. split; [exact L|]. intros cpu p Hp. rewrite (P cpu p Hp). f_equal.
        assert ((cpu < length (ps_procs st))%nat) by (eapply nth_error_some_lt; eassumption).
        unfold updated, announced; cbn. replace (ps_index st =? N.of_nat cpu) with false by lia. reflexivity.
    + assert (E : x86_parse_line sg max st line = Ok st).
      { unfold x86_parse_line. destruct (split_line_total line) as [E|(key & value & E & Hkv)]; rewrite E; cbn [bind]; [reflexivity|].
        destruct (Hno _ _ Hkv) as (N1 & N2). now rewrite !bytes_eqb_neq. }
      unfold x86_parse_line in E. rewrite E.
      destruct (IH ms' st Hms Hlen) as (st2 & E2 & L & P).
      exists st2. split; [exact E2|]. split; [exact L|]. intros cpu p Hp. rewrite (P cpu p Hp). reflexivity.
Qed.

Lemma proc_cpuinfo_meaning sg max wants procs lines ms :
  no_io_error wants -> lines <> [] -> Forall (fun l => ~ In 10 l) lines ->
  pieces_fit proc_cpuinfo_buffer_size lines -> Forall2 line_means lines ms ->
  length procs = N.to_nat max ->
  exists procs', x86_parse_proc_cpuinfo sg max (Some (join 10 lines)) wants procs = Ok (true, procs') /\
    length procs' = length procs /\
    forall cpu p, nth_error procs cpu = Some p ->
      nth_error procs' cpu = Some (updated ms 0 (N.of_nat cpu) p).
Proof.
  intros H1 H2 H3 H4 H5 H6. unfold x86_parse_proc_cpuinfo.
  change (join 10 lines) with (join chr_nl lines).
  rewrite (multiline_all (x86_line_callback sg max) _ wants (Ok (PState 0 procs)) lines H1 H2 H3 H4).
  destruct (lines_meaning sg max lines ms (PState 0 procs) H5 H6) as (st & E & L & P).
  rewrite E. cbn. exists (ps_procs st). auto.
Qed.
