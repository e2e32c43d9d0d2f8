(** ARM /proc/cpuinfo: the two strings, arbitrary lines, arbitrary files. *)
From Verif Require Import Base BaseProofs Text LinuxTextModel LinuxTextSpec LinuxTextProofs CpulistProofs CpulistFileProofs
  CpuinfoLineModel CpuinfoLineSpec CpuinfoLineProofs X86CpuinfoModel X86CpuinfoProofs ArmMidrModel ArmMidrProofs
  ArmClustersModel ArmMidrSpec ArmCpuinfoModel ArmCpuinfoSpec ArmCpuinfoProofs.
Open Scope N_scope.
Ltac Zify.zify_post_hook ::= Z.div_mod_to_equations.

(** ** The arrays *)

Lemma store_from_ok : forall s buf k, (k + length s <= length buf)%nat ->
  exists buf', store_from buf k s = Ok buf' /\ length buf' = length buf /\
    (forall i c, nth_error s i = Some c -> nth_error buf' (k + i) = Some (Some c)) /\
    (forall i, (i < k)%nat \/ (k + length s <= i)%nat -> nth_error buf' i = nth_error buf i).
Proof.
  induction s as [|c s IH]; intros buf k H; cbn [store_from].
  - exists buf. repeat split; auto. intros i c Hi. destruct i; discriminate.
  - cbn [length] in H. rewrite wr_ok by lia. cbn [bind].
    destruct (IH (upd buf k (Some c)) (S k)) as (b & E & L & P & Q); [rewrite upd_length; lia|].
    exists b. split; [exact E|]. rewrite upd_length in L. split; [exact L|]. split.
    + intros [|i] d Hi; cbn [nth_error] in Hi.
      * injection Hi as <-. rewrite Nat.add_0_r, Q by lia. apply nth_error_upd_eq. lia.
      * rewrite <- Nat.add_succ_comm. now apply P.
    + intros i Hi. cbn [length] in Hi. rewrite Q by lia. apply nth_error_upd_neq. lia.
Qed.

Lemma store_short buf max v : length buf = max -> (length v < max)%nat ->
  exists buf', store_string buf max v = Ok buf' /\ length buf' = max /\ holds_string buf' v /\
    forall i, (length v < i)%nat -> nth_error buf' i = nth_error buf i.
Proof.
  intros L H. unfold store_string. replace (max <? length v)%nat with false by (symmetry; apply Nat.ltb_ge; lia).
  rewrite wr_ok by lia. cbn [bind].
  destruct (store_from_ok v (upd buf (length v) (Some 0)) 0) as (b & E & L' & P & Q); [rewrite upd_length; lia|].
  exists b. rewrite upd_length in L'. split; [exact E|]. split; [lia|]. split; [split|].
  - exact P.
  - rewrite Q by lia. apply nth_error_upd_eq. lia.
  - intros i Hi. rewrite Q by lia. apply nth_error_upd_neq. lia.
Qed.

Lemma store_exact buf max v : length buf = max -> length v = max -> store_string buf max v = UB.
Proof.
  intros L H. unfold store_string. replace (max <? length v)%nat with false by (symmetry; apply Nat.ltb_ge; lia).
  unfold wr. replace (length v <? length buf)%nat with false by (symmetry; apply Nat.ltb_ge; lia). reflexivity.
Qed.

Lemma store_long buf max v : length buf = max -> (max < length v)%nat ->
  store_string buf max v = Ok (List.map Some (firstn max v)).
Proof.
  intros L H. unfold store_string. replace (max <? length v)%nat with true by (symmetry; apply Nat.ltb_lt; lia).
  assert (Lf : length (firstn max v) = max) by (rewrite firstn_length; lia).
  destruct (store_from_ok (firstn max v) buf 0) as (b & E & L' & P & Q); [lia|]. rewrite E. f_equal.
  apply nth_error_ext. intros i. destruct (Nat.lt_ge_cases i max) as [Hi|Hi].
  - destruct (nth_error_lt _ (firstn max v) i) as (c & Hc); [lia|].
    transitivity (Some (Some c)); [exact (P i c Hc)|symmetry; now apply map_nth_error].
  - transitivity (@None (option N)); [|symmetry]; apply nth_error_None; rewrite ?map_length; lia.
Qed.

(** ** Arbitrary lines *)

(** What parsing may do to a record. *)
Definition parsed (p p' : aproc) : Prop :=
  a_max p' = a_max p /\ a_min p' = a_min p /\ a_leader p' = a_leader p /\ a_count p' = a_count p /\ a_id p' = a_id p /\
  a_vendor p' = a_vendor p /\ a_uarch p' = a_uarch p /\ a_uarch_index p' = a_uarch_index p /\
  (exists extra, N.land extra 0xFF7F0000 = extra /\ a_flags p' = N.lor (a_flags p) extra) /\
  (is_u32 (a_midr p) -> is_u32 (a_midr p')).

Lemma parsed_refl p : parsed p p.
Proof. unfold parsed. repeat split; auto. exists 0. split; [reflexivity|]. now rewrite N.lor_0_r. Qed.

Lemma parsed_trans p q r : parsed p q -> parsed q r -> parsed p r.
Proof.
  intros (A1 & A2 & A3 & A4 & A5 & A6 & A7 & A8 & (e & Ee & Fe) & A9) (B1 & B2 & B3 & B4 & B5 & B6 & B7 & B8 & (f & Ef & Ff) & B9).
  unfold parsed. repeat split; try congruence; [|auto].
  exists (N.lor e f). split.
  - rewrite N.land_lor_distr_l. now rewrite Ee, Ef.
  - rewrite Ff, Fe. now rewrite N.lor_assoc.
Qed.

Lemma parsed_flag p f : N.land f 0xFF7F0000 = f -> parsed p (add_aflag f p).
Proof. intros H. unfold parsed. cbn. repeat split; auto. exists f. auto. Qed.
Lemma parsed_midr p m : (is_u32 (a_midr p) -> is_u32 m) -> parsed p (with_amidr m p).
Proof.
  intros H. unfold parsed. cbn. repeat split; auto. exists 0. split; [reflexivity|]. now rewrite N.lor_0_r.
Qed.
Lemma parsed_report p r : parsed p (with_areport r p).
Proof. unfold parsed. cbn. repeat split; auto. exists 0. split; [reflexivity|]. now rewrite N.lor_0_r. Qed.

Lemma put_u32 mask offset m v : mask < two32 -> is_u32 m -> is_u32 (put_field mask offset m v).
Proof.
  intros Hm H. unfold put_field. apply u32_bits. intros b Hb. rewrite N.lor_spec, !N.land_spec.
  rewrite (u32_high m b H Hb). rewrite (u32_high mask b Hm Hb). now rewrite !andb_false_r.
Qed.

Ltac parsed_by := repeat first [apply parsed_refl | apply parsed_flag; reflexivity | apply parsed_report |
   (apply parsed_midr; apply put_u32; reflexivity) | (eapply parsed_trans; [|apply parsed_flag; reflexivity]) |
   (eapply parsed_trans; [|apply parsed_report]) | (eapply parsed_trans; [|apply parsed_midr; apply put_u32; reflexivity])].

Lemma parsed_features arm32 : forall ws p, parsed p (fold_left (fun p w => add_feature arm32 w p) ws p).
Proof.
  induction ws as [|w ws IH]; intros p; [apply parsed_refl|]. cbn [fold_left].
  eapply parsed_trans; [|apply IH]. unfold add_feature. destruct (feature_bits arm32 w). apply parsed_report.
Qed.

Lemma parsed_cache sg data which mask value p : N.land mask 0xFF7F0000 = mask ->
  parsed p (parse_cache_number sg data which mask value p).
Proof.
  intros H. unfold parse_cache_number. destruct (parse_all_digits sg value); [|apply parsed_refl].
  eapply parsed_trans; [apply parsed_report|]. apply parsed_flag. rewrite N.land_lor_distr_l. now rewrite H.
Qed.

Lemma processor_line_total arm32 sg line key value p : key_value line key value ->
  exists p', processor_line arm32 sg key value p = Ok p' /\ parsed p p'.
Proof.
  intros H. unfold processor_line.
  repeat match goal with |- exists p', (if ?b then _ else _) = Ok p' /\ _ => destruct b end;
    try (eexists; split; [reflexivity|]; apply parsed_cache; reflexivity);
    try (eexists; split; [reflexivity|]; apply parsed_refl).
  - eexists; split; [reflexivity|]. unfold parse_cpu_part. destruct (hex_value_of 3 5 value); parsed_by.
  - rewrite (parse_features_words arm32 line key value p H). eexists; split; [reflexivity|].
    eapply parsed_trans; [apply parsed_flag|apply parsed_features]. reflexivity.
  - eexists; split; [reflexivity|]. unfold parse_cpu_variant. destruct (hex_value_of 3 3 value); parsed_by.
  - eexists; split; [reflexivity|]. unfold parse_cpu_revision. destruct (parse_all_digits sg value); parsed_by.
  - eexists; split; [reflexivity|]. unfold parse_cpu_implementer. destruct (hex_value_of 3 4 value); parsed_by.
  - eexists; split; [reflexivity|]. unfold parse_cpu_implementer. destruct (hex_value_of 3 4 value); parsed_by.
  - eexists; split; [reflexivity|]. unfold parse_cpu_architecture.
    destruct (bytes_eqb value (text "AArch64")); [parsed_by|]. destruct (leading_number sg 0 value) as [number rest].
    destruct (length rest =? length value)%nat; [parsed_by|]. destruct (number =? 0); parsed_by.
Qed.

Definition well_formed (max : N) (st : cstate) : Prop :=
  length (cs_procs st) = N.to_nat max /\ length (cs_hardware st) = 64%nat /\ length (cs_revision st) = 9%nat.

(** What parsing may do to the table. *)
Definition all_parsed (ps ps' : list aproc) : Prop :=
  length ps' = length ps /\
  forall cpu p, nth_error ps cpu = Some p -> exists p', nth_error ps' cpu = Some p' /\ parsed p p'.

Lemma all_parsed_refl ps : all_parsed ps ps.
Proof. split; [reflexivity|]. intros cpu p H. exists p. split; [exact H|apply parsed_refl]. Qed.
Lemma all_parsed_trans a b c : all_parsed a b -> all_parsed b c -> all_parsed a c.
Proof.
  intros (L1 & H1) (L2 & H2). split; [congruence|]. intros cpu p Hp. destruct (H1 cpu p Hp) as (q & Hq & P).
  destruct (H2 cpu q Hq) as (r & Hr & Q). exists r. split; [exact Hr|]. eapply parsed_trans; eassumption.
Qed.
Lemma all_parsed_upd ps i p p' : nth_error ps i = Some p -> parsed p p' -> all_parsed ps (upd ps i p').
Proof.
  intros Hi Hp. split; [apply upd_length|]. intros cpu q Hq. rewrite nth_error_upd.
  assert (i < length ps)%nat by (eapply nth_error_some_lt; eassumption).
  destruct (Nat.eqb_spec i cpu) as [->|]; cbn [andb].
  - replace (cpu <? length ps)%nat with true by (symmetry; now apply Nat.ltb_lt). exists p'.
    split; [reflexivity|]. congruence.
  - exists q. split; [exact Hq|apply parsed_refl].
Qed.

Lemma overruns_hardware line v : key_value line (text "Hardware") v -> (overruns line <-> length v = 64%nat).
Proof.
  intros H. split.
  - intros (w & [(H1 & L)|(H1 & L)]); destruct (key_value_unique _ _ _ _ _ H H1) as (E & ->); [exact L|discriminate E].
  - intros L. exists v. left. auto.
Qed.
Lemma overruns_revision line v : key_value line (text "Revision") v -> (overruns line <-> length v = 9%nat).
Proof.
  intros H. split.
  - intros (w & [(H1 & L)|(H1 & L)]); destruct (key_value_unique _ _ _ _ _ H H1) as (E & ->); [discriminate E|exact L].
  - intros L. exists v. right. auto.
Qed.

Lemma arm_line_total arm32 sg max st line : well_formed max st ->
  (overruns line /\ arm_parse_line arm32 sg max st line = UB) \/
  (~ overruns line /\ exists st', arm_parse_line arm32 sg max st line = Ok st' /\ well_formed max st' /\
     all_parsed (cs_procs st) (cs_procs st') /\
     forall cpu, cpu <> N.to_nat (cs_index st) -> cpu <> N.to_nat (cs_index st') ->
       nth_error (cs_procs st') cpu = nth_error (cs_procs st) cpu).
Proof.
  intros (Hl & Hh & Hr). unfold arm_parse_line.
  destruct (split_line_total line) as [E|(key & value & E & Hkv)].
  { right. split.
    - intros (v & [(H & _)|(H & _)]); apply split_line_key_value in H; congruence.
    - rewrite E. cbn [bind]. exists st. split; [reflexivity|]. split; [repeat split; assumption|].
      split; [apply all_parsed_refl|auto]. }
  rewrite E. cbn [bind].
  destruct (bytes_eqb key (text "Hardware")) eqn:B1; [|destruct (bytes_eqb key (text "Revision")) eqn:B2].
  - apply bytes_eqb_true in B1. subst key. pose proof (overruns_hardware line value Hkv) as O.
    destruct (Nat.eq_dec (length value) 64) as [L|L].
    + left. split; [tauto|]. rewrite store_exact by assumption. reflexivity.
    + right. split; [tauto|]. assert (X : exists b, store_string (cs_hardware st) hardware_value_max value = Ok b /\ length b = 64%nat).
      { destruct (Nat.lt_ge_cases (length value) 64) as [G|G].
        - destruct (store_short (cs_hardware st) 64 value Hh G) as (b & Eb & Lb & _). eauto.
        - change hardware_value_max with 64%nat. rewrite (store_long (cs_hardware st) 64 value Hh) by lia. eexists. split; [reflexivity|].
          rewrite map_length, firstn_length. lia. }
      destruct X as (b & Eb & Lb). rewrite Eb. cbn [bind]. eexists. split; [reflexivity|].
      split; [repeat split; assumption|]. split; [apply all_parsed_refl|auto].
  - apply bytes_eqb_true in B2. subst key. pose proof (overruns_revision line value Hkv) as O.
    destruct (Nat.eq_dec (length value) 9) as [L|L].
    + left. split; [tauto|]. rewrite store_exact by assumption. reflexivity.
    + right. split; [tauto|]. assert (X : exists b, store_string (cs_revision st) revision_value_max value = Ok b /\ length b = 9%nat).
      { destruct (Nat.lt_ge_cases (length value) 9) as [G|G].
        - destruct (store_short (cs_revision st) 9 value Hr G) as (b & Eb & Lb & _). eauto.
        - change revision_value_max with 9%nat. rewrite (store_long (cs_revision st) 9 value Hr) by lia. eexists. split; [reflexivity|].
          rewrite map_length, firstn_length. lia. }
      destruct X as (b & Eb & Lb). rewrite Eb. cbn [bind]. eexists. split; [reflexivity|].
      split; [repeat split; assumption|]. split; [apply all_parsed_refl|auto].
  - right. split.
    { intros (v & [(H & _)|(H & _)]); destruct (key_value_unique _ _ _ _ _ Hkv H) as (-> & _);
        rewrite bytes_eqb_refl in *; discriminate. }
    destruct (bytes_eqb key (text "processor")).
    + set (new := parse_processor_number sg value). clearbody new. destruct (N.ltb_spec new max) as [Hn|Hn].
      * destruct (nth_error_lt _ (cs_procs st) (N.to_nat new)) as (p & Hp); [lia|].
        rewrite (modify_ok _ _ _ _ _ Hp). cbn [bind]. eexists. split; [reflexivity|]. cbn [cs_procs cs_index].
        split; [repeat split; cbn; rewrite ?upd_length; assumption|].
        split; [|intros; now apply nth_error_upd_neq; auto].
        eapply all_parsed_upd; [exact Hp|]. apply parsed_flag. reflexivity.
      * cbn [bind]. eexists. split; [reflexivity|]. cbn. split; [repeat split; assumption|].
        split; [apply all_parsed_refl|auto].
    + destruct (N.ltb_spec (cs_index st) max) as [Hn|Hn].
      * destruct (nth_error_lt _ (cs_procs st) (N.to_nat (cs_index st))) as (p & Hp); [lia|].
        unfold rd. rewrite Hp. cbn [bind].
        destruct (processor_line_total arm32 sg line key value p Hkv) as (p' & Ep & Pp). rewrite Ep. cbn [bind].
        rewrite wr_ok by lia. cbn [bind]. eexists. split; [reflexivity|]. cbn [cs_procs cs_index].
        split; [repeat split; cbn; rewrite ?upd_length; assumption|].
        split; [eapply all_parsed_upd; eassumption|intros; now apply nth_error_upd_neq; auto].
      * destruct (processor_line_total arm32 sg line key value (cs_dummy st) Hkv) as (p' & Ep & _). rewrite Ep. cbn [bind].
        eexists. split; [reflexivity|]. cbn. split; [repeat split; assumption|]. split; [apply all_parsed_refl|auto].
Qed.

(** ** Arbitrary files *)

Lemma arm_feed_safe arm32 sg max : forall lines st, well_formed max st -> Forall (fun l => ~ overruns l) lines ->
  exists st', feed_lines (arm_line_callback arm32 sg max) (Ok st) lines = (true, Ok st') /\ well_formed max st' /\
    all_parsed (cs_procs st) (cs_procs st').
Proof.
  induction lines as [|l ls IH]; intros st W F; cbn [feed_lines].
  - exists st. split; [reflexivity|]. split; [exact W|apply all_parsed_refl].
  - apply Forall_cons_iff in F. destruct F as (Fl & F). unfold arm_line_callback at 1. cbn [bind].
    destruct (arm_line_total arm32 sg max st l W) as [(O & _)|(_ & st1 & E1 & W1 & P1 & _)]; [contradiction|].
    rewrite E1. destruct (IH st1 W1 F) as (st2 & E2 & W2 & P2). exists st2. split; [exact E2|]. split; [exact W2|].
    eapply all_parsed_trans; eassumption.
Qed.

(** Once a line has overrun, the result is undefined. *)
Lemma arm_feed_ub arm32 sg max : forall lines, feed_lines (arm_line_callback arm32 sg max) UB lines = (true, UB).
Proof. induction lines as [|l ls IH]; [reflexivity|]. cbn [feed_lines]. exact IH. Qed.

Lemma join_head sep l ls : exists rest, join sep (l :: ls) = l ++ rest /\ (rest = [] \/ exists r, rest = sep :: r).
Proof. destruct ls as [|m ls]; [exists []; split; [now rewrite app_nil_r|auto]|]. eexists. split; [reflexivity|]. eauto. Qed.

(** The last piece handed to the callback is a whole line or its first [b] characters. *)
Lemma last_piece b l' p tail : p ++ tail = join chr_nl l' -> ~ In chr_nl p -> (tail <> [] -> length p = b) ->
  Forall (fun l => ~ In chr_nl l) l' ->
  (l' = [] /\ p = []) \/ exists l r, l' = l :: r /\ (p = l \/ p = firstn b l).
Proof.
  intros Ej Hp Ht Hl. destruct l' as [|l r].
  - left. split; [reflexivity|]. cbn in Ej. now apply app_eq_nil in Ej.
  - right. exists l, r. split; [reflexivity|]. destruct (join_head chr_nl l r) as (rest & Er & Hr). rewrite Er in Ej.
    apply Forall_cons_iff in Hl. destruct Hl as (Hl & _).
    destruct (Nat.le_gt_cases (length p) (length l)) as [L|L].
    + assert (Ep : p = firstn (length p) l).
      { assert (firstn (length p) (p ++ tail) = firstn (length p) (l ++ rest)) as X by now rewrite Ej.
        rewrite !firstn_app, firstn_all, Nat.sub_diag in X. cbn in X. rewrite app_nil_r in X.
        replace (length p - length l)%nat with 0%nat in X by lia. cbn in X. now rewrite app_nil_r in X. }
      destruct tail as [|x tail].
      * left. rewrite app_nil_r in Ej. subst p. assert (length rest = 0)%nat by (rewrite app_length in L; lia).
        destruct rest; [now rewrite app_nil_r|discriminate].
      * right. rewrite <- (Ht ltac:(discriminate)). exact Ep.
    + exfalso. assert (X : nth_error (p ++ tail) (length l) = nth_error (l ++ rest) (length l)) by now rewrite Ej.
      rewrite nth_error_app1 in X by exact L. rewrite (nth_error_app2 l), Nat.sub_diag in X by lia.
      destruct Hr as [->|(r' & ->)].
      * cbn in X. apply nth_error_None in X. lia.
      * cbn in X. apply Hp. eapply nth_error_In. exact X.
Qed.

Lemma arm_file_safe arm32 sg max wants lines hardware revision procs :
  length procs = N.to_nat max -> length hardware = 64%nat -> length revision = 9%nat ->
  Forall (fun l => ~ In 10 l /\ ~ overruns l /\ ~ overruns (firstn 1024 l)) lines ->
  exists ok st, arm_parse_proc_cpuinfo arm32 sg max (Some (join 10 lines)) wants hardware revision procs = Ok (ok, st) /\
    well_formed max st /\ all_parsed procs (cs_procs st).
Proof.
  intros Hl Hh Hr F. unfold arm_parse_proc_cpuinfo. rewrite wr_ok by lia. cbn [bind].
  set (st0 := CState 0 procs aproc0 (upd hardware 0 (Some 0)) revision).
  assert (W0 : well_formed max st0) by (repeat split; cbn; rewrite ?upd_length; assumption).
  assert (Nil : ~ overruns []).
  { intros (v & [(H & _)|(H & _)]); apply split_line_key_value in H; discriminate. }
  assert (X : exists lines', lines' <> [] /\ join 10 lines = join chr_nl lines' /\
     Forall (fun l => ~ In 10 l /\ ~ overruns l /\ ~ overruns (firstn 1024 l)) lines').
  { destruct lines as [|l r]; [exists [[]]|exists (l :: r)]; (split; [discriminate|]; split; [reflexivity|]); auto. }
  destruct X as (lines' & Hne & -> & F'). clear F lines.
  destruct (multiline_total (arm_line_callback arm32 sg max) arm_cpuinfo_buffer_size wants (Ok st0) lines' Hne)
    as (ok & es & l' & tail & El & H).
  { eapply Forall_impl; [|exact F']. cbn. intros l (A & _). exact A. }
  subst lines'. apply Forall_app in F'. destruct F' as (Fe & Fl).
  assert (Fe' : Forall (fun l => ~ overruns l) es) by (eapply Forall_impl; [|exact Fe]; cbn; tauto).
  destruct H as [(E & _)|(p & E & Ej & Hp & Ht & _)]; rewrite E; cbn [bind].
  - destruct (arm_feed_safe arm32 sg max es st0 W0 Fe') as (st & F & W & P). rewrite F. cbn. exists false, st. auto.
  - assert (Hpo : ~ overruns p).
    { destruct (last_piece arm_cpuinfo_buffer_size l' p tail Ej Hp Ht) as [(_ & ->)|(l & r & -> & Hpl)].
      - eapply Forall_impl; [|exact Fl]. cbn. tauto.
      - exact Nil.
      - apply Forall_cons_iff in Fl. destruct Hpl as [-> | ->]; [tauto|]. unfold arm_cpuinfo_buffer_size.
        change (N.to_nat 1024) with 1024%nat. tauto. }
    destruct (arm_feed_safe arm32 sg max (es ++ [p]) st0 W0) as (st & F & W & P).
    { apply Forall_app. split; [exact Fe'|]. constructor; [exact Hpo|constructor]. }
    rewrite F. cbn. exists true, st. auto.
Qed.
