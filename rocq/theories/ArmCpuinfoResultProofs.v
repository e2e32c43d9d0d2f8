(** ARM /proc/cpuinfo: results in the form of the property theorems. *)
From Verif Require Import Base BaseProofs Masks Text LinuxTextModel LinuxTextSpec LinuxTextProofs
  CpuinfoLineModel CpuinfoLineSpec CpuinfoLineProofs X86CpuinfoModel X86CpuinfoProofs ArmMidrModel ArmMidrProofs
  ArmClustersModel ArmMidrSpec ArmCpuinfoModel ArmCpuinfoSpec ArmCpuinfoProofs ArmCpuinfoFileProofs ArmCpuinfoMeaningProofs.
Open Scope N_scope.

Lemma computed_key_value line k v : split_line line = Ok (Some (k, v)) -> key_value line k v.
Proof.
  intros E. destruct (split_line_total line) as [N|(k' & v' & E' & H)]; [congruence|].
  rewrite E in E'. injection E' as -> ->. exact H.
Qed.

Lemma computed_not_key line : split_line line = Ok None -> forall k v, ~ key_value line k v.
Proof. intros E k v H. apply split_line_key_value in H. congruence. Qed.

Lemma computed_key line k v k' v' : split_line line = Ok (Some (k, v)) -> key_value line k' v' -> k' = k.
Proof. intros E H. apply split_line_key_value in H. congruence. Qed.

(** A file that cannot be opened. *)
Lemma arm_file_missing arm32 sg max wants hardware revision procs : length hardware = 64%nat ->
  exists st, arm_parse_proc_cpuinfo arm32 sg max None wants hardware revision procs = Ok (false, st) /\ cs_procs st = procs.
Proof.
  intros H. unfold arm_parse_proc_cpuinfo. rewrite wr_ok by lia. cbn. eexists. split; reflexivity.
Qed.

Lemma arm_file_result arm32 sg max wants hardware revision procs lines ms :
  no_io_error wants -> lines <> [] -> Forall (fun l => ~ In 10 l) lines -> pieces_fit 1024 lines ->
  Forall2 (arm_line_means arm32) lines ms ->
  length procs = N.to_nat max -> length hardware = 64%nat -> length revision = 9%nat ->
  exists st, arm_parse_proc_cpuinfo arm32 sg max (Some (join 10 lines)) wants hardware revision procs = Ok (true, st) /\
    length (cs_procs st) = length procs /\
    forall cpu p, nth_error procs cpu = Some p -> is_u32 (a_midr p) -> exists p', nth_error (cs_procs st) cpu = Some p' /\
      let said := told ms 0 (N.of_nat cpu) in
      is_u32 (a_midr p') /\
      (forall f, f <> Architecture -> field_of f (a_midr p') = last_said (field_said f) said (field_of f (a_midr p))) /\
      ((forall v ls, ~ In (Arch v ls) said) -> field_of Architecture (a_midr p') = field_of Architecture (a_midr p)) /\
      (forall v ls, In (Arch v ls) said -> field_of Architecture (a_midr p') =
         architecture_code arm32 (ar_architecture_version (a_report p'))
           (N.testbit (ar_architecture_flags (a_report p')) 0) (N.testbit (ar_architecture_flags (a_report p')) 1)
           (N.testbit (ar_architecture_flags (a_report p')) 2)) /\
      ar_architecture_version (a_report p') = last_said version_said said (ar_architecture_version (a_report p)) /\
      (forall b, N.testbit (ar_architecture_flags (a_report p')) b = true <->
         N.testbit (ar_architecture_flags (a_report p)) b = true \/
         (arm32 = true /\ exists v ls c, In (Arch v ls) said /\ In c ls /\
            ((c = 84 /\ b = 0) \/ (c = 69 /\ b = 1) \/ (c = 74 /\ b = 2)))) /\
      (forall b, N.testbit (ar_features (a_report p')) (N.of_nat b) = true <->
         N.testbit (ar_features (a_report p)) (N.of_nat b) = true \/
         exists names w, In (Feats names) said /\ In w names /\ stands_for arm32 false w b) /\
      (forall b, N.testbit (ar_features2 (a_report p')) (N.of_nat b) = true <->
         N.testbit (ar_features2 (a_report p)) (N.of_nat b) = true \/
         exists names w, In (Feats names) said /\ In w names /\ stands_for arm32 true w b) /\
      (forall data which, l1_value data which (a_report p') = last_said (cache_said data which) said (l1_value data which (a_report p))) /\
      (forall b, N.testbit (a_flags p') b = true <-> N.testbit (a_flags p) b = true \/ exists s, In s said /\ records s b) /\
      a_max p' = a_max p /\ a_min p' = a_min p /\ a_leader p' = a_leader p /\ a_count p' = a_count p /\ a_id p' = a_id p.
Proof.
  intros H1 H2 H3 H4 H5 H6 H7 H8.
  destruct (arm_file_meaning arm32 sg max wants hardware revision procs lines ms H1 H2 H3 H4 H5 H6 H7 H8)
    as (st & E & W & _ & _ & P).
  exists st. split; [exact E|]. split; [destruct W; congruence|]. intros cpu p Hp Hu. rewrite (P cpu p Hp).
  eexists. split; [reflexivity|]. cbv zeta. set (l := told ms 0 (N.of_nat cpu)).
  assert (F : Forall fits l) by (eapply told_fits; exact H5).
  destruct (tells_code arm32 l p Hu F) as (C1 & C2).
  assert (V : forall s, version_said s = None <-> forall v ls, s <> Arch v ls).
  { intros s. destruct s; cbn; split; try discriminate; try reflexivity.
    intros C. exfalso. eapply C. reflexivity. }
  split; [now apply tells_u32|].
  split; [intros f Hf; now apply tells_fields|].
  split.
  { intros No. apply C1. rewrite Forall_forall. intros s Hs. apply V. intros v ls ->. now apply (No v ls). }
  split.
  { intros v ls Hi. rewrite C2; [apply code_exact|]. left. apply Exists_exists. exists (Arch v ls). split; [exact Hi|discriminate]. }
  split; [apply tells_version|].
  split.
  { intros b. rewrite tells_letters. split; (intros [H|(Ha & v & ls & c & Hi & Hc & H)]; [auto|]); right; (split; [exact Ha|]);
      exists v, ls, c; (split; [exact Hi|]); (split; [exact Hc|]).
    - unfold letter_bit in H. destruct (N.eqb_spec c 84); [left; split; congruence|].
      destruct (N.eqb_spec c 69); [right; left; split; congruence|].
      destruct (N.eqb_spec c 74); [right; right; split; congruence|discriminate].
    - destruct H as [(-> & ->)|[(-> & ->)|(-> & ->)]]; reflexivity. }
  split; [intros b; apply (tells_features arm32 false b l p)|].
  split; [intros b; apply (tells_features arm32 true b l p)|].
  split; [intros; apply tells_cache|].
  split; [intros b; now apply tells_flags|].
  destruct (tells_parsed arm32 l p F) as (A1 & A2 & A3 & A4 & A5 & _). repeat split; assumption.
Qed.

Lemma arm_file_strings arm32 sg max wants hardware revision procs lines ms :
  no_io_error wants -> lines <> [] -> Forall (fun l => ~ In 10 l) lines -> pieces_fit 1024 lines ->
  Forall2 (arm_line_means arm32) lines ms ->
  length procs = N.to_nat max -> length hardware = 64%nat -> length revision = 9%nat ->
  exists st, arm_parse_proc_cpuinfo arm32 sg max (Some (join 10 lines)) wants hardware revision procs = Ok (true, st) /\
    (length (cs_hardware st) = 64%nat /\ length (cs_revision st) = 9%nat) /\
    (last_text board_said ms None = None -> holds_string (cs_hardware st) []) /\
    (forall v, last_text board_said ms None = Some v ->
       ((length v < 64)%nat -> holds_string (cs_hardware st) v) /\
       ((64 < length v)%nat -> cs_hardware st = List.map Some (firstn 64 v))) /\
    (forall v, last_text board_revision_said ms None = Some v ->
       ((length v < 9)%nat -> holds_string (cs_revision st) v) /\
       ((9 < length v)%nat -> cs_revision st = List.map Some (firstn 9 v))) /\
    (last_text board_revision_said ms None = None -> cs_revision st = revision).
Proof.
  intros H1 H2 H3 H4 H5 H6 H7 H8.
  destruct (arm_file_meaning arm32 sg max wants hardware revision procs lines ms H1 H2 H3 H4 H5 H6 H7 H8)
    as (st & E & W & A1 & A2 & _).
  exists st. split; [exact E|]. split; [unfold well_formed in W; tauto|]. unfold array_after in *.
  split; [|split; [|split]].
  - intros N. rewrite N in A1. rewrite A1. split; [intros [|i] c Hc; discriminate|]. cbn [length].
    apply nth_error_upd_eq. lia.
  - intros v N. rewrite N in A1. exact A1.
  - intros v N. rewrite N in A2. exact A2.
  - intros N. rewrite N in A2. exact A2.
Qed.

(** ** Blocks *)

Lemma told_about : forall ms cur cpu, told ms cur cpu = told (filter about_processors ms) cur cpu.
Proof. induction ms as [|m ms IH]; intros cur cpu; [reflexivity|]. destruct m; cbn; rewrite ?IH; reflexivity. Qed.

Lemma block_told version cpu m names rest cur other :
  told (kernel_block version cpu m names ++ rest) cur other =
  (if cpu =? other then
     [Named; Feats names; Field Implementer (field_of Implementer m); Arch version []; Field Variant (field_of Variant m);
      Field PartNumber (field_of PartNumber m); Field Revision (field_of Revision m)] else []) ++ told rest cpu other.
Proof. cbn. destruct (cpu =? other); reflexivity. Qed.

Lemma blocks_told version : forall (blocks : list (N * N * list (list N))) cur cpu m names,
  NoDup (map (fun b => fst (fst b)) blocks) -> In (cpu, m, names) blocks ->
  told (flat_map (fun b => kernel_block version (fst (fst b)) (snd (fst b)) (snd b)) blocks) cur cpu =
    [Named; Feats names; Field Implementer (field_of Implementer m); Arch version []; Field Variant (field_of Variant m);
     Field PartNumber (field_of PartNumber m); Field Revision (field_of Revision m)].
Proof.
  assert (No : forall (blocks : list (N * N * list (list N))) cur cpu, ~ In cpu (map (fun b => fst (fst b)) blocks) ->
    told (flat_map (fun b => kernel_block version (fst (fst b)) (snd (fst b)) (snd b)) blocks) cur cpu = []).
  { induction blocks as [|[[c' m'] n'] bl IH]; intros cur cpu H; [reflexivity|]. cbn [flat_map fst snd]. rewrite block_told.
    cbn in H. replace (c' =? cpu) with false by (symmetry; apply N.eqb_neq; tauto). apply IH. tauto. }
  induction blocks as [|[[c' m'] n'] bl IH]; intros cur cpu m names Hnd Hin; [destruct Hin|].
  cbn [flat_map fst snd]. rewrite block_told. cbn [map fst] in Hnd. apply NoDup_cons_iff in Hnd. destruct Hnd as (Hni & Hnd).
  destruct Hin as [E|Hin].
  - injection E as -> -> ->. rewrite N.eqb_refl, No by exact Hni. now rewrite app_nil_r.
  - assert (c' <> cpu).
    { intros ->. apply Hni. change cpu with (fst (fst (cpu, m, names))). now apply (in_map (fun b => fst (fst b))). }
    replace (c' =? cpu) with false by (symmetry; now apply N.eqb_neq). now apply IH.
Qed.

Lemma fields_determine a b : is_u32 a -> is_u32 b -> (forall f, field_of f a = field_of f b) -> a = b.
Proof.
  intros Ha Hb H. apply N.bits_inj. intros k.
  destruct (N.lt_ge_cases k 32) as [L|L]; [|now rewrite !u32_high].
  assert (X : forall f, lowest_bit f <= k < lowest_bit f + field_width f -> N.testbit a k = N.testbit b k).
  { intros f Hf. assert (T : N.testbit (field_of f a) (k - lowest_bit f) = N.testbit (field_of f b) (k - lowest_bit f)) by now rewrite H.
    rewrite !field_bits in T. replace (k - lowest_bit f <? field_width f) with true in T by (symmetry; apply N.ltb_lt; lia).
    cbn [andb] in T. now replace (k - lowest_bit f + lowest_bit f) with k in T by lia. }
  destruct (N.lt_ge_cases k 4); [apply (X Revision); cbn; lia|].
  destruct (N.lt_ge_cases k 16); [apply (X PartNumber); cbn; lia|].
  destruct (N.lt_ge_cases k 20); [apply (X Architecture); cbn; lia|].
  destruct (N.lt_ge_cases k 24); [apply (X Variant); cbn; lia|apply (X Implementer); cbn; lia].
Qed.

Lemma arm_blocks_identified arm32 sg max wants hardware revision procs lines ms version blocks :
  no_io_error wants -> lines <> [] -> Forall (fun l => ~ In 10 l) lines -> pieces_fit 1024 lines ->
  Forall2 (arm_line_means arm32) lines ms ->
  length procs = N.to_nat max -> length hardware = 64%nat -> length revision = 9%nat ->
  filter about_processors ms = flat_map (fun b => kernel_block version (fst (fst b)) (snd (fst b)) (snd b)) blocks ->
  NoDup (map (fun b => fst (fst b)) blocks) -> version <> 5 -> version <> 6 ->
  exists st, arm_parse_proc_cpuinfo arm32 sg max (Some (join 10 lines)) wants hardware revision procs = Ok (true, st) /\
    forall cpu m names p, In (cpu, m, names) blocks -> is_u32 m -> field_of Architecture m = 15 ->
      nth_error procs (N.to_nat cpu) = Some p -> is_u32 (a_midr p) ->
      exists p', nth_error (cs_procs st) (N.to_nat cpu) = Some p' /\
        a_midr p' = m /\ ar_architecture_version (a_report p') = version /\
        (forall b, 16 <= b <= 22 -> N.testbit (a_flags p') b = true) /\
        (forall b, N.testbit (ar_features (a_report p')) (N.of_nat b) = true <->
           N.testbit (ar_features (a_report p)) (N.of_nat b) = true \/ exists w, In w names /\ stands_for arm32 false w b) /\
        (forall b, N.testbit (ar_features2 (a_report p')) (N.of_nat b) = true <->
           N.testbit (ar_features2 (a_report p)) (N.of_nat b) = true \/ exists w, In w names /\ stands_for arm32 true w b).
Proof.
  intros H1 H2 H3 H4 H5 H6 H7 H8 Hms Hnd V5 V6.
  destruct (arm_file_result arm32 sg max wants hardware revision procs lines ms H1 H2 H3 H4 H5 H6 H7 H8)
    as (st & E & _ & P).
  exists st. split; [exact E|]. intros cpu m names p Hin Hm Ha Hp Hu.
  destruct (P _ p Hp Hu) as (p' & Hp' & U & Ff & _ & Fa & Fv & _ & F1 & F2 & _ & Fl & _). clear P.
  rewrite N2Nat.id, told_about, Hms, (blocks_told version blocks 0 cpu m names Hnd Hin) in *.
  exists p'. split; [exact Hp'|]. split; [|split; [|split; [|split]]].
  - apply fields_determine; [exact U|exact Hm|]. intros f. destruct f; try (rewrite Ff by discriminate; reflexivity).
    rewrite (Fa version []) by (cbn; tauto). rewrite Ha, Fv. cbn [last_said version_said]. unfold architecture_code.
    replace (version =? 6) with false by lia. replace (version =? 5) with false by lia. now destruct arm32.
  - exact Fv.
  - intros b Hb. rewrite Fl. right.
    assert (b = 21 \/ b = 16 \/ b = 17 \/ b = 18 \/ b = 19 \/ b = 20 \/ b = 22) as C by lia.
    destruct C as [->|[->|[->|[->|[->|[->| ->]]]]]].
    + exists Named. split; [cbn; tauto|]. now left.
    + exists (Arch version []). split; [cbn; tauto|]. now right.
    + exists (Field Implementer (field_of Implementer m)). split; [cbn; tauto|]. now right.
    + exists (Field Variant (field_of Variant m)). split; [cbn; tauto|]. now right.
    + exists (Field PartNumber (field_of PartNumber m)). split; [cbn; tauto|]. now right.
    + exists (Field Revision (field_of Revision m)). split; [cbn; tauto|]. now right.
    + exists (Feats names). split; [cbn; tauto|]. now right.
  - intros b. rewrite F1. split; (intros [H|H]; [auto|right]).
    + destruct H as (ns & w & Hi & H). exists w. cbn in Hi.
      repeat (destruct Hi as [Hi|Hi]; [try discriminate; injection Hi as <-; exact H|]). destruct Hi.
    + destruct H as (w & H). exists names, w. split; [cbn; tauto|exact H].
  - intros b. rewrite F2. split; (intros [H|H]; [auto|right]).
    + destruct H as (ns & w & Hi & H). exists w. cbn in Hi.
      repeat (destruct Hi as [Hi|Hi]; [try discriminate; injection Hi as <-; exact H|]). destruct Hi.
    + destruct H as (w & H). exists names, w. split; [cbn; tauto|exact H].
Qed.
