(** ARM /proc/cpuinfo: what files of meaningful lines leave in the table. *)
From Verif Require Import Base BaseProofs Text LinuxTextModel LinuxTextSpec LinuxTextProofs CpulistProofs CpulistFileProofs
  CpuinfoLineModel CpuinfoLineSpec CpuinfoLineProofs X86CpuinfoModel X86CpuinfoProofs ArmMidrModel ArmMidrProofs
  ArmClustersModel ArmMidrSpec ArmCpuinfoModel ArmCpuinfoSpec ArmCpuinfoProofs ArmCpuinfoFileProofs.
Open Scope N_scope.
Ltac Zify.zify_post_hook ::= Z.div_mod_to_equations.

(** ** Feature names *)

Definition stands_forb (arm32 second : bool) (word : list N) (b : nat) : bool :=
  match nth_error (kernel_names arm32 second) b with
  | None => false
  | Some name =>
      (bytes_eqb name word || (arm32 && existsb (fun e => bytes_eqb (fst e) word && bytes_eqb (snd e) name) misspelt)) &&
      (arm32 || negb (existsb (bytes_eqb name) skipped64))
  end.

Lemma bytes_eqb_iff a b : bytes_eqb a b = true <-> a = b.
Proof. split; [apply bytes_eqb_true|intros ->; apply bytes_eqb_refl]. Qed.

Lemma stands_forb_exact arm32 second word b : stands_forb arm32 second word b = true <-> stands_for arm32 second word b.
Proof.
  unfold stands_forb, stands_for. destruct (nth_error (kernel_names arm32 second) b) as [name|].
  2:{ split; [discriminate|]. intros (? & ? & _). discriminate. }
  rewrite andb_true_iff, !orb_true_iff, andb_true_iff, bytes_eqb_iff, negb_true_iff, existsb_exists.
  assert (S : existsb (bytes_eqb name) skipped64 = false <-> ~ In name skipped64).
  { rewrite <- not_true_iff_false, existsb_exists. split; intros H C; apply H.
    - exists name. split; [exact C|apply bytes_eqb_refl].
    - destruct C as (x & Hx & E). apply bytes_eqb_true in E. now subst. }
  rewrite S. clear S. split.
  - intros (H1 & H2). exists name. split; [reflexivity|]. split.
    + destruct H1 as [H1|(Ha & e & He & Hw)]; [now left|]. right. split; [exact Ha|].
      apply andb_true_iff in Hw. destruct Hw as (Hw & Hn). apply bytes_eqb_true in Hw, Hn. destruct e; cbn in *. now subst.
    + intros ->. destruct H2; [discriminate|assumption].
  - intros (n & E & H1 & H2). injection E as <-. split.
    + destruct H1 as [H1|(Ha & H1)]; [now left|]. right. split; [exact Ha|]. eexists. split; [exact H1|].
      cbn. now rewrite !bytes_eqb_refl.
    + destruct arm32; auto.
Qed.

Definition pick_bits (second : bool) (x : N * N) : N := if second then snd x else fst x.

Definition names_right : bool :=
  forallb (fun arm32 => forallb (fun second =>
    forallb (fun e => let x := pick_bits second (feature_bits arm32 (fst e)) in
       (x <? 2 ^ 64) && forallb (fun b => Bool.eqb (N.testbit x (N.of_nat b)) (stands_forb arm32 second (fst e) b)) (seq 0 64))
      feature_names &&
    (* every name that stands for a bit is in the table *)
    forallb (fun b => match nth_error (kernel_names arm32 second) b with
                      | None => true
                      | Some name =>
                          (negb arm32 && existsb (bytes_eqb name) skipped64) ||
                          existsb (fun e => bytes_eqb (fst e) name) feature_names
                      end) (seq 0 64) && (length (kernel_names arm32 second) <=? 64)%nat) [true; false]) [true; false] &&
  forallb (fun m => existsb (fun e => bytes_eqb (fst e) (fst m)) feature_names) misspelt.

Lemma names_right_true : names_right = true.
Proof. vm_compute. reflexivity. Qed.

Lemma feature_bits_exact arm32 second w b :
  N.testbit (pick_bits second (feature_bits arm32 w)) (N.of_nat b) = true <-> stands_for arm32 second w b.
Proof.
  pose proof names_right_true as H. unfold names_right in H. apply andb_true_iff in H. destruct H as (H & HM).
  rewrite forallb_forall in H. specialize (H arm32 ltac:(destruct arm32; cbn; auto)).
  rewrite forallb_forall in H. specialize (H second ltac:(destruct second; cbn; auto)).
  apply andb_true_iff in H. destruct H as (H & H3). apply andb_true_iff in H. destruct H as (H1 & H2).
  rewrite forallb_forall in H1, H2, HM. apply Nat.leb_le in H3.
  destruct (existsb (fun e => bytes_eqb (fst e) w) feature_names) eqn:X.
  - apply existsb_exists in X. destruct X as (e & He & Ew). apply bytes_eqb_true in Ew. subst w.
    specialize (H1 e He). cbv zeta in H1. apply andb_true_iff in H1. destruct H1 as (Hb & H1).
    rewrite <- stands_forb_exact. destruct (Nat.lt_ge_cases b 64) as [L|L].
    + rewrite forallb_forall in H1. specialize (H1 b). rewrite in_seq in H1. specialize (H1 ltac:(lia)).
      apply Bool.eqb_prop in H1. now rewrite H1.
    + split; intros C; exfalso.
      * apply N.ltb_lt in Hb. apply N.testbit_true in C. rewrite N.div_small in C; [discriminate|].
        eapply N.lt_le_trans; [exact Hb|]. apply N.pow_le_mono_r; lia.
      * unfold stands_forb in C. destruct (nth_error (kernel_names arm32 second) b) eqn:E; [|discriminate].
        apply nth_error_some_lt in E. lia.
  - assert (F : feature_bits arm32 w = (0, 0)).
    { unfold feature_bits. destruct (find _ feature_names) as [e|] eqn:E; [|reflexivity].
      apply find_some in E. destruct E as (He & Ew).
      assert (existsb (fun e => bytes_eqb (fst e) w) feature_names = true) by (apply existsb_exists; eauto). congruence. }
    rewrite F. split.
    + destruct second; cbn; discriminate.
    + intros (name & En & Hn & Hs). exfalso. rewrite <- not_true_iff_false in X. apply X.
      destruct Hn as [->|(Ha & Hm)].
      * specialize (H2 b). rewrite in_seq in H2. assert (b < length (kernel_names arm32 second))%nat by (eapply nth_error_some_lt; eassumption).
        specialize (H2 ltac:(lia)). rewrite En in H2. apply orb_true_iff in H2. destruct H2 as [H2|H2]; [|exact H2].
        apply andb_true_iff in H2. destruct H2 as (Ha & Hi). apply negb_true_iff in Ha.
        exfalso. apply (Hs Ha). apply existsb_exists in Hi. destruct Hi as (x & Hx & E). apply bytes_eqb_true in E. now subst.
      * apply (HM _ Hm).
Qed.

(** ** Effects of statements on a record *)

Definition fits (s : said) : Prop :=
  match s with Field f v => f <> Architecture /\ v < 2 ^ field_width f | _ => True end.

Lemma hex_number_bound : forall ds acc, Forall is_hex ds ->
  fold_left (fun acc c => acc * 16 + nibble c) ds acc < (acc + 1) * 16 ^ N.of_nat (length ds).
Proof.
  induction ds as [|c ds IH]; intros acc H; [cbn; lia|]. apply Forall_cons_iff in H. destruct H as (Hc & H).
  cbn [fold_left length]. eapply N.lt_le_trans; [exact (IH _ H)|]. pose proof (nibble_lt c Hc).
  rewrite Nat2N.inj_succ, N.pow_succ_r'. set (q := 16 ^ N.of_nat (length ds)). nia.
Qed.

Lemma hexadecimal_bound k v n : is_hexadecimal k v n -> n < 16 ^ N.of_nat k.
Proof.
  intros (ds & _ & _ & L & F & ->). eapply N.lt_le_trans; [apply (hex_number_bound ds 0 F)|].
  rewrite N.add_0_l, N.mul_1_l. apply N.pow_le_mono_r; lia.
Qed.

Lemma means_fits arm32 line s : arm_line_means arm32 line (Says s) -> fits s.
Proof.
  intros H. inversion H as [|? ? ? ? Hx| |? ? ? ? ? ? Hx| |? ? ? ? Hx| |? ? ? ? Hx| | | | | | | |]; subst; cbn; auto;
    (split; [discriminate|]); [..|exact Hx]; apply hexadecimal_bound in Hx; exact Hx.
Qed.

Lemma told_fits arm32 lines ms : Forall2 (arm_line_means arm32) lines ms -> forall cur cpu, Forall fits (told ms cur cpu).
Proof.
  induction 1 as [|l m lines ms Hm H IH]; intros cur cpu; [constructor|]. destruct m as [n|s| | |]; cbn [told]; try apply IH.
  - apply Forall_app. split; [destruct (n =? cpu); repeat constructor|apply IH].
  - apply Forall_app. split; [|apply IH]. destruct (cur =? cpu); [|constructor]. constructor; [|constructor].
    eapply means_fits. exact Hm.
Qed.

Notation tells arm32 l p := (fold_left (fun p s => tell arm32 s p) l p).

Lemma feats_keep arm32 : forall ws p, a_flags (fold_left (fun p w => add_feature arm32 w p) ws p) = a_flags p /\
  a_midr (fold_left (fun p w => add_feature arm32 w p) ws p) = a_midr p /\
  ar_architecture_version (a_report (fold_left (fun p w => add_feature arm32 w p) ws p)) = ar_architecture_version (a_report p) /\
  ar_architecture_flags (a_report (fold_left (fun p w => add_feature arm32 w p) ws p)) = ar_architecture_flags (a_report p) /\
  ar_icache (a_report (fold_left (fun p w => add_feature arm32 w p) ws p)) = ar_icache (a_report p) /\
  ar_dcache (a_report (fold_left (fun p w => add_feature arm32 w p) ws p)) = ar_dcache (a_report p).
Proof.
  induction ws as [|w ws IH]; intros p; [repeat split|]. cbn [fold_left].
  destruct (IH (add_feature arm32 w p)) as (-> & -> & -> & -> & -> & ->).
  unfold add_feature. destruct (feature_bits arm32 w). repeat split.
Qed.

Lemma replaced_field f v m r g : replaced f v m r -> field_of g r = match f, g with
    | Implementer, Implementer | Variant, Variant | PartNumber, PartNumber | Revision, Revision
    | Architecture, Architecture => v
    | _, _ => field_of g m end.
Proof. intros (_ & H1 & H2). destruct f, g; try exact H1; apply H2; discriminate. Qed.

Lemma set_replaced m v : is_u32 m ->
  (v < 256 -> replaced Implementer v m (midr_set_implementer m v)) /\
  (v < 16 -> replaced Variant v m (midr_set_variant m v)) /\
  (v < 16 -> replaced Architecture v m (midr_set_architecture m v)) /\
  (v < 4096 -> replaced PartNumber v m (midr_set_part m v)) /\
  (v < 16 -> replaced Revision v m (midr_set_revision m v)).
Proof.
  intros H. destruct all_covers as (C1 & C2 & C3 & C4 & C5).
  pose proof (put_replaced _ _ m v C1 H) as P1. pose proof (put_replaced _ _ m v C2 H) as P2.
  pose proof (put_replaced _ _ m v C3 H) as P3. pose proof (put_replaced _ _ m v C4 H) as P4.
  pose proof (put_replaced _ _ m v C5 H) as P5. cbn [field_width] in *.
  change (2 ^ 8) with 256 in *. change (2 ^ 4) with 16 in *. change (2 ^ 12) with 4096 in *.
  refine (conj _ (conj _ (conj _ (conj _ _)))); intros L;
    [rewrite N.mod_small in P1 by exact L; exact P1|rewrite N.mod_small in P2 by exact L; exact P2|
     rewrite N.mod_small in P3 by exact L; exact P3|rewrite N.mod_small in P4 by exact L; exact P4|
     rewrite N.mod_small in P5 by exact L; exact P5].
Qed.

Lemma arch_code_small arm32 v f : midr_architecture_of arm32 v f < 16.
Proof. unfold midr_architecture_of. destruct arm32; [|reflexivity]. repeat match goal with |- context [if ?b then _ else _] => destruct b end; reflexivity. Qed.

Lemma tell_fields arm32 s p f : is_u32 (a_midr p) -> fits s -> f <> Architecture ->
  field_of f (a_midr (tell arm32 s p)) = match field_said f s with Some v => v | None => field_of f (a_midr p) end.
Proof.
  intros Hu Hs Hf.
  destruct s as [|g v|v ls|ws|d w n]; cbn [tell].
  - reflexivity.
  - destruct Hs as (Hg & Hv). destruct (set_replaced (a_midr p) v Hu) as (R1 & R2 & R3 & R4 & R5).
    cbn [field_width] in Hv.
    destruct g; try congruence; cbn [a_midr add_aflag with_aflags with_amidr];
      [rewrite (replaced_field _ _ _ _ f (R1 Hv))|rewrite (replaced_field _ _ _ _ f (R2 Hv))|
       rewrite (replaced_field _ _ _ _ f (R4 Hv))|rewrite (replaced_field _ _ _ _ f (R5 Hv))];
      destruct f; try congruence; reflexivity.
  - cbn [a_midr with_amidr field_said].
    destruct (set_replaced (a_midr p) (midr_architecture_of arm32 v (arch_letters arm32 (ar_architecture_flags (a_report p)) ls)) Hu)
      as (_ & _ & R3 & _ & _).
    rewrite (replaced_field _ _ _ _ f (R3 (arch_code_small _ _ _))). destruct f; congruence || reflexivity.
  - destruct (feats_keep arm32 ws (add_aflag (N.lor af_features af_processor) p)) as (_ & E & _). rewrite E. reflexivity.
  - destruct d; reflexivity.
Qed.

Lemma tell_u32 arm32 s p : is_u32 (a_midr p) -> is_u32 (a_midr (tell arm32 s p)).
Proof.
  intros H. destruct s as [|[] v|v ls|ws|d w n]; cbn [tell]; try exact H;
    try (cbn [a_midr add_aflag with_aflags with_amidr]; apply put_u32; [reflexivity|exact H]).
  - destruct (feats_keep arm32 ws (add_aflag (N.lor af_features af_processor) p)) as (_ & E & _). now rewrite E.
Qed.

Lemma tells_u32 arm32 : forall l p, is_u32 (a_midr p) -> is_u32 (a_midr (tells arm32 l p)).
Proof. induction l as [|s l IH]; intros p H; [exact H|]. cbn. apply IH. now apply tell_u32. Qed.

Lemma tells_fields arm32 f : f <> Architecture -> forall l p, is_u32 (a_midr p) -> Forall fits l ->
  field_of f (a_midr (tells arm32 l p)) = last_said (field_said f) l (field_of f (a_midr p)).
Proof.
  intros Hf. induction l as [|s l IH]; intros p Hu H; [reflexivity|]. apply Forall_cons_iff in H. destruct H as (Hs & H).
  cbn [fold_left last_said]. rewrite IH by (try apply tell_u32; auto). now rewrite tell_fields.
Qed.

(** *** Version, letters, architecture code *)

Lemma tell_version arm32 s p : ar_architecture_version (a_report (tell arm32 s p)) =
  match version_said s with Some v => v | None => ar_architecture_version (a_report p) end.
Proof.
  destruct s as [|[] v|v ls|ws|d w n]; try reflexivity.
  - cbn [tell]. destruct (feats_keep arm32 ws (add_aflag (N.lor af_features af_processor) p)) as (_ & _ & E & _). now rewrite E.
  - destruct d; reflexivity.
Qed.

Lemma tells_version arm32 : forall l p, ar_architecture_version (a_report (tells arm32 l p)) =
  last_said version_said l (ar_architecture_version (a_report p)).
Proof. induction l as [|s l IH]; intros p; [reflexivity|]. cbn [fold_left last_said]. now rewrite IH, tell_version. Qed.

(** The letter and its bit. *)
Definition letter_bit (c : N) : option N := if c =? 84 then Some 0 else if c =? 69 then Some 1 else if c =? 74 then Some 2 else None.

Lemma arch_letters_bits arm32 b : forall ls f, N.testbit (arch_letters arm32 f ls) b = true <->
  N.testbit f b = true \/ (arm32 = true /\ exists c, In c ls /\ letter_bit c = Some b).
Proof.
  induction ls as [|c ls IH]; intros f; cbn [arch_letters].
  - split; [auto|]. intros [H|(_ & c & [] & _)]. exact H.
  - rewrite IH, N.lor_spec, orb_true_iff.
    assert (B : N.testbit (if arm32 then if c =? 84 then arch_t else if c =? 69 then arch_e else if c =? 74 then arch_j else 0 else 0) b = true
                <-> arm32 = true /\ letter_bit c = Some b).
    { unfold letter_bit. destruct arm32; [|rewrite N.bits_0; split; [discriminate|intros (? & _); discriminate]].
      destruct (c =? 84); [|destruct (c =? 69); [|destruct (c =? 74)]].
      - change arch_t with (2 ^ 0). rewrite N.pow2_bits_eqb, N.eqb_eq. split; [intros <-; auto|intros (_ & E); congruence].
      - change arch_e with (2 ^ 1). rewrite N.pow2_bits_eqb, N.eqb_eq. split; [intros <-; auto|intros (_ & E); congruence].
      - change arch_j with (2 ^ 2). rewrite N.pow2_bits_eqb, N.eqb_eq. split; [intros <-; auto|intros (_ & E); congruence].
      - rewrite N.bits_0. split; [discriminate|intros (_ & E); discriminate]. }
    split.
    + intros [[H|H]|(Ha & d & Hd & E)]; [auto| |].
      * apply B in H. destruct H as (Ha & E). right. split; [exact Ha|]. exists c. split; [now left|exact E].
      * right. split; [exact Ha|]. exists d. split; [now right|exact E].
    + intros [H|(Ha & d & [<-|Hd] & E)]; [auto| |].
      * left. right. apply B. auto.
      * right. eauto.
Qed.

Lemma tell_letters arm32 s p b : N.testbit (ar_architecture_flags (a_report (tell arm32 s p))) b = true <->
  N.testbit (ar_architecture_flags (a_report p)) b = true \/
  (arm32 = true /\ exists v ls c, s = Arch v ls /\ In c ls /\ letter_bit c = Some b).
Proof.
  assert (K : forall q, ar_architecture_flags (a_report q) = ar_architecture_flags (a_report p) ->
     (forall v ls, s <> Arch v ls) ->
     (N.testbit (ar_architecture_flags (a_report q)) b = true <-> N.testbit (ar_architecture_flags (a_report p)) b = true \/
        (arm32 = true /\ exists v ls c, s = Arch v ls /\ In c ls /\ letter_bit c = Some b))).
  { intros q -> Hs. split; [auto|]. intros [H|(_ & v & ls & c & E & _)]; [exact H|]. now apply Hs in E. }
  destruct s as [|[] v|v ls|ws|d w n]; cbn [tell]; try (apply K; [reflexivity|discriminate]).
  - cbn [a_report with_amidr add_aflag with_aflags with_areport ar_architecture_flags with_architecture].
    rewrite arch_letters_bits. split.
    + intros [H|(Ha & c & H)]; [auto|]. right. split; [exact Ha|]. eauto.
    + intros [H|(Ha & v' & ls' & c & E & H)]; [auto|]. injection E as <- <-. right. eauto.
  - apply K; [|discriminate].
    destruct (feats_keep arm32 ws (add_aflag (N.lor af_features af_processor) p)) as (_ & _ & _ & E & _). now rewrite E.
  - apply K; [destruct d; reflexivity|discriminate].
Qed.

Lemma tells_letters arm32 b : forall l p, N.testbit (ar_architecture_flags (a_report (tells arm32 l p))) b = true <->
  N.testbit (ar_architecture_flags (a_report p)) b = true \/
  (arm32 = true /\ exists v ls c, In (Arch v ls) l /\ In c ls /\ letter_bit c = Some b).
Proof.
  induction l as [|s l IH]; intros p; cbn [fold_left].
  - split; [auto|]. intros [H|(_ & v & ls & c & [] & _)]. exact H.
  - rewrite IH, tell_letters. split.
    + intros [[H|(Ha & v & ls & c & E & H)]|(Ha & v & ls & c & E & H)]; [auto| |]; right; (split; [exact Ha|]);
        exists v, ls, c; (split; [cbn; auto|exact H]).
    + intros [H|(Ha & v & ls & c & [E|E] & H)]; [auto| |].
      * left. right. split; [exact Ha|]. eauto.
      * right. split; [exact Ha|]. eauto.
Qed.

Lemma land_ones_bits x k : N.land x (N.ones k) = N.ones k <-> forall b, b < k -> N.testbit x b = true.
Proof.
  split.
  - intros E b Hb. assert (T : N.testbit (N.land x (N.ones k)) b = N.testbit (N.ones k) b) by now rewrite E.
    rewrite N.land_spec, N.ones_spec_low, andb_true_r in T by exact Hb. exact T.
  - intros H. apply N.bits_inj. intros b. rewrite N.land_spec. destruct (N.lt_ge_cases b k) as [L|L].
    + rewrite N.ones_spec_low by exact L. now rewrite H.
    + rewrite N.ones_spec_high by exact L. apply andb_false_r.
Qed.

Lemma code_exact arm32 v f : midr_architecture_of arm32 v f =
  architecture_code arm32 v (N.testbit f 0) (N.testbit f 1) (N.testbit f 2).
Proof.
  unfold midr_architecture_of, architecture_code. destruct arm32; [|reflexivity].
  destruct (v =? 6); [reflexivity|]. destruct (v =? 5); [|reflexivity].
  assert (E7 : (N.land f 7 =? 7) = N.testbit f 0 && N.testbit f 1 && N.testbit f 2).
  { apply eq_true_iff_eq. rewrite N.eqb_eq, !andb_true_iff. change 7 with (N.ones 3). rewrite land_ones_bits. split.
    - intros H. repeat split; apply H; lia.
    - intros ((H0 & H1) & H2) b Hb. assert (b = 0 \/ b = 1 \/ b = 2) as [-> | [-> | ->]] by lia; assumption. }
  assert (E3 : (N.land f 3 =? 3) = N.testbit f 0 && N.testbit f 1).
  { apply eq_true_iff_eq. rewrite N.eqb_eq, !andb_true_iff. change 3 with (N.ones 2). rewrite land_ones_bits. split.
    - intros H. repeat split; apply H; lia.
    - intros (H0 & H1) b Hb. assert (b = 0 \/ b = 1) as [-> | ->] by lia; assumption. }
  now rewrite E7, E3.
Qed.

Lemma tell_code arm32 s p : is_u32 (a_midr p) -> fits s ->
  (version_said s = None -> field_of Architecture (a_midr (tell arm32 s p)) = field_of Architecture (a_midr p)) /\
  (version_said s <> None -> field_of Architecture (a_midr (tell arm32 s p)) =
     midr_architecture_of arm32 (ar_architecture_version (a_report (tell arm32 s p)))
                          (ar_architecture_flags (a_report (tell arm32 s p)))).
Proof.
  intros Hu Hs. destruct s as [|g v|v ls|ws|d w n]; cbn [tell version_said]; (split; [intros H|intros H; try congruence]).
  - reflexivity.
  - destruct Hs as (Hg & Hv). destruct (set_replaced (a_midr p) v Hu) as (R1 & R2 & R3 & R4 & R5).
    cbn [field_width] in Hv.
    destruct g; try congruence; cbn [a_midr add_aflag with_aflags with_amidr];
      [rewrite (replaced_field _ _ _ _ Architecture (R1 Hv))|rewrite (replaced_field _ _ _ _ Architecture (R2 Hv))|
       rewrite (replaced_field _ _ _ _ Architecture (R4 Hv))|rewrite (replaced_field _ _ _ _ Architecture (R5 Hv))]; reflexivity.
  - discriminate.
  - cbn [a_midr with_amidr a_report add_aflag with_aflags with_areport ar_architecture_version ar_architecture_flags with_architecture].
    match goal with |- field_of _ (midr_set_architecture _ ?c) = _ => destruct (set_replaced (a_midr p) c Hu) as (_ & _ & R3 & _ & _) end.
    now rewrite (replaced_field _ _ _ _ Architecture (R3 (arch_code_small _ _ _))).
  - destruct (feats_keep arm32 ws (add_aflag (N.lor af_features af_processor) p)) as (_ & E & _). now rewrite E.
  - destruct d; reflexivity.
Qed.

Lemma tell_quiet arm32 s p : version_said s = None ->
  ar_architecture_version (a_report (tell arm32 s p)) = ar_architecture_version (a_report p) /\
  ar_architecture_flags (a_report (tell arm32 s p)) = ar_architecture_flags (a_report p).
Proof.
  intros H. split; [now rewrite tell_version, H|].
  destruct s as [|[] v|v ls|ws|d w n]; try reflexivity; [discriminate H| |destruct d; reflexivity].
  cbn [tell]. destruct (feats_keep arm32 ws (add_aflag (N.lor af_features af_processor) p)) as (_ & _ & _ & E & _). now rewrite E.
Qed.

Lemma tells_code arm32 : forall l p, is_u32 (a_midr p) -> Forall fits l ->
  (Forall (fun s => version_said s = None) l -> field_of Architecture (a_midr (tells arm32 l p)) = field_of Architecture (a_midr p)) /\
  (Exists (fun s => version_said s <> None) l \/ field_of Architecture (a_midr p) =
      midr_architecture_of arm32 (ar_architecture_version (a_report p)) (ar_architecture_flags (a_report p)) ->
   field_of Architecture (a_midr (tells arm32 l p)) =
     midr_architecture_of arm32 (ar_architecture_version (a_report (tells arm32 l p)))
                          (ar_architecture_flags (a_report (tells arm32 l p)))).
Proof.
  induction l as [|s l IH]; intros p Hu H; cbn [fold_left].
  - split; [reflexivity|]. intros [E|E]; [inversion E|exact E].
  - apply Forall_cons_iff in H. destruct H as (Hs & H).
    destruct (IH (tell arm32 s p) (tell_u32 arm32 s p Hu) H) as (A & B).
    destruct (tell_code arm32 s p Hu Hs) as (C1 & C2). split.
    + intros F. apply Forall_cons_iff in F. destruct F as (Fs & F). rewrite A by exact F. now apply C1.
    + intros E. apply B. destruct (version_said s) as [v|] eqn:V.
      * right. apply C2. discriminate.
      * destruct (tell_quiet arm32 s p V) as (Q1 & Q2). rewrite Q1, Q2, (C1 eq_refl).
        destruct E as [E|E]; [|now right]. left. inversion E as [? ? X|? ? X]; subst; [congruence|exact X].
Qed.

(** *** Features *)

Lemma feats_bits arm32 second b : forall ws p,
  let pick q := if second : bool then ar_features2 (a_report q) else ar_features (a_report q) in
  N.testbit (pick (fold_left (fun p w => add_feature arm32 w p) ws p)) (N.of_nat b) = true <->
  N.testbit (pick p) (N.of_nat b) = true \/ exists w, In w ws /\ stands_for arm32 second w b.
Proof.
  induction ws as [|w ws IH]; intros p pick; cbn [fold_left].
  - split; [auto|]. intros [H|(w & [] & _)]. exact H.
  - unfold pick in *. rewrite IH.
    assert (E : N.testbit (if second then ar_features2 (a_report (add_feature arm32 w p)) else ar_features (a_report (add_feature arm32 w p))) (N.of_nat b) = true
       <-> N.testbit (if second then ar_features2 (a_report p) else ar_features (a_report p)) (N.of_nat b) = true \/ stands_for arm32 second w b).
    { rewrite <- (feature_bits_exact arm32 second w b). unfold add_feature. destruct (feature_bits arm32 w) as [x y].
      destruct second; cbn [a_report with_areport with_features ar_features ar_features2 pick_bits fst snd];
        rewrite N.lor_spec, orb_true_iff; reflexivity. }
    rewrite E. split.
    + intros [[H|H]|(v & Hv & H)]; [auto| |]; right; [exists w|exists v]; cbn; auto.
    + intros [H|(v & [<-|Hv] & H)]; [auto|auto|]. right. eauto.
Qed.

Lemma tells_features arm32 second b : forall l p,
  let pick q := if second : bool then ar_features2 (a_report q) else ar_features (a_report q) in
  N.testbit (pick (tells arm32 l p)) (N.of_nat b) = true <->
  N.testbit (pick p) (N.of_nat b) = true \/ exists ws w, In (Feats ws) l /\ In w ws /\ stands_for arm32 second w b.
Proof.
  induction l as [|s l IH]; intros p pick; cbn [fold_left].
  - split; [auto|]. intros [H|(ws & w & [] & _)]. exact H.
  - unfold pick in *. rewrite IH.
    assert (E : N.testbit (if second then ar_features2 (a_report (tell arm32 s p)) else ar_features (a_report (tell arm32 s p))) (N.of_nat b) = true
       <-> N.testbit (if second then ar_features2 (a_report p) else ar_features (a_report p)) (N.of_nat b) = true \/
           exists ws w, s = Feats ws /\ In w ws /\ stands_for arm32 second w b).
    { destruct s as [|[] v|v ls|ws|d w n];
        try (split; [left; assumption|intros [H|(ws & w & E & _)]; [exact H|discriminate E]]).
      - cbn [tell]. rewrite (feats_bits arm32 second b ws (add_aflag (N.lor af_features af_processor) p)). split.
        + intros [H|(w & H)]; [left; destruct second; exact H|right; eauto].
        + intros [H|(ws' & w & E & H)]; [left; destruct second; exact H|]. injection E as <-. right; eauto.
      - destruct d, second; (split; [left; assumption|intros [H|(ws & w' & E & _)]; [exact H|discriminate E]]). }
    rewrite E. split.
    + intros [[H|(ws & w & -> & H)]|(ws & w & Hi & H)]; [auto| |]; right; exists ws, w; cbn; auto.
    + intros [H|(ws & w & [->|Hi] & H)]; [auto| |]; [left; right; eauto|right; eauto].
Qed.

(** *** Caches and flags *)

Lemma tells_cache arm32 data which : forall l p, l1_value data which (a_report (tells arm32 l p)) =
  last_said (cache_said data which) l (l1_value data which (a_report p)).
Proof.
  induction l as [|s l IH]; intros p; [reflexivity|]. cbn [fold_left last_said]. rewrite IH. f_equal.
  destruct s as [|[] v|v ls|ws|d w n]; try reflexivity.
  - cbn [tell cache_said]. destruct (feats_keep arm32 ws (add_aflag (N.lor af_features af_processor) p)) as (_ & _ & _ & _ & E1 & E2).
    unfold l1_value. destruct data; [now rewrite E2|now rewrite E1].
  - destruct d, data, w, which; reflexivity.
Qed.

Lemma tell_flags arm32 s p b : fits s -> N.testbit (a_flags (tell arm32 s p)) b = true <->
  N.testbit (a_flags p) b = true \/ records s b.
Proof.
  intros Hs.
  assert (K : forall k f, f = N.lor (2 ^ k) (2 ^ 21) ->
     (N.testbit (N.lor (a_flags p) f) b = true <-> N.testbit (a_flags p) b = true \/ (b = 21 \/ b = k))).
  { intros k f ->. rewrite N.lor_spec, orb_true_iff, N.lor_spec, orb_true_iff, !N.pow2_bits_eqb, !N.eqb_eq.
    split; intros [H|[H|H]]; auto. }
  unfold records. destruct s as [|g v|v ls|ws|d w n]; cbn [tell].
  - cbn [a_flags add_aflag with_aflags]. change af_processor with (2 ^ 21).
    rewrite N.lor_spec, orb_true_iff, N.pow2_bits_eqb, N.eqb_eq.
    split; [intros [H|H]; auto|intros [H|[H|[]]]; auto].
  - destruct Hs as (Hg & _).
    destruct g; try congruence; cbn [a_flags add_aflag with_aflags with_amidr field_flag];
      [exact (K 17 _ eq_refl)|exact (K 18 _ eq_refl)|exact (K 19 _ eq_refl)|exact (K 20 _ eq_refl)].
  - cbn [a_flags add_aflag with_aflags with_amidr with_areport]. exact (K 16 _ eq_refl).
  - destruct (feats_keep arm32 ws (add_aflag (N.lor af_features af_processor) p)) as (E & _). rewrite E.
    cbn [a_flags add_aflag with_aflags]. exact (K 22 _ eq_refl).
  - cbn [a_flags add_aflag with_aflags with_areport]. exact (K (cache_flag d w) _ eq_refl).
Qed.

Lemma tells_flags arm32 b : forall l p, Forall fits l -> (N.testbit (a_flags (tells arm32 l p)) b = true <->
  N.testbit (a_flags p) b = true \/ exists s, In s l /\ records s b).
Proof.
  induction l as [|s l IH]; intros p H; cbn [fold_left].
  - split; [auto|]. intros [H0|(s & [] & _)]. exact H0.
  - apply Forall_cons_iff in H. destruct H as (Hs & H). rewrite (IH _ H), (tell_flags arm32 s p b Hs). split.
    + intros [[H0|H0]|(t & Ht & H0)]; [auto| |]; right; [exists s|exists t]; cbn; auto.
    + intros [H0|(t & [<-|Ht] & H0)]; auto. right. eauto.
Qed.

Lemma tell_parsed arm32 s p : fits s -> parsed p (tell arm32 s p).
Proof.
  intros Hs. destruct s as [|g v|v ls|ws|d w n]; cbn [tell].
  - parsed_by.
  - destruct g; parsed_by.
  - parsed_by.
  - eapply parsed_trans; [apply parsed_flag|apply parsed_features]. reflexivity.
  - eapply parsed_trans; [apply parsed_report|]. apply parsed_flag. destruct d, w; reflexivity.
Qed.

Lemma tells_parsed arm32 : forall l p, Forall fits l -> parsed p (tells arm32 l p).
Proof.
  induction l as [|s l IH]; intros p H; [apply parsed_refl|]. apply Forall_cons_iff in H. cbn [fold_left].
  eapply parsed_trans; [apply tell_parsed|apply IH]; tauto.
Qed.

(** ** Whole files *)

(** The array after the strings given so far. *)
Definition array_after (max : nat) (buf0 buf : chars) (given : option (list N)) : Prop :=
  match given with
  | None => buf = buf0
  | Some v => ((length v < max)%nat -> holds_string buf v) /\ ((max < length v)%nat -> buf = List.map Some (firstn max v))
  end.

Lemma store_after max buf buf0 v : length buf = max -> length v <> max ->
  exists buf', store_string buf max v = Ok buf' /\ length buf' = max /\ array_after max buf0 buf' (Some v).
Proof.
  intros L H. destruct (Nat.lt_ge_cases (length v) max) as [G|G].
  - destruct (store_short buf max v L G) as (b & E & Lb & P & _). exists b. split; [exact E|]. split; [exact Lb|].
    split; [auto|lia].
  - rewrite (store_long buf max v L) by lia. eexists. split; [reflexivity|]. rewrite map_length, firstn_length.
    split; [lia|]. split; [lia|reflexivity].
Qed.

Lemma arm_lines_meaning arm32 sg max hw0 rv0 : forall lines ms st h r,
  Forall2 (arm_line_means arm32) lines ms -> well_formed max st ->
  array_after 64 hw0 (cs_hardware st) h -> array_after 9 rv0 (cs_revision st) r ->
  exists st', feed_lines (arm_line_callback arm32 sg max) (Ok st) lines = (true, Ok st') /\ well_formed max st' /\
    array_after 64 hw0 (cs_hardware st') (last_text board_said ms h) /\
    array_after 9 rv0 (cs_revision st') (last_text board_revision_said ms r) /\
    forall cpu p, nth_error (cs_procs st) cpu = Some p ->
      nth_error (cs_procs st') cpu = Some (tells arm32 (told ms (cs_index st) (N.of_nat cpu)) p).
Proof.
  induction lines as [|l ls IH]; intros ms st h r H W Ah Ar; inversion H as [|? m ? ms' Hm Hms]; subst; cbn [feed_lines].
  { exists st. repeat split; auto; apply W. }
  unfold arm_line_callback at 1. cbn [bind]. destruct W as (W1 & W2 & W3).
  destruct m as [n|s|v|v|].
  - inversion Hm as [? v Hkv Hd Hv| | | | | | | | | | | | | | |]; subst. unfold arm_parse_line.
    rewrite (split_line_key_value _ _ _ Hkv). cbn [bind]. keys. rewrite (pnum_decimal sg v Hd Hv).
    destruct (N.ltb_spec (dec_value v) max) as [Hlt|Hge].
    + destruct (nth_error_lt _ (cs_procs st) (N.to_nat (dec_value v))) as (q & Hq); [lia|].
      rewrite (modify_ok _ _ _ _ _ Hq). cbn [bind].
      match goal with |- context [feed_lines _ (Ok ?x)] => destruct (IH ms' x h r Hms) as (st2 & E & W & A1 & A2 & P) end;
        [repeat split; cbn; rewrite ?upd_length; assumption|exact Ah|exact Ar|].
      exists st2. split; [exact E|]. split; [exact W|]. cbn [last_text board_said board_revision_said].
      split; [exact A1|]. split; [exact A2|]. intros cpu p Hp. cbn [cs_procs cs_index] in P. cbn [told].
      destruct (Nat.eq_dec (N.to_nat (dec_value v)) cpu) as [<-|Hne].
      * assert (q = p) by congruence. subst q. rewrite (P _ _ (nth_error_upd_eq _ _ _ _ (nth_error_some_lt _ _ _ _ Hq))).
        rewrite N2Nat.id, N.eqb_refl. reflexivity.
      * rewrite (P cpu p) by (rewrite nth_error_upd_neq by exact Hne; exact Hp).
        replace (dec_value v =? N.of_nat cpu) with false by lia. reflexivity.
    + cbn [bind].
      match goal with |- context [feed_lines _ (Ok ?x)] => destruct (IH ms' x h r Hms) as (st2 & E & W & A1 & A2 & P) end;
        [repeat split; assumption|exact Ah|exact Ar|].
      exists st2. split; [exact E|]. split; [exact W|]. split; [exact A1|]. split; [exact A2|]. intros cpu p Hp.
      rewrite (P cpu p Hp). cbn [told cs_index].
      assert ((cpu < length (cs_procs st))%nat) by (eapply nth_error_some_lt; eassumption).
      replace (dec_value v =? N.of_nat cpu) with false by lia. reflexivity.
  - destruct (processor_line_means arm32 sg l s Hm) as (key & value & Es & Hk & Hp). unfold arm_parse_line.
    rewrite Es. cbn [bind].
    rewrite !(bytes_eqb_neq key) by (intros ->; apply Hk; cbn; auto).
    destruct (N.ltb_spec (cs_index st) max) as [Hlt|Hge].
    + destruct (nth_error_lt _ (cs_procs st) (N.to_nat (cs_index st))) as (q & Hq); [lia|].
      unfold rd. rewrite Hq. cbn [bind]. rewrite Hp. cbn [bind]. rewrite wr_ok by lia. cbn [bind].
      match goal with |- context [feed_lines _ (Ok ?x)] => destruct (IH ms' x h r Hms) as (st2 & E & W & A1 & A2 & P) end;
        [repeat split; cbn; rewrite ?upd_length; assumption|exact Ah|exact Ar|].
      exists st2. split; [exact E|]. split; [exact W|]. split; [exact A1|]. split; [exact A2|]. intros cpu p Hp'.
      cbn [cs_procs cs_index] in P. cbn [told].
      destruct (Nat.eq_dec (N.to_nat (cs_index st)) cpu) as [<-|Hne].
      * assert (q = p) by congruence. subst q. rewrite (P _ _ (nth_error_upd_eq _ _ _ _ (nth_error_some_lt _ _ _ _ Hq))).
        rewrite N2Nat.id, N.eqb_refl. reflexivity.
      * rewrite (P cpu p) by (rewrite nth_error_upd_neq by exact Hne; exact Hp').
        replace (cs_index st =? N.of_nat cpu) with false by lia. reflexivity.
    + rewrite Hp. cbn [bind].
      match goal with |- context [feed_lines _ (Ok ?x)] => destruct (IH ms' x h r Hms) as (st2 & E & W & A1 & A2 & P) end;
        [repeat split; assumption|exact Ah|exact Ar|].
      exists st2. split; [exact E|]. split; [exact W|]. split; [exact A1|]. split; [exact A2|]. intros cpu p Hp'.
      rewrite (P cpu p Hp'). cbn [told cs_index].
      assert ((cpu < length (cs_procs st))%nat) by (eapply nth_error_some_lt; eassumption).
      replace (cs_index st =? N.of_nat cpu) with false by lia. reflexivity.
  - inversion Hm as [| | | | | | | | | | | | |? ? Hkv Hn| |]; subst. unfold arm_parse_line.
    rewrite (split_line_key_value _ _ _ Hkv). cbn [bind]. rewrite bytes_eqb_refl.
    destruct (store_after 64 (cs_hardware st) hw0 v W2 Hn) as (b & Eb & Lb & Ab).
    change hardware_value_max with 64%nat. rewrite Eb. cbn [bind].
    match goal with |- context [feed_lines _ (Ok ?x)] => destruct (IH ms' x (Some v) r Hms) as (st2 & E & W & A1 & A2 & P) end;
      [repeat split; assumption|exact Ab|exact Ar|].
    exists st2. auto.
  - inversion Hm as [| | | | | | | | | | | | | |? ? Hkv Hn|]; subst. unfold arm_parse_line.
    rewrite (split_line_key_value _ _ _ Hkv). cbn [bind]. keys.
    destruct (store_after 9 (cs_revision st) rv0 v W3 Hn) as (b & Eb & Lb & Ab).
    change revision_value_max with 9%nat. rewrite Eb. cbn [bind].
    match goal with |- context [feed_lines _ (Ok ?x)] => destruct (IH ms' x h (Some v) Hms) as (st2 & E & W & A1 & A2 & P) end;
      [repeat split; assumption|exact Ah|exact Ab|].
    exists st2. auto.
  - assert (X : exists st1, arm_parse_line arm32 sg max st l = Ok st1 /\ cs_index st1 = cs_index st /\ cs_procs st1 = cs_procs st /\
                 cs_hardware st1 = cs_hardware st /\ cs_revision st1 = cs_revision st).
    { unfold arm_parse_line.
      destruct (processor_line_nothing arm32 sg l Hm) as [Es|(key & value & Es & Hk & Hp)]; rewrite Es; cbn [bind];
        [exists st; auto|].
      rewrite !(bytes_eqb_neq key) by (intros ->; apply Hk; cbn; auto).
      destruct (N.ltb_spec (cs_index st) max) as [Hlt|Hge].
      - destruct (nth_error_lt _ (cs_procs st) (N.to_nat (cs_index st))) as (q & Hq); [lia|].
        unfold rd. rewrite Hq. cbn [bind]. rewrite Hp. cbn [bind]. rewrite wr_ok by lia. cbn [bind].
        eexists. split; [reflexivity|]. cbn. repeat split; auto. apply nth_error_ext. intros i. rewrite nth_error_upd.
        destruct (Nat.eqb_spec (N.to_nat (cs_index st)) i) as [<-|]; [|reflexivity]. cbn [andb].
        destruct (_ <? _)%nat; [now rewrite Hq|reflexivity].
      - rewrite Hp. cbn [bind]. eexists. split; [reflexivity|]. auto. }
    destruct X as (st1 & E1 & X1 & X2 & X3 & X4). rewrite E1.
    destruct (IH ms' st1 h r Hms) as (st2 & E & W & A1 & A2 & P); [repeat split; congruence|congruence|congruence|].
    exists st2. split; [exact E|]. split; [exact W|]. split; [exact A1|]. split; [exact A2|]. intros cpu p Hp.
    rewrite X1, X2 in P. exact (P cpu p Hp).
Qed.

Lemma arm_file_meaning arm32 sg max wants hardware revision procs lines ms :
  no_io_error wants -> lines <> [] -> Forall (fun l => ~ In 10 l) lines -> pieces_fit 1024 lines ->
  Forall2 (arm_line_means arm32) lines ms ->
  length procs = N.to_nat max -> length hardware = 64%nat -> length revision = 9%nat ->
  exists st, arm_parse_proc_cpuinfo arm32 sg max (Some (join 10 lines)) wants hardware revision procs = Ok (true, st) /\
    well_formed max st /\
    array_after 64 (upd hardware 0 (Some 0)) (cs_hardware st) (last_text board_said ms None) /\
    array_after 9 revision (cs_revision st) (last_text board_revision_said ms None) /\
    forall cpu p, nth_error procs cpu = Some p ->
      nth_error (cs_procs st) cpu = Some (tells arm32 (told ms 0 (N.of_nat cpu)) p).
Proof.
  intros H1 H2 H3 H4 H5 H6 H7 H8. unfold arm_parse_proc_cpuinfo. rewrite wr_ok by lia. cbn [bind].
  change (join 10 lines) with (join chr_nl lines).
  rewrite (multiline_all (arm_line_callback arm32 sg max) arm_cpuinfo_buffer_size wants
             (Ok (CState 0 procs aproc0 (upd hardware 0 (Some 0)) revision)) lines H1 H2 H3 H4).
  destruct (arm_lines_meaning arm32 sg max (upd hardware 0 (Some 0)) revision lines ms
             (CState 0 procs aproc0 (upd hardware 0 (Some 0)) revision) None None H5) as (st & E & W & A1 & A2 & P).
  - repeat split; cbn; rewrite ?upd_length; assumption.
  - reflexivity.
  - reflexivity.
  - rewrite E. cbn. exists st. auto.
Qed.
