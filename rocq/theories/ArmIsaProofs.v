(** Proofs about the model of ARM instruction sets: words, registers, AArch64. *)
From Verif Require Import Base ArmMidrModel ArmClustersModel ArmClusterMidrModel ArmIsaModel ArmIsaSpec.
Open Scope N_scope.

(** ** Bits *)

Lemma testbit_pow2 n m : N.testbit (2 ^ n) m = (n =? m).
Proof.
  destruct (N.eqb_spec n m) as [->|H]; [apply N.pow2_bits_true|now apply N.pow2_bits_false].
Qed.
Lemma tests_pow2 w n : tests w (2 ^ n) = N.testbit w n.
Proof.
  unfold tests. destruct (N.testbit w n) eqn:E.
  - apply negb_true_iff, N.eqb_neq. intros Z.
    assert (H : N.testbit (N.land w (2 ^ n)) n = true) by now rewrite N.land_spec, E, testbit_pow2, N.eqb_refl.
    rewrite Z, N.bits_0 in H. discriminate.
  - apply negb_false_iff, N.eqb_eq, N.bits_inj. intros m. rewrite N.land_spec, N.bits_0, testbit_pow2.
    destruct (N.eqb_spec n m) as [<-|H]; [now rewrite E|apply andb_false_r].
Qed.
Lemma tests_bit w m n : m = 2 ^ n -> tests w m = N.testbit w n.
Proof. intros ->. apply tests_pow2. Qed.
Lemma tests_lor w a b : tests w (N.lor a b) = tests w a || tests w b.
Proof.
  unfold tests. rewrite N.land_lor_distr_r.
  destruct (N.eqb_spec (N.land w a) 0) as [->|A], (N.eqb_spec (N.land w b) 0) as [->|B]; cbn [negb orb]; try reflexivity.
  - rewrite N.lor_0_l. now apply negb_true_iff, N.eqb_neq.
  - rewrite N.lor_0_r. now apply negb_true_iff, N.eqb_neq.
  - apply negb_true_iff, N.eqb_neq. intros Z. apply N.lor_eq_0_iff in Z. tauto.
Qed.
Lemma both_bits w a b : (N.land w (N.lor (2 ^ a) (2 ^ b)) =? N.lor (2 ^ a) (2 ^ b)) = N.testbit w a && N.testbit w b.
Proof.
  apply Bool.eq_iff_eq_true. rewrite N.eqb_eq, andb_true_iff. split.
  - intros E. split.
    + assert (H : N.testbit (N.land w (N.lor (2 ^ a) (2 ^ b))) a = true)
        by (rewrite E, N.lor_spec, testbit_pow2, N.eqb_refl; reflexivity).
      rewrite N.land_spec in H. now apply andb_true_iff in H.
    + assert (H : N.testbit (N.land w (N.lor (2 ^ a) (2 ^ b))) b = true)
        by (rewrite E, N.lor_spec, !testbit_pow2, N.eqb_refl; apply orb_true_r).
      rewrite N.land_spec in H. now apply andb_true_iff in H.
  - intros [A B]. apply N.bits_inj. intros n. rewrite N.land_spec, N.lor_spec, !testbit_pow2.
    destruct (N.eqb_spec a n) as [<-|]; [now rewrite A|]. destruct (N.eqb_spec b n) as [<-|]; [now rewrite B|].
    apply andb_false_r.
Qed.

(** ** The fields of a main id register *)

Lemma land_field w offset length :
  N.land w (N.shiftl (N.ones length) offset) = (w / 2 ^ offset mod 2 ^ length) * 2 ^ offset.
Proof.
  rewrite <- N.land_ones, <- N.shiftr_div_pow2, <- N.shiftl_mul_pow2. apply N.bits_inj. intros n.
  rewrite N.land_spec. destruct (N.le_gt_cases offset n) as [H|H].
  - rewrite !N.shiftl_spec_high'; try assumption. rewrite N.land_spec, N.shiftr_spec'. now replace (n - offset + offset) with n by lia.
  - rewrite !N.shiftl_spec_low; try assumption. apply andb_false_r.
Qed.
Lemma core_of_fields midr : core_of midr = implementer_of midr * 2 ^ 24 + part_of midr * 2 ^ 4.
Proof.
  unfold core_of. change (N.lor implementer_mask part_mask) with (N.lor (N.shiftl (N.ones 8) 24) (N.shiftl (N.ones 12) 4)).
  rewrite N.land_lor_distr_r, !land_field. fold (implementer_of midr). fold (part_of midr).
  assert (P : part_of midr < 2 ^ 12) by (apply N.mod_lt; discriminate).
  symmetry. rewrite <- !N.shiftl_mul_pow2. rewrite N.add_nocarry_lxor; [apply N.lxor_lor|];
    apply N.bits_inj; intros n; rewrite N.land_spec, N.bits_0.
  all: destruct (N.le_gt_cases 24 n) as [H|H]; [|rewrite (N.shiftl_spec_low _ 24) by assumption; reflexivity].
  all: rewrite (N.shiftl_spec_high' _ 4) by lia.
  all: rewrite <- (N.mod_small _ _ P), N.mod_pow2_bits_high by lia; apply andb_false_r.
Qed.
Lemma implementer_bound midr : implementer_of midr < 256.
Proof. apply N.mod_lt. discriminate. Qed.
Lemma part_bound midr : part_of midr < 4096.
Proof. apply N.mod_lt. discriminate. Qed.

Definition encode (d : N * N) : N := fst d * 2 ^ 24 + snd d * 2 ^ 4.
Definition in_range (d : N * N) : bool := (fst d <? 256) && (snd d <? 4096).
Lemma core_of_encode midr d : in_range d = true -> core_of midr = encode d <-> (implementer_of midr, part_of midr) = d.
Proof.
  destruct d as [i p]. unfold in_range, encode. cbn [fst snd]. rewrite andb_true_iff, !N.ltb_lt. intros [I P].
  rewrite core_of_fields. pose proof (implementer_bound midr) as I'. pose proof (part_bound midr) as P'.
  change (2 ^ 24) with 16777216. change (2 ^ 4) with 16. split.
  - intros E. assert (implementer_of midr = i) as -> by lia. assert (part_of midr = p) as -> by lia. reflexivity.
  - intros E. injection E as -> ->. reflexivity.
Qed.

(** The labels of a switch and a list of designs name the same cores. *)
Definition same_cores (cores : list N) (designs : list (N * N)) : bool :=
  forallb (fun c => existsb (fun d => c =? encode d) designs) cores &&
  forallb (fun d => in_range d && existsb (N.eqb (encode d)) cores) designs.
Lemma one_of_cores_designed cores designs : same_cores cores designs = true ->
  forall midr, one_of_cores cores midr = true <-> designed midr designs.
Proof.
  unfold same_cores. rewrite andb_true_iff, !forallb_forall. intros [C D] midr. unfold one_of_cores, designed.
  rewrite existsb_exists. split.
  - intros (c & Hc & E). apply N.eqb_eq in E. specialize (C c Hc). apply existsb_exists in C. destruct C as (d & Hd & Ed).
    apply N.eqb_eq in Ed. specialize (D d Hd). apply andb_true_iff in D. destruct D as [R _].
    assert (H : core_of midr = encode d) by congruence. apply core_of_encode in H; [|assumption]. now rewrite H.
  - intros H. specialize (D _ H). apply andb_true_iff in D. destruct D as [R E]. apply existsb_exists in E.
    destruct E as (c & Hc & E). apply N.eqb_eq in E. exists c. split; [assumption|].
    apply N.eqb_eq. rewrite <- E. now apply core_of_encode.
Qed.
Lemma core_is midr c d : c = encode d -> in_range d = true -> (core_of midr =? c) = true <-> designed midr [d].
Proof.
  intros -> R. rewrite N.eqb_eq, core_of_encode by assumption. unfold designed. split; [now left|].
  intros [E|E]; [now symmetry|destruct E].
Qed.
Lemma variant_spec midr : midr_get_variant midr = variant_of midr.
Proof.
  unfold midr_get_variant, get_field. change variant_mask with (N.shiftl (N.ones 4) 20). change variant_offset with 20.
  rewrite land_field, N.shiftr_div_pow2, N.div_mul by discriminate. reflexivity.
Qed.

(** ** Assignments *)

Lemma set_if_at c f i g : set_if c f i g = flag_beq g f && c || i g.
Proof. unfold set_if, assign. destruct c, (flag_beq g f); reflexivity. Qed.
Lemma set_all_at w l i g : set_all w l i g = existsb (fun e => flag_beq g (snd e) && tests w (fst e)) l || i g.
Proof.
  unfold set_all. revert i. induction l as [|e l IH]; intros i; [reflexivity|]. cbn [fold_left existsb].
  rewrite IH, set_if_at. destruct (flag_beq g (snd e) && tests w (fst e)), (existsb _ l); reflexivity.
Qed.
Lemma if_at (c : bool) (i j : isa) g : (if c then i else j) g = if c then i g else j g.
Proof. now destruct c. Qed.

(** ** AArch64 *)

Lemma fp16_other features midr chip i g : flag_beq g F_fp16arith = false -> flag_beq g F_rdm = false ->
  decode_fp16_64 features midr chip i g = i g.
Proof.
  intros A B. unfold decode_fp16_64. destruct (is_chip _ _ _); [reflexivity|]. destruct (one_of_cores _ _).
  - unfold assign. now rewrite A, B.
  - now rewrite !set_if_at, A, B.
Qed.
Lemma dot_other features midr i g : flag_beq g F_dot = false -> decode_dot_64 features midr i g = i g.
Proof.
  intros A. unfold decode_dot_64. destruct (one_of_cores _ _); [unfold assign; now rewrite A|].
  destruct (_ =? _); [unfold assign; now rewrite A|]. destruct (_ =? _); [unfold assign; now rewrite A|].
  now rewrite set_if_at, A.
Qed.

Ltac evaluate64 :=
  unfold decode_isa64; cbv zeta;
  rewrite ?set_if_at, ?set_all_at;
  rewrite ?dot_other by reflexivity; rewrite ?set_if_at;
  rewrite ?fp16_other by reflexivity; rewrite ?set_all_at;
  cbn [existsb fst snd flag_beq andb orb]; unfold no_isa; rewrite ?orb_false_r, ?orb_diag.

Lemma kernel_bits features features2 midr chip g w n : In (g, (w, n)) kernel_bits64 ->
  has_arm false (decode_isa64 features features2 midr chip no_isa) g = bit features features2 w n.
Proof.
  intros H. cbn in H. repeat (destruct H as [H|H]; [injection H as <- <- <-; cbn [has_arm bit]; evaluate64; now apply tests_bit|]).
  destruct H.
Qed.
Lemma bf16_64 features features2 midr chip :
  decode_isa64 features features2 midr chip no_isa F_bf16 = N.testbit features2 14 || N.testbit features2 12.
Proof.
  evaluate64. rewrite tests_lor. f_equal; now apply tests_bit.
Qed.
Lemma sve_64 features features2 midr chip : decode_isa64 features features2 midr chip no_isa F_sve = N.testbit features 22.
Proof. evaluate64. now apply tests_bit. Qed.
Lemma bf16_getters features features2 midr chip :
  let i := decode_isa64 features features2 midr chip no_isa in
  has_arm false i Has_bf16 = N.testbit features2 14 || N.testbit features2 12 /\
  has_arm false i Has_neon_bf16 = has_arm false i Has_bf16 /\
  has_arm false i Has_sve_bf16 = has_arm false i Has_sve && has_arm false i Has_bf16.
Proof. intros i. subst i. cbn [has_arm]. rewrite bf16_64. now repeat split. Qed.

Lemma base_getters i : (forall g, In g base64 -> has_arm false i g = true) /\ (forall g, In g absent64 -> has_arm false i g = false).
Proof.
  split; intros g H; cbn in H; repeat (destruct H as [<-|H]; [reflexivity|]); destruct H.
Qed.

Lemma is_chip_spec s m chip : is_chip s m chip = true <-> ch_series chip = s /\ ch_model chip = m.
Proof. unfold is_chip. now rewrite andb_true_iff, !N.eqb_eq. Qed.

Lemma fp16_cores64_spec : forall midr, one_of_cores fp16_cores64 midr = true <-> designed midr fp16_designs64.
Proof. apply one_of_cores_designed. vm_compute. reflexivity. Qed.
Lemma dot_cores64_spec : forall midr, one_of_cores dot_cores64 midr = true <-> designed midr dot_designs64.
Proof. apply one_of_cores_designed. vm_compute. reflexivity. Qed.

Lemma fp16arith_64 features features2 midr chip :
  decode_isa64 features features2 midr chip no_isa F_fp16arith =
  negb (is_chip series_exynos 9810 chip) && (one_of_cores fp16_cores64 midr || N.testbit features 9 && N.testbit features 10).
Proof.
  evaluate64. unfold decode_fp16_64. rewrite !if_at, !set_if_at. cbn [flag_beq andb orb].
  change (N.lor 512 1024) with (N.lor (2 ^ 9) (2 ^ 10)). rewrite both_bits.
  unfold assign. cbn [flag_beq]. rewrite ?set_if_at, !set_all_at. cbn [existsb fst snd flag_beq andb orb]. unfold no_isa.
  destruct (is_chip _ _ _); [reflexivity|]. destruct (one_of_cores _ _); [reflexivity|]. cbn [negb andb orb]. apply orb_false_r.
Qed.
Lemma rdm_64 features features2 midr chip :
  decode_isa64 features features2 midr chip no_isa F_rdm =
  negb (is_chip series_exynos 9810 chip) && (one_of_cores fp16_cores64 midr || N.testbit features 12).
Proof.
  evaluate64. unfold decode_fp16_64. rewrite !if_at, !set_if_at. cbn [flag_beq].
  unfold assign. cbn [flag_beq]. rewrite ?set_if_at, !set_all_at. cbn [existsb fst snd flag_beq andb orb]. unfold no_isa.
  rewrite (tests_bit _ 0x1000 12) by reflexivity.
  destruct (is_chip _ _ _); [reflexivity|]. destruct (one_of_cores _ _); [reflexivity|]. cbn [negb andb orb]. apply orb_false_r.
Qed.
Lemma dot_64 features features2 midr chip :
  decode_isa64 features features2 midr chip no_isa F_dot =
  if one_of_cores dot_cores64 midr then true
  else if core_of midr =? 0x4100D050 then 1 <=? variant_of midr
  else if core_of midr =? 0x4100D0A0 then 2 <=? variant_of midr
  else N.testbit features 20.
Proof.
  evaluate64. unfold decode_dot_64. rewrite !if_at, !set_if_at. unfold assign. cbn [flag_beq].
  rewrite ?set_if_at. cbn [flag_beq andb orb]. rewrite fp16_other by reflexivity. rewrite ?set_all_at. cbn [existsb fst snd flag_beq andb orb].
  unfold no_isa. rewrite orb_false_r, !variant_spec, (tests_bit _ 0x100000 20) by reflexivity. reflexivity.
Qed.

Lemma fp16_getters features features2 midr chip :
  let i := decode_isa64 features features2 midr chip no_isa in
  (has_arm false i Has_fp16_arith = true <->
     ~ exynos_9810 chip /\ (designed midr fp16_designs64 \/ N.testbit features 9 = true /\ N.testbit features 10 = true)) /\
  (has_arm false i Has_neon_rdm = true <->
     ~ exynos_9810 chip /\ (designed midr fp16_designs64 \/ N.testbit features 12 = true)) /\
  has_arm false i Has_neon_fp16_arith = has_arm false i Has_fp16_arith.
Proof.
  intros i. subst i. cbn [has_arm]. rewrite fp16arith_64, rdm_64.
  assert (X : negb (is_chip series_exynos 9810 chip) = true <-> ~ exynos_9810 chip).
  { rewrite negb_true_iff, <- not_true_iff_false, is_chip_spec. unfold exynos_9810, series_exynos. tauto. }
  split; [|split; [|reflexivity]]; rewrite andb_true_iff, orb_true_iff, ?andb_true_iff, X, fp16_cores64_spec; tauto.
Qed.
Lemma dot_getter features features2 midr chip :
  has_arm false (decode_isa64 features features2 midr chip no_isa) Has_neon_dot = true <->
  designed midr dot_designs64 \/ cortex_a55 midr /\ 1 <= variant_of midr \/ cortex_a75 midr /\ 2 <= variant_of midr \/
  ~ cortex_a55 midr /\ ~ cortex_a75 midr /\ N.testbit features 20 = true.
Proof.
  cbn [has_arm]. rewrite dot_64.
  pose proof (core_is midr 0x4100D050 (0x41, 0xD05) eq_refl eq_refl) as A.
  pose proof (core_is midr 0x4100D0A0 (0x41, 0xD0A) eq_refl eq_refl) as B.
  fold (cortex_a55 midr) in A. fold (cortex_a75 midr) in B.
  pose proof (dot_cores64_spec midr) as D. rewrite <- D. unfold cortex_a55, cortex_a75 in *. rewrite <- A, <- B. clear A B D.
  assert (O : one_of_cores dot_cores64 midr = true -> core_of midr <> 0x4100D050 /\ core_of midr <> 0x4100D0A0).
  { unfold one_of_cores. rewrite existsb_exists. intros (c & H & E). apply N.eqb_eq in E. rewrite E. cbn in H.
    repeat (destruct H as [<-|H]; [split; discriminate|]). destruct H. }
  destruct (one_of_cores dot_cores64 midr) eqn:E; [tauto|].
  destruct (N.eqb_spec (core_of midr) 0x4100D050) as [E1|E1].
  - rewrite E1, N.leb_le. change (0x4100D050 =? 0x4100D0A0) with false.
    split; [tauto|]. intros [H|[H|[[H _]|[H _]]]]; try discriminate; tauto.
  - destruct (N.eqb_spec (core_of midr) 0x4100D0A0) as [E2|E2]; rewrite ?N.leb_le.
    + split; [tauto|]. intros [H|[[H _]|[H|(_ & H & _)]]]; try discriminate; tauto.
    + split; [intros H; do 3 right; repeat split; try assumption; discriminate|].
      intros [H|[[H _]|[[H _]|(_ & _ & H)]]]; try discriminate; assumption.
Qed.

Lemma monotone64 features features' features2 features2' midr chip g :
  included features features' -> included features2 features2' ->
  has_arm false (decode_isa64 features features2 midr chip no_isa) g = true ->
  has_arm false (decode_isa64 features' features2' midr chip no_isa) g = true.
Proof.
  intros I I2.
  destruct g; try (cbn [has_arm]; exact (fun H => H));
    try (match goal with |- has_arm _ _ ?x = true -> _ =>
           let e := eval vm_compute in (find (fun e => match fst e, x with
             | Has_aes, Has_aes | Has_pmull, Has_pmull | Has_sha1, Has_sha1 | Has_sha2, Has_sha2 | Has_crc32, Has_crc32
             | Has_atomics, Has_atomics | Has_jscvt, Has_jscvt | Has_fcma, Has_fcma | Has_sve, Has_sve | Has_fhm, Has_fhm
             | Has_sve2, Has_sve2 | Has_i8mm, Has_i8mm | Has_sme, Has_sme | Has_sme2, Has_sme2 | Has_sme2p1, Has_sme2p1
             | Has_sme_i16i32, Has_sme_i16i32 | Has_sme_bi32i32, Has_sme_bi32i32 | Has_sme_b16b16, Has_sme_b16b16
             | Has_sme_f16f16, Has_sme_f16f16 => true | _, _ => false end) kernel_bits64) in
           match e with Some (_, (?w, ?n)) =>
             rewrite !(fun f f2 => kernel_bits f f2 midr chip x w n) by (cbn; tauto); cbn [bit]; auto end end).
  all: cbn [has_arm]; rewrite ?fp16arith_64, ?rdm_64, ?bf16_64, ?sve_64, ?dot_64.
  all: rewrite ?andb_true_iff, ?orb_true_iff, ?andb_true_iff; unfold included in *.
  all: try (intuition auto; fail).
  all: try (unfold bit; first [exact (I _) | exact (I2 _)]; fail).
  destruct (one_of_cores _ _); [trivial|]. destruct (_ =? _); [trivial|]. destruct (_ =? _); [trivial|]. apply I.
Qed.

(** ** Vector length *)

Lemma sve_length vl flags : vl < 2 ^ 16 -> max_arm_sve_length false (sve_length_of (Z.of_N (flags * 2 ^ 16 + vl))) = 8 * vl.
Proof.
  intros H. unfold max_arm_sve_length, sve_length_of.
  destruct (Z.ltb_spec (Z.of_N (flags * 2 ^ 16 + vl)) 0) as [L|_]; [lia|]. rewrite N2Z.id.
  change 0xFFFF with (N.ones 16). rewrite N.land_ones, N.add_comm, N.mod_add by discriminate. rewrite N.mod_small by assumption.
  unfold u32, two32. rewrite N.mod_small by (change (2 ^ 16) with 65536 in H; lia). lia.
Qed.
Lemma sve_length_failure e : (e < 0)%Z -> max_arm_sve_length false (sve_length_of e) = 0.
Proof. intros H. unfold max_arm_sve_length, sve_length_of. destruct (Z.ltb_spec e 0) as [_|L]; [reflexivity|lia]. Qed.

(** ** Words and registers *)

Lemma last_value_skip type t v entries w : t <> type -> last_value type entries w -> last_value type ((t, v) :: entries) w.
Proof.
  intros D [(b & a & -> & H)|[-> H]].
  - left. exists ((t, v) :: b), a. now split.
  - right. split; [reflexivity|]. intros u [E|E]; [now injection E|now apply (H u)].
Qed.
Lemma read_auxv_entries entries tail hwcap hwcap2 :
  (forall e, In e entries -> fst e < two32 /\ snd e < two32) ->
  exists h h2, read_auxv (entries_of entries ++ tail) hwcap hwcap2 = read_auxv tail h h2 /\
    (h = hwcap /\ (forall w, ~ In (16, w) entries) \/ last_value 16 entries h /\ exists w, In (16, w) entries) /\
    (h2 = hwcap2 /\ (forall w, ~ In (26, w) entries) \/ last_value 26 entries h2 /\ exists w, In (26, w) entries).
Proof.
  revert hwcap hwcap2. induction entries as [|[t v] entries IH]; intros hwcap hwcap2 B.
  - exists hwcap, hwcap2. split; [reflexivity|]. split; left; split; auto.
  - assert (B' : forall e, In e entries -> fst e < two32 /\ snd e < two32) by (intros e H; apply B; now right).
    destruct (B (t, v) (or_introl eq_refl)) as [_ Bv]. cbn [snd] in Bv.
    assert (U : u32 v = v) by (apply N.mod_small; assumption).
    cbn [entries_of map app read_auxv fst snd]. fold (entries_of entries).
    assert (K : forall ty (y z : N), t <> ty -> (y = z /\ (forall w, ~ In (ty, w) entries) \/ last_value ty entries y /\ exists w, In (ty, w) entries) ->
      (y = z /\ (forall w, ~ In (ty, w) ((t, v) :: entries)) \/
        last_value ty ((t, v) :: entries) y /\ exists w, In (ty, w) ((t, v) :: entries))).
    { intros ty y z D [[-> H]|[H (w & Hw)]].
      - left. split; [reflexivity|]. intros w [E|E]; [now injection E|now apply (H w)].
      - right. split; [now apply last_value_skip|]. exists w. now right. }
    assert (F : forall ty (y z : N), t = ty ->
      (y = v /\ (forall w, ~ In (ty, w) entries) \/ last_value ty entries y /\ exists w, In (ty, w) entries) ->
      (y = z /\ (forall w, ~ In (ty, w) ((t, v) :: entries)) \/
        last_value ty ((t, v) :: entries) y /\ exists w, In (ty, w) ((t, v) :: entries))).
    { intros ty y z <- [[-> H]|[H (w & Hw)]].
      - right. split; [left; exists [], entries; now split|exists v; now left].
      - right. split; [|exists w; now right]. destruct H as [(b & a & -> & H)|[-> H]]; [|now elim (H w)].
        left. exists ((t, v) :: b), a. now split. }
    destruct (N.eqb_spec t 16) as [E|D].
    + destruct (IH (u32 v) hwcap2 B') as (h & h2 & R & H & H2). rewrite U in *. exists h, h2. split; [exact R|]. split.
      * now apply F.
      * subst t. apply K; [discriminate|assumption].
    + destruct (N.eqb_spec t 26) as [E|D2].
      * destruct (IH hwcap v B') as (h & h2 & R & H & H2). exists h, h2. split; [exact R|]. split.
        -- subst t. apply K; auto.
        -- now apply F.
      * destruct (IH hwcap hwcap2 B') as (h & h2 & R & H & H2). exists h, h2. split; [exact R|].
        split; apply K; auto.
Qed.
Lemma auxv_complete entries tail : (forall e, In e entries -> fst e < two32 /\ snd e < two32) -> tail = [] \/ (exists r, tail = Short 0 :: r) ->
  exists h h2, read_auxv (entries_of entries ++ tail) 0 0 = Some (h, h2) /\ last_value 16 entries h /\ last_value 26 entries h2.
Proof.
  intros B T. destruct (read_auxv_entries entries tail 0 0 B) as (h & h2 & R & H & H2).
  exists h, h2. split; [|split].
  - rewrite R. destruct T as [->|(r & ->)]; reflexivity.
  - destruct H as [[-> H]|[H _]]; [right; now split|assumption].
  - destruct H2 as [[-> H2]|[H2 _]]; [right; now split|assumption].
Qed.
Lemma auxv_failure entries bad tail : bad = Failed \/ (exists n, bad = Short (S n)) ->
  read_auxv (entries_of entries ++ bad :: tail) 0 0 = None.
Proof.
  intros B. generalize 0 at 1. generalize 0. induction entries as [|[t v] entries IH]; intros a b.
  - destruct B as [->|(n & ->)]; reflexivity.
  - cbn [entries_of map app read_auxv fst snd]. fold (entries_of entries). now destruct (t =? 16), (t =? 26); rewrite ?IH.
Qed.


Lemma bitmask_all_included w m : bitmask_all w m = true <-> included m w.
Proof.
  unfold bitmask_all, included. rewrite N.eqb_eq. split.
  - intros E n H. rewrite <- E, N.land_spec in H. now apply andb_true_iff in H.
  - intros H. apply N.bits_inj. intros n. rewrite N.land_spec. destruct (N.testbit m n) eqn:E; [now rewrite H|apply andb_false_r].
Qed.
Lemma included_lor a b w : included (N.lor a b) w <-> included a w /\ included b w.
Proof.
  unfold included. split.
  - intros H. split; intros n E; apply H; rewrite N.lor_spec, E; [reflexivity|apply orb_true_r].
  - intros [A B] n E. rewrite N.lor_spec in E. apply orb_true_iff in E. destruct E; auto.
Qed.
Lemma has_midr_spec p : a_valid p && bitmask_all (a_flags p) af_midr = true <-> has_midr p.
Proof. unfold has_midr, a_valid. now rewrite andb_true_iff, !bitmask_all_included. Qed.
Lemma has_architecture_spec p : a_valid p && bitmask_all (a_flags p) af_architecture = true <-> has_architecture p.
Proof. unfold has_architecture, a_valid. now rewrite andb_true_iff, !bitmask_all_included. Qed.
Lemma has_features_spec p : bitmask_all (a_flags p) (N.lor af_valid af_features) = true <-> has_features p.
Proof. unfold has_features. now rewrite bitmask_all_included, included_lor. Qed.

Lemma last_midr_from_spec ps d : last_of has_midr a_midr ps d (last_midr_from ps d).
Proof.
  revert d. induction ps as [|p ps IH]; intros d; cbn [last_midr_from]; [now right|].
  destruct (a_valid p && bitmask_all (a_flags p) af_midr) eqn:E.
  - apply has_midr_spec in E. destruct (IH (a_midr p)) as [(b & x & a & -> & H)|[-> H]].
    + left. exists (p :: b), x, a. now split.
    + left. exists [], p, ps. split; [reflexivity|split; [assumption|split; [reflexivity|assumption]]].
  - assert (N : ~ has_midr p) by (intros A; apply has_midr_spec in A; congruence).
    destruct (IH d) as [(b & x & a & -> & H)|[-> H]].
    + left. exists (p :: b), x, a. now split.
    + right. split; [reflexivity|]. now constructor.
Qed.
Lemma last_architecture_from_spec ps d :
  last_of has_architecture (fun p => (ar_architecture_version (a_report p), ar_architecture_flags (a_report p))) ps d (last_architecture_from ps d).
Proof.
  revert d. induction ps as [|p ps IH]; intros d; cbn [last_architecture_from]; [now right|].
  destruct (a_valid p && bitmask_all (a_flags p) af_architecture) eqn:E.
  - apply has_architecture_spec in E.
    destruct (IH (ar_architecture_version (a_report p), ar_architecture_flags (a_report p))) as [(b & x & a & -> & H)|[-> H]].
    + left. exists (p :: b), x, a. now split.
    + left. exists [], p, ps. split; [reflexivity|split; [assumption|split; [reflexivity|assumption]]].
  - assert (N : ~ has_architecture p) by (intros A; apply has_architecture_spec in A; congruence).
    destruct (IH d) as [(b & x & a & -> & H)|[-> H]].
    + left. exists (p :: b), x, a. now split.
    + right. split; [reflexivity|]. now constructor.
Qed.

Lemma intersect_from ps n words k : n <> O ->
  (N.testbit (fst (intersect_features ps n words)) k = true <->
     N.testbit (fst words) k = true /\ forall p, In p ps -> has_features p -> N.testbit (ar_features (a_report p)) k = true) /\
  (N.testbit (snd (intersect_features ps n words)) k = true <->
     N.testbit (snd words) k = true /\ forall p, In p ps -> has_features p -> N.testbit (ar_features2 (a_report p)) k = true).
Proof.
  revert n words. induction ps as [|p ps IH]; intros n words Z; cbn [intersect_features].
  - split; (split; [intros H; split; [assumption|intros p []]|tauto]).
  - destruct (bitmask_all (a_flags p) (N.lor af_valid af_features)) eqn:E.
    all: rewrite ?has_features_spec in E.
    + destruct n as [|n]; [now elim Z|].
      destruct (IH (S (S n)) (N.land (fst words) (ar_features (a_report p)), N.land (snd words) (ar_features2 (a_report p)))) as [A B];
        [discriminate|]. cbn [fst snd] in A, B. rewrite A, B, !N.land_spec, !andb_true_iff.
      split; (split; [intros [[H1 H2] H3]; split; [assumption|]; intros q [<-|Hq] Fq; auto|
                      intros [H1 H2]; split; [split; [assumption|apply H2; [now left|assumption]]|]; intros q Hq Fq; apply H2; [now right|assumption]]).
    + destruct (IH n words Z) as [A B]. rewrite A, B.
      split; (split; [intros [H1 H2]; split; [assumption|]; intros q [<-|Hq] Fq; [apply has_features_spec in Fq; congruence|auto]|
                      intros [H1 H2]; split; [assumption|]; intros q Hq Fq; apply H2; [now right|assumption]]).
Qed.
Lemma intersect_spec ps k :
  (N.testbit (fst (intersect_features ps 0 (0, 0))) k = true <->
     (exists p, In p ps /\ has_features p) /\ forall p, In p ps -> has_features p -> N.testbit (ar_features (a_report p)) k = true) /\
  (N.testbit (snd (intersect_features ps 0 (0, 0))) k = true <->
     (exists p, In p ps /\ has_features p) /\ forall p, In p ps -> has_features p -> N.testbit (ar_features2 (a_report p)) k = true).
Proof.
  induction ps as [|p ps IH]; cbn [intersect_features].
  - cbn [fst snd]. rewrite N.bits_0. split; (split; [discriminate|intros [(p & [] & _) _]]).
  - destruct (bitmask_all (a_flags p) (N.lor af_valid af_features)) eqn:E.
    + destruct (intersect_from ps 1 (ar_features (a_report p), ar_features2 (a_report p)) k) as [A B]; [discriminate|].
      cbn [fst snd] in A, B. rewrite A, B.
      split; (split; [intros [H1 H2]; split; [exists p; split; [now left|now apply has_features_spec]|]; intros q [<-|Hq] Fq; auto|
                      intros [_ H2]; split; [apply H2; [now left|now apply has_features_spec]|]; intros q Hq Fq; apply H2; [now right|assumption]]).
    + destruct IH as [A B]. rewrite A, B.
      split; (split; [intros [(q & Hq & Fq) H2]; split; [exists q; split; [now right|assumption]|];
                      intros r [<-|Hr] Fr; [apply has_features_spec in Fr; congruence|auto]|
                      intros [(q & [<-|Hq] & Fq) H2]; [apply has_features_spec in Fq; congruence|];
                      split; [now exists q|]; intros r Hr Fr; apply H2; [now right|assumption]]).
Qed.
