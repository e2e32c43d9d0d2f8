(** Proofs about the model of ARM instruction sets: 32-bit ARM, and the names of designs. *)
From Verif Require Import Base ArmMidrModel ArmClustersModel ArmClusterMidrModel ArmUarchModel ArmIsaModel ArmIsaSpec ArmIsaProofs.
Open Scope N_scope.

(** ** Masks and registers *)

Definition mask_of (bits : list N) : N := fold_right (fun n m => N.lor (2 ^ n) m) 0 bits.
Lemma tests_mask w bits : tests w (mask_of bits) = existsb (N.testbit w) bits.
Proof.
  induction bits as [|n bits IH].
  - unfold tests. cbn [mask_of fold_right]. now rewrite N.land_0_r.
  - cbn [mask_of fold_right existsb]. fold (mask_of bits). now rewrite tests_lor, tests_pow2, IH.
Qed.
Lemma tests_any w m bits : m = mask_of bits -> tests w m = true <-> any_bit w bits.
Proof. intros ->. rewrite tests_mask, existsb_exists. reflexivity. Qed.
Lemma tests_on w m n : m = 2 ^ n -> tests w m = true <-> N.testbit w n = true.
Proof. intros H. now rewrite (tests_bit w m n H). Qed.
Lemma divisions features : (N.land features 0x60000 =? 0x60000) = N.testbit features 17 && N.testbit features 18.
Proof. change 0x60000 with (N.lor (2 ^ 17) (2 ^ 18)). apply both_bits. Qed.

Lemma high_digit midr : part_of midr / 2 ^ 8 = midr / 2 ^ 12 mod 2 ^ 4.
Proof.
  unfold part_of. change (2 ^ 12) with (2 ^ 8 * 2 ^ 4) at 1. rewrite N.mod_mul_r by discriminate.
  rewrite N.div_div by discriminate. change (2 ^ 4 * 2 ^ 8) with (2 ^ 12).
  rewrite (N.mul_comm (2 ^ 8)), N.div_add by discriminate. rewrite N.div_small by (apply N.mod_lt; discriminate). reflexivity.
Qed.
Lemma is_arm11_spec midr : is_arm11 midr = true <-> arm11 midr.
Proof.
  unfold is_arm11, arm11. rewrite N.eqb_eq.
  change (N.lor implementer_mask 0xF000) with (N.lor (N.shiftl (N.ones 8) 24) (N.shiftl (N.ones 4) 12)).
  rewrite N.land_lor_distr_r, !land_field. fold (implementer_of midr). rewrite <- high_digit.
  assert (D : part_of midr / 2 ^ 8 < 16).
  { rewrite high_digit. apply N.mod_lt. discriminate. }
  set (d := part_of midr / 2 ^ 8) in *. clearbody d. pose proof (implementer_bound midr) as I. set (i := implementer_of midr) in *. clearbody i.
  assert (E : N.lor (i * 2 ^ 24) (d * 2 ^ 12) = i * 2 ^ 24 + d * 2 ^ 12).
  { rewrite <- !N.shiftl_mul_pow2. symmetry. rewrite N.add_nocarry_lxor; [apply N.lxor_lor|];
      apply N.bits_inj; intros n; rewrite N.land_spec, N.bits_0.
    all: destruct (N.le_gt_cases 24 n) as [H|H]; [|rewrite (N.shiftl_spec_low _ 24) by assumption; reflexivity].
    all: rewrite (N.shiftl_spec_high' _ 12) by lia; change 16 with (2 ^ 4) in D.
    all: rewrite <- (N.mod_small _ _ D), N.mod_pow2_bits_high by lia; apply andb_false_r. }
  rewrite E. change (2 ^ 24) with 16777216. change (2 ^ 12) with 4096. lia.
Qed.

Lemma mp_cores_spec : forall midr, one_of_cores [0x4100C050; 0x4100C090; 0x510002D0; 0x510004D0; 0x510006F0] midr = true <-> designed midr mp_designs.
Proof. apply one_of_cores_designed. vm_compute. reflexivity. Qed.
Lemma krait_spec : forall midr, is_krait midr = true <-> designed midr krait.
Proof. apply one_of_cores_designed. vm_compute. reflexivity. Qed.
Lemma fp16_cores32_spec : forall midr, one_of_cores fp16_cores32 midr = true <-> designed midr fp16_designs32.
Proof. apply one_of_cores_designed. vm_compute. reflexivity. Qed.
Lemma dot_cores32_spec : forall midr, one_of_cores dot_cores32 midr = true <-> designed midr dot_designs32.
Proof. apply one_of_cores_designed. vm_compute. reflexivity. Qed.
Lemma arm1156_spec midr : is_arm1156 midr = true <-> designed midr [arm1156].
Proof. apply core_is; vm_compute; reflexivity. Qed.
Lemma fp16_storage_spec midr : is_cortex_a9 midr = true \/ is_scorpion midr = true <-> designed midr fp16_storage.
Proof.
  unfold is_cortex_a9. rewrite (core_is midr _ (0x41, 0xC09)) by (vm_compute; reflexivity).
  unfold is_scorpion. rewrite (one_of_cores_designed _ [(0x51, 0x00F); (0x51, 0x02D)]) by (vm_compute; reflexivity).
  unfold designed, fp16_storage. cbn [In]. tauto.
Qed.

(** ** Versions *)

Definition decided_version (features2 version : N) : N :=
  if (version <? 8) && tests features2 (N.lor 0x1 (N.lor 0x2 (N.lor 0x4 (N.lor 0x8 0x10)))) then 8 else version.
Lemma decided_v8 features2 version : (8 <=? decided_version features2 version) = true <-> is_v8 features2 version.
Proof.
  unfold decided_version, is_v8. rewrite <- (tests_any features2 (N.lor 0x1 (N.lor 0x2 (N.lor 0x4 (N.lor 0x8 0x10)))) [0; 1; 2; 3; 4]) by reflexivity.
  destruct (N.ltb_spec version 8), (tests _ _); cbn [andb]; rewrite N.leb_le; intuition (try discriminate; try lia).
Qed.
Lemma not_v8 features2 version : ~ is_v8 features2 version -> decided_version features2 version = version /\ version < 8.
Proof.
  intros H. assert (E : (8 <=? decided_version features2 version) = false).
  { apply not_true_iff_false. now rewrite decided_v8. }
  unfold decided_version in *. destruct (_ && _); [discriminate|]. apply N.leb_gt in E. now split.
Qed.

Definition late_bits : list N := [h_vfpv3; h_vfpv3d16; h_vfpd32; h_vfpv4; h_neon; h_idiva; h_idivt].
Lemma late_spec features :
  tests features (N.lor 0x2000 (N.lor 0x4000 (N.lor 0x80000 (N.lor 0x10000 (N.lor 0x1000 (N.lor 0x40000 0x20000)))))) = true <-> any_bit features late_bits.
Proof. apply tests_any. reflexivity. Qed.
Lemma corrected_v7 features features2 midr version : ~ is_v8 features2 version ->
  (7 <=? corrected_version features midr version) = true <-> is_v7 features features2 midr version.
Proof.
  intros H. unfold is_v7. fold late_bits. rewrite <- late_spec. destruct (not_v8 _ _ H) as [_ B].
  unfold corrected_version. rewrite <- is_arm11_spec.
  destruct (N.eqb_spec version 7) as [->|V], (is_arm11 midr); cbn [andb];
    match goal with |- context [?v <? 7] => destruct (N.ltb_spec v 7) end; destruct (tests _ _); cbn [andb]; rewrite N.leb_le;
    intuition (try discriminate; try lia).
Qed.
Lemma corrected_v6 features features2 midr version : ~ is_v8 features2 version ->
  (6 <=? corrected_version features midr version) = true <-> is_v6 features features2 midr version.
Proof.
  intros H. unfold is_v6. rewrite <- (corrected_v7 features features2 midr version H). destruct (not_v8 _ _ H) as [_ B].
  unfold corrected_version.
  destruct (N.eqb_spec version 7) as [->|V], (is_arm11 midr); cbn [andb];
    match goal with |- context [?v <? 7] => destruct (N.ltb_spec v 7) end; destruct (tests _ _); cbn [andb]; rewrite !N.leb_le; lia.
Qed.

(** ** Flags *)

Lemma assign_at f v i g : assign f v i g = if flag_beq g f then v else i g.
Proof. reflexivity. Qed.
Lemma assign_all_at l i g : fold_left (fun i f => assign f true i) l i g = existsb (flag_beq g) l || i g.
Proof.
  revert i. induction l as [|f l IH]; intros i; [reflexivity|]. cbn [fold_left existsb]. rewrite IH, assign_at.
  now destruct (flag_beq g f), (existsb _ l).
Qed.

Lemma decode_isa32_split features features2 midr version letters chip t g :
  decode_isa32 features features2 midr version letters chip t no_isa g =
  existsb (fun e => flag_beq g (snd e) && tests features2 (fst e)) [(0x1, F_aes); (0x2, F_pmull); (0x4, F_sha1); (0x8, F_sha2); (0x10, F_crc32)] ||
  (if 8 <=? decided_version features2 version then decode_armv8 midr chip no_isa g
   else decode_armv7 features midr (decided_version features2 version) letters t no_isa g).
Proof.
  unfold decode_isa32. fold (decided_version features2 version). cbv zeta. now rewrite set_all_at, if_at.
Qed.

Definition baseline : list flag :=
  [F_armv5e; F_armv6; F_armv6k; F_armv7; F_armv7mp; F_armv8; F_thumb; F_thumb2; F_idiv; F_vfpv3; F_d32; F_fp16; F_fma; F_neon].
Definition faulty (chip : chipset) : bool := is_chip series_sc 9863 chip || is_chip series_unisoc_t 310 chip || is_chip series_unisoc_ums 312 chip.
Definition knows_dot32 (midr : N) : bool :=
  if one_of_cores dot_cores32 midr then true
  else if core_of midr =? 0x4100D050 then 1 <=? variant_of midr
  else if core_of midr =? 0x4100D0A0 then 2 <=? variant_of midr else false.
Lemma armv8_at midr chip g :
  decode_armv8 midr chip no_isa g =
  existsb (flag_beq g) baseline ||
  (flag_beq g F_rdm || flag_beq g F_fp16arith) && (negb (is_chip series_exynos 9810 chip) && one_of_cores fp16_cores32 midr) ||
  flag_beq g F_dot && (negb (faulty chip) && knows_dot32 midr).
Proof.
  unfold decode_armv8, faulty, knows_dot32. cbv zeta. rewrite <- !variant_spec.
  destruct (_ || is_chip series_unisoc_ums 312 chip).
  - rewrite !if_at, !assign_at, !assign_all_at. fold baseline. unfold no_isa.
    destruct (is_chip _ _ _), (one_of_cores _ _), (existsb _ baseline), (flag_beq g F_rdm), (flag_beq g F_fp16arith), (flag_beq g F_dot); reflexivity.
  - rewrite !if_at, !assign_at, !if_at, !assign_at, !assign_all_at. fold baseline. unfold no_isa.
    destruct (flag_beq g F_dot) eqn:E.
    + assert (G : g = F_dot) by (destruct g; discriminate || reflexivity). subst g. cbn [flag_beq existsb baseline orb andb negb].
      repeat match goal with |- context [if ?c then _ else _] => destruct c end; reflexivity.
    + destruct (one_of_cores dot_cores32 midr), (core_of midr =? 0x4100D050), (core_of midr =? 0x4100D0A0), (is_chip _ _ _), (one_of_cores _ _),
        (existsb _ baseline), (flag_beq g F_rdm), (flag_beq g F_fp16arith); reflexivity.
Qed.

Lemma wmmx_other features t i g : flag_beq g F_wmmx = false -> flag_beq g F_wmmx2 = false -> decode_wmmx features t i g = i g.
Proof.
  intros A B. unfold decode_wmmx. destruct (_ && _); [|reflexivity]. destruct (_ <=? _); [|reflexivity].
  now rewrite set_if_at, assign_at, A, B.
Qed.
Lemma vfp_other features version t i g : flag_beq g F_vfpv3 = false -> flag_beq g F_d32 = false -> flag_beq g F_vfpv2 = false ->
  decode_vfp features version t i g = i g.
Proof.
  intros A B C. unfold decode_vfp. destruct (tests _ _); [|reflexivity]. destruct (_ || _); [now rewrite set_if_at, assign_at, A, B|].
  destruct (tg_armv7 t); [now rewrite assign_at, A|]. now rewrite set_if_at, C.
Qed.

Ltac evaluate32 :=
  unfold decode_armv7; cbv zeta;
  rewrite ?set_if_at; rewrite ?vfp_other by reflexivity; rewrite ?set_if_at, ?if_at, ?set_if_at, ?assign_at;
  rewrite ?wmmx_other by reflexivity; rewrite ?if_at, ?set_if_at, ?assign_at; rewrite ?if_at, ?set_if_at, ?assign_at;
  cbn [flag_beq andb orb]; unfold no_isa; rewrite ?orb_false_r.

Ltac branches := repeat match goal with |- context [if ?c then _ else _] => destruct c end; rewrite ?set_if_at; cbn [flag_beq andb orb]; rewrite ?orb_false_r; reflexivity.

Section Old.
  Context (features midr version letters : N) (t : target).
  Let V := corrected_version features midr version.
  Let i := decode_armv7 features midr version letters t no_isa.

  Lemma old_armv5e : i F_armv5e = (6 <=? V) || tests features 0x80 || tests letters 2.
  Proof. unfold i. evaluate32. fold V. branches. Qed.
  Lemma old_armv6 : i F_armv6 = (6 <=? V).
  Proof. unfold i. evaluate32. fold V. branches. Qed.
  Lemma old_armv6k : i F_armv6k = (7 <=? V).
  Proof. unfold i. evaluate32. fold V. branches. Qed.
  Lemma old_armv7 : i F_armv7 = (7 <=? V).
  Proof. unfold i. evaluate32. fold V. branches. Qed.
  Lemma old_armv7mp : i F_armv7mp = (7 <=? V) &&
    (one_of_cores [0x4100C050; 0x4100C090; 0x510002D0; 0x510004D0; 0x510006F0] midr || N.testbit features 17 && N.testbit features 18).
  Proof. unfold i. evaluate32. fold V. rewrite divisions. branches. Qed.
  Lemma old_thumb : i F_thumb = tests features 0x4 || tests letters 1.
  Proof. unfold i. evaluate32. fold V. branches. Qed.
  Lemma old_thumb2 : i F_thumb2 = (tests features 0x4 || tests letters 1) && ((7 <=? V) || is_arm1156 midr).
  Proof. unfold i. evaluate32. fold V. branches. Qed.
  Lemma old_idiv : i F_idiv = N.testbit features 17 && N.testbit features 18 || is_krait midr.
  Proof. unfold i. evaluate32. fold V. rewrite divisions. branches. Qed.
  Lemma old_neon : i F_neon = tests features 0x1000.
  Proof. unfold i. evaluate32. fold V. branches. Qed.
  Lemma old_fma : i F_fma = tests features 0x10000.
  Proof. unfold i. evaluate32. fold V. branches. Qed.
  Lemma old_fp16 : i F_fp16 = tests features 0x10000 || is_cortex_a9 midr || is_scorpion midr.
  Proof. unfold i. evaluate32. fold V. branches. Qed.
  Lemma vfp_at j g : decode_vfp features V t j g =
    if tests features (N.lor 0x40 (N.lor 0x2000 (N.lor 0x4000 (N.lor 0x80000 (N.lor 0x10000 0x1000))))) then
      if (7 <=? V) || tests features (N.lor 0x2000 (N.lor 0x4000 (N.lor 0x80000 (N.lor 0x10000 0x1000)))) then
        flag_beq g F_d32 && tests features (N.lor 0x80000 0x1000) || (flag_beq g F_vfpv3 || j g)
      else if tg_armv7 t then flag_beq g F_vfpv3 || j g
      else flag_beq g F_vfpv2 && (1 <=? N.land (N.shiftr (tg_fpsid t) 16) 0x7F) || j g
    else j g.
  Proof.
    unfold decode_vfp. cbv zeta. rewrite !if_at, !set_if_at, !assign_at. now destruct (flag_beq g F_vfpv3).
  Qed.
  Ltac evaluate_vfp :=
    unfold i, decode_armv7; cbv zeta; fold V; rewrite ?set_if_at, vfp_at, ?set_if_at;
    rewrite ?if_at, ?set_if_at, ?assign_at; rewrite ?wmmx_other by reflexivity; rewrite ?if_at, ?set_if_at, ?assign_at; rewrite ?if_at, ?set_if_at, ?assign_at;
    cbn [flag_beq andb orb]; unfold no_isa; rewrite ?orb_false_r.
  Lemma old_vfp g : In g [F_vfpv2; F_vfpv3; F_d32] ->
    i g = decode_vfp features V t no_isa g.
  Proof.
    intros H. cbn in H. destruct H as [<-|[<-|[<-|[]]]]; evaluate_vfp; rewrite vfp_at; unfold no_isa; cbn [flag_beq andb orb];
      branches.
  Qed.
  Definition wmmx_type : N := N.land (N.shiftr (tg_wcid t) 8) 0xFF.
  Lemma old_wmmx : i F_wmmx = tests features 0x200 && negb (tg_armv8 t) && (0x10 <=? wmmx_type).
  Proof.
    unfold i. evaluate32. unfold decode_wmmx. fold wmmx_type. cbv zeta. rewrite !if_at, !set_if_at, !assign_at, ?if_at, ?set_if_at, ?assign_at.
    cbn [flag_beq andb orb]. unfold no_isa. fold V.
    destruct (tests features 0x200), (tg_armv8 t); cbn [andb negb]; branches.
  Qed.
  Lemma old_wmmx2 : i F_wmmx2 = tests features 0x200 && negb (tg_armv8 t) && (0x20 <=? wmmx_type).
  Proof.
    unfold i. evaluate32. unfold decode_wmmx. fold wmmx_type. cbv zeta. rewrite !if_at, !set_if_at, !assign_at, ?if_at, ?set_if_at, ?assign_at.
    cbn [flag_beq andb orb]. unfold no_isa. fold V. rewrite ?orb_false_r.
    destruct (N.leb_spec 0x10 wmmx_type), (N.leb_spec 0x20 wmmx_type); try (exfalso; lia);
    destruct (tests features 0x200), (tg_armv8 t); cbn [andb negb]; branches.
  Qed.
  Lemma old_never g :
    In g [F_armv8; F_atomics; F_bf16; F_sve; F_sve2; F_i8mm; F_sme; F_sme2; F_sme2p1; F_sme_i16i32; F_sme_bi32i32; F_sme_b16b16; F_sme_f16f16;
          F_rdm; F_fp16arith; F_dot; F_jscvt; F_fcma; F_fhm; F_aes; F_sha1; F_sha2; F_pmull; F_crc32] -> i g = false.
  Proof.
    intros H. cbn in H. unfold i.
    repeat (destruct H as [<-|H];
      [evaluate32; fold V; branches|]).
    destruct H.
  Qed.
End Old.

(** ** What the getters mean *)

Lemma field_of w offset length : N.land (N.shiftr w offset) (N.ones length) = w / 2 ^ offset mod 2 ^ length.
Proof. now rewrite N.land_ones, N.shiftr_div_pow2. Qed.
Lemma wmmx_type_spec x : wmmx_type (in_target x) = wireless x.
Proof. apply (field_of _ 8 8). Qed.
Lemma knows_dot32_spec midr : knows_dot32 midr = true <-> known_dot32 midr.
Proof.
  unfold knows_dot32, known_dot32.
  pose proof (core_is midr 0x4100D050 (0x41, 0xD05) eq_refl eq_refl) as A.
  pose proof (core_is midr 0x4100D0A0 (0x41, 0xD0A) eq_refl eq_refl) as B.
  fold (cortex_a55 midr) in A. fold (cortex_a75 midr) in B.
  rewrite <- (dot_cores32_spec midr). unfold cortex_a55, cortex_a75 in *. rewrite <- A, <- B. clear A B.
  destruct (one_of_cores dot_cores32 midr) eqn:E; [tauto|].
  destruct (N.eqb_spec (core_of midr) 0x4100D050) as [E1|E1].
  - rewrite E1, N.leb_le. change (0x4100D050 =? 0x4100D0A0) with false.
    split; [tauto|]. intros [H|[H|[H _]]]; try discriminate; tauto.
  - destruct (N.eqb_spec (core_of midr) 0x4100D0A0) as [E2|E2]; rewrite ?N.leb_le.
    + split; [tauto|]. intros [H|[[H _]|H]]; try discriminate; tauto.
    + split; [discriminate|]. intros [H|[[H _]|[H _]]]; discriminate.
Qed.
Lemma faulty_spec chip : faulty chip = true <-> faulty_dot chip.
Proof. unfold faulty, faulty_dot. rewrite !orb_true_iff, !is_chip_spec. unfold series_sc, series_unisoc_t, series_unisoc_ums. tauto. Qed.
Lemma v8_decidable x : v8 x \/ ~ v8 x.
Proof.
  unfold v8. rewrite <- decided_v8. destruct (8 <=? _); [now left|]. right. discriminate.
Qed.

Section Flags.
  Context (x : inputs).
  Let f := decode_isa32 (in_features x) (in_features2 x) (in_midr x) (in_version x) (in_letters x) (in_chip x) (in_target x) no_isa.

  Lemma new_at g : v8 x -> f g = existsb (fun e => flag_beq g (snd e) && tests (in_features2 x) (fst e))
      [(0x1, F_aes); (0x2, F_pmull); (0x4, F_sha1); (0x8, F_sha2); (0x10, F_crc32)] ||
    (existsb (flag_beq g) baseline ||
     (flag_beq g F_rdm || flag_beq g F_fp16arith) && (negb (is_chip series_exynos 9810 (in_chip x)) && one_of_cores fp16_cores32 (in_midr x)) ||
     flag_beq g F_dot && (negb (faulty (in_chip x)) && knows_dot32 (in_midr x))).
  Proof.
    intros H. unfold f. rewrite decode_isa32_split. apply decided_v8 in H. now rewrite H, armv8_at.
  Qed.
  Lemma no_crypto : ~ v8 x -> forall e, In e [(0x1, F_aes); (0x2, F_pmull); (0x4, F_sha1); (0x8, F_sha2); (0x10, F_crc32)] ->
    tests (in_features2 x) (fst e) = false.
  Proof.
    intros H e He. apply not_true_iff_false. intros T. apply H. right.
    cbn in He. destruct He as [<-|[<-|[<-|[<-|[<-|[]]]]]]; cbn [fst] in T.
    - exists 0. split; [cbn; tauto|]. now rewrite <- (tests_bit _ 0x1).
    - exists 1. split; [cbn; tauto|]. now rewrite <- (tests_bit _ 0x2).
    - exists 2. split; [cbn; tauto|]. now rewrite <- (tests_bit _ 0x4).
    - exists 3. split; [cbn; tauto|]. now rewrite <- (tests_bit _ 0x8).
    - exists 4. split; [cbn; tauto|]. now rewrite <- (tests_bit _ 0x10).
  Qed.
  Lemma old_at g : ~ v8 x -> f g = decode_armv7 (in_features x) (in_midr x) (in_version x) (in_letters x) (in_target x) no_isa g.
  Proof.
    intros H. unfold f. rewrite decode_isa32_split. pose proof (no_crypto H) as C.
    assert (E : existsb (fun e => flag_beq g (snd e) && tests (in_features2 x) (fst e))
                  [(0x1, F_aes); (0x2, F_pmull); (0x4, F_sha1); (0x8, F_sha2); (0x10, F_crc32)] = false).
    { cbn [existsb]. rewrite !C by (cbn; tauto). now rewrite !andb_false_r. }
    rewrite E. destruct (8 <=? decided_version (in_features2 x) (in_version x)) eqn:D; [now apply decided_v8 in D|].
    cbn [orb]. now rewrite (proj1 (not_v8 _ _ H)).
  Qed.
  Lemma crypto_at n g : In (2 ^ n, g) [(0x1, F_aes); (0x2, F_pmull); (0x4, F_sha1); (0x8, F_sha2); (0x10, F_crc32)] ->
    f g = true <-> kernel2 x n.
  Proof.
    intros H. unfold kernel2. rewrite <- (tests_pow2 (in_features2 x) n). destruct (v8_decidable x) as [V|V].
    - rewrite new_at by assumption. set (m := 2 ^ n) in *. clearbody m.
      cbn in H. destruct H as [H|[H|[H|[H|[H|[]]]]]]; injection H as <- <-;
        cbn [existsb fst snd flag_beq baseline andb orb]; rewrite ?orb_false_r; reflexivity.
    - rewrite old_at by assumption. pose proof (no_crypto V _ H) as C. cbn [fst] in C. rewrite C.
      rewrite old_never; [tauto|]. cbn in H. destruct H as [H|[H|[H|[H|[H|[]]]]]]; injection H as _ <-; cbn; tauto.
  Qed.
End Flags.

Lemma any_bit_cons w n bits : any_bit w (n :: bits) <-> N.testbit w n = true \/ any_bit w bits.
Proof.
  unfold any_bit. split.
  - intros (m & [->|H] & E); [now left|right; now exists m].
  - intros [H|(m & H & E)]; [exists n; split; [now left|assumption]|exists m; split; [now right|assumption]].
Qed.
Lemma any_bit_nil w : any_bit w [] <-> False.
Proof. split; [intros (n & [] & _)|tauto]. Qed.

Lemma meaning_new x g : v8 x -> has32 x g <-> meaning32 x g.
Proof.
  intros V. unfold has32.
  assert (V7 : v7 x) by (left; exact V). assert (V6 : v6 x) by (left; exact V7).
  destruct g; cbn [has_arm meaning32]; try (split; [discriminate|tauto]);
    try (rewrite !new_at by exact V; cbn [existsb fst snd flag_beq baseline andb orb]; tauto).
  - rewrite new_at by exact V. cbn [existsb fst snd flag_beq baseline andb orb]. split; [discriminate|]. tauto.
  - rewrite new_at by exact V. cbn [existsb fst snd flag_beq baseline andb orb].
    rewrite orb_false_r, andb_true_iff, negb_true_iff, <- not_true_iff_false, is_chip_spec, fp16_cores32_spec. unfold exynos_9810, core_in, series_exynos. tauto.
  - rewrite new_at by exact V. cbn [existsb fst snd flag_beq baseline andb orb]. unfold wireless_unit. split; [discriminate|]. tauto.
  - rewrite new_at by exact V. cbn [existsb fst snd flag_beq baseline andb orb]. unfold wireless_unit. split; [discriminate|]. tauto.
  - rewrite new_at by exact V. cbn [existsb fst snd flag_beq baseline andb orb].
    rewrite orb_false_r, andb_true_iff, negb_true_iff, <- not_true_iff_false, is_chip_spec, fp16_cores32_spec. unfold exynos_9810, core_in, series_exynos. tauto.
  - rewrite !new_at by exact V. cbn [existsb fst snd flag_beq baseline andb orb].
    rewrite orb_false_r, andb_true_iff, negb_true_iff, <- not_true_iff_false, is_chip_spec, fp16_cores32_spec. unfold exynos_9810, core_in, series_exynos. tauto.
  - rewrite new_at by exact V. cbn [existsb fst snd flag_beq baseline andb orb]. split; [discriminate|]. tauto.
  - rewrite new_at by exact V. cbn [existsb fst snd flag_beq baseline andb orb].
    rewrite andb_true_iff, negb_true_iff, <- not_true_iff_false, faulty_spec, knows_dot32_spec. tauto.
  - rewrite new_at by exact V. cbn [existsb fst snd flag_beq baseline andb orb]. split; [discriminate|]. tauto.
  - rewrite new_at by exact V. cbn [existsb fst snd flag_beq baseline andb orb]. split; [discriminate|]. tauto.
  - apply crypto_at. vm_compute. tauto.
  - apply crypto_at. vm_compute. tauto.
  - apply crypto_at. vm_compute. tauto.
  - apply crypto_at. vm_compute. tauto.
  - apply crypto_at. vm_compute. tauto.
Qed.

Lemma vfp_spec x : tests (in_features x) (N.lor 0x40 (N.lor 0x2000 (N.lor 0x4000 (N.lor 0x80000 (N.lor 0x10000 0x1000))))) = true <-> some_vfp x.
Proof. apply tests_any. reflexivity. Qed.
Lemma vfp3_spec x : tests (in_features x) (N.lor 0x2000 (N.lor 0x4000 (N.lor 0x80000 (N.lor 0x10000 0x1000)))) = true <->
  any_bit (in_features x) [h_vfpv3; h_vfpv3d16; h_vfpd32; h_vfpv4; h_neon].
Proof. apply tests_any. reflexivity. Qed.
Lemma d32_spec x : tests (in_features x) (N.lor 0x80000 0x1000) = true <-> all_registers x.
Proof. apply tests_any. reflexivity. Qed.

Section Older.
  Context (x : inputs) (V : ~ v8 x).
  Let f := decode_isa32 (in_features x) (in_features2 x) (in_midr x) (in_version x) (in_letters x) (in_chip x) (in_target x) no_isa.
  Let version := corrected_version (in_features x) (in_midr x) (in_version x).
  Lemma C7 : (7 <=? version) = true <-> v7 x.
  Proof. exact (corrected_v7 _ _ _ _ V). Qed.
  Lemma C6 : (6 <=? version) = true <-> v6 x.
  Proof. exact (corrected_v6 _ _ _ _ V). Qed.

  Lemma late_kernel n : In n late_bits -> kernel x n -> v7 x.
  Proof. intros H E. right. right. now exists n. Qed.
  Lemma f_vfpv3 : f F_vfpv3 = true <-> some_vfp x /\ (v7 x \/ tg_armv7 (in_target x) = true).
  Proof.
    unfold f. rewrite old_at, old_vfp, vfp_at by (try exact V; cbn; tauto). fold version. cbn [flag_beq andb orb]. unfold no_isa.
    rewrite <- vfp_spec, <- C7. pose proof (proj1 (vfp3_spec x)) as L.
    destruct (tests (in_features x) (N.lor 0x40 _)); [|intuition discriminate].
    destruct (7 <=? version) eqn:E; cbn [orb]; [rewrite ?orb_true_r; tauto|].
    destruct (tests (in_features x) (N.lor 0x2000 _)).
    - exfalso. destruct (L eq_refl) as (n & H & K). assert (v7 x) by (apply (late_kernel n); [cbn in H |- *; tauto|exact K]).
      pose proof (proj2 C7 H0); congruence.
    - destruct (tg_armv7 (in_target x)); cbn [orb]; rewrite ?andb_false_r; cbn [orb]; intuition discriminate.
  Qed.
  Lemma f_d32 : f F_d32 = true <-> all_registers x.
  Proof.
    unfold f. rewrite old_at, old_vfp, vfp_at by (try exact V; cbn; tauto). fold version. cbn [flag_beq andb orb]. unfold no_isa.
    pose proof (d32_spec x) as D. rewrite <- D.
    assert (A : tests (in_features x) (N.lor 0x80000 0x1000) = true ->
                tests (in_features x) (N.lor 0x40 (N.lor 0x2000 (N.lor 0x4000 (N.lor 0x80000 (N.lor 0x10000 0x1000))))) = true /\
                tests (in_features x) (N.lor 0x2000 (N.lor 0x4000 (N.lor 0x80000 (N.lor 0x10000 0x1000)))) = true).
    { rewrite D, vfp_spec, vfp3_spec. intros (n & H & K). split; exists n; (split; [cbn in H |- *; tauto|exact K]). }
    clear D. destruct (tests (in_features x) (N.lor 0x80000 0x1000)).
    - destruct (A eq_refl) as [-> ->]. rewrite orb_true_r. tauto.
    - repeat match goal with |- context [if ?c then _ else _] => destruct c end; cbn [orb]; tauto.
  Qed.
  Lemma f_vfpv2 : f F_vfpv2 = true <-> ~ v7 x /\ kernel x h_vfp /\ tg_armv7 (in_target x) = false /\ 1 <= subarchitecture x.
  Proof.
    unfold f. rewrite old_at, old_vfp, vfp_at by (try exact V; cbn; tauto). fold version. cbn [flag_beq andb orb]. unfold no_isa.
    change 0x7F with (N.ones 7). rewrite field_of. fold (subarchitecture x).
    pose proof (vfp_spec x) as S. pose proof (proj1 (vfp3_spec x)) as L. pose proof (proj2 (vfp3_spec x)) as L'.
    assert (K : some_vfp x <-> kernel x h_vfp \/ any_bit (in_features x) [h_vfpv3; h_vfpv3d16; h_vfpd32; h_vfpv4; h_neon]).
    { unfold some_vfp, kernel. now rewrite !any_bit_cons, any_bit_nil. }
    assert (M : any_bit (in_features x) [h_vfpv3; h_vfpv3d16; h_vfpd32; h_vfpv4; h_neon] -> v7 x).
    { intros (n & H & E). apply (late_kernel n); [cbn in H |- *; tauto|exact E]. }
    rewrite <- C7. destruct (tests (in_features x) (N.lor 0x40 _)).
    - destruct (7 <=? version) eqn:E; cbn [orb]; [rewrite ?andb_false_r; split; [discriminate|intros [H _]; now elim H]|].
      destruct (tests (in_features x) (N.lor 0x2000 _)).
      + exfalso. specialize (M (L eq_refl)). pose proof (proj2 C7 M); congruence.
      + destruct (tg_armv7 (in_target x)); cbn [orb]; [intuition discriminate|].
        rewrite orb_false_r, N.leb_le. intuition (try discriminate).
    - split; [discriminate|]. intros (_ & H & _). apply S. apply K. now left.
  Qed.
  Lemma f_fp16 : f F_fp16 = true <-> kernel x h_vfpv4 \/ core_in x fp16_storage.
  Proof.
    unfold f. rewrite old_at, old_fp16, !orb_true_iff by exact V. unfold core_in. rewrite <- fp16_storage_spec.
    rewrite (tests_on _ _ h_vfpv4) by reflexivity. unfold kernel. tauto.
  Qed.
  Lemma f_fma : f F_fma = true <-> kernel x h_vfpv4.
  Proof. unfold f. rewrite old_at, old_fma by exact V. now apply tests_on. Qed.
  Lemma f_neon : f F_neon = true <-> kernel x h_neon.
  Proof. unfold f. rewrite old_at, old_neon by exact V. now apply tests_on. Qed.
  Lemma neon_all : kernel x h_neon -> all_registers x /\ some_vfp x /\ v7 x.
  Proof.
    intros H. split; [|split]; [exists h_neon|exists h_neon|apply (late_kernel h_neon)]; try (split; [cbn; tauto|]); try exact H. cbn. tauto.
  Qed.
  Lemma registers_all : all_registers x -> some_vfp x /\ v7 x.
  Proof.
    intros (n & H & K). split; [exists n; split; [cbn in H |- *; tauto|exact K]|apply (late_kernel n); [cbn in H |- *; tauto|exact K]].
  Qed.
  Lemma vfpv4_all : kernel x h_vfpv4 -> some_vfp x /\ v7 x.
  Proof. intros H. split; [exists h_vfpv4; split; [cbn; tauto|exact H]|apply (late_kernel h_vfpv4); [cbn; tauto|exact H]]. Qed.

  Lemma meaning_old g : has32 x g <-> meaning32 x g.
  Proof.
    pose proof f_vfpv3 as A1. pose proof f_d32 as A2. pose proof f_vfpv2 as A3. pose proof f_fp16 as A4. pose proof f_fma as A5.
    pose proof f_neon as A6. pose proof neon_all as B1. pose proof registers_all as B2. pose proof vfpv4_all as B3.
    unfold has32. fold f. destruct g; cbn [has_arm meaning32]; try (split; [discriminate|tauto]); rewrite ?andb_true_iff, ?A1, ?A2, ?A3, ?A4, ?A5, ?A6;
      try tauto.
    - unfold f. rewrite old_at, old_thumb, orb_true_iff by exact V. rewrite (tests_on _ _ h_thumb), (tests_on _ _ 0) by reflexivity.
      unfold kernel, letter. tauto.
    - unfold f. rewrite old_at, old_thumb2, andb_true_iff, !orb_true_iff, arm1156_spec by exact V.
      rewrite (tests_on _ _ h_thumb), (tests_on _ _ 0) by reflexivity. fold version. rewrite C7. unfold kernel, letter, core_in. tauto.
    - unfold f. rewrite old_at, old_armv5e, !orb_true_iff by exact V.
      rewrite (tests_on _ _ h_edsp), (tests_on _ _ 1) by reflexivity. fold version. rewrite C6. unfold kernel, letter. tauto.
    - unfold f. rewrite old_at, old_armv6 by exact V. exact C6.
    - unfold f. rewrite old_at, old_armv6k by exact V. exact C7.
    - unfold f. rewrite old_at, old_armv7 by exact V. exact C7.
    - unfold f. rewrite old_at, old_armv7mp, andb_true_iff, orb_true_iff, andb_true_iff, mp_cores_spec by exact V.
      fold version. rewrite C7. unfold core_in, divides, kernel. tauto.
    - unfold f. rewrite old_at, old_never by (try exact V; cbn; tauto). split; [discriminate|tauto].
    - unfold f. rewrite old_at, old_idiv, orb_true_iff, andb_true_iff, krait_spec by exact V. unfold divides, kernel, core_in. tauto.
    - unfold f. rewrite old_at, old_never by (try exact V; cbn; tauto). split; [discriminate|tauto].
    - unfold f. rewrite old_at, old_wmmx, !andb_true_iff, negb_true_iff, wmmx_type_spec, N.leb_le by exact V.
      rewrite (tests_on _ _ h_iwmmxt) by reflexivity. unfold wireless_unit, kernel. tauto.
    - unfold f. rewrite old_at, old_wmmx2, !andb_true_iff, negb_true_iff, wmmx_type_spec, N.leb_le by exact V.
      rewrite (tests_on _ _ h_iwmmxt) by reflexivity. unfold wireless_unit, kernel. tauto.
    - unfold f. rewrite (old_at x F_armv8), old_never by (try exact V; cbn; tauto). split; [intros [_ H]; discriminate|tauto].
    - unfold f. rewrite old_at, old_never by (try exact V; cbn; tauto). split; [discriminate|tauto].
    - unfold f. rewrite (old_at x F_fp16arith), old_never by (try exact V; cbn; tauto). split; [intros [_ H]; discriminate|tauto].
    - unfold f. rewrite old_at, old_never by (try exact V; cbn; tauto). split; [discriminate|tauto].
    - unfold f. rewrite old_at, old_never by (try exact V; cbn; tauto). split; [discriminate|tauto].
    - unfold f. rewrite old_at, old_never by (try exact V; cbn; tauto). split; [discriminate|tauto].
    - unfold f. rewrite old_at, old_never by (try exact V; cbn; tauto). split; [discriminate|tauto].
    - apply crypto_at. vm_compute. tauto.
    - apply crypto_at. vm_compute. tauto.
    - apply crypto_at. vm_compute. tauto.
    - apply crypto_at. vm_compute. tauto.
    - apply crypto_at. vm_compute. tauto.
  Qed.
End Older.

Lemma meaning_all x g : has32 x g <-> meaning32 x g.
Proof. destruct (v8_decidable x) as [V|V]; [now apply meaning_new|now apply meaning_old]. Qed.

Lemma builds x a b : In (a, b) builds_on -> has32 x a -> has32 x b.
Proof.
  rewrite !meaning_all. intros H.
  assert (V87 : v8 x -> v7 x) by (intros W; left; exact W).
  assert (V76 : v7 x -> v6 x) by (intros W; left; exact W).
  assert (C : kernel2 x 0 \/ kernel2 x 1 \/ kernel2 x 2 \/ kernel2 x 3 \/ kernel2 x 4 -> v8 x).
  { unfold kernel2, v8, is_v8. rewrite !any_bit_cons. tauto. }
  assert (N1 : kernel x h_neon -> all_registers x /\ v7 x).
  { intros W. split; [exists h_neon; split; [cbn; tauto|exact W]|]. right. right. exists h_neon. split; [cbn; tauto|exact W]. }
  assert (R1 : all_registers x -> some_vfp x /\ v7 x).
  { intros (n & I & K). split; [exists n; split; [cbn in I |- *; tauto|exact K]|]. right. right. exists n. split; [cbn in I |- *; tauto|exact K]. }
  assert (F1 : kernel x h_vfpv4 -> some_vfp x /\ v7 x).
  { intros W. split; [exists h_vfpv4; split; [cbn; tauto|exact W]|]. right. right. exists h_vfpv4. split; [cbn; tauto|exact W]. }
  assert (W1 : 0x20 <= wireless x -> 0x10 <= wireless x) by lia.
  cbn in H. repeat (destruct H as [H|H]; [injection H as <- <-; cbn [meaning32]; tauto|]). destruct H.
Qed.
Lemma absent x g : In g absent32 -> ~ has32 x g.
Proof. rewrite meaning_all. intros H. cbn in H. repeat (destruct H as [<-|H]; [exact (fun F => F)|]). destruct H. Qed.

(** ** The names of designs *)

Lemma part_spec midr : midr_get_part midr = part_of midr.
Proof.
  unfold midr_get_part, get_field. change part_mask with (N.shiftl (N.ones 12) 4). change part_offset with 4.
  rewrite land_field, N.shiftr_div_pow2, N.div_mul by discriminate. reflexivity.
Qed.
Lemma implementer_spec midr : midr_get_implementer midr = implementer_of midr.
Proof.
  unfold midr_get_implementer, get_field. change implementer_mask with (N.shiftl (N.ones 8) 24). change implementer_offset with 24.
  rewrite land_field, N.shiftr_div_pow2, N.div_mul by discriminate. reflexivity.
Qed.
Lemma variant_bound midr : variant_of midr < 16.
Proof. apply N.mod_lt. discriminate. Qed.
Lemma variant_part midr : N.land midr (N.lor variant_mask part_mask) = variant_of midr * 2 ^ 20 + part_of midr * 2 ^ 4.
Proof.
  change (N.lor variant_mask part_mask) with (N.lor (N.shiftl (N.ones 4) 20) (N.shiftl (N.ones 12) 4)).
  rewrite N.land_lor_distr_r, !land_field. fold (variant_of midr). fold (part_of midr).
  assert (P : part_of midr < 2 ^ 12) by (apply N.mod_lt; discriminate).
  symmetry. rewrite <- !N.shiftl_mul_pow2. rewrite N.add_nocarry_lxor; [apply N.lxor_lor|];
    apply N.bits_inj; intros n; rewrite N.land_spec, N.bits_0.
  all: destruct (N.le_gt_cases 20 n) as [H|H]; [|rewrite (N.shiftl_spec_low _ 20) by assumption; reflexivity].
  all: rewrite (N.shiftl_spec_high' _ 4) by lia.
  all: rewrite <- (N.mod_small _ _ P), N.mod_pow2_bits_high by lia; apply andb_false_r.
Qed.
Lemma samsung_label midr v p : v < 16 -> p < 4096 ->
  N.land midr (N.lor variant_mask part_mask) = v * 2 ^ 20 + p * 2 ^ 4 <-> variant_of midr = v /\ part_of midr = p.
Proof.
  intros Hv Hp. rewrite variant_part. pose proof (variant_bound midr). pose proof (part_bound midr).
  change (2 ^ 20) with 1048576. change (2 ^ 4) with 16. lia.
Qed.
Lemma switch_in {A} (labels : list (N * A)) x d : switch labels x d = d \/ In (x, switch labels x d) labels.
Proof.
  induction labels as [|[l a] r IH]; cbn [switch]; [now left|]. destruct (N.eqb_spec x l) as [->|]; [right; now left|].
  destruct IH as [->|IH]; [now left|right; now right].
Qed.

Lemma late_named midr v : In (snd (decode_vendor_uarch false midr v)) late_uarchs -> designed midr fp16_designs64.
Proof.
  intros H. unfold decode_vendor_uarch in H. cbv zeta in H. rewrite implementer_spec in H.
  unfold designed, fp16_designs64.
  match type of H with In (snd (switch ?ls ?x ?d)) _ => destruct (switch_in ls x d) as [E|E]; [rewrite E in H|set (r := switch ls x d) in *; clearbody r] end.
  { cbn in H. repeat (destruct H as [H|H]; [discriminate|]). destruct H. }
  cbn [app In] in E.
  repeat (destruct E as [E|E]; [injection E as I R; rewrite <- I; clear I; rewrite <- R in H; clear R|]); [..|destruct E].
  - cbn [snd] in H. unfold arm_uarchs in H. cbv zeta in H. rewrite part_spec in H.
    match type of H with In (switch ?ls ?x ?d) _ => destruct (switch_in ls x d) as [E|E]; [rewrite E in H|set (s := switch ls x d) in *; clearbody s] end.
    { cbn in H. repeat (destruct H as [H|H]; [discriminate|]). destruct H. }
    cbn [app In] in E.
    repeat (destruct E as [E|E]; [injection E as I R; rewrite <- I; clear I; rewrite <- R in H; clear R;
      first [cbn; tauto | exfalso; cbn in H; repeat (destruct H as [H|H]; [discriminate|]); destruct H]|]). destruct E.
  - exfalso. unfold broadcom in H.
    match type of H with In (snd (switch ?ls ?x ?d)) _ => destruct (switch_in ls x d) as [E|E]; [rewrite E in H|set (s := switch ls x d) in *; clearbody s] end.
    { cbn in H. repeat (destruct H as [H|H]; [discriminate|]). destruct H. }
    cbn [app In] in E. repeat (destruct E as [E|E]; [injection E as I R; rewrite <- R in H; cbn in H; repeat (destruct H as [H|H]; [discriminate|]); destruct H|]). destruct E.
  - exfalso. unfold cavium in H. cbn [snd] in H.
    match type of H with In (switch ?ls ?x ?d) _ => destruct (switch_in ls x d) as [E|E]; [rewrite E in H|set (s := switch ls x d) in *; clearbody s] end.
    { cbn in H. repeat (destruct H as [H|H]; [discriminate|]). destruct H. }
    cbn [app In] in E. repeat (destruct E as [E|E]; [injection E as I R; rewrite <- R in H; cbn in H; repeat (destruct H as [H|H]; [discriminate|]); destruct H|]). destruct E.
  - unfold huawei in H. rewrite part_spec in H.
    match type of H with In (snd (switch ?ls ?x ?d)) _ => destruct (switch_in ls x d) as [E|E]; [rewrite E in H|set (s := switch ls x d) in *; clearbody s] end.
    { cbn in H. repeat (destruct H as [H|H]; [discriminate|]). destruct H. }
    cbn [app In] in E. repeat (destruct E as [E|E]; [injection E as I R; rewrite <- I; clear I; rewrite <- R in H; clear R;
      first [cbn; tauto | exfalso; cbn in H; repeat (destruct H as [H|H]; [discriminate|]); destruct H]|]). destruct E.
  - exfalso. unfold nvidia in H. cbn [snd] in H.
    match type of H with In (switch ?ls ?x ?d) _ => destruct (switch_in ls x d) as [E|E]; [rewrite E in H|set (s := switch ls x d) in *; clearbody s] end.
    { cbn in H. repeat (destruct H as [H|H]; [discriminate|]). destruct H. }
    cbn [app In] in E. repeat (destruct E as [E|E]; [injection E as I R; rewrite <- R in H; cbn in H; repeat (destruct H as [H|H]; [discriminate|]); destruct H|]). destruct E.
  - exfalso. unfold apm in H. cbn [snd] in H.
    match type of H with In (switch ?ls ?x ?d) _ => destruct (switch_in ls x d) as [E|E]; [rewrite E in H|set (s := switch ls x d) in *; clearbody s] end.
    { cbn in H. repeat (destruct H as [H|H]; [discriminate|]). destruct H. }
    cbn [app In] in E. repeat (destruct E as [E|E]; [injection E as I R; rewrite <- R in H; cbn in H; repeat (destruct H as [H|H]; [discriminate|]); destruct H|]). destruct E.
  - unfold qualcomm in H. rewrite part_spec in H.
    match type of H with In (snd (switch ?ls ?x ?d)) _ => destruct (switch_in ls x d) as [E|E]; [rewrite E in H|set (s := switch ls x d) in *; clearbody s] end.
    { cbn in H. repeat (destruct H as [H|H]; [discriminate|]). destruct H. }
    cbn [app In] in E. repeat (destruct E as [E|E]; [injection E as I R; rewrite <- I; clear I; rewrite <- R in H; clear R;
      first [cbn; tauto | exfalso; cbn in H; repeat (destruct H as [H|H]; [discriminate|]); destruct H]|]). destruct E.
  - unfold samsung in H. cbn [snd] in H.
    match type of H with In (switch ?ls ?x ?d) _ => destruct (switch_in ls x d) as [E|E]; [rewrite E in H|set (s := switch ls x d) in *; clearbody s] end.
    { cbn in H. repeat (destruct H as [H|H]; [discriminate|]). destruct H. }
    cbn [app In] in E. destruct E as [E|[E|[E|[E|[E|[]]]]]]; injection E as I R; rewrite <- R in H; clear R;
      try (exfalso; cbn in H; repeat (destruct H as [H|H]; [discriminate|]); destruct H; fail).
    + change 0x00100030 with (1 * 2 ^ 20 + 3 * 2 ^ 4) in I. symmetry in I. apply samsung_label in I; [|lia..]. destruct I as [_ ->]. cbn. tauto.
    + change 0x00100040 with (1 * 2 ^ 20 + 4 * 2 ^ 4) in I. symmetry in I. apply samsung_label in I; [|lia..]. destruct I as [_ ->]. cbn. tauto.
Qed.
Lemma named_late midr v : designed midr fp16_designs64 -> (implementer_of midr = 0x53 -> variant_of midr = 1) ->
  In (snd (decode_vendor_uarch false midr v)) late_uarchs.
Proof.
  unfold designed. intros H S. unfold decode_vendor_uarch. cbv zeta. rewrite implementer_spec.
  cbn [In fp16_designs64] in H.
  repeat (destruct H as [H|H]; [injection H as I P; symmetry in I, P; rewrite I in *; cbn [app switch N.eqb Pos.eqb snd];
    unfold arm_uarchs, huawei, qualcomm; cbv zeta; rewrite ?part_spec, ?P; cbn [app switch N.eqb Pos.eqb snd];
    try (vm_compute; tauto)|]); [..|destruct H].
  - destruct (N.land midr variant_mask =? 0); vm_compute; tauto.
  - specialize (S eq_refl). unfold samsung. cbn [snd].
    assert (E : N.land midr (N.lor variant_mask part_mask) = 1 * 2 ^ 20 + 3 * 2 ^ 4) by (apply samsung_label; [lia..|tauto]).
    rewrite E. vm_compute. tauto.
  - specialize (S eq_refl). unfold samsung. cbn [snd].
    assert (E : N.land midr (N.lor variant_mask part_mask) = 1 * 2 ^ 20 + 4 * 2 ^ 4) by (apply samsung_label; [lia..|tauto]).
    rewrite E. vm_compute. tauto.
Qed.

(** ** Detection on Linux *)

Lemma low_bit w n : n < 32 -> N.testbit (u32 w) n = N.testbit w n.
Proof. intros H. unfold u32, two32. change 4294967296 with (2 ^ 32). now apply N.mod_pow2_bits_low. Qed.
Lemma linux_kernel_bits hwcap hwcap2 t chip ps g w n : In (g, (w, n)) kernel_bits64 ->
  has_arm false (arm_linux_isa false (Getauxval hwcap hwcap2) t chip ps) g = bit hwcap hwcap2 w n.
Proof.
  intros H. unfold arm_linux_isa, feature_words. rewrite (kernel_bits _ _ _ _ _ _ _ H). unfold bit.
  cbn in H. repeat (destruct H as [H|H]; [injection H as _ <- <-; first [reflexivity | apply low_bit; reflexivity]|]). destruct H.
Qed.
Lemma last_midr_from_processor ps designs : designed (last_midr ps) designs ->
  ~ In (0, 0) designs -> exists p, In p ps /\ has_midr p /\ designed (a_midr p) designs.
Proof.
  intros H Z. unfold last_midr in H.
  destruct (last_midr_from_spec ps 0) as [(b & p & a & -> & M & E & _)|[E _]].
  - exists p. rewrite <- E. repeat split; try assumption; try apply M. apply in_or_app. right. now left.
  - rewrite E in H. now elim Z.
Qed.
Lemma linux_dot_source c t chip ps :
  has_arm false (arm_linux_isa false c t chip ps) Has_neon_dot = true ->
  N.testbit (fst (feature_words c ps)) 20 = true \/
  exists p, In p ps /\ has_midr p /\ designed (a_midr p) ((0x41, 0xD05) :: (0x41, 0xD0A) :: dot_designs64).
Proof.
  unfold arm_linux_isa. destruct (feature_words c ps) as [f f2]. cbn [fst]. rewrite dot_getter. intros H.
  assert (K : designed (last_midr ps) ((0x41, 0xD05) :: (0x41, 0xD0A) :: dot_designs64) \/ N.testbit f 20 = true).
  { unfold cortex_a55, cortex_a75, designed in *. cbn [In] in *. tauto. }
  destruct K as [K|K]; [right|now left]. apply last_midr_from_processor; [assumption|].
  cbn. intros Z. repeat (destruct Z as [Z|Z]; [discriminate|]). destruct Z.
Qed.
Lemma linux_fp16_source c t chip ps g : In g [Has_fp16_arith; Has_neon_fp16_arith; Has_neon_rdm] ->
  has_arm false (arm_linux_isa false c t chip ps) g = true ->
  N.testbit (fst (feature_words c ps)) (match g with Has_neon_rdm => 12 | _ => 10 end) = true \/
  exists p, In p ps /\ has_midr p /\ designed (a_midr p) fp16_designs64.
Proof.
  intros I. unfold arm_linux_isa. destruct (feature_words c ps) as [f f2] eqn:W. cbn [fst].
  pose proof (fp16_getters f f2 (last_midr ps) chip) as F. cbv zeta in F. destruct F as (A & B & C).
  intros H. assert (K : N.testbit f (match g with Has_neon_rdm => 12 | _ => 10 end) = true \/ designed (last_midr ps) fp16_designs64).
  { cbn in I. destruct I as [<-|[<-|[<-|[]]]]; [|rewrite C in H|]; [apply A in H|apply A in H|apply B in H]; tauto. }
  destruct K as [K|K]; [now left|right]. apply last_midr_from_processor; [assumption|].
  cbn. intros Z. repeat (destruct Z as [Z|Z]; [discriminate|]). destruct Z.
Qed.
Lemma linux_auxv arm32 entries tail t chip ps : (forall e, In e entries -> fst e < two32 /\ snd e < two32) -> tail = [] \/ (exists r, tail = Short 0 :: r) ->
  exists hwcap hwcap2, last_value 16 entries hwcap /\ last_value 26 entries hwcap2 /\
    arm_linux_isa arm32 (Android_without (Some (entries_of entries ++ tail))) t chip ps =
    arm_linux_isa arm32 (Getauxval hwcap hwcap2) t chip ps.
Proof.
  intros B T. destruct (auxv_complete entries tail B T) as (h & h2 & R & H & H2). exists h, h2. split; [assumption|]. split; [assumption|].
  unfold arm_linux_isa, feature_words. rewrite R.
  assert (E : u32 h = h).
  { apply N.mod_small. destruct H as [(b & a & -> & _)|[-> _]]; [|reflexivity].
    apply (B (16, h)). apply in_or_app. right. now left. }
  now rewrite E.
Qed.
Lemma linux_intersection file ps k :
  file = None \/ (exists entries bad tail, file = Some (entries_of entries ++ bad :: tail) /\ (bad = Failed \/ exists n, bad = Short (S n))) ->
  let words := feature_words (Android_without file) ps in
  (N.testbit (fst words) k = true <->
     (exists p, In p ps /\ has_features p) /\ forall p, In p ps -> has_features p -> N.testbit (ar_features (a_report p)) k = true) /\
  (N.testbit (snd words) k = true <->
     (exists p, In p ps /\ has_features p) /\ forall p, In p ps -> has_features p -> N.testbit (ar_features2 (a_report p)) k = true).
Proof.
  intros H words.
  assert (E : words = intersect_features ps 0 (0, 0)).
  { subst words. unfold feature_words. destruct H as [->|(entries & bad & tail & -> & B)]; [reflexivity|].
    now rewrite (auxv_failure entries bad tail B). }
  rewrite E. apply intersect_spec.
Qed.
Lemma linux_registers ps :
  last_of has_midr a_midr ps 0 (last_midr ps) /\
  last_of has_architecture (fun p => (ar_architecture_version (a_report p), ar_architecture_flags (a_report p))) ps (0, 0) (last_architecture ps).
Proof. split; [apply last_midr_from_spec|apply last_architecture_from_spec]. Qed.

(** Only usable processors count. *)
Lemma valid_bit p : a_valid p = N.testbit (a_flags p) 12.
Proof.
  apply Bool.eq_iff_eq_true. unfold a_valid. rewrite bitmask_all_included. unfold included. split.
  - intros H. now apply H.
  - intros H n E. change af_valid with (2 ^ 12) in E. rewrite testbit_pow2 in E. apply N.eqb_eq in E. now subst n.
Qed.
Lemma usable_flags p m : N.testbit (a_flags p) 12 = false -> bitmask_all (a_flags p) (N.lor af_valid m) = false.
Proof.
  intros H. apply not_true_iff_false. rewrite bitmask_all_included, included_lor, <- bitmask_all_included.
  fold (a_valid p). rewrite valid_bit, H. intros [A _]. discriminate.
Qed.
Lemma last_midr_usable ps d : last_midr_from (usable_ones ps) d = last_midr_from ps d.
Proof.
  revert d. induction ps as [|p ps IH]; intros d; [reflexivity|]. cbn [usable_ones filter]. fold (usable_ones ps).
  destruct (N.testbit (a_flags p) 12) eqn:E; cbn [last_midr_from]; rewrite valid_bit, E; cbn [andb]; apply IH.
Qed.
Lemma last_architecture_usable ps d : last_architecture_from (usable_ones ps) d = last_architecture_from ps d.
Proof.
  revert d. induction ps as [|p ps IH]; intros d; [reflexivity|]. cbn [usable_ones filter]. fold (usable_ones ps).
  destruct (N.testbit (a_flags p) 12) eqn:E; cbn [last_architecture_from]; rewrite valid_bit, E; cbn [andb]; apply IH.
Qed.
Lemma intersect_usable ps n w : intersect_features (usable_ones ps) n w = intersect_features ps n w.
Proof.
  revert n w. induction ps as [|p ps IH]; intros n w; [reflexivity|]. cbn [usable_ones filter]. fold (usable_ones ps).
  destruct (N.testbit (a_flags p) 12) eqn:E; cbn [intersect_features].
  - destruct (bitmask_all _ _); apply IH.
  - rewrite (usable_flags p _ E). apply IH.
Qed.
Lemma linux_usable arm32 c t chip ps : arm_linux_isa arm32 c t chip (usable_ones ps) = arm_linux_isa arm32 c t chip ps.
Proof.
  unfold arm_linux_isa, feature_words, last_midr, last_architecture.
  now rewrite last_midr_usable, last_architecture_usable, intersect_usable.
Qed.
