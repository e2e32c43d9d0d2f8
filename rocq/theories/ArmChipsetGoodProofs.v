(** Every chip that is decoded has a name. *)
From Verif Require Import Base BaseProofs Text LinuxTextSpec X86CpuinfoModel ArmClusterMidrModel ArmCpuinfoModel ArmChipsetModel ArmChipsetSpec ArmChipsetNameSpec ArmChipsetFixupSpec
  ArmChipsetFitProofs ArmChipsetMatchProofs ArmChipsetReadProofs ArmChipsetOtherProofs ArmChipsetDeviceProofs ArmChipsetSourceProofs ArmChipsetExclusiveProofs ArmChipsetNameProofs
  ArmChipsetFixupProofs.
From Verif Require ArmMachSpec ArmMachModel ArmMachNameProofs.
Import ArmMachSpec(numeral).
Import ArmMachModel(decimal).
Import ArmMachNameProofs(decimal_numeral, dec_value_snoc).
Open Scope N_scope.

Definition in_names (se ve : N) : Prop := exists vs, In (se, ve, vs) series_names.
Definition proper (c : chip) : Prop := in_names (chp_series c) (chp_vendor c) /\ chp_model c < two32 /\ exists suffix, holds_suffix (chp_suffix c) suffix.
Definition good (c : chip) : Prop := c = unknown_chip \/ proper c.
Lemma proper_called c : proper c -> exists name, named c name \/ of_series c name.
Proof.
  intros ((vs & I) & B & x & H). destruct (N.eq_dec (chp_model c) 0) as [Z|Z].
  - exists (text vs). right. now exists vs, x.
  - exists (text vs ++ decimal 10 (chp_model c) ++ x). left. exists vs, (decimal 10 (chp_model c)), x. repeat (split; [try assumption; try (now apply decimal_numeral)|]). reflexivity.
Qed.
Lemma good_called c : good c -> exists name, called c name.
Proof. intros [->|P]; [exists (text "Unknown"); right; now right|]. destruct (proper_called c P) as (name & [H|H]); exists name; [now left|right; now left]. Qed.
Lemma named_proper c name : named c name -> proper c.
Proof. intros (vs & ds & x & I & _ & _ & B & H & _). split; [now exists vs|]. split; [exact B|now exists x]. Qed.

Definition always (R : reading) : Prop := forall s c, R s c -> proper c.
Definition usually (R : reading) : Prop := forall s c, R s c -> good c.
Definition known_pair (se ve : N) : bool := existsb (fun '(se', ve', _) => (se =? se') && (ve =? ve')) series_names.
Lemma known_pair_ok se ve : known_pair se ve = true -> in_names se ve.
Proof. unfold known_pair. rewrite existsb_exists. intros ([[se' ve'] vs] & I & E). rewrite Bool.andb_true_iff, !N.eqb_eq in E. destruct E as [-> ->]. now exists vs. Qed.

(** ** Numbers *)

Lemma dec_value_bound : forall ds, Forall is_digit ds -> dec_value ds < 10 ^ N.of_nat (length ds).
Proof.
  intros ds. induction ds as [|d ds IH] using rev_ind; intros F; [cbn; lia|]. apply Forall_app in F. destruct F as [F D]. inversion D as [|? ? D' _]; subst. unfold is_digit in D'.
  rewrite dec_value_snoc, app_length. cbn [length]. replace (N.of_nat (length ds + 1)) with (N.succ (N.of_nat (length ds))) by lia. rewrite N.pow_succ_r'. specialize (IH F). lia.
Qed.
Definition short (p : list piece) : bool := forallb (fun q => match q with Number n => (n <=? 4)%nat | _ => true end) p.
Lemma fits_bound p s m rest : fits p s m rest -> short p = true -> m < two32.
Proof.
  unfold short. induction 1; cbn [forallb]; intros Q; try (apply IHfits; now destruct (forallb _ p)); [unfold two32; lia|]. rewrite Bool.andb_true_iff, Nat.leb_le in Q. destruct Q as [Q _].
  destruct H as (L & F & <-). pose proof (dec_value_bound ds F) as B. rewrite L in B. assert (10 ^ N.of_nat n <= 10 ^ 4) by (apply N.pow_le_mono_r; lia).
  change (10 ^ 4) with 10000 in *. unfold two32. change (2 ^ 32) with 4294967296. lia.
Qed.

(** ** What follows *)

Definition tail_good (tail : list N -> list N -> Prop) : Prop := forall rest suffix, tail rest suffix -> Forall suffix_character suffix /\ (length suffix <= 8)%nat.
Lemma capital_in x c : x = 45 \/ x = 47 -> in_suffix x c -> suffix_character (capital c).
Proof. unfold in_suffix, is_letter, suffix_character, capital. intros X H. destruct (N.leb_spec 97 c); lia. Qed.
Lemma capitals_in x l : x = 45 \/ x = 47 -> Forall (in_suffix x) l -> Forall suffix_character (map capital l).
Proof. intros X F. apply Forall_map. apply Forall_forall. intros c I. rewrite Forall_forall in F. apply (capital_in x); auto. Qed.
Lemma letters_in l : Forall is_letter l -> Forall suffix_character (map capital l).
Proof. intros F. apply (capitals_in 45); [now left|]. apply Forall_forall. intros c I. rewrite Forall_forall in F. left. auto. Qed.
Definition suffix_ok (l : list N) : bool := forallb suffix_char l && (length l <=? 8)%nat.
Lemma suffix_ok_iff l : suffix_ok l = true -> Forall suffix_character l /\ (length l <= 8)%nat.
Proof.
  unfold suffix_ok. rewrite Bool.andb_true_iff, forallb_forall, Nat.leb_le. intros [F L]. split; [|exact L]. apply Forall_forall. intros x I. apply suffix_char_iff. auto.
Qed.
Lemma nothing_good : tail_good nothing. Proof. intros rest suffix [_ ->]. split; [constructor|cbn; lia]. Qed.
Lemma lost_good : tail_good lost_letter. Proof. intros rest suffix [_ ->]. split; [constructor|cbn; lia]. Qed.
Lemma as_suffix_good x : x = 45 \/ x = 47 -> tail_good (as_suffix x).
Proof. intros X rest suffix (p & r & _ & F & -> & L). split; [now apply (capitals_in x)|]. rewrite map_length. lia. Qed.
Lemma all_suffix_good x : x = 45 \/ x = 47 -> tail_good (all_suffix x).
Proof. intros X rest suffix (F & L & ->). split; [now apply (capitals_in x)|]. now rewrite map_length. Qed.
Lemma eight_good : tail_good eight_letters.
Proof. intros rest suffix (F & ->). split; [now apply letters_in|]. rewrite map_length, firstn_length. lia. Qed.
Lemma one_good : tail_good one_letter.
Proof.
  intros rest suffix [[_ ->]|(c & C & _ & ->)]; [split; [constructor|cbn; lia]|]. split; [|cbn; lia]. change [capital c] with (map capital [c]). apply letters_in. now constructor.
Qed.
Lemma tcc_good : tail_good (fun rest suffix => rest = [] /\ suffix = text "X").
Proof. intros rest suffix [_ ->]. apply suffix_ok_iff; vm_compute; reflexivity. Qed.

Lemma chip_of_proper ve se m suffix : known_pair se ve = true -> m < two32 -> Forall suffix_character suffix -> (length suffix <= 8)%nat -> proper (chip_of ve se m suffix).
Proof. intros K B F L. split; [now apply known_pair_ok|]. split; [exact B|]. exists suffix. split; [exact F|]. split; [exact L|reflexivity]. Qed.
Lemma pattern_proper forms tail ve se : forallb short forms = true -> known_pair se ve = true -> tail_good tail -> always (pattern forms tail ve se).
Proof.
  intros S1 K T s c (p & m & rest & suffix & I & F & H & ->). rewrite forallb_forall in S1. destruct (T _ _ H). apply chip_of_proper; try assumption.
  apply (fits_bound p s m rest F). now apply S1.
Qed.
Lemma keyword_proper forms tail ve se m : m < two32 -> known_pair se ve = true -> tail_good tail -> always (keyword forms tail ve se m).
Proof. intros B K T s c (p & m' & rest & suffix & I & F & H & ->). destruct (T _ _ H). now apply chip_of_proper. Qed.
Lemma either_proper A B : always A -> always B -> always (either A B).
Proof. intros HA HB s c [H|H]; [now apply (HA s)|now apply (HB s)]. Qed.
Lemma provided_proper P A : always A -> always (provided P A).
Proof. intros HA s c [_ H]. now apply (HA s). Qed.
Lemma word_proper w ve se m x : m < two32 -> known_pair se ve = true -> suffix_ok (text x) = true -> always (word w ve se m x).
Proof. intros B K S1 s c (_ & ->). apply suffix_ok_iff in S1. now apply chip_of_proper. Qed.

Ltac small := unfold two32; cbn; lia.
Ltac proper_pattern := apply pattern_proper; [vm_compute; reflexivity|vm_compute; reflexivity|].
Lemma msm_proper : always msm. Proof. proper_pattern. apply as_suffix_good. now left. Qed.
Lemma apq_proper : always apq. Proof. proper_pattern. apply as_suffix_good. now left. Qed.
Lemma sdm_proper : always sdm. Proof. proper_pattern. exact nothing_good. Qed.
Lemma sm_proper : always sm. Proof. proper_pattern. exact nothing_good. Qed.
Lemma samsung_proper : always samsung_exynos. Proof. proper_pattern. exact nothing_good. Qed.
Lemma exynos_proper : always exynos. Proof. proper_pattern. exact nothing_good. Qed.
Lemma universal_proper : always universal. Proof. proper_pattern. exact nothing_good. Qed.
Ltac proper_keyword := apply keyword_proper; [small|vm_compute; reflexivity|exact nothing_good].
Lemma smdk_proper cores : always (smdk cores).
Proof. apply either_proper; [proper_keyword|]. apply either_proper; apply provided_proper; proper_keyword. Qed.
Lemma mt_proper : always mt. Proof. proper_pattern. apply all_suffix_good. now right. Qed.
Lemma mt_start_proper : always mt_start. Proof. proper_pattern. apply as_suffix_good. now right. Qed.
Lemma kirin_proper : always kirin. Proof. proper_pattern. exact nothing_good. Qed.
Lemma rk_proper : always rk. Proof. proper_pattern. exact one_good. Qed.
Lemma sc_proper : always sc. Proof. apply either_proper; [proper_pattern; exact eight_good|proper_keyword]. Qed.
Lemma unisoc_t_proper : always unisoc_t. Proof. proper_pattern. exact nothing_good. Qed.
Lemma unisoc_ums_proper : always unisoc_ums. Proof. proper_pattern. exact nothing_good. Qed.
Lemma lc_proper : always lc. Proof. proper_pattern. exact lost_good. Qed.
Lemma pxa_proper : always pxa. Proof. apply either_proper; [proper_pattern; exact nothing_good|proper_keyword]. Qed.
Lemma bcm_proper : always bcm. Proof. proper_pattern. exact nothing_good. Qed.
Lemma omap_proper : always omap. Proof. proper_pattern. exact nothing_good. Qed.
Lemma tcc_proper : always tcc. Proof. proper_pattern. exact tcc_good. Qed.
Lemma broadcom_proper cores frequency : always (broadcom cores frequency).
Proof.
  intros s c H. unfold broadcom in H.
  repeat match goal with H : _ \/ _ |- _ => destruct H as [H|H] | H : _ /\ _ |- _ => destruct H as [? H] end.
  all: destruct H as [_ ->]; apply chip_of_proper; [vm_compute; reflexivity|small|apply suffix_ok_iff; vm_compute; reflexivity..].
Qed.
Lemma wmt_proper cores frequency : always (wmt cores frequency).
Proof.
  intros s c (m & (_ & ->) & M). apply chip_of_proper; [vm_compute; reflexivity| |constructor|cbn; lia]. unfold two32. change (2 ^ 32) with 4294967296. lia.
Qed.
Lemma omap4_proper cores frequency : always (omap4 cores frequency).
Proof. intros s c (_ & _ & (_ & ->)). apply chip_of_proper; [vm_compute; reflexivity|small|constructor|cbn; lia]. Qed.
Lemma mp523x_proper : always mp523x. Proof. apply word_proper; [small|vm_compute; reflexivity..]. Qed.
Lemma sunxi_proper arm32 cores : always (sunxi arm32 cores).
Proof.
  intros s c (p & platform & rest & _ & _ & [(o & m & x & I & _ & ->)|(_ & ->)]); [|apply chip_of_proper; [vm_compute; reflexivity|small|constructor|cbn; lia]].
  assert (C : forallb (fun '(_, _, _, m, x) => (m <? 100) && suffix_ok x) allwinner_chips = true) by (vm_compute; reflexivity).
  rewrite forallb_forall in C. specialize (C _ I). cbv beta iota in C. rewrite Bool.andb_true_iff, N.ltb_lt in C. destruct C as [C D]. apply suffix_ok_iff in D.
  apply chip_of_proper; [vm_compute; reflexivity| |apply D..]. unfold two32. change (2 ^ 32) with 4294967296. lia.
Qed.
Lemma huawei_proper : always huawei.
Proof.
  intros s c (code & m & rest & I & _ & -> & _).
  assert (C : forallb (fun '(_, m) => m <? 1000) huawei_devices = true) by (vm_compute; reflexivity). rewrite forallb_forall in C. specialize (C _ I). cbv beta iota in C. apply N.ltb_lt in C.
  apply chip_of_proper; [vm_compute; reflexivity| |constructor|cbn; lia]. unfold two32. change (2 ^ 32) with 4294967296. lia.
Qed.
Lemma listed_proper arm32 ds : always (listed arm32 ds).
Proof. intros s c (d & _ & _ & _ & H). eapply named_proper, H. Qed.

Lemma any_proper rs : Forall always rs -> always (any rs).
Proof. intros F s c (r & I & H). rewrite Forall_forall in F. now apply (F r I s). Qed.
Lemma first_word_proper R : always R -> always (first_word R).
Proof. intros A s c (before & rest & _ & _ & H & _). now apply (A rest). Qed.
Lemma unless_good A B : always A -> usually B -> usually (unless A B).
Proof. intros HA HB s c [H|[_ H]]; [right; now apply (HA s)|now apply (HB s)]. Qed.
Lemma unrecognized_good : usually unrecognized. Proof. intros s c H. now left. Qed.
Ltac every := repeat first [exact unrecognized_good | apply listed_proper | apply msm_proper | apply apq_proper | apply sdm_proper | apply sm_proper | apply samsung_proper | apply exynos_proper
  | apply universal_proper | apply smdk_proper | apply mt_proper | apply mt_start_proper | apply kirin_proper | apply rk_proper | apply sc_proper | apply unisoc_t_proper | apply unisoc_ums_proper
  | apply lc_proper | apply pxa_proper | apply bcm_proper | apply omap_proper | apply tcc_proper | apply broadcom_proper | apply wmt_proper | apply omap4_proper | apply mp523x_proper
  | apply sunxi_proper | apply huawei_proper | apply unless_good | apply first_word_proper | apply any_proper | apply Forall_cons | apply Forall_nil].
Lemma hardware_good arm32 cores frequency : usually (hardware arm32 cores frequency).
Proof. unfold hardware, word_signatures, hardware_signatures. destruct arm32; cbn [if_arm32 app]; every. Qed.
Lemma tegra_good arm32 : usually (tegra_hardware arm32). Proof. unfold tegra_hardware. every. Qed.
Lemma board_good arm32 cores frequency : usually (board arm32 cores frequency).
Proof. unfold board, board_signatures. destruct arm32; cbn [if_arm32 app]; every. Qed.
Lemma platform_good arm32 cores frequency : usually (platform arm32 cores frequency).
Proof. unfold platform, platform_signatures. destruct arm32; cbn [if_arm32 app]; every. Qed.
Lemma mediatek_good : usually mediatek. Proof. unfold mediatek. every. Qed.
Lemma arch_good : usually arch. Proof. unfold arch. every. Qed.
Lemma chipname_good arm32 : usually (chipname arm32).
Proof. unfold chipname, chipname_signatures. destruct arm32; cbn [if_arm32 app]; every. Qed.

(** ** Corrections *)

Lemma misreports_known : forallb (fun r => (mr_series r =? mr_other_series r) || (mr_series r =? se_msm) && (mr_other_series r =? se_apq)) misreports = true.
Proof. vm_compute. reflexivity. Qed.
Lemma msm_apq_names : forallb (fun '(se, ve, _) => negb (se =? se_msm) || (ve =? ve_qualcomm)) series_names = true.
Proof. vm_compute. reflexivity. Qed.
Lemma the_model_proper arm32 cores suffix se ve m : in_names se ve -> m < two32 ->
  in_names (fst (the_model arm32 cores suffix se m)) ve /\ snd (the_model arm32 cores suffix se m) < two32.
Proof.
  intros I B. unfold the_model. destruct (find (row_b arm32 suffix se m) misreports) as [r|] eqn:E.
  - destruct (cores =? mr_cores r); [now split|]. destruct (cores =? mr_other_cores r); cbn [fst snd]; [|split; [exact I|unfold two32; lia]].
    apply find_some in E. destruct E as [J E]. unfold row_b in E. rewrite !Bool.andb_true_iff, !N.eqb_eq in E. destruct E as [[E1 E2] _]. subst.
    pose proof misreports_known as K. rewrite forallb_forall in K. specialize (K r J). split.
    + apply Bool.orb_true_iff in K. destruct K as [K|K].
      * apply N.eqb_eq in K. now rewrite <- K.
      * rewrite Bool.andb_true_iff, !N.eqb_eq in K. destruct K as [K1 K2]. rewrite K2. destruct I as (vs & I). pose proof msm_apq_names as Q. rewrite forallb_forall in Q. specialize (Q _ I).
        cbv beta iota in Q. rewrite K1, N.eqb_refl in Q. apply N.eqb_eq in Q. subst. now apply known_pair_ok.
    + assert (C : forallb (fun r => mr_other_model r <? 10000) misreports = true) by (vm_compute; reflexivity). rewrite forallb_forall in C. specialize (C r J).
      apply N.ltb_lt in C. unfold two32. change (2 ^ 32) with 4294967296. lia.
  - destruct (find (renamed_b arm32 suffix se m) renamed) as [[[[[o w] s0] m0] new]|] eqn:E'; [|now split]. split; [exact I|]. cbn [snd].
    apply find_some in E'. destruct E' as [J _]. assert (C : forallb (fun '(_, _, _, _, new) => new <? 10000) renamed = true) by (vm_compute; reflexivity). rewrite forallb_forall in C.
    specialize (C _ J). cbv beta iota in C. apply N.ltb_lt in C. unfold two32. change (2 ^ 32) with 4294967296. lia.
Qed.
Lemma fixup_proper arm32 cores frequency c : proper c -> exists c', fixup arm32 cores frequency c = Ok c' /\ corrected arm32 cores frequency c c' /\ proper c' /\ chp_vendor c' = chp_vendor c.
Proof.
  intros (I & B & x & H). destruct (fixup_corrects arm32 cores frequency c x H) as (c' & x' & E & C & H' & V & M). exists c'. split; [exact E|]. split; [exact C|].
  split; [|exact V]. destruct (the_model_proper arm32 cores x (chp_series c) (chp_vendor c) (chp_model c) I B) as [I' B']. rewrite <- M in I', B'. cbn [fst snd] in *.
  split; [now rewrite V|]. split; [exact B'|]. now exists x'.
Qed.
Lemma fixup_unknown arm32 cores frequency : fixup arm32 cores frequency unknown_chip = Ok unknown_chip.
Proof. reflexivity. Qed.
