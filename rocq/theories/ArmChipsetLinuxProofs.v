(** What the Hardware and Revision lines of /proc/cpuinfo say. *)
From Verif Require Import Base BaseProofs Text LinuxTextSpec X86CpuinfoModel ArmClusterMidrModel ArmCpuinfoModel ArmChipsetModel ArmChipsetSpec ArmChipsetNameSpec ArmChipsetFixupSpec
  ArmChipsetFitProofs ArmChipsetMatchProofs ArmChipsetReadProofs ArmChipsetOtherProofs ArmChipsetDeviceProofs ArmChipsetSourceProofs ArmChipsetExclusiveProofs ArmChipsetNameProofs
  ArmChipsetFixupProofs ArmChipsetGoodProofs.
Open Scope N_scope.

(** ** Texts in buffers *)

Lemma c_string_value : forall s max rest, ~ In 0 s -> (length s <= max)%nat ->
  ((length s < max)%nat /\ (exists rest', rest = Some 0 :: rest') \/ length s = max) -> c_string max (map Some s ++ rest) = Ok s.
Proof.
  induction s as [|c s IH]; intros max rest N0 L H.
  - destruct max as [|max]; [reflexivity|]. destruct H as [(_ & (rest' & ->))|H]; [reflexivity|discriminate].
  - destruct max as [|max]; [cbn in L; lia|]. cbn [map app c_string]. destruct (N.eqb_spec c 0) as [->|_]; [destruct N0; now left|].
    rewrite IH; [reflexivity| |cbn in L; lia|cbn [length] in H; destruct H as [[A B]|A]; [left; split; [lia|exact B]|right; lia]]. intros I. apply N0. now right.
Qed.
Lemma holds_text_value size buffer s : holds_text size buffer s -> c_string size buffer = Ok s.
Proof. intros (P & rest & -> & H). apply c_string_value; [now apply plain_no_nul| |exact H]. destruct H as [[A _]|A]; lia. Qed.
Lemma c_string_holds : forall max buffer s, written buffer -> c_string max buffer = Ok s -> holds_text max buffer s.
Proof.
  induction max as [|max IH]; intros buffer s W H; cbn [c_string] in H.
  - injection H as <-. split; [constructor|]. exists buffer. split; [reflexivity|now right].
  - destruct buffer as [|[c|] buffer]; try discriminate. inversion W as [|? ? B W']; subst. destruct (N.eqb_spec c 0) as [->|Z].
    + injection H as <-. split; [constructor|]. exists (Some 0 :: buffer). split; [reflexivity|]. left. split; [cbn; lia|]. now exists buffer.
    + destruct (c_string max buffer) as [r| |] eqn:E; try discriminate. injection H as <-. destruct (IH _ _ W' E) as (P & rest & -> & Q). split.
      * constructor; [lia|exact P].
      * exists rest. split; [reflexivity|]. cbn [length]. destruct Q as [[A C]|A]; [left; split; [lia|exact C]|right; lia].
Qed.
Lemma holds_text_unique size buffer s s' : holds_text size buffer s -> holds_text size buffer s' -> s = s'.
Proof. intros H H'. apply holds_text_value in H. apply holds_text_value in H'. congruence. Qed.

(** ** Chips of Broadcom *)

Definition bcm_only (R : reading) : Prop := forall s c, R s c -> chp_vendor c = ve_broadcom -> exists m, c = chip_of ve_broadcom se_bcm m [].
Lemma pattern_other forms tail ve se : (ve =? ve_broadcom) = false -> bcm_only (pattern forms tail ve se).
Proof. intros V s c (p & m & rest & suffix & _ & _ & _ & ->) E. cbn in E. rewrite E in V. discriminate. Qed.
Lemma keyword_other forms tail ve se m : (ve =? ve_broadcom) = false -> bcm_only (keyword forms tail ve se m).
Proof. intros V s c (p & m' & rest & suffix & _ & _ & _ & ->) E. cbn in E. rewrite E in V. discriminate. Qed.
Lemma either_only A B : bcm_only A -> bcm_only B -> bcm_only (either A B).
Proof. intros HA HB s c [H|H]; [now apply (HA s)|now apply (HB s)]. Qed.
Lemma provided_only P A : bcm_only A -> bcm_only (provided P A). Proof. intros HA s c [_ H]. now apply (HA s). Qed.
Lemma bcm_bcm : bcm_only bcm.
Proof. intros s c (p & m & rest & suffix & _ & _ & (_ & ->) & ->) _. now exists m. Qed.
Lemma sunxi_other arm32 cores : bcm_only (sunxi arm32 cores).
Proof. intros s c (p & platform & rest & _ & _ & [(o & m & x & _ & _ & ->)|(_ & ->)]) E; discriminate. Qed.
Lemma wmt_other cores frequency : bcm_only (wmt cores frequency).
Proof. intros s c (m & (_ & ->) & _) E. discriminate. Qed.
Lemma listed_other arm32 : bcm_only (listed arm32 hardware_devices).
Proof.
  intros s c (d & I & _ & _ & (vs & ds & x & J & _ & _ & _ & _ & E)) V. exfalso.
  assert (A : forallb (fun '(se, ve, vs) => negb (ve =? ve_broadcom) || same (firstn 1 (text vs)) [66]) series_names = true) by (vm_compute; reflexivity).
  assert (B : forallb (fun d => negb (same (firstn 1 (text (dv_name d))) [66])) hardware_devices = true) by (vm_compute; reflexivity).
  rewrite forallb_forall in A, B. specialize (A _ J). specialize (B _ I). cbv beta iota in A. rewrite V, N.eqb_refl in A. cbn [negb orb] in A. rewrite E in B.
  apply same_iff in A. destruct (text vs) as [|y vs']; [discriminate|]. cbn [firstn app] in *. rewrite A in B. discriminate.
Qed.
Lemma any_only rs : Forall bcm_only rs -> bcm_only (any rs).
Proof. intros F s c (r & I & H). rewrite Forall_forall in F. now apply (F r I s). Qed.
Lemma first_word_only R : bcm_only R -> bcm_only (first_word R).
Proof. intros A s c (before & rest & _ & _ & H & _). now apply (A rest). Qed.
Lemma unless_only A B : bcm_only A -> bcm_only B -> bcm_only (unless A B).
Proof. intros HA HB s c [H|[_ H]]; [now apply (HA s)|now apply (HB s)]. Qed.
Lemma unrecognized_only : bcm_only unrecognized. Proof. intros s c -> E. discriminate. Qed.
Lemma hardware_bcm arm32 cores frequency : bcm_only (hardware arm32 cores frequency).
Proof.
  unfold hardware, word_signatures, hardware_signatures.
  destruct arm32; cbn [if_arm32 app].
  all: repeat first [apply unless_only | apply first_word_only | apply any_only | apply Forall_cons | apply Forall_nil | apply listed_other | apply unrecognized_only | apply bcm_bcm
    | apply sunxi_other | apply wmt_other | apply either_only | apply provided_only | (apply pattern_other; reflexivity) | (apply keyword_other; reflexivity)].
Qed.

(** ** Raspberry Pi *)

Lemma pi_digit digit new : In (digit, new) pi_processors <->
  (digit = 48 /\ new = 2835 \/ digit = 49 /\ new = 2836 \/ digit = 50 /\ new = 2837 \/ digit = 51 /\ new = 2711).
Proof. unfold pi_processors. cbn [In]. split; intros H; repeat (destruct H as [H|H]); try contradiction; try (injection H as <- <-); intuition (subst; auto). Qed.
Lemma revision_split (r : list N) : (5 <= length r <= 8)%nat -> exists high digit low, r = high ++ digit :: low /\ length low = 3%nat /\ (1 <= length high <= 4)%nat /\ rd r (length r - 4) = Ok digit.
Proof.
  intros L. pose proof (firstn_skipn (length r - 4) r) as E. pose proof (skipn_length (length r - 4) r) as Ls. pose proof (firstn_length (length r - 4) r) as Lf.
  destruct (skipn (length r - 4) r) as [|d low] eqn:Es; [cbn in Ls; lia|]. exists (firstn (length r - 4) r), d, low. cbn [length] in Ls. rewrite E. split; [reflexivity|].
  split; [lia|]. split; [lia|]. unfold rd. rewrite <- E at 1. rewrite nth_error_app2 by lia. replace (length r - 4 - length (firstn (length r - 4) r))%nat with 0%nat by lia. reflexivity.
Qed.
Lemma same_split (high high' low low' : list N) digit digit' : high ++ digit :: low = high' ++ digit' :: low' -> length low = length low' -> digit = digit'.
Proof.
  revert high'. induction high as [|h high IH]; intros [|h' high'] E L; cbn [app] in E.
  - now injection E.
  - exfalso. injection E as _ E. rewrite E in L. rewrite app_length in L. cbn [length] in L. lia.
  - exfalso. injection E as _ E. rewrite <- E in L. rewrite app_length in L. cbn [length] in L. lia.
  - injection E as _ E. now apply (IH high').
Qed.
Lemma raspberry_value arm32 r m : exists m', fixup_raspberry_pi arm32 r (chip_of ve_broadcom se_bcm m []) = Ok (chip_of ve_broadcom se_bcm m' []) /\ pi_model arm32 r m m' /\ (m < two32 -> m' < two32).
Proof.
  unfold fixup_raspberry_pi. destruct (arm32 && (length r =? 4)%nat) eqn:O.
  - rewrite Bool.andb_true_iff, Nat.eqb_eq in O. destruct O as [-> L]. cbn [chip_of chp_model]. destruct (N.eqb_spec m 2708) as [->|N1].
    + exists 2835. split; [reflexivity|]. split; [now apply Pi_old|unfold two32; cbn; lia].
    + exists m. split; [reflexivity|]. split; [|tauto]. apply Pi_same; [intros (_ & _ & E); contradiction|]. intros high digit low new -> Ll Lh _. rewrite app_length in L. cbn [length] in L. lia.
  - destruct ((5 <=? length r) && (length r <=? 8))%nat eqn:B.
    + rewrite Bool.andb_true_iff, !Nat.leb_le in B. destruct (revision_split r B) as (high & digit & low & E & Ll & Lh & Rd). rewrite Rd. cbn [bind].
      set (model := if digit =? 48 then 2835 else if digit =? 49 then 2836 else if digit =? 50 then 2837 else if digit =? 51 then 2711 else 0).
      destruct (N.eqb_spec model 0) as [Z|Z]; cbn [negb].
      * exists m. split; [reflexivity|]. split; [|tauto]. apply Pi_same; [intros (_ & L4 & _); lia|]. intros high' digit' low' new E' Ll' Lh' I.
        assert (digit' = digit) by (apply (same_split high' high low' low); congruence). subst digit'. apply pi_digit in I. unfold model in Z.
        destruct I as [[-> _]|[[-> _]|[[-> _]|[-> _]]]]; discriminate.
      * exists model. split; [reflexivity|]. assert (I : In (digit, model) pi_processors).
        { apply pi_digit. unfold model in *. destruct (N.eqb_spec digit 48); [now left|]. destruct (N.eqb_spec digit 49); [right; now left|].
          destruct (N.eqb_spec digit 50); [right; right; now left|]. destruct (N.eqb_spec digit 51); [right; right; now right|]. contradiction. }
        split; [eapply Pi_new; eassumption|]. intros _. apply pi_digit in I. unfold two32. change (2 ^ 32) with 4294967296. lia.
    + exists m. split; [reflexivity|]. split; [|tauto]. apply Pi_same.
      * intros (-> & L & _). rewrite L in O. discriminate.
      * intros high digit low new -> Ll Lh _. rewrite app_length in B. cbn [length] in B. rewrite Bool.andb_false_iff, !Nat.leb_gt in B. lia.
Qed.
Lemma pi_model_unique arm32 r m m1 m2 : pi_model arm32 r m m1 -> pi_model arm32 r m m2 -> m1 = m2.
Proof.
  intros H1 H2. inversion H1 as [A1 L1|h1 d1 l1 m0 n1 E1 Ll1 Lh1 I1|m0 N1 W1]; inversion H2 as [A2 L2|h2 d2 l2 m0' n2 E2 Ll2 Lh2 I2|m0' N2 W2]; subst; try reflexivity.
  - rewrite app_length in L1. cbn [length] in L1. lia.
  - destruct N2. auto.
  - rewrite app_length in L2. cbn [length] in L2. lia.
  - assert (d1 = d2) by (apply (same_split h1 h2 l1 l2); congruence). subst. apply pi_digit in I1. apply pi_digit in I2. lia.
  - destruct (W2 h1 d1 l1 m1 eq_refl Ll1 Lh1 I1).
  - destruct N1. auto.
  - destruct (W1 h2 d2 l2 m2 eq_refl Ll2 Lh2 I2).
Qed.

(** ** Corrections are unique *)

Lemma misreports_distinct : forallb (fun r => forallb (fun r' =>
  negb ((mr_series r =? mr_series r') && (mr_model r =? mr_model r')) ||
  (Bool.eqb (mr_only32 r) (mr_only32 r') && Bool.eqb (mr_plain r) (mr_plain r') && (mr_cores r =? mr_cores r') && (mr_other_cores r =? mr_other_cores r') &&
   (mr_other_series r =? mr_other_series r') && (mr_other_model r =? mr_other_model r'))) misreports) misreports = true.
Proof. vm_compute. reflexivity. Qed.
Lemma misreport_same r r' : In r misreports -> In r' misreports -> mr_series r = mr_series r' -> mr_model r = mr_model r' -> r = r'.
Proof.
  intros I I' E1 E2. pose proof misreports_distinct as D. rewrite forallb_forall in D. specialize (D r I). rewrite forallb_forall in D. specialize (D r' I').
  rewrite E1, E2, !N.eqb_refl in D. cbn [negb andb orb] in D. rewrite !Bool.andb_true_iff, !Bool.eqb_true_iff, !N.eqb_eq in D.
  destruct r, r'. cbn in *. destruct D as [[[[[? ?] ?] ?] ?] ?]. congruence.
Qed.
Lemma misreport_not_renamed : forallb (fun r => forallb (fun '(_, _, se, m, _) => negb ((mr_series r =? se) && (mr_model r =? m))) renamed) misreports = true.
Proof. vm_compute. reflexivity. Qed.
Lemma not_renamed r o w m : In r misreports -> ~ In (o, w, mr_series r, mr_model r, m) renamed.
Proof.
  intros I J. pose proof misreport_not_renamed as D. rewrite forallb_forall in D. specialize (D r I). rewrite forallb_forall in D. specialize (D _ J). cbv beta iota in D.
  rewrite !N.eqb_refl in D. discriminate.
Qed.
Lemma misreport_sane r : In r misreports -> mr_cores r <> mr_other_cores r.
Proof.
  intros I. assert (D : forallb (fun r => negb (mr_cores r =? mr_other_cores r)) misreports = true) by (vm_compute; reflexivity). rewrite forallb_forall in D. specialize (D r I).
  intros E. rewrite E, N.eqb_refl in D. discriminate.
Qed.
Lemma row_found arm32 suffix r : In r misreports -> applies arm32 (mr_only32 r) (mr_plain r) suffix -> find (row_b arm32 suffix (mr_series r) (mr_model r)) misreports = Some r.
Proof.
  intros I A. destruct (find (row_b arm32 suffix (mr_series r) (mr_model r)) misreports) as [r'|] eqn:F.
  - apply find_some in F. destruct F as [J B]. unfold row_b in B. rewrite !Bool.andb_true_iff, !N.eqb_eq in B. destruct B as [[B1 B2] _]. f_equal. now apply misreport_same.
  - exfalso. pose proof (find_none _ _ F r I) as Q. unfold row_b in Q. apply applies_iff in A. rewrite A, !N.eqb_refl in Q. discriminate.
Qed.
Lemma model_meant_value arm32 cores suffix se m se' m' : model_meant arm32 cores suffix se m se' m' -> (se', m') = the_model arm32 cores suffix se m.
Proof.
  intros H. unfold the_model. destruct H as [r I A C|r I A C|r I A C1 C2|o w se m new I A|se m W1 W2]; try rewrite (row_found arm32 suffix r I A).
  - now rewrite <- C, N.eqb_refl.
  - pose proof (misreport_sane r I) as Sn. rewrite (proj2 (N.eqb_neq cores (mr_cores r))) by congruence. now rewrite <- C, N.eqb_refl.
  - now rewrite (proj2 (N.eqb_neq _ _) C1), (proj2 (N.eqb_neq _ _) C2).
  - destruct (find (row_b arm32 suffix se m) misreports) as [r|] eqn:F.
    { exfalso. apply find_some in F. destruct F as [J B]. unfold row_b in B. rewrite !Bool.andb_true_iff, !N.eqb_eq in B. destruct B as [[-> ->] _]. exact (not_renamed r o w new J I). }
    destruct (find (renamed_b arm32 suffix se m) renamed) as [[[[[o' w'] se1] m1] new']|] eqn:G.
    + apply find_some in G. destruct G as [J B]. unfold renamed_b in B. rewrite !Bool.andb_true_iff, !N.eqb_eq in B. destruct B as [[-> ->] _].
      assert (D : forallb (fun '(_, _, se, m, new) => forallb (fun '(_, _, se', m', new') => negb ((se =? se') && (m =? m')) || (new =? new')) renamed) renamed = true) by (vm_compute; reflexivity).
      rewrite forallb_forall in D. specialize (D _ I). cbv beta iota in D. rewrite forallb_forall in D. specialize (D _ J). cbv beta iota in D. rewrite !N.eqb_refl in D.
      cbn [negb andb orb] in D. apply N.eqb_eq in D. congruence.
    + exfalso. pose proof (find_none _ _ G _ I) as Q. unfold renamed_b in Q. apply applies_iff in A. rewrite A, !N.eqb_refl in Q. discriminate.
  - destruct (find (row_b arm32 suffix se m) misreports) as [r|] eqn:F.
    { exfalso. apply find_some in F. destruct F as [J B]. unfold row_b in B. rewrite !Bool.andb_true_iff, !N.eqb_eq, applies_iff in B. destruct B as [[B1 B2] B3]. apply (W1 r J); congruence. }
    destruct (find (renamed_b arm32 suffix se m) renamed) as [[[[[o' w'] se1] m1] new']|] eqn:G; [|reflexivity]. exfalso.
    apply find_some in G. destruct G as [J B]. unfold renamed_b in B. rewrite !Bool.andb_true_iff, !N.eqb_eq, applies_iff in B. destruct B as [[-> ->] B]. exact (W2 _ _ _ J B).
Qed.
Lemma suffix_meant_value frequency se m x x' : suffix_meant frequency se m x x' -> x' = the_suffix frequency se m x.
Proof.
  intros H. unfold the_suffix. destruct (find (spelling_b se m x) (respelled frequency)) as [[[[se1 m1] old] new]|] eqn:F.
  - apply find_some in F. destruct F as [J B]. unfold spelling_b in B. rewrite !Bool.andb_true_iff, N.eqb_eq, same_iff in B. destruct B as [[-> M] ->].
    assert (O : of_model m1 m) by (destruct m1; [|constructor]; apply N.eqb_eq in M; cbn; congruence).
    destruct H as [(m2 & I & O2)|(W & _)]; [|destruct (W m1 new J O)].
    assert (D : forallb (fun '(se, _, old, new) => forallb (fun '(se', _, old', new') => negb ((se =? se') && same old old') || same new new') (respelled frequency)) (respelled frequency) = true)
      by (unfold respelled; destruct (2188800 <=? frequency); vm_compute; reflexivity).
    rewrite forallb_forall in D. specialize (D _ I). cbv beta iota in D. rewrite forallb_forall in D. specialize (D _ J). cbv beta iota in D.
    rewrite N.eqb_refl, (proj2 (same_iff old old) eq_refl) in D. cbn [negb andb orb] in D. now apply same_iff in D.
  - destruct H as [(m2 & I & O2)|(_ & E)]; [|exact E]. exfalso. pose proof (find_none _ _ F _ I) as Q. unfold spelling_b in Q. rewrite N.eqb_refl, (proj2 (same_iff x x) eq_refl) in Q.
    destruct m2 as [y|]; [|discriminate]. cbn in O2. subst. rewrite N.eqb_refl in Q. discriminate.
Qed.
Lemma holds_suffix_unique a x x' : holds_suffix a x -> holds_suffix a x' -> x = x'.
Proof.
  intros (F & _ & E) (F' & _ & E'). rewrite <- (until_nul_suffix x (8 - length x) F), <- (until_nul_suffix x' (8 - length x') F'). congruence.
Qed.
Lemma corrected_unique arm32 cores frequency c c1 c2 : corrected arm32 cores frequency c c1 -> corrected arm32 cores frequency c c2 -> c1 = c2.
Proof.
  intros (x1 & se1 & m1 & y1 & H1 & M1 & S1 & ->) (x2 & se2 & m2 & y2 & H2 & M2 & S2 & ->). pose proof (holds_suffix_unique _ _ _ H1 H2). subst x2.
  apply model_meant_value in M1. apply model_meant_value in M2. apply suffix_meant_value in S1. apply suffix_meant_value in S2. congruence.
Qed.

(** ** Everything together *)

Lemma known_vendor c : good c -> chp_vendor c <> ve_unknown -> proper c.
Proof. intros [->|H] V; [now destruct V|exact H]. Qed.
Lemma proper_vendor c : proper c -> chp_vendor c <> ve_unknown /\ chp_series c <> se_unknown.
Proof.
  intros ((vs & I) & _). assert (D : forallb (fun '(se, ve, _) => negb (se =? se_unknown) && negb (ve =? ve_unknown)) series_names = true) by (vm_compute; reflexivity).
  rewrite forallb_forall in D. specialize (D _ I). cbv beta iota in D. rewrite Bool.andb_true_iff, !Bool.negb_true_iff, !N.eqb_neq in D. tauto.
Qed.
Lemma linux_chip_value arm32 cores frequency hw revision s : holds_text 64 hw s ->
  (forall c, hardware arm32 cores frequency s c -> chp_vendor c = ve_broadcom -> exists r, holds_text 9 revision r) ->
  exists c, linux_chip arm32 cores frequency hw revision = Ok c /\ linux_means arm32 cores frequency hw revision c /\ good c.
Proof.
  intros H B. pose proof H as (P & _). unfold linux_chip. change hardware_value_max with 64%nat. change revision_value_max with 9%nat. rewrite (holds_text_value 64 hw s H). cbn [bind].
  destruct (from_hardware_gives arm32 cores frequency s P) as (c & E & R). rewrite E. cbn [bind]. pose proof (hardware_good arm32 cores frequency s c R) as G.
  destruct (N.eqb_spec (chp_vendor c) ve_unknown) as [U|U].
  - assert (c = unknown_chip) by (destruct G as [->|G]; [reflexivity|destruct (proper_vendor c G); contradiction]). subst c. exists unknown_chip. split; [reflexivity|].
    split; [eapply Linux_unknown; eassumption|now left].
  - destruct (N.eqb_spec (chp_vendor c) ve_broadcom) as [V|V].
    + destruct (B c R V) as (r & Hr). rewrite (holds_text_value 9 revision r Hr). cbn [bind]. destruct (hardware_bcm arm32 cores frequency s c R V) as (m & ->).
      destruct (raspberry_value arm32 r m) as (m' & E' & M & Bd). exists (chip_of ve_broadcom se_bcm m' []). split; [exact E'|].
      split; [eapply Linux_broadcom; eassumption|]. destruct G as [G|(_ & Bm & _)]; [discriminate|]. right. apply chip_of_proper; [vm_compute; reflexivity|now apply Bd|constructor|cbn; lia].
    + destruct (fixup_proper arm32 cores frequency c (known_vendor c G U)) as (c' & E' & C & P' & _). exists c'. split; [exact E'|]. split; [eapply Linux_other; eassumption|now right].
Qed.
Lemma linux_means_unique arm32 cores frequency hw revision c1 c2 :
  linux_means arm32 cores frequency hw revision c1 -> linux_means arm32 cores frequency hw revision c2 -> c1 = c2.
Proof.
  assert (F : forall s s' c c', holds_text 64 hw s -> holds_text 64 hw s' -> hardware arm32 cores frequency s c -> hardware arm32 cores frequency s' c' -> c = c').
  { intros s s' c c' H H' R R'. assert (s = s') by (eapply holds_text_unique; eassumption). subst. apply (hardware_functional arm32 cores frequency s'); [apply H'|exact R|exact R']. }
  intros M1 M2. destruct M1 as [s1 H1 R1|s1 r1 d1 m1 H1 R1 V1 T1 P1|s1 d1 e1 H1 R1 V1 U1 C1], M2 as [s2 H2 R2|s2 r2 d2 m2 H2 R2 V2 T2 P2|s2 d2 e2 H2 R2 V2 U2 C2].
  all: pose proof (F _ _ _ _ H1 H2 R1 R2) as Q; subst; try reflexivity; try discriminate; try contradiction.
  - assert (r1 = r2) by (eapply holds_text_unique; eassumption). subst. now rewrite (pi_model_unique _ _ _ _ _ P1 P2).
  - eapply corrected_unique; eassumption.
Qed.
Lemma linux_chip_iff arm32 cores frequency hw revision c : written hw -> written revision ->
  linux_chip arm32 cores frequency hw revision = Ok c <-> linux_means arm32 cores frequency hw revision c.
Proof.
  intros Wh Wr. split.
  - intros E. unfold linux_chip in E. destruct (c_string hardware_value_max hw) as [s| |] eqn:Es; try discriminate. cbn [bind] in E.
    pose proof (c_string_holds _ _ _ Wh Es) as H. change hardware_value_max with 64%nat in H.
    destruct (linux_chip_value arm32 cores frequency hw revision s H) as (c' & E' & M & _).
    + intros c0 R V. destruct (from_hardware_gives arm32 cores frequency s (proj1 H)) as (c1 & E1 & R1). rewrite (hardware_functional arm32 cores frequency s c0 c1 (proj1 H) R R1) in V.
      rewrite E1 in E. cbn [bind] in E. rewrite V in E. change (ve_broadcom =? ve_unknown) with false in E. rewrite N.eqb_refl in E. cbv iota in E.
      destruct (c_string revision_value_max revision) as [r| |] eqn:Er; try discriminate. exists r. now apply c_string_holds.
    + unfold linux_chip in E'. rewrite Es in E'. cbn [bind] in E'. rewrite E in E'. injection E' as <-. exact M.
  - intros M. assert (X : exists s, holds_text 64 hw s /\ forall c, hardware arm32 cores frequency s c -> chp_vendor c = ve_broadcom -> exists r, holds_text 9 revision r).
    { destruct M as [s1 H1 R1|s1 r1 d1 m1 H1 R1 V1 T1 P1|s1 d1 e1 H1 R1 V1 U1 C1]; exists s1; (split; [exact H1|]); intros d R V.
      - rewrite (hardware_functional arm32 cores frequency s1 _ _ (proj1 H1) R R1) in V. discriminate.
      - now exists r1.
      - rewrite (hardware_functional arm32 cores frequency s1 _ _ (proj1 H1) R R1) in V. contradiction. }
    destruct X as (s & H & B). destruct (linux_chip_value arm32 cores frequency hw revision s H B) as (c' & E' & M' & _). now rewrite (linux_means_unique _ _ _ _ _ _ _ M M').
Qed.
Lemma linux_chip_good arm32 cores frequency hw revision c : written hw -> written revision -> linux_means arm32 cores frequency hw revision c ->
  exists name, called c name /\ chip_name c = Ok name /\ (length name <= 47)%nat.
Proof.
  intros Wh Wr M. assert (G : good c).
  { destruct M as [s1 H1 R1|s1 r1 d1 m1 H1 R1 V1 T1 P1|s1 d1 e1 H1 R1 V1 U1 C1]; [now left| |].
    - pose proof (hardware_good _ _ _ _ _ R1) as [->|(_ & B & _)]; [discriminate|]. destruct (raspberry_value arm32 r1 (chp_model d1)) as (m' & _ & Q & Bd).
      rewrite (pi_model_unique _ _ _ _ _ P1 Q). right. apply chip_of_proper; [vm_compute; reflexivity|now apply Bd|constructor|cbn; lia].
    - pose proof (known_vendor _ (hardware_good _ _ _ _ _ R1) U1) as P. destruct (fixup_proper arm32 cores frequency d1 P) as (c' & _ & C & P' & _).
      rewrite (corrected_unique _ _ _ _ _ _ C1 C). now right. }
  destruct (good_called c G) as (name & C). exists name. split; [exact C|now apply chip_name_called].
Qed.
(** Without a Revision line, a character that was never written is read. *)
Lemma linux_chip_unwritten arm32 cores frequency hw revision s c : holds_text 64 hw s -> hardware arm32 cores frequency s c -> chp_vendor c = ve_broadcom ->
  linux_chip arm32 cores frequency hw (None :: revision) = UB.
Proof.
  intros H R V. unfold linux_chip. change hardware_value_max with 64%nat. change revision_value_max with 9%nat. rewrite (holds_text_value 64 hw s H). cbn [bind].
  destruct (from_hardware_gives arm32 cores frequency s (proj1 H)) as (c1 & E1 & R1). rewrite E1. cbn [bind]. rewrite (hardware_functional arm32 cores frequency s c1 c (proj1 H) R1 R), V.
  reflexivity.
Qed.
