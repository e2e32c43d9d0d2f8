(** The chip and the name of the package on ARM Linux and Android. *)
From Verif Require Import Base BaseProofs Sorting Text LinuxTextModel LinuxTextSpec TopologySpec X86LinuxSpec ArmClustersModel ArmClusterMidrModel
  ArmCpuinfoModel ArmCpuinfoSpec ArmLinuxModel ArmLinuxSpec ArmOrderProofs ArmDetectProofs ArmInitProofs ArmUarchModel ArmCacheModel ArmDecodersModel ArmLibraryProofs
  ArmChipsetModel ArmChipsetSpec ArmChipsetNameSpec ArmChipsetFixupSpec ArmChipsetAndroidSpec
  ArmChipsetReadProofs ArmChipsetGoodProofs ArmChipsetNameProofs ArmChipsetLinuxProofs ArmChipsetAndroidProofs ArmChipsetAndroidResultProofs ArmChipsetResultProofs
  ArmPackageModel ArmPackageSpec.
Open Scope nat_scope.

(** ** The buffers *)

Lemma firstn_plain n v : plain v -> plain (firstn n v).
Proof. intros P. apply Forall_forall. intros c I. unfold plain in P. rewrite Forall_forall in P. apply P. rewrite <- (firstn_skipn n v). apply in_app_iff. now left. Qed.

Lemma holds_string_text size buf v : plain v -> length v < size -> holds_string buf v -> holds_text size buf v.
Proof.
  intros P L (A & B). split; [exact P|]. exists (skipn (length v) buf). split.
  - assert (F : firstn (length v) buf = map Some v).
    { apply nth_error_ext. intros i. destruct (Nat.lt_ge_cases i (length v)) as [H|H].
      - destruct (nth_error_lt _ v i H) as (c & Hc). rewrite (map_nth_error Some _ _ Hc).
        assert (Hf : nth_error (firstn (length v) buf) i = nth_error buf i).
        { rewrite <- (firstn_skipn (length v) buf) at 2. rewrite nth_error_app1; [reflexivity|]. rewrite firstn_length.
          pose proof (nth_error_some_lt _ _ _ _ B). lia. }
        rewrite Hf. now apply A.
      - rewrite (proj2 (nth_error_None _ _)), (proj2 (nth_error_None _ _)); [reflexivity|now rewrite map_length|rewrite firstn_length; lia]. }
    rewrite <- F. symmetry. apply firstn_skipn.
  - left. split; [exact L|]. pose proof (nth_error_some_lt _ _ _ _ B) as Lb.
    destruct (skipn (length v) buf) as [|x rest] eqn:E; [apply (f_equal (@length _)) in E; rewrite skipn_length in E; cbn in E; lia|].
    exists rest. f_equal. assert (N0 : nth_error buf (length v) = Some x).
    { rewrite <- (firstn_skipn (length v) buf), E. rewrite nth_error_app2; rewrite firstn_length; [|lia]. now replace (length v - Nat.min (length v) (length buf)) with 0 by lia. }
    congruence.
Qed.
Lemma cut_text size v : plain v -> size < length v -> holds_text size (map Some (firstn size v)) (firstn size v).
Proof.
  intros P L. split; [now apply firstn_plain|]. exists []. split; [now rewrite app_nil_r|]. right. rewrite firstn_length. lia.
Qed.
Lemma stored_text size buf v : plain v -> length v <> size -> (length v < size -> holds_string buf v) -> (size < length v -> buf = map Some (firstn size v)) ->
  holds_text size buf (firstn size v).
Proof.
  intros P N0 A B. destruct (Nat.lt_ge_cases (length v) size) as [H|H].
  - rewrite firstn_all2 by lia. apply holds_string_text; auto.
  - rewrite (B ltac:(lia)). apply cut_text; [exact P|lia].
Qed.

Lemma hardware_held ms hw rev : board_texts ms hw rev -> plain_lines ms -> holds_text 64 hw (hardware_text ms).
Proof.
  intros [_ (F & _) B0 B1 _ _] (P & _). unfold hardware_text. destruct (latest board_said ms) as [v|] eqn:E.
  - destruct (B1 v eq_refl). apply stored_text; auto.
  - apply holds_string_text; [constructor|cbn; lia|]. now apply B0.
Qed.
Lemma revision_held ms hw rev v : board_texts ms hw rev -> plain_lines ms -> latest board_revision_said ms = Some v -> holds_text 9 rev (firstn 9 v).
Proof. intros [_ (_ & F) _ _ B _] (_ & P) E. destruct (B v E). apply stored_text; auto. Qed.

(** ** GNU/Linux *)

Lemma means_tells arm32 cores ms hw rev c : board_texts ms hw rev -> plain_lines ms -> linux_means arm32 cores 0 hw rev c -> linux_tells arm32 cores ms c.
Proof.
  intros B P M. pose proof (hardware_held ms hw rev B P) as H.
  assert (U : forall s, holds_text 64 hw s -> s = hardware_text ms) by (intros s Hs; exact (holds_text_unique _ _ _ _ Hs H)).
  destruct M as [s Hs R|s r c m Hs R V Hr Pi|s c c' Hs R V1 V2 C]; rewrite (U s Hs) in R.
  - now constructor.
  - destruct (latest board_revision_said ms) as [v|] eqn:E.
    + rewrite (holds_text_unique _ _ _ _ Hr (revision_held ms hw rev v B P E)) in Pi. now apply (Tells_broadcom _ _ _ v c m).
    + exfalso. pose proof (bt_no_revision _ _ _ B E) as N0. subst rev. destruct Hr as (_ & rest & Er & [(_ & (rest' & ->))|L]); destruct r; discriminate.
  - now apply (Tells_other _ _ _ c c').
Qed.

Lemma hardware_text_plain ms : plain_lines ms -> plain (hardware_text ms).
Proof. intros (P & _). unfold hardware_text. destruct (latest board_said ms) as [v|] eqn:E; [apply firstn_plain; now apply P|constructor]. Qed.
Lemma linux_tells_unique arm32 cores ms c c' : plain_lines ms -> linux_tells arm32 cores ms c -> linux_tells arm32 cores ms c' -> c = c'.
Proof.
  intros PL. apply hardware_text_plain in PL.
  assert (Q : forall a b, hardware arm32 cores 0 (hardware_text ms) a -> hardware arm32 cores 0 (hardware_text ms) b -> a = b)
    by (intros a b; apply hardware_functional; exact PL).
  intros [H|v x m H V E Pi|x y H V1 V2 C] [H'|v' x' m' H' V' E' Pi'|x' y' H' V1' V2' C']; try reflexivity; pose proof (Q _ _ H H') as D.
  - rewrite <- D in V'. discriminate.
  - rewrite <- D in V2'. now destruct V2'.
  - rewrite D in V. discriminate.
  - subst x'. rewrite E in E'. injection E' as <-. now rewrite (pi_model_unique _ _ _ _ _ Pi Pi').
  - congruence.
  - rewrite D in V2. now destruct V2.
  - congruence.
  - subst x'. now apply (corrected_unique _ _ _ _ _ _ C C').
Qed.

Lemma linux_decoder_tells arm32 ms hw rev n : board_texts ms hw rev -> plain_lines ms -> revision_if_needed arm32 ms ->
  exists c name, linux_decoder arm32 hw rev n = Ok c /\ linux_tells arm32 (N.of_nat n) ms c /\ called c name /\ chip_name c = Ok name /\ length name <= 47.
Proof.
  intros B P R. pose proof (hardware_held ms hw rev B P) as H.
  destruct (linux_chip_value arm32 (N.of_nat n) 0 hw rev (hardware_text ms) H) as (c & E & M & G).
  { intros c Hc V. destruct (latest board_revision_said ms) as [v|] eqn:L; [exists (firstn 9 v); now apply (revision_held ms hw rev)|].
    exfalso. now apply (R L _ _ Hc). }
  destruct (good_called c G) as (name & C). destruct (chip_name_called c name C) as (N1 & N2).
  exists c, name. split; [exact E|]. split; [now apply (means_tells _ _ _ hw rev)|]. auto.
Qed.

(** ** Android *)

Lemma hardware_held_android ms hw rev : board_texts ms hw rev -> (forall v, latest board_said ms = Some v -> plain v) -> holds_text 64 hw (hardware_text ms).
Proof.
  intros [_ (F & _) B0 B1 _ _] P. unfold hardware_text. destruct (latest board_said ms) as [v|] eqn:E.
  - destruct (B1 v eq_refl). apply stored_text; auto.
  - apply holds_string_text; [constructor|cbn; lia|]. now apply B0.
Qed.

Lemma device_properties get ms : device_says get ms (with_hardware (hardware_text ms) (parse_properties get)).
Proof. split; [reflexivity|]. intros [] H; try reflexivity. now destruct H. Qed.

Lemma device_plain get ms : plain_device get ms -> plain_properties (with_hardware (hardware_text ms) (parse_properties get)).
Proof.
  intros (P & Q). unfold plain_properties, with_hardware, parse_properties. cbn [an_hardware an_board an_platform an_mediatek an_arch an_chipname an_hardware_chipname].
  split; [unfold hardware_text; destruct (latest board_said ms) as [v|] eqn:E; [apply firstn_plain; now apply P|constructor]|].
  split; [apply (Q Board); discriminate|]. split; [apply (Q Platform); discriminate|]. split; [apply (Q Mediatek); discriminate|].
  split; [apply (Q Arch); discriminate|]. split; [apply (Q Chipname); discriminate|]. apply (Q Hardware_chipname). discriminate.
Qed.

Lemma android_decided arm32 cores frequency p : plain_properties p ->
  exists c r name, meaning arm32 cores frequency p c /\ decided c r /\ android_chip arm32 cores frequency p = Ok r /\ called r name /\ chip_name r = Ok name /\ length name <= 47.
Proof.
  intros P. destruct (android_total arm32 cores frequency p P) as (c & r & name & M & E & C & N1 & N2 & S). exists c, r, name.
  split; [exact M|]. split; [|auto].
  assert (J : forall r', android_chip arm32 cores frequency p = Ok r' -> r = r') by (intros r' X; congruence).
  split.
  - intros H. apply J. now apply (android_none _ _ _ _ c).
  - intros x y H1 H2 H3. apply J. now apply (android_vendors _ _ _ _ c x y).
  - intros w H. apply J. now apply (android_agreement _ _ _ _ c).
  - intros v x y H H1 H2 H3. destruct (android_disagreement _ _ _ _ _ v x y P M H H1 H2 H3) as (A & B & D). split; [|split].
    + intros order z I F. destruct (A order z I F) as (r' & X & Y). now rewrite (J r' X).
    + intros order I F. apply J. now apply (B order).
    + intros F. apply J. now apply D.
  - exact S.
Qed.

Lemma android_decoder_tells arm32 get ms hw rev n : board_texts ms hw rev -> plain_device get ms ->
  exists c name, android_decoder arm32 get hw rev n = Ok c /\ android_tells arm32 (N.of_nat n) get ms c /\ called c name /\ chip_name c = Ok name /\ length name <= 47.
Proof.
  intros B P. pose proof (hardware_held_android ms hw rev B (proj1 P)) as H.
  destruct (android_decided arm32 (N.of_nat n) 0 _ (device_plain get ms P)) as (c & r & name & M & D & E & C & N1 & N2).
  exists r, name. split; [|split; [|auto]].
  - unfold android_decoder. change hardware_value_max with 64. rewrite (holds_text_value _ _ _ H). exact E.
  - exists (with_hardware (hardware_text ms) (parse_properties get)), c. split; [apply device_properties|]. now split.
Qed.

(** ** Detection as a whole *)

Section WHOLE.
  Variables (sg : bool) (b : build) (garbage : known) (default : N) (sorter : list aproc -> list aproc) (calloc_ok : ablock -> bool)
    (fs : arm_files) (max : N) (po pr : option (list (N * N))) (ms : list arm_meaning) (version : N)
    (decode : chars -> chars -> nat -> res chip) (tells : N -> chip -> Prop).
  Hypothesis FS : arm_files_say (b_arm32 b) default fs max po pr ms.
  Hypothesis ON : all_online (arm_usable max po pr) ms version.
  Hypothesis SO : sorts (cmp_arm_linux_processor (b_arm32 b)) sorter.
  Hypothesis DE : forall hw rev n, board_texts ms hw rev -> exists c name,
    decode hw rev n = Ok c /\ tells (N.of_nat n) c /\ called c name /\ chip_name c = Ok name /\ length name <= 47.
  Notation d := (library_decoders b (chipset_by decode)).

  Lemma chip_answers : decoders_answer d ms.
  Proof.
    apply library_answers. intros hw rev n B. destruct (DE hw rev n B) as (c & name & E & _). exists (seen c). unfold chipset_by. now rewrite E.
  Qed.

  Lemma chip_used n chip : chipset_from d ms n chip -> exists c, tells (N.of_nat n) c /\ chip = seen c.
  Proof.
    intros (hw & rev & B & E). cbn [library_decoders ad_chipset] in E. unfold chipset_by in E. destruct (DE hw rev n B) as (c & name & E' & T & _).
    rewrite E' in E. injection E as <-. eauto.
  Qed.

  Lemma package_named o t : arm_linux_init sg (b_arm32 b) (b_android b) garbage default sorter calloc_ok d fs = Ok o -> ao_published o = Some t ->
    exists c name, arm_package_name sg (b_arm32 b) default calloc_ok decode fs = Ok (Some name) /\
      tells (N.of_nat (length (at_processors t))) c /\ called c name /\ length name <= 47.
  Proof.
    intros E P. destruct (board_read sg (b_arm32 b) (b_android b) garbage default sorter calloc_ok d fs max po pr ms version FS ON chip_answers SO)
      as (hw & rev & n & ps0 & B & R & L). destruct (L o t E P) as (C & <-). destruct (DE hw rev (length (at_processors t)) B) as (c & name & D & T & A & N1 & N2).
    exists c, name. split; [|auto]. unfold arm_package_name. rewrite R, C. cbn [bind]. now rewrite D; cbn [bind]; rewrite N1.
  Qed.
End WHOLE.
