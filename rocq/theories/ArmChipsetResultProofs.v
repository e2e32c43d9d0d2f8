(** Devices in the tables, and chips on GNU/Linux. *)
From Verif Require Import Base BaseProofs Text LinuxTextSpec X86CpuinfoModel ArmClusterMidrModel ArmCpuinfoModel ArmChipsetModel ArmChipsetSpec ArmChipsetNameSpec ArmChipsetFixupSpec ArmChipsetAndroidSpec
  ArmChipsetFitProofs ArmChipsetMatchProofs ArmChipsetReadProofs ArmChipsetOtherProofs ArmChipsetDeviceProofs ArmChipsetSourceProofs ArmChipsetExclusiveProofs ArmChipsetNameProofs
  ArmChipsetFixupProofs ArmChipsetGoodProofs ArmChipsetLinuxProofs ArmChipsetAndroidProofs ArmChipsetAndroidResultProofs.
Open Scope N_scope.

(** ** Devices *)

Definition gives_name (f : list N -> res chip) (arm32 : bool) (d : device) : bool :=
  negb (compiled arm32 (dv_only32 d)) || match f (text (dv_text d)) with Ok c => named_check c (text (dv_name d)) | _ => false end.
Lemma hardware_names arm32 cores frequency : forallb (gives_name (fun s => do c <- from_hardware arm32 cores frequency false s; fixup arm32 cores frequency c) arm32) hardware_devices = true.
Proof. destruct arm32; vm_compute; reflexivity. Qed.
Lemma tegra_names arm32 cores frequency : forallb (gives_name (from_hardware arm32 cores frequency true) arm32) tegra_devices = true.
Proof. destruct arm32; vm_compute; reflexivity. Qed.
Lemma board_names arm32 cores frequency : forallb (gives_name (from_board arm32 cores frequency) arm32) board_devices = true.
Proof. destruct arm32; vm_compute; reflexivity. Qed.
Lemma platform_names arm32 cores frequency : forallb (gives_name (from_platform arm32 cores frequency) arm32) (amlogic_devices ++ platform_devices) = true.
Proof. destruct arm32; vm_compute; reflexivity. Qed.
Lemma gives_name_ok f arm32 ds d : forallb (gives_name f arm32) ds = true -> In d ds -> for_build arm32 (dv_only32 d) ->
  exists c, f (text (dv_text d)) = Ok c /\ named c (text (dv_name d)).
Proof.
  intros H I B. rewrite forallb_forall in H. specialize (H d I). unfold gives_name in H. apply compiled_iff in B. rewrite B in H. cbn [negb orb] in H.
  destruct (f (text (dv_text d))) as [c| |]; try discriminate. exists c. split; [reflexivity|now apply named_check_ok].
Qed.
Definition plain_check (s : list N) : bool := forallb (fun c => (0 <? c) && (c <? 256)) s.
Lemma plain_check_ok s : plain_check s = true -> plain s.
Proof. unfold plain_check. rewrite forallb_forall. intros H. apply Forall_forall. intros c I. specialize (H c I). rewrite Bool.andb_true_iff, !N.ltb_lt in H. exact H. Qed.
Lemma listed_says (R : reading) f arm32 ds d : gives f R -> functional R -> forallb (gives_name f arm32) ds = true -> forallb (fun d => plain_check (text (dv_text d))) ds = true ->
  In d ds -> for_build arm32 (dv_only32 d) -> forall c, R (text (dv_text d)) c -> named c (text (dv_name d)).
Proof.
  intros Gv F H P I B c Rc. destruct (gives_name_ok f arm32 ds d H I B) as (c1 & E & N1). rewrite forallb_forall in P. pose proof (plain_check_ok _ (P d I)) as Pd.
  destruct (Gv _ Pd) as (c2 & E2 & R2). rewrite E in E2. injection E2 as <-. now rewrite (F _ _ _ Pd Rc R2).
Qed.
Lemma devices_say arm32 cores frequency d c : for_build arm32 (dv_only32 d) ->
  (In d tegra_devices -> tegra_hardware arm32 (text (dv_text d)) c -> named c (text (dv_name d))) /\
  (In d board_devices -> board arm32 cores frequency (text (dv_text d)) c -> named c (text (dv_name d))) /\
  (In d (amlogic_devices ++ platform_devices) -> platform arm32 cores frequency (text (dv_text d)) c -> named c (text (dv_name d))).
Proof.
  intros B. split; [|split]; intros I.
  - apply (listed_says _ (from_hardware arm32 cores frequency true) arm32 tegra_devices d); try assumption; [apply from_tegra_gives|apply tegra_functional|apply tegra_names|vm_compute; reflexivity].
  - apply (listed_says _ (from_board arm32 cores frequency) arm32 board_devices d); try assumption; [apply from_board_gives|apply board_functional|apply board_names|vm_compute; reflexivity].
  - apply (listed_says _ (from_platform arm32 cores frequency) arm32 (amlogic_devices ++ platform_devices) d); try assumption;
      [apply from_platform_gives|apply platform_functional|apply platform_names|vm_compute; reflexivity].
Qed.
Lemma linux_devices arm32 cores frequency hw revision d : In d hardware_devices -> for_build arm32 (dv_only32 d) -> holds_text 64 hw (text (dv_text d)) ->
  exists c, linux_chip arm32 cores frequency hw revision = Ok c /\ chip_name c = Ok (text (dv_name d)).
Proof.
  intros I B H. destruct (gives_name_ok _ arm32 hardware_devices d (hardware_names arm32 cores frequency) I B) as (c & E & N1). exists c.
  split; [|apply chip_name_called; now left].
  unfold linux_chip. change hardware_value_max with 64%nat. rewrite (holds_text_value 64 hw _ H). cbn [bind].
  destruct (from_hardware_gives arm32 cores frequency _ (proj1 H)) as (c1 & E1 & R1). rewrite E1 in *. cbn [bind] in *. pose proof (hardware_good _ _ _ _ _ R1) as G.
  pose proof (named_proper _ _ N1) as Pc.
  destruct G as [->|P1]; [cbn in E; injection E as <-; now destruct (proj1 (proper_vendor _ Pc))|].
  destruct (fixup_proper arm32 cores frequency c1 P1) as (c' & E' & _ & _ & V). rewrite E in E'. injection E' as <-.
  rewrite (proj2 (N.eqb_neq (chp_vendor c1) ve_unknown)) by (now apply proper_vendor).
  assert (Nb : chp_vendor c1 <> ve_broadcom).
  { intros Vb. rewrite Vb in V. destruct N1 as (vs & ds & x & J & _ & _ & _ & _ & En).
    assert (A : forallb (fun '(se, ve, vs) => negb (ve =? ve_broadcom) || same (firstn 1 (text vs)) [66]) series_names = true) by (vm_compute; reflexivity).
    assert (Q : forallb (fun d => negb (same (firstn 1 (text (dv_name d))) [66])) hardware_devices = true) by (vm_compute; reflexivity).
    rewrite forallb_forall in A, Q. specialize (A _ J). specialize (Q _ I). cbv beta iota in A. rewrite V, N.eqb_refl in A. cbn [negb orb] in A. rewrite En in Q.
    apply same_iff in A. destruct (text vs) as [|y vs']; [discriminate|]. cbn [firstn app] in *. rewrite A in Q. discriminate. }
  rewrite (proj2 (N.eqb_neq _ _) Nb). exact E.
Qed.

(** ** Chips on GNU/Linux *)

Lemma linux_chip_total arm32 cores frequency hw revision s r : holds_text 64 hw s -> holds_text 9 revision r ->
  exists c name, linux_chip arm32 cores frequency hw revision = Ok c /\ called c name /\ chip_name c = Ok name /\ (length name <= 47)%nat.
Proof.
  intros H Hr. destruct (linux_chip_value arm32 cores frequency hw revision s H) as (c & E & _ & G); [intros; now exists r|]. destruct (good_called c G) as (name & C).
  exists c, name. split; [exact E|]. split; [exact C|now apply chip_name_called].
Qed.
Lemma fixup_exact arm32 cores frequency c x : holds_suffix (chp_suffix c) x -> exists c', fixup arm32 cores frequency c = Ok c' /\ forall c'', corrected arm32 cores frequency c c'' <-> c'' = c'.
Proof.
  intros H. destruct (fixup_corrects arm32 cores frequency c x H) as (c' & x' & E & C & _). exists c'. split; [exact E|]. intros c''. split; [intros C'; eapply corrected_unique; eassumption|].
  intros ->. exact C.
Qed.

(** ** Android *)

Lemma android_total arm32 cores frequency p : plain_properties p ->
  exists c r name, meaning arm32 cores frequency p c /\ android_chip arm32 cores frequency p = Ok r /\ called r name /\ chip_name r = Ok name /\ (length name <= 47)%nat /\
    (r = unknown_chip \/ exists x, recognized (c x) /\ same_model r (c x)).
Proof.
  intros P. destruct (meaning_exists arm32 cores frequency p P) as (c & M). destruct (decide_sound c (fun x => meaning_good _ _ _ _ _ x M)) as (r & E & G & Q).
  destruct (good_called r G) as (name & C). exists c, r, name. split; [exact M|]. rewrite (android_decides _ _ _ _ _ P M). split; [exact E|]. split; [exact C|].
  destruct (chip_name_called r name C). split; [assumption|]. now split.
Qed.
Lemma android_none arm32 cores frequency p c : plain_properties p -> meaning arm32 cores frequency p c -> (forall x, ~ recognized (c x)) -> android_chip arm32 cores frequency p = Ok unknown_chip.
Proof. intros P M. rewrite (android_decides _ _ _ _ _ P M). apply decide_none. intros x. eapply meaning_good, M. Qed.
Lemma android_vendors arm32 cores frequency p c x y : plain_properties p -> meaning arm32 cores frequency p c -> recognized (c x) -> recognized (c y) -> chp_vendor (c x) <> chp_vendor (c y) ->
  android_chip arm32 cores frequency p = Ok unknown_chip.
Proof. intros P M. rewrite (android_decides _ _ _ _ _ P M). apply decide_vendors. intros z. eapply meaning_good, M. Qed.
Lemma android_agreement arm32 cores frequency p c whole : plain_properties p -> meaning arm32 cores frequency p c -> agreement c whole -> android_chip arm32 cores frequency p = Ok whole.
Proof. intros P M. rewrite (android_decides _ _ _ _ _ P M). apply decide_agreement. intros z. eapply meaning_good, M. Qed.
Lemma android_disagreement arm32 cores frequency p c v x y : plain_properties p -> meaning arm32 cores frequency p c -> (forall x, recognized (c x) -> chp_vendor (c x) = v) ->
  recognized (c x) -> recognized (c y) -> ~ same_model (c x) (c y) ->
  (forall order z, In (v, order) believed -> first_known c order z -> exists r, android_chip arm32 cores frequency p = Ok r /\ same_model r (c z)) /\
  (forall order, In (v, order) believed -> (forall z, In z order -> ~ recognized (c z)) -> android_chip arm32 cores frequency p = Ok unknown_chip) /\
  ((forall order, ~ In (v, order) believed) -> android_chip arm32 cores frequency p = Ok unknown_chip).
Proof. intros P M. rewrite (android_decides _ _ _ _ _ P M). apply decide_disagreement. intros z. eapply meaning_good, M. Qed.
