(** Chips that are reported wrongly are corrected as specified. *)
From Verif Require Import Base BaseProofs Text LinuxTextSpec X86CpuinfoModel ArmClusterMidrModel ArmCpuinfoModel ArmChipsetModel ArmChipsetSpec ArmChipsetNameSpec ArmChipsetFixupSpec
  ArmChipsetFitProofs ArmChipsetMatchProofs ArmChipsetReadProofs ArmChipsetOtherProofs ArmChipsetDeviceProofs ArmChipsetSourceProofs ArmChipsetNameProofs.
Open Scope N_scope.

Definition applies_b (arm32 only32 without : bool) (suffix : list N) : bool := compiled arm32 only32 && (negb without || match suffix with [] => true | _ => false end).
Lemma applies_iff arm32 only32 without suffix : applies_b arm32 only32 without suffix = true <-> applies arm32 only32 without suffix.
Proof.
  unfold applies_b, applies. rewrite Bool.andb_true_iff, compiled_iff, Bool.orb_true_iff, Bool.negb_true_iff. apply and_iff_compat_l. destruct without, suffix; split; intros H.
  all: try reflexivity; try (now left); try (now right); try (destruct H; discriminate); try (specialize (H eq_refl); discriminate); intros E; (reflexivity || discriminate).
Qed.
Definition row_b (arm32 : bool) (suffix : list N) (se m : N) (r : misreport) : bool :=
  (se =? mr_series r) && (m =? mr_model r) && applies_b arm32 (mr_only32 r) (mr_plain r) suffix.
Definition renamed_b (arm32 : bool) (suffix : list N) (se m : N) (r : bool * bool * N * N * N) : bool :=
  let '(only32, without, series, model, new) := r in (se =? series) && (m =? model) && applies_b arm32 only32 without suffix.
Definition the_model (arm32 : bool) (cores : N) (suffix : list N) (se m : N) : N * N :=
  match find (row_b arm32 suffix se m) misreports with
  | Some r => if cores =? mr_cores r then (se, m) else if cores =? mr_other_cores r then (mr_other_series r, mr_other_model r) else (se, 0)
  | None => match find (renamed_b arm32 suffix se m) renamed with Some (_, _, _, _, new) => (se, new) | None => (se, m) end
  end.
Lemma the_model_meant arm32 cores suffix se m : model_meant arm32 cores suffix se m (fst (the_model arm32 cores suffix se m)) (snd (the_model arm32 cores suffix se m)).
Proof.
  unfold the_model. destruct (find (row_b arm32 suffix se m) misreports) as [r|] eqn:E.
  - apply find_some in E. destruct E as [I E]. unfold row_b in E. rewrite !Bool.andb_true_iff, !N.eqb_eq, applies_iff in E. destruct E as [[-> ->] A].
    destruct (N.eqb_spec cores (mr_cores r)); [now apply Meant_right|]. destruct (N.eqb_spec cores (mr_other_cores r)); [now apply Meant_other|]. now apply Meant_unknown.
  - destruct (find (renamed_b arm32 suffix se m) renamed) as [[[[[o w] s0] m0] new]|] eqn:E'.
    + apply find_some in E'. destruct E' as [I E']. unfold renamed_b in E'. rewrite !Bool.andb_true_iff, !N.eqb_eq, applies_iff in E'. destruct E' as [[-> ->] A].
      eapply Meant_renamed; eassumption.
    + apply Meant_same.
      * cbn [fst snd]. intros r I E1 E2 A. subst se m. pose proof (find_none _ _ E r I) as Q. unfold row_b in Q. rewrite !N.eqb_refl in Q. apply applies_iff in A. rewrite A in Q. discriminate.
      * intros o w new I A. pose proof (find_none _ _ E' _ I) as Q. unfold renamed_b in Q. rewrite !N.eqb_refl in Q. apply applies_iff in A. rewrite A in Q. discriminate.
Qed.
Definition spelling_b (se m : N) (suffix : list N) (r : N * option N * list N * list N) : bool :=
  let '(series, model, old, new) := r in (se =? series) && match model with None => true | Some x => m =? x end && same suffix old.
Definition the_suffix (frequency se m : N) (suffix : list N) : list N :=
  match find (spelling_b se m suffix) (respelled frequency) with Some (_, _, _, new) => new | None => suffix end.
Lemma the_suffix_meant frequency se m suffix : suffix_meant frequency se m suffix (the_suffix frequency se m suffix).
Proof.
  unfold the_suffix, suffix_meant. destruct (find (spelling_b se m suffix) (respelled frequency)) as [[[[s0 m0] old] new]|] eqn:E.
  - apply find_some in E. destruct E as [I E]. unfold spelling_b in E. rewrite !Bool.andb_true_iff, N.eqb_eq, same_iff in E. destruct E as [[-> M] ->]. left. exists m0.
    split; [exact I|]. destruct m0; [|constructor]. apply N.eqb_eq in M. cbn. congruence.
  - right. split; [|reflexivity]. intros m0 new I M. pose proof (find_none _ _ E _ I) as Q. unfold spelling_b in Q. rewrite N.eqb_refl, (proj2 (same_iff _ _) eq_refl) in Q.
    destruct m0 as [x|]; [|discriminate]. cbn in M. subst. rewrite N.eqb_refl in Q. discriminate.
Qed.

Lemma suffix_byte x : suffix_character x -> x < 256 /\ (x =? 0) = false.
Proof. unfold suffix_character. intros H. split; [lia|]. apply N.eqb_neq. lia. Qed.
Ltac spells := repeat match goal with |- context [text ?w] => let v := eval vm_compute in (text w) in change (text w) with v end.
Ltac nums := repeat match goal with |- context [?a =? ?b] => let v := eval vm_compute in (a =? b) in match v with true => change (a =? b) with true | false => change (a =? b) with false end end.
Lemma fixup_value arm32 cores frequency v se m suffix : Forall suffix_character suffix -> (length suffix <= 8)%nat ->
  fixup arm32 cores frequency (chip_of v se m suffix) =
  Ok (chip_of v (fst (the_model arm32 cores suffix se m)) (snd (the_model arm32 cores suffix se m)) (the_suffix frequency se m suffix)).
Proof.
  intros F L. unfold fixup. cbn [chip_of chp_series].
  destruct (N.eqb_spec se se_msm) as [->|N1]; [|destruct (N.eqb_spec se se_apq) as [->|N2]; [|destruct (N.eqb_spec se se_exynos) as [->|N3];
    [|destruct (N.eqb_spec se se_mt) as [->|N4]; [|destruct (N.eqb_spec se se_rk) as [->|N5]]]]].
  all: unfold the_model, the_suffix, misreports, renamed, respelled, row_b, renamed_b, spelling_b, applies_b, fixup_msm, by_cores, with_model, with_suffix, put, compiled; spells.
  all: cbn [find mr_only32 mr_plain mr_series mr_model mr_cores mr_other_cores mr_other_series mr_other_model].
  6: { rewrite !(proj2 (N.eqb_neq se _)) by assumption. reflexivity. }
  all: nums; cbn [andb].
  all: destruct suffix as [|x0 [|x1 [|x2 [|x3 [|x4 [|x5 [|x6 [|x7 [|x8 s]]]]]]]]]; [..|cbn in L; lia].
  all: repeat match goal with F : Forall suffix_character (?x :: _) |- _ => apply Forall_cons_iff in F; let S1 := fresh "S" in destruct F as [S1 F]; apply suffix_byte in S1;
    let B := fresh "B" in let Z := fresh "Z" in destruct S1 as [B Z] end.
  all: assert (Bz : 0 < 256) by reflexivity.
  Ltac crank := cbn -[N.eqb N.leb N.add N.mul]; nums; words;
    repeat match goal with Z : (?x =? 0) = false |- context [?x =? 0] => rewrite Z end; rewrite ?Bool.andb_false_r, ?Bool.andb_true_r; cbn -[N.eqb N.leb N.add N.mul].
  Ltac mill := repeat (crank; first [reflexivity | clash | match goal with |- context [if ?b then _ else _] => atom b end]).
  all: destruct arm32.
  all: mill.
  all: repeat match goal with H : (?x =? _) = true |- _ => apply N.eqb_eq in H; subst x end; reflexivity.
Qed.
Lemma chip_eta c suffix : holds_suffix (chp_suffix c) suffix -> c = chip_of (chp_vendor c) (chp_series c) (chp_model c) suffix.
Proof. intros (_ & _ & E). destruct c. cbn in *. now subst. Qed.
Lemma the_suffix_good frequency se m suffix : Forall suffix_character suffix -> (length suffix <= 8)%nat ->
  Forall suffix_character (the_suffix frequency se m suffix) /\ (length (the_suffix frequency se m suffix) <= 8)%nat.
Proof.
  intros F L. unfold the_suffix. destruct (find _ _) as [[[[s0 m0] old] new]|] eqn:E; [|split; assumption]. apply find_some in E. destruct E as [I _]. revert I.
  assert (C : forallb (fun '(_, _, _, new) => forallb suffix_char new && (length new <=? 8)%nat) (respelled frequency) = true)
    by (unfold respelled; destruct (2188800 <=? frequency); vm_compute; reflexivity).
  rewrite forallb_forall in C. intros I. specialize (C _ I). cbv beta iota in C. rewrite Bool.andb_true_iff, forallb_forall, Nat.leb_le in C. destruct C as [C L']. split; [|exact L'].
  apply Forall_forall. intros x J. apply suffix_char_iff. now apply C.
Qed.
Lemma fixup_corrects arm32 cores frequency c suffix : holds_suffix (chp_suffix c) suffix ->
  exists c' suffix', fixup arm32 cores frequency c = Ok c' /\ corrected arm32 cores frequency c c' /\ holds_suffix (chp_suffix c') suffix' /\ chp_vendor c' = chp_vendor c /\
    (chp_series c', chp_model c') = the_model arm32 cores suffix (chp_series c) (chp_model c).
Proof.
  intros H. pose proof (chip_eta c suffix H) as E. destruct H as (F & L & A).
  exists (chip_of (chp_vendor c) (fst (the_model arm32 cores suffix (chp_series c) (chp_model c))) (snd (the_model arm32 cores suffix (chp_series c) (chp_model c)))
    (the_suffix frequency (chp_series c) (chp_model c) suffix)), (the_suffix frequency (chp_series c) (chp_model c) suffix).
  split; [transitivity (fixup arm32 cores frequency (chip_of (chp_vendor c) (chp_series c) (chp_model c) suffix)); [now f_equal|now apply fixup_value]|]. split.
  - exists suffix. do 3 eexists. split; [split; [exact F|split; [exact L|exact A]]|]. split; [apply the_model_meant|]. split; [apply the_suffix_meant|reflexivity].
  - destruct (the_suffix_good frequency (chp_series c) (chp_model c) suffix F L) as [F' L']. split; [split; [exact F'|split; [exact L'|reflexivity]]|]. split; [reflexivity|].
    cbn. now destruct (the_model arm32 cores suffix (chp_series c) (chp_model c)).
Qed.
