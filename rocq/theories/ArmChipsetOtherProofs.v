(** Signatures whose meaning depends on the number of cores, or on tables. *)
From Verif Require Import Base BaseProofs Text LinuxTextSpec X86CpuinfoModel ArmClusterMidrModel ArmCpuinfoModel ArmCpuinfoMeaningProofs ArmChipsetModel
  ArmChipsetSpec ArmChipsetFitProofs ArmChipsetMatchProofs ArmChipsetReadProofs.
Open Scope N_scope.

(** ** SMDK *)

Lemma smdk_reads cores : reads (match_smdk cores) (smdk cores).
Proof.
  unfold smdk. forms.
  set (x12 := [[Letter 115; Letter 109; Letter 100; Letter 107; Is 52; Is 120; Is 49; Is 50]]).
  apply reads_as with (R' := fun s c => any_of (map (attempt empty ve_samsung se_exynos (Some 4210) s)
      [[Letter 115; Letter 109; Letter 100; Letter 107; Is 52; Is 50; Is 49; Is 48]]) c \/
    if cores =? 2 then any_of (map (attempt empty ve_samsung se_exynos (Some 4212) s) x12) c
    else if cores =? 4 then any_of (map (attempt empty ve_samsung se_exynos (Some 4412) s) x12) c else False).
  { intros s c B. unfold either, provided. rewrite !(keyword_any _ _ _ _ _ _ _ _ nothing_is) by (reflexivity || exact B).
    destruct (N.eqb_spec cores 2) as [->|]; [|destruct (N.eqb_spec cores 4) as [->|]]; intuition discriminate. }
  subst x12. intros s B. unfold match_smdk. destruct (cores =? 2); [|destruct (cores =? 4)];
  destruct s as [|x0 [|x1 [|x2 [|x3 [|x4 [|x5 [|x6 [|x7 [|x8 s]]]]]]]]]; hyps B; go.
Qed.

(** ** Words *)

Fixpoint same (a b : list N) : bool := match a, b with [], [] => true | x :: a', y :: b' => if x =? y then same a' b' else false | _, _ => false end.
Lemma same_iff : forall a b, same a b = true <-> a = b.
Proof.
  induction a as [|x a IH]; intros [|y b]; cbn [same]; try (split; (reflexivity || discriminate)).
  destruct (N.eqb_spec x y) as [->|Q]; [rewrite IH|]; split; try congruence; discriminate.
Qed.
Ltac spell := repeat match goal with |- context [text ?w] => let v := eval vm_compute in (text w) in change (text w) with v end.
Ltac spell_in H := repeat match type of H with context [text ?w] => let v := eval vm_compute in (text w) in change (text w) with v in H end.

Lemma broadcom_value cores frequency s : bytes s -> match_broadcom cores frequency s = Ok (
  if same s (text "rhea") then if cores =? 1 then Some (Chip ve_broadcom se_bcm 21654 (padded (letter (if 999999 <=? frequency then 71 else 0)))) else None
  else if same s (text "java") then if cores =? 4 then Some (Chip ve_broadcom se_bcm 23550 (padded (letter 0))) else None
  else if same s (text "hawaii") then
    if cores =? 1 then Some (Chip ve_broadcom se_bcm 21663 (padded (letter 0)))
    else if cores =? 2 then Some (Chip ve_broadcom se_bcm 21664 (padded (letter (if 1200000 <=? frequency then 84 else 0)))) else None
  else if same s (text "capri") then if cores =? 2 then Some (Chip ve_broadcom se_bcm 28155 (padded (letter 0))) else None
  else None).
Proof.
  intros B. spell. unfold match_broadcom.
  destruct s as [|x0 [|x1 [|x2 [|x3 [|x4 [|x5 [|x6 s]]]]]]]; hyps B; repeat (run; words; first [reflexivity | clash | step]).
Qed.
Ltac leaf := solve [repeat split; first [reflexivity | lia | assumption | congruence]].
Ltac pick := first [leaf | left; leaf | right; pick].
Ltac unlike H := solve [exfalso; vm_compute in H; discriminate H].
Lemma broadcom_reads cores frequency : reads (match_broadcom cores frequency) (broadcom cores frequency).
Proof.
  intros s B. rewrite broadcom_value by exact B. unfold broadcom, word. intros c. split.
  - destruct (same s (text "rhea")) eqn:E1; [|destruct (same s (text "java")) eqn:E2; [|destruct (same s (text "hawaii")) eqn:E3; [|destruct (same s (text "capri")) eqn:E4]]];
    repeat match goal with E : same _ _ = true |- _ => apply same_iff in E; subst s | E : same _ _ = false |- _ => clear E end;
    repeat match goal with |- context [cores =? ?n] => destruct (N.eqb_spec cores n) | |- context [?n <=? frequency] => destruct (N.leb_spec n frequency) end;
    try discriminate; intros E; injection E as <-; subst; pick.
  - intros H.
    repeat match type of H with _ \/ _ => destruct H as [H|H] end; decompose [and] H; subst s c cores;
    repeat match goal with |- context [same ?a ?b] => let v := eval vm_compute in (same a b) in change (same a b) with v end; cbv iota;
    repeat match goal with |- context [?m =? ?n] => let v := eval vm_compute in (m =? n) in change (m =? n) with v end; cbv iota;
    try reflexivity; match goal with |- context [?n <=? frequency] => destruct (N.leb_spec n frequency) end; try reflexivity; lia.
Qed.

Lemma wmt_value cores frequency s : bytes s -> match_wmt cores frequency s = Ok (
  if same s (text "WMT") then
    Some (Chip ve_wondermedia se_wm (if cores =? 1 then if frequency =? 1008000 then 8950 else if frequency =? 1200000 then 8850 else 0
                                     else if cores =? 2 then if frequency =? 1500000 then 8880 else 0 else 0) (padded []))
  else None).
Proof.
  intros B. spell. unfold match_wmt. destruct s as [|x0 [|x1 [|x2 [|x3 s]]]]; hyps B; repeat (run; words; first [reflexivity | clash | step]).
Qed.
Lemma wmt_reads cores frequency : reads (match_wmt cores frequency) (wmt cores frequency).
Proof.
  intros s B. rewrite wmt_value by exact B. unfold wmt, word. intros c. split.
  - destruct (same s (text "WMT")) eqn:E1; [|discriminate]. apply same_iff in E1. subst s. intros E. injection E as <-. eexists. split; [split; reflexivity|].
    repeat match goal with |- context [cores =? ?n] => destruct (N.eqb_spec cores n) | |- context [frequency =? ?n] => destruct (N.eqb_spec frequency n) end; lia.
  - intros (model & [-> ->] & M). rewrite (proj2 (same_iff _ _) eq_refl).
    change (chip_of ve_wondermedia se_wm model (text "")) with (Chip ve_wondermedia se_wm model (padded [])). do 2 f_equal.
    repeat match goal with |- context [cores =? ?n] => destruct (N.eqb_spec cores n) | |- context [frequency =? ?n] => destruct (N.eqb_spec frequency n) end; lia.
Qed.

Lemma word_reads w vendor series model : reads (fun s => if bytes_eqb s (text w) then found vendor series model [] else no_match) (word w vendor series model "").
Proof.
  intros s B. unfold word. pose proof (bytes_eqb_iff s (text w)) as Q. destruct (bytes_eqb s (text w)).
  - intros c. assert (s = text w) by now apply Q. split; [intros [= <-]; split; [assumption|reflexivity]|]. now intros [_ ->].
  - intros c. split; [discriminate|]. intros [E _]. now apply Q in E.
Qed.
Lemma mp523x_reads : reads match_mp523x mp523x.
Proof. apply word_reads. Qed.
Lemma omap4_reads cores frequency : reads (match_omap4 cores frequency) (omap4 cores frequency).
Proof.
  intros s B. pose proof (word_reads "omap4" ve_texas_instruments se_omap 4430 s B) as W. unfold match_omap4, omap4. cbv beta in W.
  destruct (bytes_eqb s (text "omap4")); cbn [andb].
  - destruct (N.eqb_spec cores 2), (N.eqb_spec frequency 1008000); cbn [andb]; intros c; specialize (W c); try rewrite <- W; intuition congruence.
  - intros c. specialize (W c). rewrite <- W. intuition discriminate.
Qed.

(** ** Allwinner *)

Definition sun_forms : list (list piece) := [exactly "sun" ++ [Number 1] ++ exactly "i"; exactly "sun" ++ [Number 2] ++ exactly "i"].
Definition sun (s : list N) : option N :=
  match fit (exactly "sun" ++ [Number 1] ++ exactly "i") s with
  | Some (m, _) => Some m
  | None => match fit (exactly "sun" ++ [Number 2] ++ exactly "i") s with Some (m, _) => Some m | None => None end
  end.
Lemma one_digit x : x < 256 -> (10 <=? sub32 x 48) = false -> u32 (0 * 10 + sub32 x 48) = sub32 x 48.
Proof. intros B D. apply N.leb_gt in D. apply u32_small. unfold two32. lia. Qed.
Lemma sunxi_value arm32 cores s : bytes s -> match_sunxi arm32 cores s = Ok (
  match sun s with
  | Some platform => let '(model, suffix) := find_sunxi arm32 platform cores sunxi_map in Some (Chip ve_allwinner se_a model (padded (letter suffix)))
  | None => None
  end).
Proof.
  intros B. unfold match_sunxi, sun. set (find := fun p => find_sunxi arm32 p cores sunxi_map).
  change (fun p => find_sunxi arm32 p cores sunxi_map) with find.
  let v := eval vm_compute in (exactly "sun" ++ [Number 1] ++ exactly "i") in change (exactly "sun" ++ [Number 1] ++ exactly "i") with v.
  let v := eval vm_compute in (exactly "sun" ++ [Number 2] ++ exactly "i") in change (exactly "sun" ++ [Number 2] ++ exactly "i") with v.
  assert (F : forall p, (let '(model, suffix) := find_sunxi arm32 p cores sunxi_map in found ve_allwinner se_a model (letter suffix)) =
    Ok (let '(model, suffix) := find_sunxi arm32 p cores sunxi_map in Some (Chip ve_allwinner se_a model (padded (letter suffix)))))
    by (intros p; now destruct (find_sunxi arm32 p cores sunxi_map)).
  destruct s as [|x0 [|x1 [|x2 [|x3 [|x4 [|x5 s]]]]]]; hyps B.
  all: repeat (unfold no_match; cbn -[N.lor N.add N.mul N.eqb N.leb N.ltb u32 sub32 find_sunxi found letter padded]; rewrite ?F; words;
    repeat match goal with D : (10 <=? sub32 ?x 48) = false |- context [u32 (0 * 10 + sub32 ?x 48)] => rewrite (one_digit x) by assumption end;
    rewrite ?N.ltb_antisym; first [reflexivity | clash | step]).
Qed.
