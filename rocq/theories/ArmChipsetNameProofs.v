(** Names of chips. *)
From Verif Require Import Base BaseProofs Text LinuxTextSpec X86CpuinfoModel ArmClusterMidrModel ArmCpuinfoModel ArmChipsetModel ArmChipsetSpec ArmChipsetNameSpec
  ArmChipsetFitProofs ArmChipsetMatchProofs ArmChipsetReadProofs ArmChipsetOtherProofs ArmChipsetDeviceProofs ArmChipsetSourceProofs ArmChipsetExclusiveProofs.
From Verif Require ArmMachSpec ArmMachModel ArmMachNameProofs.
Import ArmMachSpec(numeral).
Import ArmMachModel(decimal).
Import ArmMachNameProofs(decimal_numeral, dec_value_snoc).
Open Scope N_scope.

(** ** Numerals *)

Lemma numeral_snoc n p d : p <> [] -> numeral n (p ++ [d]) -> numeral (n / 10) p /\ d = 48 + n mod 10 /\ n / 10 <> 0.
Proof.
  intros NE ((_ & F) & V & Z). apply Forall_app in F. destruct F as [F Fd]. inversion Fd as [|? ? D _]; subst. unfold is_digit in D. rewrite dec_value_snoc in *.
  assert (Q : (dec_value p * 10 + (d - 48)) / 10 = dec_value p) by (rewrite N.div_add_l, N.div_small by lia; lia).
  assert (M : (dec_value p * 10 + (d - 48)) mod 10 = d - 48) by (rewrite N.add_comm, N.mod_add, N.mod_small by lia; reflexivity). rewrite Q, M.
  assert (Zp : forall r, p = 48 :: r -> False).
  { intros r ->. specialize (Z (r ++ [d]) eq_refl). destruct r; discriminate. }
  split; [|split; [lia|]].
  - split; [split; assumption|]. split; [reflexivity|]. intros r E. destruct (Zp r E).
  - destruct p as [|x p]; [contradiction|]. inversion F as [|? ? X F']; subst. assert (x <> 48) by (intros ->; now apply (Zp p)). unfold is_digit in X.
    assert (G : forall l a, a <> 0 -> fold_left (fun n c => n * 10 + (c - 48)) l a <> 0).
    { induction l as [|y l IH]; intros a A; [exact A|]. apply IH. lia. }
    unfold dec_value. cbn [fold_left]. apply G. lia.
Qed.
Lemma numeral_unique : forall k n ds ds', (length ds <= k)%nat -> numeral n ds -> numeral n ds' -> ds = ds'.
Proof.
  induction k as [|k IH]; intros n ds ds' L H H'.
  - destruct H as ((NE & _) & _). destruct ds; [contradiction|cbn in L; lia].
  - assert (NE : ds <> [] /\ ds' <> []) by (split; [apply H|apply H']). destruct NE as [NE NE'].
    destruct (exists_last NE) as (p & d & ->), (exists_last NE') as (p' & d' & ->).
    assert (One : forall x, numeral n [x] -> n = x - 48 /\ 48 <= x <= 57).
    { intros x ((_ & F) & V & _). inversion F as [|? ? X _]; subst. unfold is_digit in X. cbn. lia. }
    destruct p as [|x p], p' as [|x' p'].
    + cbn [app] in *. apply One in H. apply One in H'. f_equal. lia.
    + cbn [app] in H. apply One in H. apply numeral_snoc in H'; [|discriminate]. destruct H' as (_ & _ & Z). destruct Z. apply N.div_small. lia.
    + cbn [app] in H'. apply One in H'. apply numeral_snoc in H; [|discriminate]. destruct H as (_ & _ & Z). destruct Z. apply N.div_small. lia.
    + apply numeral_snoc in H; [|discriminate]. apply numeral_snoc in H'; [|discriminate]. destruct H as (H & -> & _), H' as (H' & -> & _).
      rewrite (IH (n / 10) (x :: p) (x' :: p')); [reflexivity| |assumption..]. rewrite app_length in L. cbn [length] in *. lia.
Qed.
Lemma numeral_decimal n ds : n < two32 -> numeral n ds -> ds = decimal 10 n.
Proof. intros B H. apply (numeral_unique (length ds) n); [lia|exact H|now apply decimal_numeral]. Qed.

(** ** A name means one chip *)

Lemma series_apart : forallb (fun '(se, ve, vs) => forallb (fun '(se', ve', vs') =>
  (se =? se') && (ve =? ve') && same (text vs) (text vs') || conflict (spelled (text vs)) (spelled (text vs'))) series_names) series_names = true.
Proof. vm_compute. reflexivity. Qed.
Lemma digits_split ds rest ds' rest' : ds ++ rest = ds' ++ rest' -> Forall is_digit ds -> Forall is_digit ds' ->
  (forall c r, rest = c :: r -> ~ is_digit c) -> (forall c r, rest' = c :: r -> ~ is_digit c) -> ds = ds' /\ rest = rest'.
Proof.
  revert ds'. induction ds as [|d ds IH]; intros ds' E F F' R R'; destruct ds' as [|d' ds']; cbn [app] in E.
  - split; [reflexivity|exact E].
  - inversion F' as [|? ? D _]; subst. destruct (R d' _ eq_refl D).
  - inversion F as [|? ? D _]; subst. destruct (R' d _ eq_refl D).
  - injection E as <- E. inversion F; inversion F'; subst. destruct (IH ds' E) as [-> ->]; auto.
Qed.
Lemma suffix_not_digit suffix : Forall suffix_character suffix -> forall c r, suffix = c :: r -> ~ is_digit c.
Proof. intros F c r ->. inversion F as [|? ? S1 _]; subst. unfold suffix_character, is_digit in *. lia. Qed.
Lemma named_unique c c' name : named c name -> named c' name -> c = c'.
Proof.
  intros (vs & ds & x & I & D & _ & _ & (Fx & _ & Ax) & ->) (vs' & ds' & x' & I' & D' & _ & _ & (Fx' & _ & Ax') & E).
  pose proof series_apart as S0. rewrite forallb_forall in S0. specialize (S0 _ I). cbv beta iota in S0. rewrite forallb_forall in S0. specialize (S0 _ I'). cbv beta iota in S0.
  apply Bool.orb_true_iff in S0. destruct S0 as [S0|S0].
  - rewrite !Bool.andb_true_iff, !N.eqb_eq, same_iff in S0. destruct S0 as [[Es Ev] Et]. rewrite Et in E. apply app_inv_head in E.
    destruct (digits_split ds x ds' x' E) as [-> ->]; [apply D|apply D'|apply suffix_not_digit; assumption..|].
    destruct c as [v se m a], c' as [v' se' m' a']. cbn [chp_series chp_vendor chp_model chp_suffix] in *. destruct D as (_ & <- & _), D' as (_ & <- & _). congruence.
  - destruct (conflict_ok _ _ (text vs ++ ds ++ x) S0); [apply spelled_matches|rewrite E; apply spelled_matches].
Qed.

(** ** Tables *)

Definition distinct_texts (ds : list device) : bool :=
  forallb (fun d => forallb (fun d' => negb (same (text (dv_text d)) (text (dv_text d'))) || same (text (dv_name d)) (text (dv_name d'))) ds) ds.
Lemma listed_functional arm32 ds : distinct_texts ds = true -> functional (listed arm32 ds).
Proof.
  intros D s c c' P (d & I & _ & -> & N1) (d' & I' & _ & E & N2). unfold distinct_texts in D. rewrite forallb_forall in D. specialize (D d I). rewrite forallb_forall in D. specialize (D d' I').
  rewrite (proj2 (same_iff _ _) E) in D. cbn [negb orb] in D. apply same_iff in D. rewrite <- D in N2. eapply named_unique; eassumption.
Qed.
Lemma hardware_functional arm32 cores frequency : functional (hardware arm32 cores frequency).
Proof.
  apply unless_functional; [apply first_word_functional; exact word_signatures_functional|]. apply unless_functional; [apply hardware_signatures_functional|].
  apply unless_functional; [apply listed_functional; vm_compute; reflexivity|exact unrecognized_functional].
Qed.
Lemma tegra_functional arm32 : functional (tegra_hardware arm32).
Proof. apply unless_functional; [apply listed_functional; vm_compute; reflexivity|exact unrecognized_functional]. Qed.
Lemma board_functional arm32 cores frequency : functional (board arm32 cores frequency).
Proof.
  apply unless_functional; [apply board_signatures_functional|].
  apply unless_functional; [apply listed_functional; vm_compute; reflexivity|exact unrecognized_functional].
Qed.
Lemma platform_functional arm32 cores frequency : functional (platform arm32 cores frequency).
Proof.
  apply unless_functional; [apply platform_signatures_functional|].
  apply unless_functional; [apply listed_functional; vm_compute; reflexivity|exact unrecognized_functional].
Qed.
Lemma mediatek_functional : functional mediatek.
Proof. apply unless_functional; [exact (reads_functional _ _ mt_start_reads)|exact unrecognized_functional]. Qed.
Lemma arch_functional : functional arch.
Proof. apply unless_functional; [exact (reads_functional _ _ exynos_reads)|exact unrecognized_functional]. Qed.
Lemma chipname_functional arm32 : functional (chipname arm32).
Proof. apply unless_functional; [apply chipname_signatures_functional|exact unrecognized_functional]. Qed.

(** ** What the name of a chip is *)

Lemma until_nul_suffix : forall suffix k, Forall suffix_character suffix -> until_nul (suffix ++ repeat 0 k) = suffix.
Proof.
  induction suffix as [|c suffix IH]; intros k F; [destruct k; reflexivity|]. inversion F as [|? ? S1 F']; subst. cbn [app until_nul].
  destruct (N.eqb_spec c 0) as [->|]; [unfold suffix_character in S1; lia|]. now rewrite IH.
Qed.
Lemma series_strings_ok : forallb (fun '(se, ve, vs) =>
  match rd vendor_strings (N.to_nat ve), rd series_strings (N.to_nat se) with
  | Ok v, Ok (Some s) => same (text vs) (v ++ [32] ++ s) && (N.of_nat (length (text vs)) <=? 22)
  | _, _ => false
  end && negb (se =? 0) && (ve <? N.of_nat (length vendor_strings)) && (se <? N.of_nat (length series_strings))) series_names = true.
Proof. vm_compute. reflexivity. Qed.
Lemma decimal_length : forall fuel n, (length (decimal fuel n) <= fuel)%nat.
Proof.
  induction fuel as [|fuel IH]; intros n; [cbn; lia|]. cbn [decimal]. destruct (n <? 10); [cbn; lia|]. rewrite app_length. cbn [length]. specialize (IH (n / 10)). lia.
Qed.
Lemma chip_name_called c name : called c name -> chip_name c = Ok name /\ (length name <= 47)%nat.
Proof.
  intros [N1|[N1|[-> ->]]]; [| |split; [vm_compute; reflexivity|vm_compute; lia]].
  - destruct N1 as (vs & ds & x & I & D & Z & B & (Fx & Lx & Ax) & ->). pose proof series_strings_ok as S0. rewrite forallb_forall in S0. specialize (S0 _ I). cbv beta iota in S0.
    rewrite !Bool.andb_true_iff, Bool.negb_true_iff, !N.ltb_lt in S0. destruct S0 as [[[S0 Zs] Bv] Bs].
    destruct (rd vendor_strings (N.to_nat (chp_vendor c))) as [v| |] eqn:Ev; try discriminate.
    destruct (rd series_strings (N.to_nat (chp_series c))) as [[s|]| |] eqn:Es; try discriminate. rewrite Bool.andb_true_iff, same_iff, N.leb_le in S0. destruct S0 as [E L].
    apply numeral_decimal in D; [|exact B]. pose proof (decimal_length 10 (chp_model c)) as Ld. rewrite <- D in Ld.
    assert (Ln : (length (text vs ++ ds ++ x) <= 47)%nat) by (rewrite !app_length; lia). split; [|exact Ln].
    unfold chip_name. rewrite (proj2 (N.leb_gt _ _) Bv), (proj2 (N.leb_gt _ _) Bs), Ev, Es. cbn [bind]. rewrite (proj2 (N.eqb_neq _ _) Z).
    rewrite Ax, until_nul_suffix by exact Fx. rewrite <- D. f_equal. replace (v ++ [32] ++ s ++ ds ++ x) with (text vs ++ ds ++ x) by (rewrite E, <- !app_assoc; reflexivity). now apply firstn_all2.
  - destruct N1 as (vs & x & I & Z & _ & ->). pose proof series_strings_ok as S0. rewrite forallb_forall in S0. specialize (S0 _ I). cbv beta iota in S0.
    rewrite !Bool.andb_true_iff, Bool.negb_true_iff, !N.ltb_lt in S0. destruct S0 as [[[S0 Zs] Bv] Bs].
    destruct (rd vendor_strings (N.to_nat (chp_vendor c))) as [v| |] eqn:Ev; try discriminate.
    destruct (rd series_strings (N.to_nat (chp_series c))) as [[s|]| |] eqn:Es; try discriminate. rewrite Bool.andb_true_iff, same_iff, N.leb_le in S0. destruct S0 as [E L].
    assert (Ln : (length (text vs) <= 47)%nat) by lia. split; [|exact Ln].
    unfold chip_name. rewrite (proj2 (N.leb_gt _ _) Bv), (proj2 (N.leb_gt _ _) Bs), Ev, Es. cbn [bind]. rewrite Z. change se_unknown with 0. rewrite Zs.
    change (0 =? 0) with true. cbv iota. f_equal. rewrite <- E. now apply firstn_all2.
Qed.
