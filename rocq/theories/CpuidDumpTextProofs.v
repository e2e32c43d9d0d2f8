(** Proofs about the text of a CPUID recording and the script that reads it. *)
From Coq Require Import Sorted Lia ZifyBool ZifyNat ZifyN Arith.
From Verif Require Import Base BaseProofs Text X86DescriptorModel X86DecodeModel ArmCpuinfoSpec CpuidDumpModel CpuidDumpSpec CpuidDumpProofs.
Open Scope N_scope.

(** ** Hexadecimal numbers *)
Lemma hex_snoc : forall ds c, hex_number (ds ++ [c]) = hex_number ds * 16 + nibble c.
Proof. intros. unfold hex_number. rewrite fold_left_app. reflexivity. Qed.

Lemma hex_digit_ok : forall d, d < 16 -> is_upper_hex (hex_digit d) /\ nibble (hex_digit d) = d /\ (d <> 0 -> hex_digit d <> 48).
Proof.
  intros d H. unfold hex_digit, is_upper_hex, nibble. destruct (d <? 10) eqn:E.
  - assert (E2 : (48 + d <=? 57) = true) by lia. rewrite E2. repeat split; lia.
  - assert (E2 : (55 + d <=? 57) = false) by lia. assert (E3 : (55 + d <=? 70) = true) by lia. rewrite E2, E3. repeat split; lia.
Qed.

Lemma low_nibble : forall n, N.land n 0xF = n mod 16.
Proof. intros. change 0xF with (N.ones 4). rewrite N.land_ones. reflexivity. Qed.
Lemma high_part : forall n, N.shiftr n 4 = n / 16.
Proof. intros. rewrite N.shiftr_div_pow2. reflexivity. Qed.

Lemma hex_from_spec : forall f n after, (0 < f)%nat -> n < 16 ^ N.of_nat f ->
  exists ds, hex_from f n after = ds ++ after /\ Forall is_upper_hex ds /\ hex_number ds = n /\
    (1 <= length ds <= f)%nat /\ (n <> 0 -> hd 0 ds <> 48) /\ (n = 0 -> length ds = 1%nat).
Proof.
  induction f as [|f IH]; intros n after Hf Hn; [lia|]. cbn [hex_from]. rewrite low_nibble, high_part.
  pose proof (N.mod_lt n 16 ltac:(lia)) as Hd. destruct (hex_digit_ok _ Hd) as (H1 & H2 & H3).
  destruct (n / 16 =? 0) eqn:E.
  - apply N.eqb_eq in E. exists [hex_digit (n mod 16)]. pose proof (N.div_mod n 16). repeat split; cbn [length]; try lia.
    + constructor; [exact H1|constructor].
    + unfold hex_number. cbn. rewrite H2. lia.
    + intros Hz. cbn. apply H3. lia.
  - apply N.eqb_neq in E. destruct f as [|f].
    { exfalso. apply E. apply N.div_small. exact Hn. }
    destruct (IH (n / 16) (hex_digit (n mod 16) :: after)) as (ds & D1 & D2 & D3 & D4 & D5 & D6); [lia| |].
    { apply N.div_lt_upper_bound; [lia|]. rewrite <- N.pow_succ_r'. replace (N.succ (N.of_nat (S f))) with (N.of_nat (S (S f))) by lia. exact Hn. }
    exists (ds ++ [hex_digit (n mod 16)]). rewrite D1. split; [rewrite <- app_assoc; reflexivity|]. split; [|split; [|split; [|split]]].
    + apply Forall_app. split; [exact D2|]. constructor; [exact H1|constructor].
    + rewrite hex_snoc, D3, H2. pose proof (N.div_mod n 16). lia.
    + rewrite app_length. cbn. lia.
    + intros _. destruct ds as [|c ds]; [cbn in D4; lia|]. cbn. cbn in D5. apply D5. exact E.
    + intros ->. exfalso. apply E. reflexivity.
Qed.

Lemma hex_zeros : forall k ds, hex_number (repeat 48 k ++ ds) = hex_number ds.
Proof. induction k as [|k IH]; intros ds; [reflexivity|]. cbn [repeat app]. unfold hex_number in *. cbn [fold_left]. exact (IH ds). Qed.

Lemma hex_ok : forall w n, (1 <= w)%nat -> n < two32 -> hex_text w n (hex w n) /\ (length (hex w n) <= Nat.max w 8)%nat.
Proof.
  intros w n Hw Hn. unfold hex. cbv zeta.
  destruct (hex_from_spec 8 n []) as (ds & D1 & D2 & D3 & D4 & D5 & D6); [lia|exact Hn|].
  rewrite app_nil_r in D1. rewrite D1. rewrite app_length, repeat_length. split; [|lia]. split; [|split; [|split]].
  - apply Forall_app. split; [|exact D2]. apply Forall_forall. intros c Hc. apply repeat_spec in Hc. subst c. left. lia.
  - rewrite hex_zeros. exact D3.
  - rewrite app_length, repeat_length. lia.
  - rewrite app_length, repeat_length. intros Hlt. assert (E : (w - length ds = 0)%nat) by lia. rewrite E. cbn [repeat app]. apply D5.
    intros Hz. specialize (D6 Hz). lia.
Qed.
Lemma hex8_length : forall n, n < two32 -> length (hex 8 n) = 8%nat.
Proof. intros n H. destruct (hex_ok 8 n) as [(_ & _ & H1 & _) H2]; [lia|exact H|]. lia. Qed.

(** ** Strings in registers *)
Lemma word_bytes_text : forall w, word_bytes w = register_text w.
Proof.
  intros w. unfold word_bytes, register_text. cbn [map]. change 0xFF with (N.ones 8). rewrite !N.land_ones, !N.shiftr_div_pow2.
  change (2 ^ 8) with 256. change (256 ^ 0) with 1. rewrite N.div_1_r. reflexivity.
Qed.
Lemma until_null_split : forall s, ~ In 0 (until_null s) /\ (until_null s = s \/ exists rest, s = until_null s ++ 0 :: rest).
Proof.
  induction s as [|c s IH]; [split; [cbn; tauto|left; reflexivity]|]. cbn [until_null]. destruct (c =? 0) eqn:E.
  - apply N.eqb_eq in E. subst c. split; [cbn; tauto|]. right. exists s. reflexivity.
  - apply N.eqb_neq in E. destruct IH as [IH1 IH2]. split; [cbn; intros [|]; congruence || tauto|].
    destruct IH2 as [IH2|(rest & IH2)]; [left; rewrite IH2; reflexivity|]. right. exists rest. cbn. rewrite <- IH2. reflexivity.
Qed.
Lemma until_null_string : forall s, string_in s (until_null s).
Proof.
  intros s. destruct (until_null_split s) as [H [E|(rest & E)]].
  - rewrite E in *. apply full_string. exact H.
  - pattern s at 1. rewrite E. apply ended_string. exact H.
Qed.
Lemma until_null_in : forall s c, In c (until_null s) -> In c s.
Proof. induction s as [|d s IH]; cbn; intros c; [tauto|]. destruct (d =? 0); cbn; [tauto|]. intros [|]; auto. Qed.
Lemma until_null_length : forall s, (length (until_null s) <= length s)%nat.
Proof. induction s as [|d s IH]; cbn; [lia|]. destruct (d =? 0); cbn; lia. Qed.

(** ** One line *)
(** What follows the registers. *)
Definition after_regs (l : line) : list N :=
  match l with
  | Plain _ _ => []
  | Sub _ sub _ => text " [SL " ++ hex 2 sub ++ text "]"
  | Vendor _ r => if negb (N.lor (N.lor (ebx r) (ecx r)) (edx r) =? 0) then text " [" ++ until_null (vendor_text r) ++ text "]" else []
  | Brand _ r => text " [" ++ until_null (brand_text r) ++ text "]"
  end.
Definition leaf_of (l : line) : N := fst (fst (reading_of l)).
Definition regs_of (l : line) : regs := snd (reading_of l).
Definition sub_of (l : line) : N := snd (fst (reading_of l)).

Lemma print_line_split : forall l, print_line l = (print_regs (leaf_of l) (regs_of l) ++ after_regs l) ++ [10].
Proof.
  intros [leaf r|leaf sub r|leaf r|leaf r]; unfold leaf_of, regs_of; cbn [print_line after_regs reading_of fst snd].
  - rewrite app_nil_r. reflexivity.
  - rewrite <- !app_assoc. reflexivity.
  - rewrite !word_bytes_text. fold (vendor_text r). destruct (negb _); [|rewrite app_nil_r; reflexivity]. rewrite <- !app_assoc. reflexivity.
  - rewrite !word_bytes_text. fold (brand_text r). rewrite <- !app_assoc. reflexivity.
Qed.

Lemma lor3_zero : forall a b c, (N.lor (N.lor a b) c =? 0) = true <-> a = 0 /\ b = 0 /\ c = 0.
Proof. intros. rewrite N.eqb_eq, !N.lor_eq_0_iff. tauto. Qed.

Lemma print_line_ok : forall l, well_formed l -> leaf_of l < two32 -> sub_of l < two32 -> narrow (regs_of l) ->
  line_of (reading_of l) (print_regs (leaf_of l) (regs_of l) ++ after_regs l).
Proof.
  intros l Hwf Hl Hs (Ha & Hb & Hc & Hd). assert (E : reading_of l = (leaf_of l, sub_of l, regs_of l)) by (destruct l; reflexivity).
  rewrite E. cbn [line_of].
  exists (hex 8 (leaf_of l)), (hex 8 (eax (regs_of l))), (hex 8 (ebx (regs_of l))), (hex 8 (ecx (regs_of l))), (hex 8 (edx (regs_of l))), (after_regs l).
  split; [unfold print_regs; rewrite <- !app_assoc; reflexivity|].
  do 5 (split; [apply hex_ok; [lia|assumption]|]). do 5 (split; [apply hex8_length; assumption|]).
  clear E. destruct l as [leaf r|leaf sub r|leaf r|leaf r]; unfold leaf_of, sub_of, regs_of in *; cbn [reading_of fst snd after_regs well_formed] in *.
  - apply no_remark; tauto.
  - apply remark_sub; [exact Hwf|]. apply hex_ok; [lia|exact Hs].
  - destruct (N.lor (N.lor (ebx r) (ecx r)) (edx r) =? 0) eqn:E; cbn [negb].
    + apply lor3_zero in E. apply remark_no_vendor; tauto.
    + apply remark_vendor; [exact Hwf| |apply until_null_string].
      destruct (N.eq_dec (ebx r) 0); [|tauto]. destruct (N.eq_dec (ecx r) 0); [|tauto]. destruct (N.eq_dec (edx r) 0); [|tauto].
      assert (F : (N.lor (N.lor (ebx r) (ecx r)) (edx r) =? 0) = true) by (apply lor3_zero; tauto). rewrite F in E. discriminate.
  - apply remark_brand; [exact Hwf|apply until_null_string].
Qed.

Definition body (l : line) : list N := print_regs (leaf_of l) (regs_of l) ++ after_regs l.
Lemma dump_text_bodies : forall ls, flat_map print_line ls = flat_map (fun b => b ++ [10]) (map body ls).
Proof. induction ls as [|l ls IH]; [reflexivity|]. cbn. rewrite print_line_split, IH. reflexivity. Qed.

(** The lines of a recording have readings of their processor. *)
Definition fits (m : cpu) (l : line) : Prop :=
  well_formed l /\ leaf_of l < two32 /\ sub_of l < two32 /\ regs_of l = cpuidex m (leaf_of l) (sub_of l) /\ narrow (regs_of l) /\
  exists_in m (leaf_of l) (sub_of l).

Lemma exists_in_small : forall m l s, sane m -> exists_in m l s -> l < two32 /\ s < two32.
Proof.
  intros m l s [Hw Hb] H.
  assert (He : highest_extended m < two32) by apply Hw.
  assert (Hx : forall leaf, eax (cpuidex m leaf 0) < two32) by (intros leaf; apply (proj1 (Hw leaf 0))).
  rewrite two32_val in *. destruct H; rewrite ?two32_val in *; try (split; lia). specialize (Hx leaf). split; lia.
Qed.

Lemma dump_fits : forall m f ls, sane m -> dump m f = Some ls -> Forall (fits m) ls.
Proof.
  intros m f ls Hs H. destruct (dump_ok m f ls Hs H) as [[T _] W]. apply Forall_forall. intros l Hl.
  assert (Hin : In (leaf_of l, sub_of l, regs_of l) (map reading_of ls)).
  { apply in_map_iff. exists l. split; [destruct l; reflexivity|exact Hl]. }
  apply T in Hin. destruct Hin as [He Er]. destruct (exists_in_small _ _ _ Hs He).
  repeat split; try assumption; [eapply Forall_forall in W; eassumption| | | |]; rewrite Er; apply Hs.
Qed.

Theorem dump_lines : forall m f t, sane m -> dump_text m f = Some t ->
  exists rs lines, transcript m rs /\ Forall2 line_of rs lines /\ t = flat_map (fun l => l ++ [10]) lines.
Proof.
  intros m f t Hs H. unfold dump_text in H. destruct (dump m f) as [ls|] eqn:E; [|discriminate]. injection H as <-.
  exists (map reading_of ls), (map body ls). split; [apply (dump_ok m f ls Hs E)|]. split; [|apply dump_text_bodies].
  pose proof (dump_fits _ _ _ Hs E) as F. clear E. induction F as [|l ls Hl F IH]; cbn; constructor; [|exact IH].
  destruct Hl as (H1 & H2 & H3 & H4 & H5 & _). apply print_line_ok; assumption.
Qed.
