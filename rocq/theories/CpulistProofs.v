(** Lemmas about numbers, CPU-list entries and CPU-list files. *)
From Verif Require Import Base BaseProofs LinuxTextModel LinuxTextSpec LinuxTextProofs.
Open Scope N_scope.
Ltac Zify.zify_post_hook ::= Z.div_mod_to_equations.

Lemma digit_of_digit sg c : is_digit c -> digit_of sg c = c - 48.
Proof.
  unfold is_digit, digit_of, char_to_u32, sub32, u32, chr_zero, two32. intros H.
  replace (128 <=? c) with false by lia. rewrite andb_false_r. lia.
Qed.

Lemma digit_of_nondigit sg c : c < 256 -> ~ is_digit c -> 10 <= digit_of sg c.
Proof.
  unfold is_digit, digit_of, char_to_u32, sub32, u32, chr_zero, two32. intros H1 H2.
  destruct sg; cbn [andb]; [destruct (N.leb_spec 128 c)|]; lia.
Qed.

Lemma digit_of_lt sg c : c < 256 -> (digit_of sg c < 10 <-> is_digit c).
Proof.
  intros Hc. split; intros H.
  - destruct (N.le_gt_cases 48 c) as [H1|H1], (N.le_gt_cases c 57) as [H2|H2];
      try (split; assumption);
      (exfalso; assert (10 <= digit_of sg c) by (apply digit_of_nondigit; [exact Hc|unfold is_digit; lia]); lia).
  - rewrite digit_of_digit by exact H. unfold is_digit in H. lia.
Qed.

Lemma dec_value_app a b : 
  dec_value (a ++ b) = fold_left (fun acc c => acc * 10 + (c - 48)) b (dec_value a).
Proof. unfold dec_value. now rewrite fold_left_app. Qed.

Lemma parse_number_from_digits sg : forall ds acc r,
  Forall is_digit ds -> bytes r -> ~ starts_with_digit r ->
  parse_number_from sg (u32 acc) (ds ++ r) =
  (u32 (fold_left (fun acc c => acc * 10 + (c - 48)) ds acc), r).
Proof.
  induction ds as [|d ds IH]; intros acc r Hd Hb Hr; cbn [app fold_left].
  - destruct r as [|c r]; cbn [parse_number_from]; [reflexivity|].
    inversion Hb; subst. replace (10 <=? digit_of sg c) with true; [reflexivity|].
    symmetry; apply N.leb_le. apply digit_of_nondigit; [assumption|].
    intros Hc; apply Hr; exists c, r; auto.
  - inversion Hd as [|? ? H1 H2]; subst. cbn [parse_number_from].
    rewrite digit_of_digit by exact H1.
    replace (10 <=? d - 48) with false by (unfold is_digit in H1; lia).
    assert (E : u32 (u32 (u32 acc * 10) + (d - 48)) = u32 (acc * 10 + (d - 48))).
    { unfold u32. rewrite N.mul_mod_idemp_l by discriminate.
      now rewrite N.add_mod_idemp_l by discriminate. }
    rewrite E. apply IH; assumption.
Qed.

Lemma parse_number_digits sg ds r :
  Forall is_digit ds -> bytes r -> ~ starts_with_digit r ->
  parse_number sg (ds ++ r) = (u32 (dec_value ds), r).
Proof. intros. unfold parse_number. change 0 with (u32 0) at 1. now apply parse_number_from_digits. Qed.

Lemma parse_number_none sg r :
  bytes r -> ~ starts_with_digit r -> parse_number sg r = (0, r).
Proof. intros H1 H2. exact (parse_number_digits sg [] r (Forall_nil _) H1 H2). Qed.

Lemma no_start_nil : ~ starts_with_digit [].
Proof. intros (c & s & H & _). discriminate. Qed.

Lemma no_start_cons c s : ~ is_digit c -> ~ starts_with_digit (c :: s).
Proof. intros Hc (d & s' & H & Hd). injection H as -> ->. tauto. Qed.

Lemma blank_ws c : is_whitespace c = true <-> is_blank c.
Proof.
  unfold is_whitespace, is_blank, chr_space, chr_tab, chr_nl, chr_cr. 
  rewrite !orb_true_iff, !N.eqb_eq. tauto.
Qed.

Lemma blank_ws_false c : is_whitespace c = false <-> ~ is_blank c.
Proof. rewrite <- blank_ws. destruct (is_whitespace c); intuition congruence. Qed.

Lemma digit_not_blank c : is_digit c -> ~ is_blank c.
Proof. unfold is_digit, is_blank; lia. Qed.

Lemma drop_ws_blanks b s : blanks b -> drop_ws (b ++ s) = drop_ws s.
Proof.
  induction 1 as [|c b Hc _ IH]; cbn; [reflexivity|].
  apply blank_ws in Hc. rewrite Hc. exact IH.
Qed.

Lemma drop_ws_nonblank c s : ~ is_blank c -> drop_ws (c :: s) = c :: s.
Proof. intros H; apply blank_ws_false in H; cbn; now rewrite H. Qed.

Lemma blanks_rev b : blanks b -> blanks (rev b).
Proof. apply Forall_rev. Qed.

Lemma trim_blanks b : blanks b -> trim_ws b = [].
Proof.
  intros H. unfold trim_ws. rewrite <- (app_nil_r b) at 1. rewrite drop_ws_blanks by exact H. reflexivity.
Qed.

(** Text between blanks: [s] starts with the non-blank [c]; what trimming keeps
    of the rest is some prefix of it whose removed tail is blank. *)
Lemma drop_ws_split s : exists b, blanks b /\ s = b ++ drop_ws s /\
  (drop_ws s = [] \/ exists c t, drop_ws s = c :: t /\ ~ is_blank c).
Proof.
  induction s as [|c s (b & Hb & Hs & Hc)]; [exists []; repeat split; [constructor|auto]|].
  cbn. destruct (is_whitespace c) eqn:E.
  - apply blank_ws in E. exists (c :: b). split; [constructor; assumption|].
    split; [cbn; now rewrite <- Hs|exact Hc].
  - apply blank_ws_false in E. exists []. split; [constructor|]. split; [reflexivity|]. right; eauto.
Qed.

Definition ends_nonblank (s : list N) : Prop := exists t c, s = t ++ [c] /\ ~ is_blank c.

Lemma trim_exact b1 s b2 c t :
  blanks b1 -> blanks b2 -> s = c :: t -> ~ is_blank c -> ends_nonblank s ->
  trim_ws (b1 ++ s ++ b2) = s.
Proof.
  intros H1 H2 Hs Hc (u & d & Hu & Hd). unfold trim_ws.
  rewrite drop_ws_blanks by exact H1.
  assert (E : drop_ws (s ++ b2) = s ++ b2) by (subst s; cbn [app]; now apply drop_ws_nonblank).
  rewrite E, rev_app_distr, drop_ws_blanks by (apply blanks_rev; exact H2).
  rewrite Hu at 1. rewrite rev_app_distr. cbn [rev app]. rewrite drop_ws_nonblank by exact Hd.
  rewrite Hu. cbn [rev]. now rewrite rev_involutive.
Qed.

(** Any text is blanks, then either nothing or a trimmed text, then blanks. *)
Lemma trim_split s : exists b1 b2, blanks b1 /\ blanks b2 /\ s = b1 ++ trim_ws s ++ b2 /\
  (trim_ws s = [] \/ (exists c t, trim_ws s = c :: t /\ ~ is_blank c) /\ ends_nonblank (trim_ws s)).
Proof.
  destruct (drop_ws_split s) as (b1 & Hb1 & Hs & Hc).
  destruct (drop_ws_split (rev (drop_ws s))) as (b2 & Hb2 & Hs2 & Hc2).
  exists b1, (rev b2). split; [exact Hb1|]. split; [now apply blanks_rev|].
  assert (E : drop_ws s = trim_ws s ++ rev b2).
  { unfold trim_ws. rewrite <- rev_app_distr, <- Hs2, rev_involutive. reflexivity. }
  split; [rewrite <- E; exact Hs|].
  unfold trim_ws in *. destruct Hc2 as [Hn|(c & t & Ht & Hcb)].
  - left. now rewrite Hn.
  - right. split.
    + destruct Hc as [Hn|(c' & t' & Ht' & Hcb')].
      * rewrite Hn in Ht. discriminate.
      * rewrite Ht in *. cbn [rev] in *. destruct (rev t) as [|x l] eqn:R; cbn [app] in *.
        -- exists c, []. split; [reflexivity|exact Hcb].
        -- rewrite Ht' in E. injection E as <- _. exists c', (l ++ [c]). auto.
    + exists (rev t), c. rewrite Ht. cbn. auto.
Qed.

Lemma decimal_ends ds : is_decimal ds -> ends_nonblank ds.
Proof.
  intros (Hne & Hf). destruct (exists_last Hne) as (t & c & ->). exists t, c. split; [reflexivity|].
  apply digit_not_blank. apply Forall_app in Hf as (_ & Hf). now inversion Hf.
Qed.

Lemma decimal_starts ds : is_decimal ds -> exists c t, ds = c :: t /\ is_digit c.
Proof. intros (Hne & Hf). destruct ds as [|c t]; [congruence|]. inversion Hf; subst. eauto. Qed.

Lemma ends_app a b : ends_nonblank b -> ends_nonblank (a ++ b).
Proof. intros (t & c & -> & Hc). exists (a ++ t), c. now rewrite app_assoc. Qed.

Lemma blanks_no_digit b : blanks b -> ~ starts_with_digit b.
Proof. intros Hb (c & s & -> & Hc). inversion Hb; subst. now apply digit_not_blank in Hc. Qed.

Lemma digit_bytes ds : Forall is_digit ds -> bytes ds.
Proof. apply Forall_impl. unfold is_digit. lia. Qed.

Lemma app_neq_self A (a b : list A) : a <> [] -> length b <> length (a ++ b).
Proof. destruct a; [congruence|]. intros _. rewrite app_length. cbn. lia. Qed.

Section ENTRY.
  Context {S : Type} (cb : S -> N -> N -> bool * S) (sg : bool).

  Lemma entry_good text first last ctx :
    cpu_entry text first last -> last < u32max ->
    parse_entry cb sg ctx text = cb ctx first (last + 1).
  Proof.
    intros H Hl. destruct H as [b1 ds b2 H1 H2 H3|b1 ds es b2 H1 H2 H3 H4 H5]; unfold parse_entry.
    - destruct (decimal_starts ds H2) as (c & t & Hds & Hc).
      rewrite (trim_exact b1 ds b2 c t H1 H3 Hds (digit_not_blank c Hc) (decimal_ends ds H2)).
      assert (E : parse_number sg ds = (dec_value ds, [])).
      { rewrite <- (app_nil_r ds) at 1. rewrite parse_number_digits; [|apply H2|constructor|apply no_start_nil].
        now rewrite u32_small by (unfold two32, u32max in *; lia). }
      rewrite Hds in *. rewrite E. cbn [length Nat.eqb].
      rewrite u32_small by (unfold two32, u32max in *; lia). reflexivity.
    - destruct (decimal_starts ds H2) as (c & t & Hds & Hc).
      replace (b1 ++ ds ++ 45 :: es ++ b2) with (b1 ++ (ds ++ 45 :: es) ++ b2)
        by (rewrite <- !app_assoc; cbn; rewrite <- ?app_assoc; reflexivity).
      rewrite (trim_exact b1 (ds ++ 45 :: es) b2 c (t ++ 45 :: es) H1 H4);
        [|rewrite Hds; reflexivity|apply digit_not_blank; exact Hc
         |apply ends_app; change (45 :: es) with ([45] ++ es); apply ends_app; now apply decimal_ends].
      assert (Hb : bytes (45 :: es)).
      { constructor; [reflexivity|]. apply digit_bytes, H3. }
      assert (E : parse_number sg (ds ++ 45 :: es) = (dec_value ds, 45 :: es)).
      { rewrite parse_number_digits; [|apply H2|exact Hb|apply no_start_cons; unfold is_digit; lia].
        now rewrite u32_small by (unfold two32, u32max in *; lia). }
      assert (E2 : parse_number sg es = (dec_value es, [])).
      { rewrite <- (app_nil_r es) at 1. rewrite parse_number_digits; [|apply H3|constructor|apply no_start_nil].
        now rewrite u32_small by (unfold two32, u32max in *; lia). }
      rewrite E. destruct (ds ++ 45 :: es) as [|x l] eqn:Ed; [destruct ds; discriminate|].
      rewrite <- Ed. destruct (Nat.eqb_spec (length (45 :: es)) (length (ds ++ 45 :: es))) as [He|_].
      { exfalso; revert He. apply app_neq_self, H2. }
      unfold chr_dash. rewrite N.eqb_refl. cbn [negb]. rewrite E2.
      destruct (decimal_starts es H3) as (c' & t' & Hes & _). rewrite Hes at 1. cbn [length Nat.eqb].
      replace (dec_value es <? dec_value ds) with false by lia.
      rewrite u32_small by (unfold two32, u32max in *; lia). reflexivity.
  Qed.

  (** What parse_entry does on a trimmed text, by shape. *)
  Lemma entry_bad text ctx : bytes text -> bad_entry text ->
    (forall b1 ds s, text = b1 ++ ds ++ s -> blanks b1 -> is_decimal ds -> dec_value ds < two32) ->
    parse_entry cb sg ctx text = (false, ctx).
  Proof.
    intros Hby H Hbig. unfold parse_entry.
    destruct (trim_split text) as (w1 & w2 & Hw1 & Hw2 & Htx & Hsh).
    set (e := trim_ws text) in *. clearbody e.
    destruct Hsh as [->|((c & t & He & Hc) & Hends)]; [reflexivity|].
    assert (Hbe : bytes e) by (rewrite Htx in Hby; unfold bytes in Hby; rewrite !Forall_app in Hby; tauto).
    (* the shape of [e] follows from uniqueness of the leading blanks *)
    assert (Huniq : forall b x s, blanks b -> ~ is_blank x -> b ++ x :: s = w1 ++ e ++ w2 -> b = w1 /\ x :: s = e ++ w2).
    { clear -Hw1 He Hc. rewrite He. clear He. revert w1 Hw1. intros w1 Hw1 b. revert w1 Hw1.
      induction b as [|y b IH]; intros w1 Hw1 x s Hb Hx Heq.
      - destruct w1 as [|z w1]; [cbn in *; auto|].
        cbn in Heq. injection Heq as -> _. inversion Hw1; subst; tauto.
      - destruct w1 as [|z w1]; cbn in Heq.
        + injection Heq as -> _. inversion Hb; subst; tauto.
        + injection Heq as -> Heq. inversion Hb; inversion Hw1; subst.
          destruct (IH w1 H6 x s H2 Hx Heq) as (-> & ->). auto. }
    rewrite He at 1.
    destruct H as [b Hb|b1 x s Hb1 Hnb Hnd|b1 ds x s Hb1 Hds Hx Hxd Hnb|b1 ds s Hb1 Hds Hs
                  |b1 ds es s Hb1 Hds Hes Hs Hlt].
    - exfalso. rewrite Htx, He in Hb. unfold blanks in Hb. rewrite !Forall_app in Hb.
      destruct Hb as (_ & Hb & _). inversion Hb; subst; tauto.
    - destruct (Huniq b1 x s Hb1 Hnb Htx) as (_ & Hxs). rewrite He in Hxs. injection Hxs as <- _.
      rewrite He. rewrite (parse_number_none sg (x :: t));
        [|rewrite <- He; exact Hbe|now apply no_start_cons].
      cbn [fst]. now rewrite Nat.eqb_refl.
    - destruct (decimal_starts ds Hds) as (d & dt & Hdd & Hd).
      assert (Heq : x :: s = x :: s) by reflexivity.
      rewrite Hdd in Htx. cbn [app] in Htx.
      destruct (Huniq b1 d (dt ++ x :: s) Hb1 (digit_not_blank d Hd) Htx) as (_ & H2).
      change (d :: dt ++ x :: s) with ((d :: dt) ++ x :: s) in H2. rewrite <- Hdd in H2.
      (* [e] is ds ++ x :: s' *)
      assert (He2 : exists s', e = ds ++ x :: s').
      { assert (Hlen : (length ds < length e)%nat).
        { apply f_equal with (f := @length N) in H2 as Hl2. rewrite !app_length in Hl2. cbn in Hl2.
          destruct (Nat.lt_ge_cases (length ds) (length e)) as [|Hge]; [assumption|exfalso].
          destruct (app_prefix _ e ds (x :: s) w2 H2 Hge) as (k & Hk).
          rewrite Hk, <- app_assoc in H2. apply app_inv_head in H2.
          apply Hnb. rewrite <- H2 in Hw2. unfold blanks in *. rewrite Forall_app in Hw2. tauto. }
        destruct (app_prefix _ ds e w2 (x :: s) (eq_sym H2) ltac:(lia)) as (k & Hk).
        rewrite Hk in H2, Hlen. rewrite <- app_assoc in H2. apply app_inv_head in H2.
        destruct k as [|y k]; [rewrite app_nil_r in Hlen; lia|]. cbn in H2. injection H2 as <- _.
        exists k; exact Hk. }
      destruct He2 as (s' & He2). rewrite He2 in *.
      unfold bytes in Hbe. rewrite Forall_app in Hbe.
      rewrite parse_number_digits; [|apply Hds|apply Hbe|now apply no_start_cons].
      destruct (Nat.eqb_spec (length (x :: s')) (length (ds ++ x :: s'))) as [Hq|_]; [reflexivity|].
      unfold chr_dash. destruct (N.eqb_spec x 45); [congruence|reflexivity].
    - destruct (decimal_starts ds Hds) as (d & dt & Hdd & Hd).
      rewrite Hdd in Htx. cbn [app] in Htx.
      destruct (Huniq b1 d (dt ++ 45 :: s) Hb1 (digit_not_blank d Hd) Htx) as (_ & H2).
      change (d :: dt ++ 45 :: s) with ((d :: dt) ++ 45 :: s) in H2. rewrite <- Hdd in H2.
      assert (He2 : exists s', e = ds ++ 45 :: s' /\ s = s' ++ w2).
      { assert (Hlen : (length ds < length e)%nat).
        { destruct (Nat.lt_ge_cases (length ds) (length e)) as [|Hge]; [assumption|exfalso].
          destruct (app_prefix _ e ds (45 :: s) w2 H2 Hge) as (k & Hk).
          rewrite Hk, <- app_assoc in H2. apply app_inv_head in H2.
          rewrite <- H2 in Hw2. unfold blanks in Hw2. rewrite Forall_app in Hw2.
          destruct Hw2 as (_ & Hw2). inversion Hw2; subst. unfold is_blank in *; lia. }
        destruct (app_prefix _ ds e w2 (45 :: s) (eq_sym H2) ltac:(lia)) as (k & Hk).
        rewrite Hk in H2, Hlen. rewrite <- app_assoc in H2. apply app_inv_head in H2.
        destruct k as [|y k]; [rewrite app_nil_r in Hlen; lia|]. cbn in H2. injection H2 as <- ->.
        exists k; auto. }
      destruct He2 as (s' & He2 & Hs'). rewrite He2 in *.
      assert (Hns : ~ starts_with_digit s').
      { intros (z & z' & -> & Hz). apply Hs. subst s. exists z, (z' ++ w2); auto. }
      unfold bytes in Hbe. rewrite Forall_app in Hbe. destruct Hbe as (_ & Hbe).
      rewrite parse_number_digits; [|apply Hds|exact Hbe|apply no_start_cons; unfold is_digit; lia].
      destruct (Nat.eqb_spec (length (45 :: s')) (length (ds ++ 45 :: s'))) as [Hq|_]; [reflexivity|].
      unfold chr_dash. rewrite N.eqb_refl. cbn [negb].
      rewrite (parse_number_none sg s'); [|now inversion Hbe|exact Hns].
      now rewrite Nat.eqb_refl.
    - destruct (decimal_starts ds Hds) as (d & dt & Hdd & Hd).
      assert (Hbigd : dec_value ds < two32) by (apply (Hbig b1 ds (45 :: es ++ s)); auto).
      rewrite Hdd in Htx. cbn [app] in Htx.
      destruct (Huniq b1 d (dt ++ 45 :: es ++ s) Hb1 (digit_not_blank d Hd) Htx) as (_ & H2).
      change (d :: dt ++ 45 :: es ++ s) with ((d :: dt) ++ 45 :: es ++ s) in H2. rewrite <- Hdd in H2.
      assert (He2 : exists s', e = ds ++ 45 :: es ++ s' /\ s = s' ++ w2).
      { replace (ds ++ 45 :: es ++ s) with ((ds ++ 45 :: es) ++ s) in H2
          by (rewrite <- app_assoc; reflexivity).
        destruct (Nat.le_gt_cases (length (ds ++ 45 :: es)) (length e)) as [Hge|Hge].
        - destruct (app_prefix _ (ds ++ 45 :: es) e w2 s (eq_sym H2) Hge) as (k & Hk).
          exists k. rewrite Hk in H2. rewrite <- (app_assoc (ds ++ 45 :: es) k w2) in H2. apply app_inv_head in H2.
          split; [rewrite Hk, <- app_assoc; reflexivity|exact H2].
        - exfalso. destruct (app_prefix _ e (ds ++ 45 :: es) s w2 H2 ltac:(lia)) as (k & Hk).
          rewrite Hk, <- app_assoc in H2. apply app_inv_head in H2.
          rewrite <- H2 in Hw2. unfold blanks in Hw2. rewrite Forall_app in Hw2. destruct Hw2 as (Hk2 & _).
          destruct k as [|z k]; [rewrite app_nil_r in Hk; rewrite Hk in Hge; lia|].
          destruct (exists_last (l := z :: k)) as (k' & lz & Hkz); [discriminate|].
          assert (Hen : ends_nonblank (ds ++ 45 :: es))
            by (change (45 :: es) with ([45] ++ es); apply ends_app, ends_app, decimal_ends, Hes).
          destruct Hen as (u & v & Huv & Hv). rewrite Hk, Hkz, app_assoc in Huv.
          apply app_inj_tail in Huv as (_ & ->). apply Hv.
          rewrite Hkz, Forall_app in Hk2. destruct Hk2 as (_ & Hk2). now inversion Hk2. }
      destruct He2 as (s' & He2 & Hs'). rewrite He2 in *.
      assert (Hns : ~ starts_with_digit s').
      { intros (z & z' & -> & Hz). apply Hs. subst s. exists z, (z' ++ w2); auto. }
      unfold bytes in Hbe. rewrite Forall_app in Hbe. destruct Hbe as (_ & Hbe).
      rewrite parse_number_digits; [|apply Hds|exact Hbe|apply no_start_cons; unfold is_digit; lia].
      destruct (Nat.eqb_spec (length (45 :: es ++ s')) (length (ds ++ 45 :: es ++ s'))) as [Hq|_]; [reflexivity|].
      unfold chr_dash. rewrite N.eqb_refl. cbn [negb].
      apply Forall_inv_tail in Hbe as H3. rewrite Forall_app in H3.
      rewrite (parse_number_digits sg es s'); [|apply Hes|tauto|exact Hns].
      destruct (Nat.eqb_spec (length s') (length (es ++ s'))); [reflexivity|].
      rewrite !u32_small by lia. replace (dec_value es <? dec_value ds) with true by lia. reflexivity.
  Qed.
End ENTRY.
