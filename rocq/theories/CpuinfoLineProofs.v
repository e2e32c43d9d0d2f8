(** The line splitter never leaves the line and computes [key_value]. *)
From Verif Require Import Base BaseProofs LinuxTextModel CpuinfoLineModel CpuinfoLineSpec.
Open Scope N_scope.

Lemma nth_error_mid A (a : list A) x b : nth_error (a ++ x :: b) (length a) = Some x.
Proof. rewrite nth_error_app2 by lia. now rewrite Nat.sub_diag. Qed.

Lemma scan_fwd_spec stop : forall fuel a b, (length b < fuel)%nat ->
  exists b1 b2, b = b1 ++ b2 /\ Forall (fun c => stop c = false) b1 /\
    (b2 = [] \/ exists c t, b2 = c :: t /\ stop c = true) /\
    scan_fwd fuel stop (a ++ b) (length a) = Ok (length a + length b1)%nat.
Proof.
  induction fuel as [|fuel IH]; intros a b Hf; [lia|]. cbn [scan_fwd].
  destruct b as [|c b].
  - exists [], []. repeat split; auto. rewrite app_nil_r, Nat.eqb_refl. f_equal. cbn. lia.
  - destruct (Nat.eqb_spec (length a) (length (a ++ c :: b))) as [E|_].
    { rewrite app_length in E. cbn in E. lia. }
    unfold rd. rewrite nth_error_mid. cbn [bind]. destruct (stop c) eqn:Hc.
    + exists [], (c :: b). split; [reflexivity|]. split; [constructor|]. split; [right; eauto|]. f_equal; cbn; lia.
    + destruct (IH (a ++ [c]) b) as (b1 & b2 & -> & H1 & H2 & H3); [cbn in Hf; lia|].
      exists (c :: b1), b2. split; [reflexivity|]. split; [now constructor|]. split; [exact H2|].
      rewrite <- app_assoc, app_length in H3. cbn [length app] in H3.
      rewrite Nat.add_1_r in H3. rewrite H3. f_equal. cbn. lia.
Qed.

Lemma scan_back_spec stop : forall fuel a b c, (length b < fuel)%nat ->
  exists b1 b2, b = b1 ++ b2 /\ Forall (fun c => stop c = false) b2 /\
    (b1 = [] \/ exists t x, b1 = t ++ [x] /\ stop x = true) /\
    scan_back fuel stop (a ++ b ++ c) (length a) (length a + length b) = Ok (length a + length b1)%nat.
Proof.
  induction fuel as [|fuel IH]; intros a b c Hf; [lia|]. cbn [scan_back].
  destruct b as [|x b _] using rev_ind.
  - exists [], []. split; [reflexivity|]. split; [constructor|]. split; [now left|]. cbn [length]. rewrite Nat.add_0_r, Nat.eqb_refl. reflexivity.
  - rewrite app_length in *. cbn [length] in *.
    destruct (Nat.eqb_spec (length a + (length b + 1)) (length a)) as [E|_]; [lia|].
    replace (length a + (length b + 1))%nat with (S (length a + length b)) by lia.
    unfold rd. replace (a ++ (b ++ [x]) ++ c) with ((a ++ b) ++ x :: c) by (rewrite <- !app_assoc; reflexivity).
    rewrite <- (app_length a b), nth_error_mid. cbn [bind]. destruct (stop x) eqn:Hx.
    + exists (b ++ [x]), []. split; [now rewrite app_nil_r|]. split; [constructor|].
      split; [right; eauto|]. f_equal. rewrite !app_length. cbn. lia.
    + destruct (IH a b (x :: c)) as (b1 & b2 & -> & H1 & H2 & H3); [lia|].
      exists b1, (b2 ++ [x]). split; [now rewrite app_assoc|].
      split; [apply Forall_app; split; [exact H1|now constructor]|]. split; [exact H2|].
      rewrite <- H3. rewrite app_length. f_equal. now rewrite <- app_assoc.
Qed.

Lemma Forall_not A (P : A -> Prop) l x : Forall P l -> In x l -> P x.
Proof. rewrite Forall_forall. auto. Qed.

(** Decomposition found by the splitter. *)
Lemma split_line_total line :
  (split_line line = Ok None) \/
  exists key value, split_line line = Ok (Some (key, value)) /\ key_value line key value.
Proof.
  unfold split_line. destruct (Nat.eqb_spec (length line) 0); [now left|].
  destruct (scan_fwd_spec (fun c => c =? chr_colon) (S (length line)) [] line ltac:(lia))
    as (k & r & Hl & Hk & Hr & E).
  cbn [length app] in E. rewrite E. cbn [bind]. clear E.
  destruct (Nat.eqb_spec (0 + length k) (length line)); [now left|].
  destruct Hr as [->|(c & t & -> & Hc)]; [rewrite app_nil_r in Hl; subst; cbn in *; lia|].
  apply N.eqb_eq in Hc. subst c.
  destruct (scan_back_spec (fun c => negb (c =? chr_space) && negb (c =? chr_tab)) (S (length line))
              [] k (chr_colon :: t)) as (k1 & pad & Hk1 & Hpad & Hend & E).
  { rewrite Hl, app_length. cbn. lia. }
  cbn [length app] in E. rewrite <- Hl in E. rewrite E. cbn [bind]. clear E.
  destruct (Nat.eqb_spec (0 + length k1) 0); [now left|].
  destruct Hend as [->|(k0 & kc & Hk0 & Hkc)]; [cbn in *; lia|].
  assert (Hline : line = (k ++ [chr_colon]) ++ t) by (rewrite Hl, <- app_assoc; reflexivity).
  destruct (scan_fwd_spec (fun c => negb (c =? chr_space)) (S (length line)) (k ++ [chr_colon]) t)
    as (sp1 & v & Ht & Hsp1 & Hv & E).
  { rewrite Hline, !app_length. cbn. lia. }
  rewrite <- Hline in E. rewrite app_length in E at 1. cbn [length] in E. rewrite Nat.add_1_r in E.
  replace (S (0 + length k)) with (S (length k)) by reflexivity. rewrite E. cbn [bind]. clear E.
  assert (Hlen : length (k ++ [chr_colon]) = S (length k)) by (rewrite app_length; cbn; lia).
  rewrite Hlen.
  destruct (Nat.eqb_spec (S (length k) + length sp1) (length line)); [now left|].
  destruct Hv as [->|(v1 & vt & Hv & Hv1)].
  { exfalso. rewrite Hline, Ht, !app_length in *. cbn in *. lia. }
  set (a := (k ++ [chr_colon]) ++ sp1) in *.
  assert (Ha : length a = (S (length k) + length sp1)%nat) by (unfold a; rewrite app_length; lia).
  assert (Hline2 : line = a ++ v ++ []).
  { unfold a. rewrite Hline, Ht, app_nil_r, <- !app_assoc. reflexivity. }
  destruct (scan_back_spec (fun c => negb (c =? chr_space)) (S (length line)) a v [])
    as (val & sp2 & Hval & Hsp2 & Hvend & E).
  { rewrite Hline2, !app_length. lia. }
  rewrite <- Hline2, <- (app_length a v) in E.
  assert (Hav : length (a ++ v) = length line) by (rewrite Hline2, app_nil_r; reflexivity).
  rewrite Hav in E. rewrite Ha in E at 1. rewrite E. cbn [bind]. clear E.
  right. eexists _, _. split; [reflexivity|].
  assert (Hkey : slice line 0 (0 + length k1) = k1).
  { unfold slice. cbn [skipn]. rewrite Nat.sub_0_r. cbn [plus]. rewrite Hl, Hk1, <- app_assoc.
    rewrite firstn_app, Nat.sub_diag, firstn_all. cbn. now rewrite app_nil_r. }
  assert (Hvalue : slice line (S (length k) + length sp1) (length a + length val) = val).
  { unfold slice. rewrite Ha. replace (S (length k) + length sp1 + length val - (S (length k) + length sp1))%nat with (length val) by lia.
    rewrite Hline2, <- Ha. rewrite skipn_app, Nat.sub_diag, skipn_all. cbn [app skipn].
    rewrite app_nil_r, Hval, firstn_app, Nat.sub_diag, firstn_all. cbn. now rewrite app_nil_r. }
  rewrite Hkey, Hvalue.
  destruct Hvend as [->|(v0 & vc & Hv0 & Hvc)].
  { exfalso. cbn [app] in Hval. subst sp2. rewrite Hv in Hsp2. inversion Hsp2; subst. congruence. }
  apply andb_true_iff in Hkc as (Hk2 & Hk3).
  apply negb_true_iff, N.eqb_neq in Hk2, Hk3, Hvc, Hv1. unfold chr_space, chr_tab in *.
  exists k0, kc, pad, sp1, v0, vc, sp2.
  split; [exact Hk0|]. split; [exact Hk2|]. split; [exact Hk3|].
  split. { eapply Forall_impl; [|exact Hpad]. cbn. intros x Hx.
           destruct (N.eqb_spec x 32); [now left|]. destruct (N.eqb_spec x 9); [now right|discriminate]. }
  split. { rewrite <- Hk1. intros Hi. pose proof (Forall_not _ _ _ _ Hk Hi) as H. discriminate H. }
  split. { eapply Forall_impl; [|exact Hsp1]. cbn. intros x Hx. destruct (N.eqb_spec x 32); [auto|discriminate]. }
  split. { eapply Forall_impl; [|exact Hsp2]. cbn. intros x Hx. destruct (N.eqb_spec x 32); [auto|discriminate]. }
  split; [exact Hv0|]. split; [exact Hvc|]. split.
  - rewrite Hv0 in Hval. rewrite Hv in Hval. destruct v0 as [|y v0]; cbn in *; [exact Hvc|].
    injection Hval as -> _. exact Hv1.
  - rewrite Hl, Hk1, Ht, Hval, <- !app_assoc. reflexivity.
Qed.

(** The decomposition is unique, so the splitter computes it. *)
Lemma no_colon_split : forall a b x y : list N, ~ In 58 a -> ~ In 58 b ->
  a ++ 58 :: x = b ++ 58 :: y -> a = b /\ x = y.
Proof.
  induction a as [|u a IH]; intros [|v b] x y Ha Hb H; cbn in H.
  - injection H as ->. auto.
  - injection H as <- _. exfalso. apply Hb. now left.
  - injection H as -> _. exfalso. apply Ha. now left.
  - injection H as H1 H2. destruct (IH b x y) as (-> & ->); subst; auto; intros Hi; [apply Ha|apply Hb]; now right.
Qed.

Lemma trim_end_unique (P : N -> Prop) : forall a1 c1 p1 a2 c2 p2,
  ~ P c1 -> ~ P c2 -> Forall P p1 -> Forall P p2 ->
  (a1 ++ [c1]) ++ p1 = (a2 ++ [c2]) ++ p2 -> a1 ++ [c1] = a2 ++ [c2] /\ p1 = p2.
Proof.
  intros a1 c1 p1. induction p1 as [|x p1 IH] using rev_ind; intros a2 c2 p2 H1 H2 F1 F2 H.
  - destruct p2 as [|y p2 _] using rev_ind; [rewrite !app_nil_r in H; auto|].
    exfalso. rewrite app_nil_r, app_assoc in H. apply app_inj_tail in H as (_ & ->).
    apply Forall_app in F2 as (_ & F2). inversion F2; auto.
  - destruct p2 as [|y p2 _] using rev_ind.
    + exfalso. rewrite app_nil_r, app_assoc in H. apply app_inj_tail in H as (_ & <-).
      apply Forall_app in F1 as (_ & F1). inversion F1; auto.
    + rewrite !app_assoc in H. apply app_inj_tail in H as (H & ->).
      apply Forall_app in F1 as (F1 & _). apply Forall_app in F2 as (F2 & _).
      destruct (IH a2 c2 p2) as (A & ->); auto.
Qed.

Lemma spaces_prefix_unique : forall s1 s2 v1 v2 c1 c2 t1 t2,
  spaces s1 -> spaces s2 -> v1 = c1 :: t1 -> v2 = c2 :: t2 -> c1 <> 32 -> c2 <> 32 ->
  s1 ++ v1 = s2 ++ v2 -> s1 = s2 /\ v1 = v2.
Proof.
  induction s1 as [|x s1 IH]; intros [|y s2] v1 v2 c1 c2 t1 t2 H1 H2 E1 E2 N1 N2 H; cbn in H; auto.
  - exfalso. subst. injection H as -> _. inversion H2; auto.
  - exfalso. subst. injection H as <- _. inversion H1; auto.
  - injection H as -> H. inversion H1; inversion H2; subst.
    destruct (IH s2 _ _ c1 c2 t1 t2 ltac:(assumption) ltac:(assumption) eq_refl eq_refl N1 N2 H) as (-> & ?).
    auto.
Qed.

Lemma key_value_unique line k v k' v' :
  key_value line k v -> key_value line k' v' -> k = k' /\ v = v'.
Proof.
  intros (k0 & kc & pad & sp1 & v0 & vc & sp2 & Hk & Hkc & Hkc' & Hpad & Hno & Hs1 & Hs2 & Hv & Hvc & Hhd & Hl)
         (k0' & kc2 & pad' & sp1' & v0' & vc' & sp2' & Hk' & Hkc2 & Hkc2' & Hpad' & Hno' & Hs1' & Hs2' & Hv' & Hvc' & Hhd' & Hl').
  rewrite Hl in Hl'.
  assert (E : (k ++ pad) ++ 58 :: (sp1 ++ v ++ sp2) = (k' ++ pad') ++ 58 :: (sp1' ++ v' ++ sp2')).
  { rewrite <- !app_assoc. exact Hl'. }
  apply no_colon_split in E as (E1 & E2); auto.
  split.
  - subst k k'. apply (trim_end_unique (fun c => c = 32 \/ c = 9)) in E1 as (E & _); auto; lia.
  - assert (Hc : exists c t, v ++ sp2 = c :: t /\ c <> 32).
    { subst v. destruct v0 as [|y v0]; cbn in *; eauto. }
    assert (Hc' : exists c t, v' ++ sp2' = c :: t /\ c <> 32).
    { subst v'. destruct v0' as [|y v0']; cbn in *; eauto. }
    destruct Hc as (c & t & Hc1 & Hc2). destruct Hc' as (c' & t' & Hc1' & Hc2').
    destruct (spaces_prefix_unique sp1 sp1' _ _ c c' t t' Hs1 Hs1' Hc1 Hc1' Hc2 Hc2' E2) as (_ & E3).
    subst v v'. apply (trim_end_unique (fun c => c = 32)) in E3 as (E & _); auto.
Qed.

Lemma split_line_key_value line key value :
  key_value line key value -> split_line line = Ok (Some (key, value)).
Proof.
  intros H. destruct (split_line_total line) as [E|(k & v & E & H')].
  - exfalso. revert E.
    destruct H as (k0 & kc & pad & sp1 & v0 & vc & sp2 & Hk & Hkc & Hkc' & Hpad & Hno & Hs1 & Hs2 & Hv & Hvc & Hhd & Hl).
    unfold split_line.
    destruct (Nat.eqb_spec (length line) 0) as [E|_].
    { subst line key. rewrite !app_length in E. cbn in E. lia. }
    destruct (scan_fwd_spec (fun c => c =? chr_colon) (S (length line)) [] line ltac:(lia))
      as (a & r & Ha & Hna & Hr & E).
    cbn [length app] in E. rewrite E. cbn [bind]. clear E.
    destruct Hr as [->|(c & t & -> & Hc)].
    { exfalso. rewrite app_nil_r in Ha. subst a. rewrite Hl in Hna.
      rewrite !Forall_app in Hna. destruct Hna as (_ & _ & Hna & _). inversion Hna; subst. discriminate. }
    apply N.eqb_eq in Hc. subst c.
    assert (E : (key ++ pad) ++ 58 :: (sp1 ++ value ++ sp2) = a ++ 58 :: t).
    { change 58 with chr_colon at 2. rewrite <- Ha, Hl, <- app_assoc. reflexivity. }
    apply no_colon_split in E as (<- & <-); auto.
    2:{ intros Hi. pose proof (Forall_not _ _ _ _ Hna Hi) as HH. discriminate HH. }
    destruct (Nat.eqb_spec (0 + length (key ++ pad)) (length line)) as [E|_].
    { rewrite Ha, !app_length in E. cbn in E. lia. }
    destruct (scan_back_spec (fun c => negb (c =? chr_space) && negb (c =? chr_tab)) (S (length line))
              [] (key ++ pad) (chr_colon :: sp1 ++ value ++ sp2)) as (k1 & pad1 & Hk1 & Hpad1 & Hend & E).
    { rewrite Ha, !app_length. cbn. lia. }
    cbn [length app] in E. rewrite <- Ha in E. rewrite E. cbn [bind]. clear E.
    destruct Hend as [->|(k3 & kc3 & Hk3 & Hkc3)].
    { exfalso. cbn [app] in Hk1. subst pad1 key. rewrite !Forall_app in Hpad1. destruct Hpad1 as ((_ & Hp) & _).
      inversion Hp as [|? ? Hp1 _]; subst. destruct (N.eqb_spec kc chr_space), (N.eqb_spec kc chr_tab); cbn in Hp1; try discriminate; unfold chr_space, chr_tab in *; lia. }
    destruct (Nat.eqb_spec (0 + length k1) 0) as [E|_].
    { rewrite Hk3, app_length in E. cbn in E. lia. }
    assert (Hline : line = ((key ++ pad) ++ [chr_colon]) ++ (sp1 ++ value ++ sp2)).
    { rewrite Ha, <- !app_assoc. reflexivity. }
    destruct (scan_fwd_spec (fun c => negb (c =? chr_space)) (S (length line)) ((key ++ pad) ++ [chr_colon]) (sp1 ++ value ++ sp2))
      as (q & w & Hq & Hnq & Hw & E).
    { rewrite Hline, !app_length. cbn. lia. }
    rewrite <- Hline in E. rewrite app_length in E at 1. cbn [length] in E. rewrite Nat.add_1_r in E.
    replace (S (0 + length (key ++ pad))) with (S (length (key ++ pad))) by reflexivity. rewrite E. cbn [bind]. clear E.
    destruct Hw as [->|(c & t & Hw & Hc)].
    { exfalso. rewrite app_nil_r in Hq. rewrite <- Hq, Hv in Hnq. rewrite !Forall_app in Hnq.
      destruct Hnq as (_ & (_ & Hb) & _). inversion Hb as [|? ? Hb1 _]; subst.
      destruct (N.eqb_spec vc chr_space); cbn in Hb1; [unfold chr_space in *; lia|discriminate]. }
    match goal with |- context [if (?x =? ?y)%nat then Ok None else _] => destruct (Nat.eqb_spec x y) as [E|_] end.
    { exfalso. rewrite Hline in E. rewrite (app_length _ (sp1 ++ value ++ sp2)), Hq, Hw, !app_length in E.
      cbn in E. lia. }
    destruct (scan_back _ _ _ _ _); cbn [bind]; discriminate.
  - rewrite E. destruct (key_value_unique _ _ _ _ _ H H') as (-> & ->). reflexivity.
Qed.
