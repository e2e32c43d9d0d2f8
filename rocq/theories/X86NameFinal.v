(** Lemmas about brand strings: words of the name, package names. *)
From Verif Require Import Base BaseProofs Text X86NameModel X86NameSpec X86NameProofs X86NameWords X86NameScan.
Open Scope nat_scope.

(** ** Words that are left out *)

Lemma one_of_in : forall w l, one_of w l = true <-> In w (map text l).
Proof.
  intros w l. unfold one_of. rewrite existsb_exists, in_map_iff. split.
  - intros (x & H & E). exists x. unfold is_word in E. destruct (word_dec w (text x)); [now split|discriminate].
  - intros (x & E & H). exists x. split; [assumption|]. unfold is_word. destruct (word_dec w (text x)); [reflexivity|congruence].
Qed.

Definition allowed (w : word) : Prop := ~ In w (map text never_named).

Lemma allowed_of : forall w, one_of w ending = false -> one_of w dropped = false -> one_of w cores = false -> allowed w.
Proof.
  intros w E D C H. unfold never_named in H. rewrite !map_app, !in_app_iff, <- !one_of_in in H. destruct H as [H|[H|H]]; congruence.
Qed.

Lemma allowed_decide : forall (f : word -> bool) w, f w = true -> forallb (fun x => negb (f (text x))) never_named = true -> allowed w.
Proof.
  intros f w H A X. apply in_map_iff in X. destruct X as (x & <- & X). rewrite forallb_forall in A. specialize (A x X). rewrite H in A. discriminate.
Qed.

Lemma allowed_keep : forall h a s v, Forall (fun x => allowed (snd x)) (st_kept s) -> allowed v ->
  Forall (fun x => allowed (snd x)) (st_kept (keep h a s v)).
Proof.
  intros h a s v K V. unfold keep. cbn [st_kept]. apply Forall_app.
  assert (RL : Forall (fun x => allowed (snd x)) (removelast (st_kept s))).
  { destruct (st_kept s) as [|x l] using rev_ind; [constructor|]. rewrite removelast_last. apply Forall_app in K. tauto. }
  split; [destruct (merges s v); [exact RL|exact K]|]. constructor; [|constructor]. cbn [snd].
  assert (LV : allowed (lower_v v)).
  { unfold lower_v. destruct v as [|x [|y [|z v]]]; try assumption. destruct (_ && _); [|assumption].
    apply (allowed_decide (fun w => match w with c :: _ => c =? 118 | [] => false end)%N); reflexivity. }
  unfold merges. destruct (st_tag s); try exact LV. destruct (forallb digit v && (2 <=? length v) && (length v <=? 5)) eqn:E; [|exact LV].
  apply (allowed_decide (fun w => forallb digit (removelast w) && (2 <=? length (removelast w)))); [|reflexivity].
  rewrite removelast_last. lia.
Qed.

Lemma allowed_word : forall h a s w, Forall (fun x => allowed (snd x)) (st_kept s) -> Forall (fun x => allowed (snd x)) (st_kept (fst (after_word h a s w))).
Proof.
  intros h a s w K. unfold after_word. destruct (a && st_number s); [exact K|]. set (v := without_amd (without_tm w)). clearbody v.
  assert (RL : Forall (fun x => allowed (snd x)) (removelast (st_kept s))).
  { destruct (st_kept s) as [|x l] using rev_ind; [constructor|]. rewrite removelast_last. apply Forall_app in K. tauto. }
  unfold settle. destruct (one_of v ending) eqn:E1; [exact K|].
  destruct (is_word v "Geode") eqn:G.
  { unfold is_word in G. destruct (word_dec v (text "Geode")) as [->|]; [|discriminate]. cbn [fst]. apply allowed_keep; [assumption|].
    intros X. cbn in X. repeat (destruct X as [X|X]; [discriminate X|]). exact X. }
  destruct (one_of v dropped) eqn:E2; [exact K|]. destruct (one_of v cores) eqn:E3; [exact K|].
  assert (V := allowed_of v E1 E2 E3).
  assert (DF : Forall (fun x => allowed (snd x)) (st_kept (fst (if st_engineering s && one_of v ["Sample"; "Sample,"; "Sample:"]%string then
        (State (st_kept s) Plain (st_engineering s) true (st_number s) (st_frequency s), false)
      else if forallb (fun c => c =? 48)%N v then (set_tag s Plain, true)
      else (keep h a s v, true))))).
  { destruct (_ && _); [exact K|]. destruct (forallb _ v); [exact K|]. now apply allowed_keep. }
  destruct (st_tag s), (is_word v "Core"), (is_word v "Mobile"), (is_word v "unknown"); try exact DF; cbn [fst set_tag forget_last st_kept]; assumption.
Qed.

Lemma kept_allowed : forall raw, Forall (fun w => allowed w) (map snd (st_kept (final_state raw))).
Proof.
  intros raw. rewrite Forall_map. unfold final_state.
  assert (G : forall sep l s, Forall (fun x => allowed (snd x)) (st_kept s) -> Forall (fun x => allowed (snd x)) (st_kept (fst (after_placed sep s l)))).
  { intros sep l. induction l as [|[p w] l IH]; intros s K; [exact K|]. cbn [after_placed].
    assert (X := allowed_word (some sep) (match sep with Some k => k <? p | None => false end) s w K).
    destruct (after_word _ _ s w) as [s' []]; [now apply IH|exact X]. }
  apply G. constructor.
Qed.

Lemma words_from_app : forall w u s, no_blank w -> words_from u (w ++ s) = words_from (u ++ w) s.
Proof.
  induction w as [|c w IH]; intros u s H; [now rewrite app_nil_r|]. cbn. destruct (N.eqb_spec c 32) as [->|]; [destruct H; now left|].
  rewrite IH by (intros X; apply H; now right). now rewrite <- app_assoc.
Qed.

Lemma dash_in : forall w, ends_with_dash w = true -> In 45%N w.
Proof. intros w H. unfold ends_with_dash in H. apply in_rev. destruct (rev w) as [|c r]; [discriminate|]. cbn in H. apply N.eqb_eq in H. subst. now left. Qed.
Lemma dash_in' : forall w, starts_with_dash w = true -> In 45%N w.
Proof. intros [|c w] H; [discriminate|]. cbn in H. apply N.eqb_eq in H. subst. now left. Qed.

Lemma words_join : forall ws u d x, good_words ws -> u = [] \/ d = ends_with_dash u ->
  In x (words_from u (join_after d ws)) -> In x ws \/ In 45%N x \/ x = u.
Proof.
  induction ws as [|w ws IH]; intros u d x G U H; cbn [join_after] in H.
  - cbn in H. destruct u; [destruct H|]. destruct H as [<-|[]]. tauto.
  - inversion G as [|? ? [Nw Ew] G']; subst.
    assert (EA : ends_with_dash (u ++ w) = ends_with_dash w).
    { unfold ends_with_dash. rewrite rev_app_distr. destruct (rev w) eqn:E; [|reflexivity]. apply (f_equal (@rev _)) in E. rewrite rev_involutive in E. contradiction. }
    destruct (d || starts_with_dash w) eqn:D.
    + cbn [app] in H. rewrite words_from_app in H by assumption. apply IH in H; [|assumption|right; congruence].
      destruct H as [H|[H|H]]; [left; now right|tauto|]. subst x. destruct U as [->|U]; [left; now left|]. right. left. apply in_app_iff.
      apply orb_true_iff in D. destruct D as [D|D]; [left; apply dash_in; congruence|right; now apply dash_in'].
    + cbn [app words_from] in H.
      assert (H' : x = u \/ In x (words_from [] (w ++ join_after (ends_with_dash w) ws))) by (cbn in H; destruct u; [now right|]; destruct H as [<-|H]; tauto).
      destruct H' as [->|H']; [tauto|]. rewrite words_from_app in H' by assumption. cbn [app] in H'. apply IH in H'; [|assumption|now right].
      destruct H' as [H'|[H'|H']]; [left; now right|tauto|left; left; now symmetry].
Qed.

Lemma words_nonempty : forall s u x, In x (words_from u s) -> x <> [].
Proof.
  induction s as [|c s IH]; intros u x H; cbn in H.
  - destruct u; [destruct H|]. destruct H as [<-|[]]. discriminate.
  - destruct (c =? 32)%N; [destruct u; [now apply IH in H|]; destruct H as [<-|H]; [discriminate|now apply IH in H]|now apply IH in H].
Qed.

Lemma named_words : forall raw x, length raw = 48 -> In x (words (brand_name raw)) -> ~ In 45%N x -> ~ In x (map text never_named).
Proof.
  intros raw x L H D. rewrite brand_name_eq in H. cbv zeta in H.
  destruct (st_sample (final_state raw)) eqn:S; [destruct H|]. destruct (_ || _ || _) in H; [destruct H|].
  assert (G := kept_good raw L S). assert (NE := words_nonempty _ _ _ H). apply words_join in H; [|assumption|now left].
  destruct H as [H|[H|H]]; [|contradiction|contradiction]. assert (A := kept_allowed raw). rewrite Forall_forall in A. exact (A x H).
Qed.

(** ** Package names *)

Lemma c_string_holds : forall s rest, ~ In 0%N s -> c_string (s ++ 0%N :: rest) = Ok s.
Proof.
  induction s as [|c s IH]; intros rest H; [reflexivity|]. cbn. destruct (N.eqb_spec c 0) as [->|]; [destruct H; now left|].
  rewrite IH by (intros X; apply H; now right). reflexivity.
Qed.

Lemma write_prefix : forall s m, length s <= length m -> write_bytes m 0 s = Ok (s ++ skipn (length s) m).
Proof.
  intros s m H. rewrite <- (firstn_skipn (length s) m) at 1. apply (write_app s (firstn (length s) m) [] (skipn (length s) m)).
  rewrite firstn_length. lia.
Qed.

Lemma vendor_prefix_eq : forall v, vendor_prefix v = match vendor_string v with Some s => text s ++ [32%N] | None => [] end.
Proof.
  intros v. unfold vendor_prefix, vendor_names.
  destruct (N.ltb_spec v 60) as [H|H].
  - assert (A : forallb (fun n => let v := N.of_nat n in
       if word_dec (match find (fun x => (fst x =? v)%N) vendor_names with Some x => text (snd x) ++ [32%N] | None => [] end)
                   (match vendor_string v with Some s => text s ++ [32%N] | None => [] end) then true else false) (seq 0 60) = true) by (vm_compute; reflexivity).
    rewrite forallb_forall in A. specialize (A (N.to_nat v)). cbv zeta in A. rewrite N2Nat.id in A.
    unfold vendor_names in A. destruct (word_dec _ _) as [E|] in A; [exact E|]. assert (X : In (N.to_nat v) (seq 0 60)) by (apply in_seq; lia). now apply A in X.
  - replace (vendor_string v) with (@None string).
    + unfold find. cbn [fst]. repeat match goal with |- context [(?n =? v)%N] => replace (n =? v)%N with false by lia end. reflexivity.
    + destruct v as [|p]; [reflexivity|]. unfold vendor_string. repeat (destruct p as [p|p|]; try lia; try reflexivity).
Qed.

Lemma vendor_string_no_zero : forall v s, vendor_string v = Some s -> ~ In 0%N (text s) /\ length (text s) <= 9.
Proof.
  intros v s H. assert (E := vendor_prefix_eq v). rewrite H in E. unfold vendor_prefix in E.
  destruct (find _ vendor_names) as [x|] eqn:F; [|now destruct (text s)]. apply find_some in F. destruct F as [F _].
  apply app_inj_tail in E. destruct E as [<- _]. cbn in F.
  repeat (destruct F as [<-|F]; [cbn; split; [intros X; repeat (destruct X as [X|X]; [discriminate X|]); exact X|lia]|]). destruct F.
Qed.

Lemma package_exact : forall vendor normalized name package, holds_string normalized name -> length normalized = 48 -> length package = 48 ->
  exists m offset, format_package_name vendor normalized package = Ok (m, offset) /\ length m = 48 /\ holds_string m (package_name vendor name) /\
    offset = match name with [] => 0 | _ => length (vendor_prefix vendor) end.
Proof.
  intros vendor normalized name package (rest & -> & NZ) L LP. unfold format_package_name.
  assert (RD : rd (name ++ 0%N :: rest) 0 = Ok (hd 0%N name)) by (destruct name; reflexivity).
  rewrite RD. cbn [bind]. destruct name as [|c name]; cbn [hd].
  - cbn [N.eqb]. destruct package as [|y package]; [discriminate|]. rewrite (wr_app [] y package 0%N : wr (y :: package) 0 0%N = _). cbn [bind app].
    exists (0%N :: package), 0. repeat split; auto. exists package. split; [reflexivity|intros []].
  - destruct (N.eqb_spec c 0) as [->|_]; [destruct NZ; now left|]. unfold package_name. rewrite vendor_prefix_eq.
    assert (LN : length (c :: name) <= 47) by (rewrite app_length in L; cbn in *; lia).
    destruct (vendor_string vendor) as [v|] eqn:V.
    + destruct (vendor_string_no_zero _ _ V) as [VZ VL]. rewrite c_string_holds by assumption. cbn [bind]. unfold snprintf.
      change (48 - 1) with 47. set (full := (text v ++ [32%N]) ++ c :: name).
      replace (text v ++ 32%N :: c :: name) with full by (unfold full; rewrite <- app_assoc; reflexivity).
      assert (LF : length (firstn 47 full ++ [0%N]) <= length package) by (rewrite app_length, LP; cbn [length]; assert (X := firstn_le_length 47 full); rewrite firstn_length; lia).
      rewrite write_prefix by assumption. cbn [bind]. eexists _, _. split; [reflexivity|].
      split; [rewrite app_length, skipn_length; lia|]. split.
      * exists (skipn (length (firstn 47 full ++ [0%N])) package). split; [now rewrite <- app_assoc|].
        intros X. assert (Y : In 0%N full) by (rewrite <- (firstn_skipn 47 full); apply in_app_iff; now left). unfold full in Y.
        rewrite !in_app_iff in Y. destruct Y as [[Y|[Y|[]]]|Y]; [now apply VZ|discriminate|now apply NZ].
      * rewrite app_length. cbn. lia.
    + unfold strncpy. rewrite c_string_holds by assumption. cbn [bind].
      assert (SP : firstn 48 ((c :: name) ++ repeat 0%N 48) = (c :: name) ++ repeat 0%N (48 - length (c :: name))).
      { rewrite firstn_app, firstn_all2 by lia. f_equal. rewrite <- (firstn_skipn (48 - length (c :: name)) (repeat 0%N 48)) at 1.
        assert (R : repeat 0%N 48 = repeat 0%N (48 - length (c :: name)) ++ repeat 0%N (length (c :: name))) by (rewrite <- repeat_app; f_equal; lia).
        rewrite firstn_skipn, R, firstn_app, repeat_length, Nat.sub_diag. cbn [firstn]. rewrite app_nil_r. apply firstn_all2. rewrite repeat_length. lia. }
      rewrite SP. set (z := 48 - length (c :: name)).
      assert (LS : length ((c :: name) ++ repeat 0%N z) = 48) by (rewrite app_length, repeat_length; unfold z; lia).
      rewrite write_prefix by lia. cbn [bind]. rewrite skipn_all2 by lia. rewrite app_nil_r.
      assert (Zz : repeat 0%N z = repeat 0%N (z - 1) ++ [0%N]).
      { change [0%N] with (repeat 0%N 1). rewrite <- repeat_app. f_equal. unfold z. lia. }
      rewrite Zz. rewrite app_assoc.
      assert (W : wr (((c :: name) ++ repeat 0%N (z - 1)) ++ [0%N]) 47 0%N = Ok (((c :: name) ++ repeat 0%N (z - 1)) ++ [0%N])).
      { replace 47 with (length ((c :: name) ++ repeat 0%N (z - 1))) by (rewrite app_length, repeat_length; unfold z; lia). apply wr_app. }
      rewrite W. cbn [bind]. eexists _, _. split; [reflexivity|]. split; [rewrite <- app_assoc, <- Zz; exact LS|]. split; [|reflexivity].
      cbn [app]. rewrite firstn_all2 by exact LN. rewrite <- app_assoc, <- Zz. cbn [app].
      exists (repeat 0%N (z - 1)). split; [|assumption]. replace z with (S (z - 1)) at 1 by (unfold z; lia). reflexivity.
Qed.
