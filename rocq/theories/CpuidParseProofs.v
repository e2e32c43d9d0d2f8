(** Proofs about the script that reads a CPUID recording. *)
From Coq Require Import Sorted Lia ZifyBool ZifyNat ZifyN Arith.
From Verif Require Import Base BaseProofs Text X86DescriptorModel X86DecodeModel ArmCpuinfoSpec CpuidDumpModel CpuidDumpSpec CpuidDumpProofs CpuidDumpTextProofs.
Open Scope N_scope.

(** ** Characters *)
Lemma digit_value_upper : forall c, is_upper_hex c -> digit_value c = Some (nibble c).
Proof.
  intros c H. unfold digit_value, nibble, is_upper_hex in *. destruct H as [H|H].
  - assert (E : ((48 <=? c) && (c <=? 57)) = true) by lia. rewrite E. assert (E2 : (c <=? 57) = true) by lia. rewrite E2. reflexivity.
  - assert (E : ((48 <=? c) && (c <=? 57)) = false) by lia. rewrite E. assert (E1 : ((65 <=? c) && (c <=? 70)) = true) by lia. rewrite E1.
    assert (E2 : (c <=? 57) = false) by lia. rewrite E2. assert (E3 : (c <=? 70) = true) by lia. rewrite E3. reflexivity.
Qed.
Lemma hex_field_app : forall ds v s, Forall is_upper_hex ds ->
  hex_field (length ds) v (ds ++ s) = Some (fold_left (fun acc c => acc * 16 + nibble c) ds v, s).
Proof.
  induction ds as [|c ds IH]; intros v s H; [reflexivity|]. inversion H; subst. cbn [length app hex_field].
  rewrite digit_value_upper by assumption. rewrite IH by assumption. reflexivity.
Qed.
Lemma hex_field_8 : forall n s, n < two32 -> hex_field 8 0 (hex 8 n ++ s) = Some (n, s).
Proof.
  intros n s Hn. destruct (hex_ok 8 n) as [(H1 & H2 & _) _]; [lia|exact Hn|].
  pose proof (hex_field_app (hex 8 n) 0 s H1) as G. rewrite hex8_length in G by exact Hn. rewrite G. fold (hex_number (hex 8 n)). rewrite H2. reflexivity.
Qed.
Lemma literal_app : forall p s, literal p (p ++ s) = Some s.
Proof. induction p as [|a p IH]; intros s; [reflexivity|]. cbn. rewrite N.eqb_refl. apply IH. Qed.

(** ** One line *)
Definition sub_entry (after : list N) : N := match parse_sub (strip_left after) with Some e => e | None => 0 end.

Lemma parse_print_regs : forall leaf r after, leaf < two32 -> narrow r ->
  parse_line (print_regs leaf r ++ after) = Some (Entry leaf (sub_entry after) r).
Proof.
  intros leaf r after Hl (Ha & Hb & Hc & Hd). unfold print_regs, parse_line. rewrite <- !app_assoc.
  rewrite literal_app, hex_field_8 by exact Hl. rewrite literal_app, hex_field_8 by exact Ha. rewrite literal_app, hex_field_8 by exact Hb.
  rewrite literal_app, hex_field_8 by exact Hc. rewrite literal_app, hex_field_8 by exact Hd. destruct r; reflexivity.
Qed.

Lemma literal_length : forall p s s', literal p s = Some s' -> length s = (length p + length s')%nat.
Proof.
  induction p as [|a p IH]; intros s s' H; [injection H as <-; reflexivity|]. destruct s as [|c s]; [discriminate|]. cbn in H.
  destruct (a =? c); [|discriminate]. cbn. rewrite (IH _ _ H). lia.
Qed.
Lemma hex_field_length : forall n v s x s', hex_field n v s = Some (x, s') -> length s = (n + length s')%nat.
Proof.
  induction n as [|n IH]; intros v s x s' H; [injection H as <- <-; reflexivity|]. destruct s as [|c s]; [discriminate|]. cbn in H.
  destruct (digit_value c); [|discriminate]. cbn. rewrite (IH _ _ _ _ H). lia.
Qed.
Lemma parse_line_short : forall s, (length s < 51)%nat -> parse_line s = None.
Proof.
  intros s Hs. destruct (parse_line s) as [e|] eqn:E; [|reflexivity]. exfalso. unfold parse_line in E.
  repeat match type of E with
  | context [match literal ?p ?x with _ => _ end] =>
      let F := fresh "F" in destruct (literal p x) eqn:F; [apply literal_length in F|discriminate]
  | context [match hex_field ?n ?v ?x with _ => _ end] =>
      let F := fresh "F" in destruct (hex_field n v x) as [[? ?]|] eqn:F; [apply hex_field_length in F|discriminate]
  end.
  change (length (text "CPUID ")) with 6%nat in *. change (length (text ": ")) with 2%nat in *. change (length (text "-")) with 1%nat in *. lia.
Qed.

(** ** Splitting *)
Lemma newlines_app : forall a b, last a 0 <> 13 -> universal_newlines (a ++ 10 :: b) = universal_newlines a ++ 10 :: universal_newlines b.
Proof.
  intros a. remember (length a) as n eqn:En. revert a En. induction n as [n IH] using lt_wf_ind. intros a En b Hlast.
  destruct a as [|c a]; [reflexivity|]. cbn [app universal_newlines]. destruct (c =? 13) eqn:E.
  - destruct a as [|d a].
    + apply N.eqb_eq in E. subst c. cbn in Hlast. congruence.
    + cbn [app]. destruct (d =? 10) eqn:E2.
      * rewrite (IH (length a)) with (a := a); [reflexivity|cbn in En; lia|reflexivity|]. destruct a; [cbn; lia|exact Hlast].
      * change (d :: a ++ 10 :: b) with ((d :: a) ++ 10 :: b).
        rewrite (IH (length (d :: a))) with (a := d :: a); [reflexivity|cbn in *; lia|reflexivity|exact Hlast].
  - rewrite (IH (length a)) with (a := a); [reflexivity|cbn in En; lia|reflexivity|]. destruct a; [cbn; lia|exact Hlast].
Qed.

Lemma newlines_plain : forall a b, ~ In 13 a -> universal_newlines (a ++ b) = a ++ universal_newlines b.
Proof.
  induction a as [|c a IH]; intros b H; [reflexivity|]. cbn [app universal_newlines]. cbn in H.
  assert (E : (c =? 13) = false) by (apply N.eqb_neq; intros ->; tauto). rewrite E, IH by tauto. reflexivity.
Qed.
Lemma newlines_length : forall a, (length (universal_newlines a) <= length a)%nat.
Proof.
  intros a. remember (length a) as n eqn:En. revert a En. induction n as [n IH] using lt_wf_ind. intros a ->.
  destruct a as [|c a]; [cbn; lia|]. cbn [universal_newlines]. destruct (c =? 13).
  - destruct a as [|d a]; [cbn; lia|]. destruct (d =? 10); cbn [length].
    + specialize (IH (length a) ltac:(cbn; lia) a eq_refl). lia.
    + specialize (IH (length (d :: a)) ltac:(cbn; lia) (d :: a) eq_refl). cbn [length] in IH. lia.
  - cbn [length]. specialize (IH (length a) ltac:(cbn; lia) a eq_refl). lia.
Qed.

Lemma split_app : forall a cur b, split_from cur (a ++ 10 :: b) = split_from cur (a ++ [10]) ++ split_from [] b.
Proof.
  induction a as [|c a IH]; intros cur b; cbn [app split_from].
  - change (line_end 10) with true. cbn. reflexivity.
  - destruct (line_end c); rewrite IH; reflexivity.
Qed.

Definition no_line_end (s : list N) : Prop := forall c, In c s -> line_end c = false.
Lemma split_plain : forall a cur b, no_line_end a -> split_from cur (a ++ b) = split_from (cur ++ a) b.
Proof.
  induction a as [|c a IH]; intros cur b H; [rewrite app_nil_r; reflexivity|]. cbn [app split_from].
  rewrite (H c) by (left; reflexivity). rewrite IH; [rewrite <- app_assoc; reflexivity|]. intros d Hd. apply H. right. exact Hd.
Qed.
Lemma split_end : forall cur, split_from cur [10] = [cur].
Proof. reflexivity. Qed.
(** The pieces of a text with a final line end: the first continues the current line,
    the others are short. *)
Lemma split_pieces : forall x cur, exists p qs, split_from cur (x ++ [10]) = (cur ++ p) :: qs /\
  Forall (fun q => (length q <= length x)%nat) qs.
Proof.
  induction x as [|c x IH]; intros cur.
  - exists [], []. cbn. rewrite app_nil_r. split; [reflexivity|constructor].
  - cbn [app split_from]. destruct (line_end c).
    + destruct (IH []) as (p & qs & E & F). cbn [app] in E. exists [], (p :: qs). rewrite E, app_nil_r. split; [reflexivity|].
      constructor.
      * assert (G : forall y cur, Forall (fun q => (length q <= length cur + length y)%nat) (split_from cur (y ++ [10]))).
        { clear. induction y as [|d y IH]; intros cur; cbn.
          - constructor; [lia|constructor].
          - destruct (line_end d).
            + constructor; [lia|]. specialize (IH []). eapply Forall_impl; [|exact IH]. cbn. intros. lia.
            + specialize (IH (cur ++ [d])). eapply Forall_impl; [|exact IH]. cbn. intros q. rewrite app_length. cbn. lia. }
        specialize (G x []). rewrite E in G. inversion G; subst. cbn in *. lia.
      * eapply Forall_impl; [|exact F]. cbn. intros. lia.
    + destruct (IH (cur ++ [c])) as (p & qs & E & F). exists (c :: p), qs. rewrite E, <- app_assoc. split; [reflexivity|].
      eapply Forall_impl; [|exact F]. cbn. intros. lia.
Qed.

Definition entries (file : list N) : list entry :=
  flat_map (fun l => match parse_line l with Some e => [e] | None => [] end) (splitlines (universal_newlines file)).

Lemma short_pieces : forall qs, Forall (fun q : list N => (length q < 51)%nat) qs ->
  flat_map (fun l => match parse_line l with Some e => [e] | None => [] end) qs = [].
Proof. induction 1 as [|q qs H F IH]; [reflexivity|]. cbn. rewrite parse_line_short by exact H. exact IH. Qed.

Lemma entries_line : forall leaf r after rest, leaf < two32 -> narrow r -> (length after < 51)%nat ->
  ~ In 13 (print_regs leaf r) -> no_line_end (print_regs leaf r) -> last (print_regs leaf r ++ after) 0 <> 13 ->
  exists p, entries ((print_regs leaf r ++ after) ++ 10 :: rest) = Entry leaf (sub_entry p) r :: entries rest /\
    (no_line_end after -> p = after).
Proof.
  intros leaf r after rest Hl Hr Hlen H13 Hle Hlast. unfold entries, splitlines.
  rewrite newlines_app by exact Hlast. rewrite split_app, flat_map_app.
  rewrite newlines_plain by exact H13. rewrite <- app_assoc, split_plain by exact Hle. cbn [app].
  destruct (split_pieces (universal_newlines after) (print_regs leaf r)) as (p & qs & E & F).
  exists p. rewrite E. cbn [flat_map]. rewrite parse_print_regs by assumption. rewrite short_pieces.
  - split; [reflexivity|]. intros Hn.
    assert (E1 : universal_newlines after = after).
    { assert (~ In 13 after) by (intros Hin; specialize (Hn _ Hin); discriminate).
      rewrite <- (app_nil_r after) at 1. rewrite newlines_plain by assumption. cbn. apply app_nil_r. }
    rewrite E1, split_plain, split_end in E by exact Hn. apply (f_equal (fun l => hd [] l)) in E. cbv beta delta [hd] iota in E. apply app_inv_head in E. congruence.
  - eapply Forall_impl; [|exact F]. cbn. intros q Hq. pose proof (newlines_length after). lia.
Qed.

(** ** The parts of a line *)
Lemma upper_plain : forall c, is_upper_hex c -> line_end c = false /\ c <> 13 /\ c < 128.
Proof. intros c H. unfold is_upper_hex, line_end in *. repeat split; lia. Qed.
Lemma hex_plain : forall w n c, (1 <= w)%nat -> n < two32 -> In c (hex w n) -> line_end c = false /\ c <> 13 /\ c < 128.
Proof.
  intros w n c Hw Hn Hin. apply upper_plain. destruct (hex_ok w n Hw Hn) as [[H _] _]. eapply Forall_forall in H; eassumption.
Qed.
Lemma literal_plain : forall (s : list N) c, forallb (fun c => negb (line_end c) && negb (c =? 13) && (c <? 128)) s = true -> In c s ->
  line_end c = false /\ c <> 13 /\ c < 128.
Proof.
  intros s c H Hin. rewrite forallb_forall in H. specialize (H c Hin). apply andb_prop in H. destruct H as [H H3]. apply andb_prop in H. destruct H as [H1 H2].
  repeat split; [destruct (line_end c); [discriminate|reflexivity]|intros ->; discriminate|lia].
Qed.
Ltac plain_part :=
  match goal with
  | H : In ?c (_ ++ _) |- _ => apply in_app_iff in H; destruct H as [H|H]; plain_part
  | H : In ?c (hex ?w ?n) |- _ => apply (hex_plain w n c); [lia|assumption|exact H]
  | H : In ?c (text ?s) |- _ => apply (literal_plain (text s) c); [reflexivity|exact H]
  end.
Lemma print_regs_plain : forall leaf r c, leaf < two32 -> narrow r -> In c (print_regs leaf r) -> line_end c = false /\ c <> 13 /\ c < 128.
Proof. intros leaf r c Hl (Ha & Hb & Hc & Hd) H. unfold print_regs in H. plain_part. Qed.

Lemma print_regs_last : forall leaf r, leaf < two32 -> narrow r -> last (print_regs leaf r) 0 <> 13.
Proof.
  intros leaf r Hl Hr.
  assert (G : forall s : list N, (forall c, In c s -> c <> 13) -> last s 0 <> 13).
  { clear. induction s as [|c s IH]; intros H; [cbn; lia|]. destruct s as [|d s]; [apply H; left; reflexivity|].
    change (last (c :: d :: s) 0) with (last (d :: s) 0). apply IH. intros x Hx. apply H. right. exact Hx. }
  apply G. intros c Hc. apply (print_regs_plain leaf r c); assumption.
Qed.

Lemma register_text_length : forall w, length (register_text w) = 4%nat.
Proof. reflexivity. Qed.
Lemma after_length : forall l, sub_of l < two32 -> (length (after_regs l) < 51)%nat.
Proof.
  intros [leaf r|leaf sub r|leaf r|leaf r] H; unfold sub_of in H; cbn [after_regs reading_of fst snd] in *.
  - cbn. lia.
  - rewrite !app_length. destruct (hex_ok 2 sub) as [_ G]; [lia|exact H|]. change (length (text " [SL ")) with 5%nat. change (length (text "]")) with 1%nat. lia.
  - destruct (negb _); [|cbn; lia]. rewrite !app_length. pose proof (until_null_length (vendor_text r)) as G.
    unfold vendor_text in G at 2. rewrite !app_length, !register_text_length in G. change (length (text " [")) with 2%nat. change (length (text "]")) with 1%nat. lia.
  - rewrite !app_length. pose proof (until_null_length (brand_text r)) as G.
    unfold brand_text in G at 2. rewrite !app_length, !register_text_length in G. change (length (text " [")) with 2%nat. change (length (text "]")) with 1%nat. lia.
Qed.
Lemma after_last : forall l, after_regs l = [] \/ exists x, after_regs l = x ++ [93].
Proof.
  intros [leaf r|leaf sub r|leaf r|leaf r]; cbn [after_regs].
  - left. reflexivity.
  - right. exists (text " [SL " ++ hex 2 sub). rewrite <- app_assoc. reflexivity.
  - destruct (negb _); [|left; reflexivity]. right. exists (text " [" ++ until_null (vendor_text r)). rewrite <- app_assoc. reflexivity.
  - right. exists (text " [" ++ until_null (brand_text r)). rewrite <- app_assoc. reflexivity.
Qed.
Lemma body_last : forall l, leaf_of l < two32 -> narrow (regs_of l) -> last (body l) 0 <> 13.
Proof.
  intros l H1 H2. unfold body. destruct (after_last l) as [->|(x & ->)].
  - rewrite app_nil_r. apply print_regs_last; assumption.
  - rewrite app_assoc, last_last. lia.
Qed.

(** The subleaf that the script sees. *)
Lemma pair_table : forallb (fun n => let n := N.of_nat n in
  sub_entry (text " [SL " ++ hex 2 n ++ text "]") =? (if two_decimals n then n else 0)) (seq 0 256) = true.
Proof. vm_compute. reflexivity. Qed.

Lemma hex_number_bound : forall ds, Forall is_upper_hex ds -> hex_number ds < 16 ^ N.of_nat (length ds).
Proof.
  intros ds. induction ds as [|c ds IH] using rev_ind; intros H; [cbn; lia|]. apply Forall_app in H. destruct H as [H1 H2]. inversion H2; subst.
  rewrite hex_snoc, app_length. cbn [length]. replace (N.of_nat (length ds + 1)) with (N.succ (N.of_nat (length ds))) by lia. rewrite N.pow_succ_r'.
  specialize (IH H1). assert (nibble c < 16).
  { unfold nibble. unfold is_upper_hex in *. destruct (c <=? 57) eqn:E; [lia|]. destruct (c <=? 70) eqn:E1; lia. }
  lia.
Qed.
Lemma strip_sub : forall s, strip_left (text " [SL " ++ s) = text "[SL " ++ s.
Proof. reflexivity. Qed.

Lemma sub_entry_value : forall sub, sub < two32 ->
  sub_entry (text " [SL " ++ hex 2 sub ++ text "]") = if two_decimals sub then sub else 0.
Proof.
  intros sub Hs. destruct (N.lt_ge_cases sub 256) as [Hlt|Hge].
  - pose proof pair_table as T. rewrite forallb_forall in T. specialize (T (N.to_nat sub)). cbv zeta in T. rewrite N2Nat.id in T.
    apply N.eqb_eq, T, in_seq. lia.
  - assert (E : two_decimals sub = false).
    { unfold two_decimals. assert (16 <= sub / 16) by (apply N.div_le_lower_bound; lia). lia. }
    rewrite E. unfold sub_entry. rewrite strip_sub. unfold parse_sub. rewrite literal_app.
    destruct (hex_ok 2 sub) as [(H1 & H2 & H3 & _) _]; [lia|exact Hs|].
    destruct (hex 2 sub) as [|a [|b [|c ds]]].
    + cbn in H3. lia.
    + cbn in H3. lia.
    + exfalso. pose proof (hex_number_bound _ H1) as B. rewrite H2 in B. change (16 ^ N.of_nat (length [a; b])) with 256 in B. lia.
    + cbn [app]. destruct ((48 <=? a) && (a <=? 57) && ((48 <=? b) && (b <=? 57))); [|reflexivity].
      inversion H1 as [|? ? _ H1a]; subst. inversion H1a as [|? ? _ H1b]; subst. inversion H1b as [|? ? Hc _]; subst.
      assert (E93 : (93 =? c) = false) by (unfold is_upper_hex in Hc; lia). change (text "]") with [93]. cbn [literal]. rewrite E93. reflexivity.
Qed.

(** ** The whole file *)
Lemma entries_dump : forall m ls, Forall (fits m) ls -> Forall2 read_back (map reading_of ls) (entries (flat_map print_line ls)).
Proof.
  intros m ls H. induction H as [|l ls Hl F IH]; [constructor|].
  destruct Hl as (W & H2 & H3 & _ & H5 & _). cbn [map flat_map]. rewrite print_line_split. rewrite <- app_assoc. cbn [app].
  destruct (entries_line (leaf_of l) (regs_of l) (after_regs l) (flat_map print_line ls)) as (p & E & Hp);
    [exact H2|exact H5|apply after_length; exact H3| | |apply body_last; assumption|].
  - intros Hin. apply print_regs_plain in Hin; [|assumption|assumption]. tauto.
  - intros c Hin. apply print_regs_plain in Hin; [tauto|assumption|assumption].
  - rewrite E. constructor; [|exact IH]. destruct l as [leaf r|leaf sub r|leaf r|leaf r]; unfold leaf_of, sub_of, regs_of in *;
      cbn [reading_of fst snd after_regs read_back input_eax input_ecx answer well_formed] in *; (split; [reflexivity|]); (split; [reflexivity|]); intros Hn.
    + rewrite Hp by (intros c []). reflexivity.
    + rewrite Hp; [apply sub_entry_value; exact H3|]. intros c Hc. assert (G : line_end c = false /\ c <> 13 /\ c < 128) by plain_part. tauto.
    + exfalso. apply Hn. apply in_or_app. left. exact W.
    + exfalso. apply Hn. apply in_or_app. right. exact W.
Qed.

(** The file is ASCII if the names are. *)
Lemma print_line_ascii : forall m l, ascii_names m -> fits m l -> forall c, In c (print_line l) -> c < 128.
Proof.
  intros m l [A1 A2] (W & H2 & H3 & H4 & H5 & He) c Hc. rewrite print_line_split in Hc. apply in_app_iff in Hc. destruct Hc as [Hc|[<-|[]]]; [|lia].
  apply in_app_iff in Hc. destruct Hc as [Hc|Hc]; [apply print_regs_plain in Hc; tauto|].
  destruct l as [leaf r|leaf sub r|leaf r|leaf r]; unfold leaf_of, sub_of, regs_of in *; cbn [reading_of fst snd after_regs well_formed] in *.
  - destruct Hc.
  - assert (G : line_end c = false /\ c <> 13 /\ c < 128) by plain_part. tauto.
  - destruct (negb _); [|destruct Hc]. apply in_app_iff in Hc. destruct Hc as [Hc|Hc]; [assert (G : line_end c = false /\ c <> 13 /\ c < 128) by plain_part; tauto|].
    apply in_app_iff in Hc. destruct Hc as [Hc|Hc]; [|assert (G : line_end c = false /\ c <> 13 /\ c < 128) by plain_part; tauto].
    apply until_null_in in Hc. rewrite H4 in Hc. apply (A1 leaf c W Hc).
  - apply in_app_iff in Hc. destruct Hc as [Hc|Hc]; [assert (G : line_end c = false /\ c <> 13 /\ c < 128) by plain_part; tauto|].
    apply in_app_iff in Hc. destruct Hc as [Hc|Hc]; [|assert (G : line_end c = false /\ c <> 13 /\ c < 128) by plain_part; tauto].
    apply until_null_in in Hc. rewrite H4 in Hc. apply (A2 leaf c W Hc).
Qed.

Theorem parse_dump : forall m f t, sane m -> ascii_names m -> dump_text m f = Some t ->
  exists rs table, transcript m rs /\ parse t = Some table /\ Forall2 read_back rs table.
Proof.
  intros m f t Hs Ha H. unfold dump_text in H. destruct (dump m f) as [ls|] eqn:E; [|discriminate]. injection H as <-.
  pose proof (dump_fits _ _ _ Hs E) as F.
  exists (map reading_of ls), (entries (flat_map print_line ls)). split; [apply (dump_ok m f ls Hs E)|]. split; [|apply (entries_dump m); exact F].
  unfold parse. assert (G : forallb (fun c => c <? 128) (flat_map print_line ls) = true).
  { apply forallb_forall. intros c Hc. apply in_flat_map in Hc. destruct Hc as (l & Hl & Hc). apply N.ltb_lt.
    eapply Forall_forall in F; [|exact Hl]. exact (print_line_ascii m l Ha F c Hc). }
  rewrite G. reflexivity.
Qed.
