(** Lemmas about whole CPU-list files, small files and the callbacks of
    src/linux/processors.c. *)
From Verif Require Import Base BaseProofs LinuxTextModel LinuxTextSpec LinuxTextProofs CpulistProofs.
Open Scope N_scope.
Ltac Zify.zify_post_hook ::= Z.div_mod_to_equations.

(** * Whole CPU-list files *)

Section FILE.
  Context {S : Type} (cb : S -> N -> N -> bool * S) (sg : bool).

  Lemma feed_entries_app status ctx l1 l2 :
    feed_entries cb sg status ctx (l1 ++ l2) =
    let '(st, c) := feed_entries cb sg status ctx l1 in feed_entries cb sg st c l2.
  Proof.
    revert status ctx; induction l1 as [|x l1 IH]; intros status ctx; cbn; [reflexivity|].
    destruct (parse_entry cb sg ctx x) as [ok c]; apply IH.
  Qed.

  Lemma cpulist_deliver b : forall fuel wants status partial rest ctx es e,
    deliver chr_comma fuel b wants partial rest = (es, e) -> e <> Stuck ->
    match e with EofPiece p => (length p < b)%nat | _ => True end ->
    cpulist_loop cb sg fuel b wants status partial rest ctx =
    match e with
    | EofPiece p => Ok (feed_entries cb sg status ctx (es ++ [p]))
    | _ => Ok (false, snd (feed_entries cb sg status ctx es))
    end.
  Proof.
    induction fuel as [|fuel IH]; intros wants status partial rest ctx es e Hd Hs Hlen; cbn [deliver] in Hd.
    { injection Hd as <- <-; congruence. }
    cbn [cpulist_loop]. destruct (b <? length partial)%nat.
    { injection Hd as <- <-; congruence. }
    destruct (read_call _ _ rest) as [[|n]|] eqn:R.
    - injection Hd as <- <-. destruct (Nat.eqb_spec (length partial) b); [lia|]. reflexivity.
    - destruct (scan_entries chr_comma [] _) as [es1 p'].
      destruct (deliver chr_comma fuel b (tl wants) p' (skipn (Datatypes.S n) rest)) as [es' e'] eqn:D.
      injection Hd as <- <-.
      destruct (feed_entries cb sg status ctx es1) as [st ctx'] eqn:F.
      rewrite (IH _ _ _ _ ctx' _ _ D Hs Hlen).
      destruct e' as [p| |]; [|..|congruence];
        rewrite <- ?app_assoc, (feed_entries_app status ctx es1), F; reflexivity.
    - injection Hd as <- <-. reflexivity.
  Qed.

  Lemma short_fit l : Forall short_entry l -> pieces_fit cpulist_buffer_size l.
  Proof.
    induction 1 as [|e l He _ IH]; cbn [pieces_fit]; [exact I|].
    destruct l; [unfold short_entry, cpulist_buffer_size in *; lia|]. split; [exact He|exact IH].
  Qed.

  Lemma cpulist_all wants ctx entries :
    no_io_error wants -> entries <> [] -> Forall (fun p => ~ In chr_comma p) entries ->
    Forall short_entry entries ->
    parse_cpulist cb sg (Some (join chr_comma entries)) wants ctx =
    Ok (feed_entries cb sg true ctx entries).
  Proof.
    intros Hw Hne Hl Hsh. unfold parse_cpulist.
    destruct (deliver_all chr_comma cpulist_buffer_size wants _ entries Hw Hne Hl (short_fit _ Hsh) eq_refl)
      as (es & p & -> & D).
    rewrite (cpulist_deliver cpulist_buffer_size _ _ _ _ _ ctx _ _ D); [reflexivity|discriminate|].
    apply Forall_app in Hsh as (_ & Hsh). now inversion Hsh.
  Qed.

  (** On an I/O error the file fails and only entries of the file were used. *)
  Lemma cpulist_prefix wants ctx entries :
    entries <> [] -> Forall (fun p => ~ In chr_comma p) entries -> Forall short_entry entries ->
    parse_cpulist cb sg (Some (join chr_comma entries)) wants ctx =
      Ok (feed_entries cb sg true ctx entries) \/
    exists es es', entries = es ++ es' /\
      parse_cpulist cb sg (Some (join chr_comma entries)) wants ctx =
      Ok (false, snd (feed_entries cb sg true ctx es)).
  Proof.
    intros Hne Hl Hsh. unfold parse_cpulist.
    set (fuel := Datatypes.S (length (join chr_comma entries))).
    destruct (deliver chr_comma fuel cpulist_buffer_size wants [] (join chr_comma entries)) as [es e] eqn:D.
    pose proof (deliver_not_stuck chr_comma cpulist_buffer_size fuel wants [] (join chr_comma entries)
                  (Nat.lt_succ_diag_r _) (Nat.le_0_l _)) as H2.
    rewrite D in H2; cbn [snd] in H2.
    destruct (deliver_prefix chr_comma cpulist_buffer_size _ _ [] _ entries es e ltac:(intros []) Hl Hne eq_refl D)
      as (l' & He & Hl' & Hend).
    destruct e as [p| |]; [|..|congruence].
    - left. destruct Hend as (tail & Ht & Hp & Hb).
      assert (Hl2 := Hl). assert (Hsh2 := Hsh). rewrite He in Hl2, Hsh2.
      apply Forall_app in Hl2 as [_ Hl2]. apply Forall_app in Hsh2 as [_ Hsh2].
      pose proof (fit_last _ _ p tail l' Hl' Hl2 (short_fit _ Hsh2) Hp Ht Hb) as E. subst l'.
      rewrite (cpulist_deliver cpulist_buffer_size _ _ _ _ _ ctx _ _ D H2); [now rewrite He|].
      now inversion Hsh2.
    - right. exists es, l'. split; [exact He|].
      now rewrite (cpulist_deliver cpulist_buffer_size _ _ _ _ _ ctx _ _ D H2).
  Qed.

  Lemma feed_entries_meaning : forall entries ms status ctx,
    Forall2 entry_meaning entries ms ->
    feed_entries cb sg status ctx entries = run_ranges cb status ctx ms.
  Proof.
    induction entries as [|e es IH]; intros ms status ctx H; inversion H as [|? m ? ms' Hm Hms]; subst; cbn;
      [reflexivity|].
    destruct m as [[f l]|]; cbn in Hm.
    - destruct Hm as (H1 & H2). rewrite (entry_good cb sg e f l ctx H1 H2).
      destruct (cb ctx f (l + 1)) as [ok c]. now apply IH.
    - destruct Hm as (H1 & H2 & H3). rewrite (entry_bad cb sg e ctx H1 H2 H3).
      rewrite andb_false_r. now apply IH.
  Qed.
End FILE.

Lemma cpu_entry_no_comma text f l : cpu_entry text f l -> ~ In chr_comma text.
Proof.
  assert (Hb : forall b, blanks b -> ~ In chr_comma b).
  { intros b Hb Hi. unfold blanks in Hb. rewrite Forall_forall in Hb. specialize (Hb _ Hi).
    unfold is_blank, chr_comma in Hb; lia. }
  assert (Hd : forall ds, is_decimal ds -> ~ In chr_comma ds).
  { intros ds (_ & Hf) Hi. rewrite Forall_forall in Hf. specialize (Hf _ Hi).
    unfold is_digit, chr_comma in Hf; lia. }
  intros [b1 ds b2 H1 H2 H3|b1 ds es b2 H1 H2 H3 H4 H5] Hi.
  - rewrite !in_app_iff in Hi. firstorder.
  - rewrite !in_app_iff in Hi. cbn [In] in Hi. rewrite in_app_iff in Hi.
    destruct Hi as [Hi|[Hi|[Hi|[Hi|Hi]]]]; try solve [firstorder]. discriminate.
Qed.

(** * The callbacks of processors.c *)

Lemma detect_range_spec max flag : forall fuel p end_ flags,
  length flags = N.to_nat max -> (N.to_nat (N.min end_ max - p) <= fuel)%nat ->
  exists flags', detect_range fuel max flag p end_ flags = Ok flags' /\ length flags' = length flags /\
    forall c f, nth_error flags c = Some f ->
      nth_error flags' c = Some (if (p <=? N.of_nat c) && (N.of_nat c <? end_) then N.lor f flag else f).
Proof.
  induction fuel as [|fuel IH]; intros p end_ flags Hlen Hfuel; cbn [detect_range].
  - exists flags. split; [reflexivity|split; [reflexivity|]]. intros c f Hc.
    assert (c < length flags)%nat by (apply nth_error_Some; congruence).
    replace ((p <=? N.of_nat c) && (N.of_nat c <? end_)) with false by lia. exact Hc.
  - destruct (N.ltb_spec p end_) as [Hpe|Hpe]; cbn [negb].
    2:{ exists flags. split; [reflexivity|split; [reflexivity|]]. intros c f Hc.
        replace ((p <=? N.of_nat c) && (N.of_nat c <? end_)) with false by lia. exact Hc. }
    destruct (N.leb_spec max p) as [Hmp|Hmp].
    { exists flags. split; [reflexivity|split; [reflexivity|]]. intros c f Hc.
      assert (c < length flags)%nat by (apply nth_error_Some; congruence).
      replace ((p <=? N.of_nat c) && (N.of_nat c <? end_)) with false by lia. exact Hc. }
    destruct (nth_error_lt _ flags (N.to_nat p)) as (f0 & Hf0); [lia|].
    rewrite (modify_ok _ _ _ _ _ Hf0). cbn [bind].
    destruct (IH (p + 1) end_ (upd flags (N.to_nat p) (N.lor f0 flag))) as (fl & H1 & H2 & H3).
    { now rewrite upd_length. }
    { lia. }
    exists fl. split; [exact H1|]. rewrite upd_length in H2. split; [exact H2|].
    intros c f Hc. destruct (Nat.eq_dec (N.to_nat p) c) as [<-|Hne].
    + assert (f0 = f) by congruence. subst f0.
      rewrite (H3 _ (N.lor f flag)) by (apply nth_error_upd_eq; lia).
      replace ((p + 1 <=? N.of_nat (N.to_nat p)) && (N.of_nat (N.to_nat p) <? end_)) with false by lia.
      replace ((p <=? N.of_nat (N.to_nat p)) && (N.of_nat (N.to_nat p) <? end_)) with true by lia.
      reflexivity.
    + rewrite (H3 c f) by (rewrite nth_error_upd_neq by exact Hne; exact Hc).
      replace (p + 1 <=? N.of_nat c) with (p <=? N.of_nat c) by lia. reflexivity.
Qed.

Definition in_range (c : N) (r : N * N) : bool := (fst r <=? c) && (c <=? snd r).

Lemma detect_ranges_spec max flag : forall rs flags status,
  length flags = N.to_nat max ->
  exists flags', run_ranges (detect_processor_parser max flag) status (Ok flags) (map Some rs)
                 = (status, Ok flags') /\ length flags' = length flags /\
    forall c f, nth_error flags c = Some f ->
      nth_error flags' c = Some (if existsb (in_range (N.of_nat c)) rs then N.lor f flag else f).
Proof.
  induction rs as [|[fs ls] rs IH]; intros flags status Hlen; cbn [map run_ranges].
  - exists flags. auto.
  - cbn [detect_processor_parser bind].
    destruct (detect_range_spec max flag (N.to_nat (N.min (ls + 1) max - fs)) fs (ls + 1) flags Hlen
                (Nat.le_refl _)) as (fl & H1 & H2 & H3).
    unfold detect_processor_parser at 1. cbn [bind]. rewrite H1, andb_true_r.
    destruct (IH fl status) as (fl2 & G1 & G2 & G3); [congruence|].
    exists fl2. split; [exact G1|split; [congruence|]].
    intros c f Hc. rewrite (G3 _ _ (H3 _ _ Hc)). cbn [existsb].
    unfold in_range at 2. cbn [fst snd].
    replace (N.of_nat c <=? ls) with (N.of_nat c <? ls + 1) by lia.
    destruct ((fs <=? N.of_nat c) && (N.of_nat c <? ls + 1)) eqn:E1; cbn [orb];
      [|reflexivity].
    destruct (existsb (in_range (N.of_nat c)) rs); [|reflexivity].
    now rewrite <- N.lor_assoc, N.lor_diag.
Qed.

Lemma existsb_listed rs c : existsb (in_range c) rs = true <-> listed rs c.
Proof.
  rewrite existsb_exists. unfold listed, in_range. split.
  - intros ([f l] & Hi & H). cbn in H. apply andb_true_iff in H as (H1 & H2).
    exists f, l. split; [exact Hi|lia].
  - intros (f & l & Hi & H). exists (f, l). split; [exact Hi|]. cbn. lia.
Qed.

Lemma max_ranges_spec : forall rs acc status,
  (forall f l, In (f, l) rs -> f <= l < u32max) ->
  exists m, run_ranges max_processor_number_parser status acc (map Some rs) = (status, m) /\
    (m = acc \/ listed rs m) /\ acc <= m /\ (forall c, listed rs c -> c <= m).
Proof.
  induction rs as [|[f l] rs IH]; intros acc status Hb; cbn [map run_ranges].
  - exists acc. split; [reflexivity|]. repeat split; auto; try lia. intros c (f & l & [] & _).
  - unfold max_processor_number_parser at 1. rewrite andb_true_r.
    assert (Hfl : f <= l < u32max) by (apply Hb; now left).
    assert (E : sub32 (l + 1) 1 = l) by (unfold sub32, u32, two32, u32max in *; lia).
    rewrite E.
    destruct (IH (if acc <? l then l else acc) status) as (m & H1 & H2 & H3 & H4).
    { intros f' l' Hi. apply Hb. now right. }
    exists m. split; [exact H1|].
    assert (Hup : forall c, listed rs c -> listed ((f, l) :: rs) c).
    { intros c (f' & l' & Hi & Hc). exists f', l'. split; [now right|exact Hc]. }
    repeat split.
    + destruct H2 as [->|H2]; [|right; now apply Hup].
      destruct (N.ltb_spec acc l); [right|now left].
      exists f, l. split; [now left|lia].
    + destruct (N.ltb_spec acc l); lia.
    + intros c (f' & l' & [Hi|Hi] & Hc).
      * injection Hi as <- <-. destruct (N.ltb_spec acc l); lia.
      * apply H4. exists f', l'. auto.
Qed.

(** * Small files *)

Section SMALL.
  Context {S : Type} (cb : S -> list N -> bool * S).

  Lemma smallfile_spec b : forall fuel wants buf rest ctx,
    (length rest < fuel)%nat -> (length buf < b)%nat ->
    (smallfile_loop cb fuel b wants buf rest ctx = Ok (cb ctx (buf ++ rest)) /\
       (length (buf ++ rest) < b)%nat) \/
    (smallfile_loop cb fuel b wants buf rest ctx = Ok (false, ctx) /\
       (no_io_error wants -> (b <= length (buf ++ rest))%nat)).
  Proof.
    induction fuel as [|fuel IH]; intros wants buf rest ctx Hf Hb; [lia|].
    cbn [smallfile_loop]. destruct (Nat.ltb_spec b (length buf)); [lia|].
    destruct (read_call _ _ rest) as [n|] eqn:R.
    - pose proof (read_call_some _ _ _ _ R) as (R1 & R2 & R3).
      destruct (Nat.leb_spec b (length (buf ++ firstn n rest))) as [Hle|Hle].
      { right. split; [reflexivity|]. intros _. rewrite app_length, firstn_length in Hle.
        rewrite app_length. lia. }
      destruct n as [|n].
      + left. destruct (R3 eq_refl) as [Hs| ->]; [exfalso; lia|].
        rewrite firstn_nil in *. split; [reflexivity|exact Hle].
      + specialize (IH (tl wants) (buf ++ firstn (Datatypes.S n) rest) (skipn (Datatypes.S n) rest) ctx).
        rewrite <- app_assoc, firstn_skipn in IH.
        destruct IH as [IH|(IH1 & IH2)]; [rewrite skipn_length; lia|exact Hle|now left|].
        right. split; [exact IH1|]. intros Hw. apply IH2. destruct Hw; cbn; [constructor|assumption].
    - right. split; [reflexivity|]. intros Hw. exfalso.
      unfold read_call in R. destruct wants as [|[w|] ws]; cbn in R; try discriminate.
      inversion Hw; congruence.
  Qed.

  Lemma small_file_total b file wants ctx : (0 < b)%nat ->
    (exists text, file = Some text /\ (length text < b)%nat /\
       parse_small_file cb b file wants ctx = Ok (cb ctx text)) \/
    (parse_small_file cb b file wants ctx = Ok (false, ctx) /\
     (no_io_error wants -> forall text, file = Some text -> (b <= length text)%nat)).
  Proof.
    intros Hb. destruct file as [text|]; cbn [parse_small_file].
    - destruct (smallfile_spec b (Datatypes.S (length text)) wants [] text ctx) as [(H1 & H2)|(H1 & H2)];
        cbn [length app] in *; try lia.
      + left. exists text. auto.
      + right. split; [exact H1|]. intros Hw t Ht. injection Ht as <-. auto.
    - right. split; [reflexivity|]. intros _ text Ht. discriminate.
  Qed.
End SMALL.

Lemma uint32_parser_decimal sg ctx ds tail :
  is_decimal ds -> bytes tail -> ~ starts_with_digit tail -> dec_value ds < two32 ->
  uint32_parser sg ctx (ds ++ tail) = (true, dec_value ds).
Proof.
  intros Hd Hb Ht Hv. destruct (decimal_starts ds Hd) as (c & t & Hds & Hc).
  unfold uint32_parser. rewrite parse_number_digits; [|apply Hd|exact Hb|exact Ht].
  rewrite u32_small by exact Hv.
  destruct (Nat.eqb_spec (length tail) (length (ds ++ tail))) as [E|_].
  { exfalso; revert E; apply app_neq_self, Hd. }
  now rewrite Hds.
Qed.

Lemma uint32_parser_bad sg ctx text :
  bytes text -> ~ starts_with_digit text -> uint32_parser sg ctx text = (false, ctx).
Proof.
  intros Hb Ht. unfold uint32_parser. destruct text as [|c s]; [reflexivity|].
  rewrite (parse_number_none sg _ Hb Ht). now rewrite Nat.eqb_refl.
Qed.

(** * Exhaustive classification of entries *)

Lemma digit_dec c : {is_digit c} + {~ is_digit c}.
Proof.
  unfold is_digit. destruct (48 <=? c) eqn:E1, (c <=? 57) eqn:E2; (left; lia) || (right; lia).
Qed.

Lemma blank_dec c : {is_blank c} + {~ is_blank c}.
Proof. destruct (is_whitespace c) eqn:E; [left; now apply blank_ws|right; now apply blank_ws_false]. Qed.

Lemma blanks_dec s : {blanks s} + {~ blanks s}.
Proof. apply Forall_dec. exact blank_dec. Qed.

Lemma span_digits s : exists ds r, s = ds ++ r /\ Forall is_digit ds /\ ~ starts_with_digit r.
Proof.
  induction s as [|c s (ds & r & -> & H1 & H2)].
  - exists [], []. repeat split; [constructor|apply no_start_nil].
  - destruct (digit_dec c) as [Hc|Hc].
    + exists (c :: ds), r. repeat split; [now constructor|exact H2].
    + exists [], (c :: ds ++ r). repeat split; [constructor|now apply no_start_cons].
Qed.

Lemma entry_classes text :
  (exists f l, cpu_entry text f l) \/ bad_entry text \/ (exists f l, junk_entry text f l).
Proof.
  destruct (drop_ws_split text) as (b1 & Hb1 & Ht & [Hd|(c & t & Hd & Hc)]).
  - right; left. rewrite Ht, Hd, app_nil_r. now constructor.
  - rewrite Hd in Ht. clear Hd. subst text.
    destruct (digit_dec c) as [Hdc|Hdc]; [|right; left; now apply bad_start].
    destruct (span_digits (c :: t)) as (ds & r & E & Hds & Hr). rewrite E.
    assert (Hdec : is_decimal ds).
    { split; [|exact Hds]. intros ->. apply Hr. exists c, t. now split. }
    destruct (blanks_dec r) as [Hbr|Hbr].
    { left. exists (dec_value ds), (dec_value ds). now constructor. }
    destruct r as [|d r]; [exfalso; apply Hbr; constructor|].
    assert (Hd : ~ is_digit d). { intros H. apply Hr. exists d, r. now split. }
    destruct (N.eq_dec d 45) as [->|Hne].
    2:{ right; left. now apply bad_after_number. }
    destruct (span_digits r) as (es & s & -> & Hes & Hs).
    destruct es as [|e es].
    { right; left. now apply bad_range_end. }
    assert (Hdec2 : is_decimal (e :: es)) by (split; [discriminate|exact Hes]).
    destruct (N.lt_ge_cases (dec_value (e :: es)) (dec_value ds)).
    { right; left. now apply bad_order. }
    destruct (blanks_dec s).
    + left. exists (dec_value ds), (dec_value (e :: es)). now constructor.
    + right; right. exists (dec_value ds), (dec_value (e :: es)). now constructor.
Qed.

(** * Over-long lines *)

Lemma scan_entries_len sep : forall data cur es r,
  scan_entries sep cur data = (es, r) ->
  Forall (fun e => (length e < length cur + length data)%nat) es.
Proof.
  induction data as [|c data IH]; intros cur es r H; cbn [scan_entries] in H.
  - injection H as <- <-. constructor.
  - destruct (c =? sep).
    + destruct (scan_entries sep [] data) as [es' r'] eqn:E. injection H as <- <-.
      constructor; [rewrite rev_length; cbn; lia|].
      apply IH in E. eapply Forall_impl; [|exact E]. cbn. intros; lia.
    + apply IH in H. eapply Forall_impl; [|exact H]. cbn. intros; lia.
Qed.

Lemma deliver_short sep b : forall fuel wants partial rest es e,
  deliver sep fuel b wants partial rest = (es, e) ->
  Forall (fun x => (length x < b)%nat) es /\
  match e with EofPiece p => (length p <= b)%nat | _ => True end.
Proof.
  induction fuel as [|fuel IH]; intros wants partial rest es e H; cbn [deliver] in H.
  { injection H as <- <-. split; [constructor|exact I]. }
  destruct (Nat.ltb_spec b (length partial)) as [Hb|Hb].
  { injection H as <- <-. split; [constructor|exact I]. }
  destruct (read_call _ _ rest) as [[|n]|] eqn:R.
  - injection H as <- <-. split; [constructor|exact Hb].
  - destruct (scan_entries sep [] _) as [es1 p'] eqn:E.
    destruct (deliver sep fuel b (tl wants) p' (skipn (S n) rest)) as [es' e'] eqn:D.
    injection H as <- <-. apply IH in D as (D1 & D2). split; [|exact D2].
    apply Forall_app. split; [|exact D1].
    apply read_call_some in R as (R1 & R2 & _).
    apply scan_entries_len in E. eapply Forall_impl; [|exact E].
    cbn beta. intros a Ha. rewrite app_length, firstn_length in Ha. cbn [length] in Ha. lia.
  - injection H as <- <-. split; [constructor|exact I].
Qed.

Lemma app_split_at A (P : A -> Prop) : forall es l' pre x post,
  es ++ l' = pre ++ x :: post -> Forall P es -> ~ P x -> exists k, pre = es ++ k /\ l' = k ++ x :: post.
Proof.
  induction es as [|e es IH]; intros l' pre x post H Hf Hx.
  - exists pre. auto.
  - destruct pre as [|y pre]; cbn in H; injection H as -> H.
    + inversion Hf; subst. tauto.
    + inversion Hf; subst. destruct (IH _ _ _ _ H) as (k & -> & ->); auto. now exists k.
Qed.

Lemma multiline_long {S} (cb : S -> list N -> bool * S) b wants ctx pre long post :
  no_io_error wants -> Forall (fun p => ~ In chr_nl p) (pre ++ long :: post) ->
  Forall (fun p => (length p < b)%nat) pre -> (b <= length long)%nat ->
  parse_multiline_file cb b (Some (join chr_nl (pre ++ long :: post))) wants ctx =
  Ok (feed_lines cb ctx (pre ++ [firstn b long])).
Proof.
  intros Hw Hl Hpre Hlong. unfold parse_multiline_file.
  set (lines := pre ++ long :: post) in *.
  assert (Hne : lines <> []) by (unfold lines; destruct pre; discriminate).
  destruct (deliver chr_nl (Datatypes.S (length (join chr_nl lines))) b wants [] (join chr_nl lines)) as [es e] eqn:D.
  pose proof (deliver_not_stuck chr_nl b _ wants [] (join chr_nl lines) (Nat.lt_succ_diag_r _) (Nat.le_0_l _)) as H2.
  rewrite D in H2; cbn [snd] in H2.
  pose proof (deliver_no_error chr_nl b (Datatypes.S (length (join chr_nl lines))) wants [] (join chr_nl lines) Hw) as H3.
  rewrite D in H3; cbn [snd] in H3.
  destruct (deliver_prefix chr_nl b _ _ [] _ lines es e ltac:(intros []) Hl Hne eq_refl D) as (l' & Hes & Hl' & He).
  destruct (deliver_short chr_nl b _ _ _ _ _ _ D) as (Hsh & Hp).
  rewrite (multiline_deliver cb b _ _ _ _ ctx _ _ D H2).
  destruct e as [p| |]; try congruence.
  destruct He as (tail & Ht & Hnl & Hb).
  destruct (app_split_at _ _ _ _ _ _ _ (eq_sym Hes) Hsh ltac:(cbn; lia)) as (k & -> & ->).
  destruct k as [|x k].
  - cbn [app] in *. rewrite app_nil_r. f_equal. f_equal. f_equal. f_equal.
    destruct tail as [|t tail].
    + rewrite app_nil_r in Ht.
      assert (Hnl2 : long :: post = [p]) by (apply no_sep_join_single with (sep := chr_nl); auto; discriminate).
      injection Hnl2 as -> _. symmetry. apply firstn_all2. exact Hp.
    + specialize (Hb ltac:(discriminate)). rewrite <- Hb.
      assert (Hj : exists z, join chr_nl (long :: post) = long ++ z).
      { destruct post as [|q post]; [exists []; cbn; now rewrite app_nil_r|].
        eexists. rewrite join_cons by discriminate. reflexivity. }
      destruct Hj as (z & Hz). rewrite Hz in Ht.
      assert (E : firstn (length p) (p ++ t :: tail) = p).
      { rewrite firstn_app, Nat.sub_diag, firstn_all. cbn. now rewrite app_nil_r. }
      rewrite Ht, firstn_app in E. replace (length p - length long)%nat with 0%nat in E by lia.
      cbn in E. now rewrite app_nil_r in E.
  - exfalso. cbn [app] in Ht. rewrite join_cons in Ht by (destruct k; discriminate).
    apply Forall_app in Hpre as (_ & Hx). apply Forall_inv in Hx.
    destruct (Nat.le_gt_cases (length p) (length x)) as [Hle|Hgt].
    + destruct tail as [|t tail].
      * rewrite app_nil_r in Ht. apply Hnl. rewrite Ht. apply in_or_app. right; now left.
      * specialize (Hb ltac:(discriminate)). lia.
    + apply app_prefix in Ht as Hk; [|lia]. destruct Hk as (q & ->).
      rewrite <- app_assoc in Ht. apply app_inv_head in Ht.
      destruct q as [|q0 q]; [rewrite app_nil_r in Hgt; lia|]. cbn in Ht. injection Ht as -> _.
      apply Hnl. apply in_or_app. right; now left.
Qed.

Lemma feed_run_lines {S} (cb : S -> list N -> bool * S) : forall lines ctx,
  feed_lines cb ctx lines = run_lines cb ctx lines.
Proof.
  induction lines as [|l ls IH]; intros ctx; cbn; [reflexivity|].
  destruct (cb ctx l) as [[|] c]; [apply IH|reflexivity].
Qed.

(** * Totality of the CPU-list reader *)

Lemma split_pieces sep : forall contents, exists entries, entries <> [] /\
  Forall (fun p => ~ In sep p) entries /\ contents = join sep entries.
Proof.
  intros contents. destruct (scan_entries sep [] contents) as [es r] eqn:E.
  apply scan_entries_spec in E as (H1 & H2 & H3); [|intros []].
  exists (es ++ [r]). split; [destruct es; discriminate|]. split; [|now symmetry].
  apply Forall_app. split; [exact H2|now constructor].
Qed.

(** A CPU-list file whose last piece, as the reader sees it, does not fill the
    buffer is processed without undefined behaviour; in any case the reader stops. *)
Lemma cpulist_never_hangs {S} (cb : S -> N -> N -> bool * S) sg b : forall fuel wants status partial rest ctx,
  (length rest < fuel)%nat -> cpulist_loop cb sg fuel b wants status partial rest ctx <> Hang.
Proof.
  induction fuel as [|fuel IH]; intros wants status partial rest ctx H; [lia|].
  cbn [cpulist_loop]. destruct (b <? length partial)%nat; [discriminate|].
  destruct (read_call _ _ rest) as [[|n]|] eqn:R; [|..|discriminate].
  - destruct ((length partial =? b)%nat && entry_overreads sg partial); discriminate.
  - destruct (scan_entries chr_comma [] _) as [es p'].
    destruct (feed_entries cb sg status ctx es) as [st c]. apply IH.
    apply read_call_some in R as (_ & R & _). rewrite skipn_length. lia.
Qed.

(** * Whole-file statements *)

Lemma cpulist_meanings {S} (cb : S -> N -> N -> bool * S) sg wants ctx entries ms :
  no_io_error wants -> entries <> [] -> Forall (fun p => ~ In 44 p) entries ->
  Forall short_entry entries -> Forall2 entry_meaning entries ms ->
  parse_cpulist cb sg (Some (join 44 entries)) wants ctx = Ok (run_ranges cb true ctx ms).
Proof.
  intros H1 H2 H3 H4 H5. change 44 with chr_comma.
  rewrite (cpulist_all cb sg wants ctx entries H1 H2 H3 H4).
  now rewrite (feed_entries_meaning cb sg entries ms true ctx H5).
Qed.

Lemma cpu_list_file_parse {S} (cb : S -> N -> N -> bool * S) sg wants ctx contents rs :
  no_io_error wants -> cpu_list_file contents rs ->
  parse_cpulist cb sg (Some contents) wants ctx = Ok (run_ranges cb true ctx (map Some rs)).
Proof.
  intros H1 (entries & H2 & -> & H4 & H5).
  apply cpulist_meanings with (entries := entries); auto.
  - clear - H5. induction H5 as [|e r es rs (H & _) _ IH]; constructor; [|exact IH].
    exact (cpu_entry_no_comma _ _ _ H).
  - clear - H5. induction H5 as [|e [f l] es rs H _ IH]; cbn; constructor; [exact H|exact IH].
Qed.

Lemma cpu_list_ranges contents rs : cpu_list_file contents rs ->
  rs <> [] /\ forall f l, In (f, l) rs -> f <= l < u32max.
Proof.
  intros (entries & H2 & -> & H4 & H5). split.
  - destruct H5; [congruence|discriminate].
  - intros f l Hi. revert Hi. clear - H5.
    induction H5 as [|e [f' l'] es rs (H & H') _ IH]; [intros []|].
    intros [E|Hi]; [|now apply IH]. injection E as -> ->. split; [|exact H'].
    cbn [fst snd] in H; inversion H; lia.
Qed.

Lemma detect_listed_exact sg max flag wants contents rs flags :
  no_io_error wants -> cpu_list_file contents rs -> length flags = N.to_nat max ->
  exists flags', detect_listed_processors sg max flag (Some contents) wants flags = Ok (true, flags') /\
    length flags' = length flags /\
    forall c f, nth_error flags c = Some f ->
      (listed rs (N.of_nat c) -> nth_error flags' c = Some (N.lor f flag)) /\
      (~ listed rs (N.of_nat c) -> nth_error flags' c = Some f).
Proof.
  intros H1 H2 H3. unfold detect_listed_processors.
  rewrite (cpu_list_file_parse _ sg wants (Ok flags) contents rs H1 H2). cbn [bind].
  destruct (detect_ranges_spec max flag rs flags true H3) as (fl & E & Hl & Hn).
  rewrite E. cbn [bind]. exists fl. split; [reflexivity|]. split; [exact Hl|].
  intros c f Hc. specialize (Hn c f Hc). split; intros H.
  - apply existsb_listed in H. now rewrite H in Hn.
  - destruct (existsb (in_range (N.of_nat c)) rs) eqn:Ex; [|exact Hn].
    exfalso. apply H. now apply existsb_listed.
Qed.

Lemma max_listed_exact sg max wants contents rs :
  no_io_error wants -> cpu_list_file contents rs -> 0 < max ->  max < two32 ->
  exists m, listed rs m /\ (forall c, listed rs c -> c <= m) /\
    get_max_listed_processor sg max (Some contents) wants = Ok (N.min m (max - 1)).
Proof.
  intros H1 H2 H3 H4. destruct (cpu_list_ranges _ _ H2) as (Hne & Hr).
  unfold get_max_listed_processor. rewrite (cpu_list_file_parse _ sg wants 0 contents rs H1 H2).
  destruct (max_ranges_spec rs 0 true Hr) as (m & E & Hm & _ & Hub). rewrite E. cbn [bind].
  exists m. split.
  - destruct Hm as [->|Hm]; [|exact Hm].
    destruct rs as [|[f l] rs]; [congruence|].
    assert (Hl : listed ((f, l) :: rs) l).
    { exists f, l. split; [now left|]. specialize (Hr f l (or_introl eq_refl)). lia. }
    specialize (Hub _ Hl). exists f, l. split; [now left|].
    specialize (Hr f l (or_introl eq_refl)). lia.
  - split; [exact Hub|]. f_equal. unfold sub32, u32, two32 in *.
    destruct (N.leb_spec max m); lia.
Qed.

(** * Junk after a range is ignored *)

Lemma entry_junk {S} (cb : S -> N -> N -> bool * S) sg text f l ctx :
  bytes text -> junk_entry text f l -> l < u32max -> parse_entry cb sg ctx text = cb ctx f (l + 1).
Proof.
  intros Hby Hj. revert Hby. destruct Hj as [b1 ds es s H1 H2 H3 H4 H5 H6]. intros Hby Hl. unfold parse_entry.
  destruct (drop_ws_split (rev s)) as (b2 & Hb2 & Hs & Hc).
  apply (f_equal (@rev N)) in Hs. rewrite rev_involutive, rev_app_distr in Hs.
  destruct Hc as [Hc|(c & t & Hc & Hnb)]; rewrite Hc in Hs.
  { exfalso. apply H5. rewrite Hs. cbn. now apply blanks_rev. }
  cbn [rev] in Hs. set (s' := rev t ++ [c]) in *.
  destruct (decimal_starts ds H2) as (d & dt & Hds & Hd).
  replace (b1 ++ ds ++ 45 :: es ++ s) with (b1 ++ (ds ++ 45 :: es ++ s') ++ rev b2)
    by (rewrite Hs; rewrite <- !app_assoc; cbn; now rewrite <- !app_assoc).
  rewrite (trim_exact b1 (ds ++ 45 :: es ++ s') (rev b2) d (dt ++ 45 :: es ++ s'));
    [|exact H1|now apply blanks_rev|now rewrite Hds|now apply digit_not_blank|].
  2:{ apply ends_app. exists (45 :: es ++ rev t), c. split; [unfold s'; cbn; now rewrite app_assoc|exact Hnb]. }
  assert (Hns : ~ starts_with_digit s').
  { intros (x & y & Hxy & Hx). apply H4. rewrite Hs, Hxy. exists x, (y ++ rev b2). now split. }
  assert (Hb : bytes (es ++ s')).
  { rewrite Hs in Hby. unfold bytes in *. rewrite !Forall_app in Hby. destruct Hby as (_ & _ & Hby).
    inversion Hby as [|? ? _ Hby']; subst. rewrite !Forall_app in Hby'. apply Forall_app. tauto. }
  assert (Hb' : bytes (45 :: es ++ s')) by (constructor; [reflexivity|exact Hb]).
  assert (H45 : ~ is_digit 45) by (unfold is_digit; lia).
  rewrite (parse_number_digits sg ds (45 :: es ++ s') (proj2 H2) Hb' (no_start_cons 45 _ H45)).
  rewrite Hds. cbn [app]. rewrite <- Hds at 1.
  destruct (Nat.eqb_spec (length (45 :: es ++ s')) (length (d :: dt ++ 45 :: es ++ s'))) as [E|_].
  { exfalso. cbn [length] in E. rewrite !app_length in E. cbn [length] in E. rewrite ?app_length in E. lia. }
  cbn [N.eqb negb]. change (45 =? chr_dash) with true. cbn [negb].
  unfold bytes in Hb; apply Forall_app in Hb as (_ & Hb).
  rewrite (parse_number_digits sg es s' (proj2 H3) Hb Hns).
  destruct (Nat.eqb_spec (length s') (length (es ++ s'))) as [E|_].
  { exfalso; revert E; apply app_neq_self, H3. }
  unfold u32max in *. rewrite <- Hds. rewrite !u32_small by (unfold two32; lia).
  destruct (N.ltb_spec (dec_value es) (dec_value ds)); [lia|reflexivity].
Qed.

(** A handler that records what it is given. *)
Definition record_line (ctx : list (list N)) (l : list N) : bool * list (list N) := (true, ctx ++ [l]).
Definition record_range (ctx : list (N * N)) (f e : N) : bool * list (N * N) := (true, ctx ++ [(f, e)]).

Lemma run_ranges_record : forall ms status acc,
  run_ranges record_range status acc ms =
  (status && forallb (fun m => match m with Some _ => true | None => false end) ms,
   acc ++ flat_map (fun m => match m with Some (f, l) => [(f, l + 1)] | None => [] end) ms).
Proof.
  induction ms as [|[[f l]|] ms IH]; intros status acc; cbn.
  - now rewrite andb_true_r, app_nil_r.
  - rewrite andb_true_r, IH. now rewrite <- app_assoc.
  - now rewrite IH, andb_false_r.
Qed.

Lemma sibling_ranges sg max wants contents rs : no_io_error wants -> cpu_list_file contents rs ->
  detect_siblings sg max record_range (Some contents) wants []
  = Ok (true, map (fun r => (fst r, N.min max (snd r + 1))) rs).
Proof.
  intros H1 H2. unfold detect_siblings. rewrite (cpu_list_file_parse _ _ _ _ _ _ H1 H2). f_equal. clear.
  assert (G : forall acc, run_ranges (siblings_parser max record_range) true acc (map Some rs)
    = (true, acc ++ map (fun r => (fst r, N.min max (snd r + 1))) rs)).
  { induction rs as [|[f l] rs IH]; intros acc; cbn [map run_ranges]; [now rewrite app_nil_r|].
    unfold siblings_parser at 1, record_range at 1. rewrite IH, <- app_assoc. cbn [app fst snd andb]. repeat f_equal.
    destruct (N.ltb_spec max (l + 1)); lia. }
  apply G.
Qed.
