(** Lemmas about the text readers. *)
From Verif Require Import Base BaseProofs LinuxTextModel LinuxTextSpec.
Open Scope N_scope.
Arguments N.add : simpl never.
Arguments N.sub : simpl never.
Arguments N.mul : simpl never.
Arguments N.modulo : simpl never.
Arguments N.eqb : simpl never.
Arguments N.leb : simpl never.
Arguments N.ltb : simpl never.

(** * Splitting *)

Lemma join_cons sep p ps : ps <> [] -> join sep (p :: ps) = p ++ sep :: join sep ps.
Proof. destruct ps; [congruence|reflexivity]. Qed.

Lemma scan_entries_spec sep : forall data cur es r,
  scan_entries sep cur data = (es, r) -> ~ In sep cur ->
  join sep (es ++ [r]) = rev cur ++ data /\
  Forall (fun e => ~ In sep e) es /\ ~ In sep r.
Proof.
  induction data as [|c data IH]; intros cur es r Hs Hc; cbn [scan_entries] in Hs.
  - injection Hs as <- <-. cbn. rewrite app_nil_r.
    split; [reflexivity|split; [constructor|]]. rewrite <- in_rev; exact Hc.
  - destruct (N.eqb_spec c sep) as [->|Hne].
    + destruct (scan_entries sep [] data) as [es' r'] eqn:E. injection Hs as <- <-.
      destruct (IH _ _ _ E) as (Hj & Hf & Hr); [intros []|].
      split; [|split; [constructor; [rewrite <- in_rev; exact Hc|exact Hf]|exact Hr]].
      cbn [app]. rewrite join_cons by (destruct es'; discriminate). rewrite Hj. reflexivity.
    + destruct (IH _ _ _ Hs) as (Hj & Hf & Hr).
      { intros [->|Hin]; [congruence|tauto]. }
      split; [|tauto]. rewrite Hj. cbn. rewrite <- app_assoc. reflexivity.
Qed.

Lemma app_sep_inv sep : forall (a b : list N) x y,
  ~ In sep a -> ~ In sep b -> a ++ sep :: x = b ++ sep :: y -> a = b /\ x = y.
Proof.
  induction a as [|u a IH]; intros [|v b] x y Ha Hb H; cbn in H.
  - injection H as ->; auto.
  - injection H as <- _; exfalso; apply Hb; now left.
  - injection H as -> _; exfalso; apply Ha; now left.
  - injection H as -> H. destruct (IH b x y) as (-> & ->); auto; intros Hi; [apply Ha|apply Hb]; now right.
Qed.

Lemma sep_app_inv_tail sep : forall (a : list N) x l ls,
  ~ In sep a -> Forall (fun e => ~ In sep e) (l :: ls) ->
  a ++ sep :: x = join sep (l :: ls) -> a = l /\ ls <> [] /\ x = join sep ls.
Proof.
  intros a x l ls Ha Hf H. inversion Hf as [|? ? Hl Hls]; subst.
  destruct ls as [|l2 ls].
  - cbn in H. exfalso; apply Hl; rewrite <- H. apply in_or_app; right; now left.
  - rewrite join_cons in H by discriminate.
    destruct (app_sep_inv sep a l x (join sep (l2 :: ls)) Ha Hl H) as (-> & ->).
    split; [reflexivity|split; [discriminate|reflexivity]].
Qed.

(** The complete entries found in a prefix of the file are the first entries of
    the file. *)
Lemma join_prefix sep : forall es r tail lines,
  Forall (fun e => ~ In sep e) es -> Forall (fun e => ~ In sep e) lines -> lines <> [] ->
  join sep (es ++ [r]) ++ tail = join sep lines ->
  exists lines', lines = es ++ lines' /\ lines' <> [] /\ r ++ tail = join sep lines'.
Proof.
  induction es as [|e es IH]; intros r tail lines He Hl Hne H.
  - exists lines; cbn in *; auto.
  - inversion He as [|? ? He1 He2]; subst. destruct lines as [|l ls]; [congruence|].
    cbn [app] in H. rewrite join_cons in H by (destruct es; discriminate).
    rewrite <- app_assoc in H. cbn [app] in H.
    destruct (sep_app_inv_tail sep e _ l ls He1 Hl H) as (-> & Hls & H').
    inversion Hl; subst.
    destruct (IH r tail ls He2 H3 Hls H') as (ls' & -> & Hne' & Hr).
    exists ls'; auto.
Qed.

Lemma no_sep_join_single sep p lines :
  ~ In sep p -> lines <> [] -> p = join sep lines -> lines = [p].
Proof.
  intros Hp Hne H. destruct lines as [|l [|l2 ls]]; [congruence|cbn in H; congruence|].
  exfalso; apply Hp; rewrite H, join_cons by discriminate.
  apply in_or_app; right; now left.
Qed.

(** * The sequence of pieces a reader delivers *)

Inductive ending := EofPiece (p : list N) | IoError | Stuck.

Fixpoint deliver (sep : N) (fuel : nat) (b : nat) (wants : list (option nat))
         (partial rest : list N) : list (list N) * ending :=
  match fuel with
  | O => ([], Stuck)
  | S fuel' =>
      if (b <? length partial)%nat then ([], Stuck) else
      let space := (b - length partial)%nat in
      match read_call (hd (Some space) wants) space rest with
      | None => ([], IoError)
      | Some O => ([], EofPiece partial)
      | Some n =>
          let '(es, partial') := scan_entries sep [] (partial ++ firstn n rest) in
          let '(es', e) := deliver sep fuel' b (tl wants) partial' (skipn n rest) in
          (es ++ es', e)
      end
  end.

Lemma read_call_some w space rest n :
  read_call w space rest = Some n -> (n <= space)%nat /\ (n <= length rest)%nat /\
  (n = 0%nat -> space = 0%nat \/ rest = []).
Proof.
  unfold read_call; destruct w as [w|]; [|discriminate].
  intros H. injection H as <-. repeat split; try lia.
  intros H. destruct rest as [|x rest]; [now right|]. left. cbn [length] in H. destruct w; lia.
Qed.

Lemma scan_remainder_len sep : forall data cur es r,
  scan_entries sep cur data = (es, r) -> (length r <= length cur + length data)%nat.
Proof.
  induction data as [|c data IH]; intros cur es r H; cbn [scan_entries] in H.
  - injection H as <- <-. rewrite rev_length. cbn; lia.
  - destruct (c =? sep).
    + destruct (scan_entries sep [] data) as [es' r'] eqn:E. injection H as <- <-.
      apply IH in E. cbn in *; lia.
    + apply IH in H. cbn in *; lia.
Qed.

(** Never stuck. *)
Lemma deliver_not_stuck sep b : forall fuel wants partial rest,
  (length rest < fuel)%nat -> (length partial <= b)%nat ->
  snd (deliver sep fuel b wants partial rest) <> Stuck.
Proof.
  induction fuel as [|fuel IH]; intros wants partial rest Hf Hp; [lia|].
  cbn [deliver]. destruct (Nat.ltb_spec b (length partial)); [lia|].
  destruct (read_call _ _ rest) as [[|n]|] eqn:R; [cbn; discriminate| |cbn; discriminate].
  apply read_call_some in R as (R1 & R2 & _).
  destruct (scan_entries sep [] _) as [es p'] eqn:E.
  pose proof (scan_remainder_len _ _ _ _ _ E) as Hl.
  rewrite app_length, firstn_length in Hl. cbn [length] in Hl.
  specialize (IH (tl wants) p' (skipn (S n) rest)).
  destruct (deliver sep fuel b (tl wants) p' (skipn (S n) rest)) as [es' e].
  cbn [snd] in *. apply IH; [rewrite skipn_length; lia|lia].
Qed.

(** Whatever happens, the pieces delivered are the first pieces of the file. *)
Lemma deliver_prefix sep b : forall fuel wants partial rest lines es e,
  ~ In sep partial -> Forall (fun p => ~ In sep p) lines -> lines <> [] ->
  partial ++ rest = join sep lines ->
  deliver sep fuel b wants partial rest = (es, e) ->
  exists lines', lines = es ++ lines' /\ lines' <> [] /\
    match e with
    | EofPiece p => exists tail, p ++ tail = join sep lines' /\ ~ In sep p /\
                      (tail <> [] -> length p = b)
    | _ => True
    end.
Proof.
  induction fuel as [|fuel IH]; intros wants partial rest lines es e Hp Hl Hne Hj Hd;
    cbn [deliver] in Hd.
  { injection Hd as <- <-. exists lines; auto. }
  destruct (Nat.ltb_spec b (length partial)).
  { injection Hd as <- <-. exists lines; auto. }
  destruct (read_call _ _ rest) as [[|n]|] eqn:R.
  - injection Hd as <- <-. exists lines. split; [reflexivity|split; [exact Hne|]].
    exists rest. split; [exact Hj|split; [exact Hp|]]. intros Hr.
    apply read_call_some in R as (_ & _ & R3). destruct (R3 eq_refl) as [R|R]; [lia|congruence].
  - destruct (scan_entries sep [] _) as [es1 p'] eqn:E.
    destruct (deliver sep fuel b (tl wants) p' (skipn (S n) rest)) as [es' e'] eqn:D.
    injection Hd as <- <-.
    apply scan_entries_spec in E as (Ej & Ef & Ep); [|intros []]. cbn [rev app] in Ej.
    assert (H1 : join sep (es1 ++ [p']) ++ skipn (S n) rest = join sep lines).
    { rewrite Ej, <- app_assoc, firstn_skipn. exact Hj. }
    destruct (join_prefix sep es1 p' _ lines Ef Hl Hne H1) as (l1 & -> & Hl1 & Hj1).
    apply Forall_app in Hl as [_ Hl1'].
    destruct (IH _ _ _ _ _ _ Ep Hl1' Hl1 Hj1 D) as (l2 & -> & Hl2 & He).
    exists l2. rewrite app_assoc. auto.
  - injection Hd as <- <-. exists lines; auto.
Qed.

Lemma deliver_no_error sep b : forall fuel wants partial rest,
  no_io_error wants -> snd (deliver sep fuel b wants partial rest) <> IoError.
Proof.
  induction fuel as [|fuel IH]; intros wants partial rest Hw; cbn [deliver]; [discriminate|].
  destruct (b <? length partial)%nat; [discriminate|].
  destruct (read_call _ _ rest) as [[|n]|] eqn:R.
  - discriminate.
  - destruct (scan_entries sep [] _) as [es1 p'].
    specialize (IH (tl wants) p' (skipn (S n) rest)).
    destruct (deliver sep fuel b (tl wants) p' (skipn (S n) rest)) as [es' e'].
    apply IH. destruct Hw; cbn; [constructor|assumption].
  - unfold read_call in R. destruct wants as [|[w|] ws]; cbn in R; try discriminate.
    inversion Hw; congruence.
Qed.

Lemma pieces_fit_app_r b : forall es l, l <> [] -> pieces_fit b (es ++ l) -> pieces_fit b l.
Proof.
  induction es as [|e es IH]; intros l Hl H; cbn in *; [exact H|].
  destruct (es ++ l) eqn:E; [destruct es; cbn in E; congruence|].
  rewrite <- E in H. apply IH; tauto.
Qed.

Lemma app_prefix A : forall (l p t m : list A),
  p ++ t = l ++ m -> (length l <= length p)%nat -> exists k, p = l ++ k.
Proof.
  induction l as [|x l IH]; intros p t m H Hl; [now exists p|].
  destruct p as [|y p]; cbn in *; [lia|]. injection H as -> H.
  destruct (IH p t m H ltac:(lia)) as (k & ->). now exists k.
Qed.

Lemma fit_last sep b p tail lines :
  lines <> [] -> Forall (fun p => ~ In sep p) lines -> pieces_fit b lines ->
  ~ In sep p -> p ++ tail = join sep lines -> (tail <> [] -> length p = b) -> lines = [p].
Proof.
  intros Hne Hl Hfit Hp Hj Hb. destruct tail as [|t tail].
  - rewrite app_nil_r in Hj. now apply no_sep_join_single with (sep := sep).
  - exfalso. specialize (Hb ltac:(discriminate)).
    destruct lines as [|l [|l2 ls]]; [congruence| |].
    + cbn in Hj, Hfit. subst l. rewrite app_length in Hfit. cbn in Hfit. lia.
    + rewrite join_cons in Hj by discriminate. cbn in Hfit. destruct Hfit as [Hfit _].
      assert (Hx : exists m, p = l ++ m).
      { eapply app_prefix; [exact Hj|lia]. }
      destruct Hx as (m & ->). destruct m as [|x m].
      * rewrite app_nil_r in Hb; lia.
      * rewrite <- app_assoc in Hj. apply app_inv_head in Hj. cbn in Hj. injection Hj as -> _.
        apply Hp. apply in_or_app; right; now left.
Qed.

Lemma deliver_all sep b wants contents lines :
  no_io_error wants -> lines <> [] -> Forall (fun p => ~ In sep p) lines ->
  pieces_fit b lines -> contents = join sep lines ->
  exists es p, lines = es ++ [p] /\
    deliver sep (S (length contents)) b wants [] contents = (es, EofPiece p).
Proof.
  intros Hw Hne Hl Hfit Hj.
  destruct (deliver sep (S (length contents)) b wants [] contents) as [es e] eqn:D.
  pose proof (deliver_no_error sep b (S (length contents)) wants [] contents Hw) as H1.
  pose proof (deliver_not_stuck sep b (S (length contents)) wants [] contents ltac:(lia) ltac:(cbn; lia)) as H2.
  rewrite D in H1, H2. cbn [snd] in *.
  destruct (deliver_prefix sep b _ _ [] contents lines es e ltac:(intros []) Hl Hne Hj D)
    as (l' & -> & Hl' & He).
  destruct e as [p| |]; try congruence.
  destruct He as (tail & Ht & Hp & Hb).
  apply Forall_app in Hl as [_ Hl].
  pose proof (fit_last sep b p tail l' Hl' Hl (pieces_fit_app_r b es l' Hl' Hfit) Hp Ht Hb) as ->.
  now exists es, p.
Qed.

(** * multiline.c *)

Section MULTI.
  Context {S : Type} (cb : S -> list N -> bool * S).

  Lemma feed_lines_app ctx l1 l2 :
    feed_lines cb ctx (l1 ++ l2) =
    let '(ok, ctx') := feed_lines cb ctx l1 in
    if ok then feed_lines cb ctx' l2 else (false, ctx').
  Proof.
    revert ctx; induction l1 as [|x l1 IH]; intros ctx; cbn; [reflexivity|].
    destruct (cb ctx x) as [[|] c]; [apply IH|reflexivity].
  Qed.

  Lemma feed_one ctx p : feed_lines cb ctx [p] = cb ctx p.
  Proof. cbn. destruct (cb ctx p) as [[|] c]; reflexivity. Qed.

  Lemma multiline_deliver b : forall fuel wants partial rest ctx es e,
    deliver chr_nl fuel b wants partial rest = (es, e) -> e <> Stuck ->
    multiline_loop cb fuel b wants partial rest ctx =
    match e with
    | EofPiece p => Ok (feed_lines cb ctx (es ++ [p]))
    | _ => Ok (false, snd (feed_lines cb ctx es))
    end.
  Proof.
    induction fuel as [|fuel IH]; intros wants partial rest ctx es e Hd Hs; cbn [deliver] in Hd.
    { injection Hd as <- <-; congruence. }
    cbn [multiline_loop]. destruct (b <? length partial)%nat.
    { injection Hd as <- <-; congruence. }
    destruct (read_call _ _ rest) as [[|n]|] eqn:R.
    - injection Hd as <- <-. cbn [app]. now rewrite feed_one.
    - destruct (scan_entries chr_nl [] _) as [es1 p'].
      destruct (deliver chr_nl fuel b (tl wants) p' (skipn (Datatypes.S n) rest)) as [es' e'] eqn:D.
      injection Hd as <- <-.
      destruct (feed_lines cb ctx es1) as [ok ctx'] eqn:F.
      destruct ok.
      + rewrite (IH _ _ _ ctx' _ _ D Hs).
        destruct e' as [p| |]; [|..|congruence];
          rewrite <- ?app_assoc, (feed_lines_app ctx es1), F; reflexivity.
      + destruct e' as [p| |]; rewrite <- ?app_assoc, (feed_lines_app ctx es1), F; reflexivity.
    - injection Hd as <- <-. reflexivity.
  Qed.

  Lemma multiline_all b wants ctx lines :
    no_io_error wants -> lines <> [] -> Forall (fun p => ~ In chr_nl p) lines ->
    pieces_fit b lines ->
    parse_multiline_file cb b (Some (join chr_nl lines)) wants ctx = Ok (feed_lines cb ctx lines).
  Proof.
    intros Hw Hne Hl Hfit. unfold parse_multiline_file.
    destruct (deliver_all chr_nl b wants _ lines Hw Hne Hl Hfit eq_refl) as (es & p & -> & D).
    now rewrite (multiline_deliver b _ _ _ _ ctx _ _ D).
  Qed.

  Lemma multiline_total b wants ctx lines :
    lines <> [] -> Forall (fun p => ~ In chr_nl p) lines ->
    exists ok es l' tail, lines = es ++ l' /\ 
      ((parse_multiline_file cb b (Some (join chr_nl lines)) wants ctx = Ok (false, snd (feed_lines cb ctx es)) /\ ok = false) \/
       (exists p, parse_multiline_file cb b (Some (join chr_nl lines)) wants ctx = Ok (feed_lines cb ctx (es ++ [p])) /\
          p ++ tail = join chr_nl l' /\ ~ In chr_nl p /\ (tail <> [] -> length p = b) /\ ok = true)).
  Proof.
    intros Hne Hl. unfold parse_multiline_file.
    destruct (deliver chr_nl (Datatypes.S (length (join chr_nl lines))) b wants [] (join chr_nl lines)) as [es e] eqn:D.
    pose proof (deliver_not_stuck chr_nl b _ wants [] (join chr_nl lines) (Nat.lt_succ_diag_r _) (Nat.le_0_l _)) as H2.
    rewrite D in H2; cbn [snd] in H2.
    destruct (deliver_prefix chr_nl b _ _ [] _ lines es e ltac:(intros []) Hl Hne eq_refl D) as (l' & -> & Hl' & He).
    rewrite (multiline_deliver b _ _ _ _ ctx _ _ D H2).
    destruct e as [p| |]; try congruence.
    - destruct He as (tail & Ht & Hp & Hb). exists true, es, l', tail. split; [reflexivity|].
      right. exists p. auto.
    - exists false, es, l', []. split; [reflexivity|]. left; auto.
  Qed.
End MULTI.
