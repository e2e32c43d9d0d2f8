(** Lemmas about brand strings: all tokens, the output, the whole function. *)
From Verif Require Import Base BaseProofs Text X86NameModel X86NameSpec X86NameProofs X86NameWords.
Open Scope nat_scope.

(** ** The end of the string *)

Lemma find_end_exact : forall s tail, exists zs, s = without_zeros s ++ zs /\ Forall (eq 0%N) zs /\ find_end (s ++ tail) (length s) = Ok (length (without_zeros s)).
Proof.
  intros s. induction s as [|c s IH] using rev_ind; intros tail.
  - exists []. repeat split. constructor.
  - rewrite app_length, Nat.add_1_r. cbn [find_end].
    rewrite <- app_assoc. cbn [app]. rewrite rd_app. cbn [bind].
    assert (A : forall x, without_zeros (x ++ [c]) = if (c =? 0)%N then without_zeros x else x ++ [c]).
    { induction x as [|y x IHx]; cbn [app without_zeros]; [now destruct (c =? 0)%N|]. rewrite IHx.
      destruct (c =? 0)%N; [reflexivity|]. destruct x; reflexivity. }
    rewrite A. destruct (N.eqb_spec c 0) as [->|].
    + destruct (IH (0%N :: tail)) as (zs & E & Z & F). exists (zs ++ [0%N]). rewrite F. rewrite app_assoc, <- E. repeat split.
      apply Forall_app. split; [assumption|]. repeat constructor.
    + exists []. rewrite app_nil_r. repeat split; [constructor|]. now rewrite app_length, Nat.add_1_r.
Qed.

Lemma without_zeros_prefix : forall s, exists zs, s = without_zeros s ++ zs /\ Forall (eq 0%N) zs.
Proof. intros s. destruct (find_end_exact s []) as (zs & E & Z & _). now exists zs. Qed.

(** ** Blanks *)

Lemma blanked_length : forall s i, length (blanked i s) = length s.
Proof. induction s as [|c s IH]; intros i; [reflexivity|]. cbn. destruct (c =? 40)%N; [cbn; now rewrite IH|]. destruct (c =? 41)%N; cbn; now rewrite IH. Qed.

Lemma unify_exact : forall s q i tail sep, (forall k, sep = Some k -> k < length q) ->
  unify_spaces (q ++ s ++ tail) (length q) (length s) i sep =
  Ok (q ++ blanked i s ++ tail, match last_at s with Some k => Some (length q + k) | None => sep end).
Proof.
  induction s as [|c s IH]; intros q i tail sep H; [reflexivity|].
  cbn [length unify_spaces app]. rewrite rd_app. cbn [bind blanked last_at].
  assert (R : forall d j sp, (forall k, sp = Some k -> k < length (q ++ [d])) ->
    unify_spaces (q ++ d :: s ++ tail) (S (length q)) (length s) j sp =
    Ok (q ++ (d :: blanked j s) ++ tail, match last_at s with Some k => Some (length q + S k) | None => sp end)).
  { intros d j sp Hs. specialize (IH (q ++ [d]) j tail sp Hs). rewrite <- !app_assoc, app_length in IH. cbn [app length] in IH.
    rewrite Nat.add_1_r in IH. rewrite IH. cbn [app]. destruct (last_at s); [do 3 f_equal; lia|reflexivity]. }
  assert (H' : forall d k, sep = Some k -> k < length (q ++ [d])) by (intros d k E; apply H in E; rewrite app_length; cbn; lia).
  rewrite wr_app. cbn [bind].
  destruct (N.eqb_spec c 40) as [->|]; [rewrite R by auto; destruct (last_at s); reflexivity|].
  destruct (N.eqb_spec c 41) as [->|]; [rewrite R by auto; destruct (last_at s); reflexivity|].
  destruct (N.eqb_spec c 64) as [->|].
  - rewrite orb_true_r. cbn [orb]. rewrite R by (intros k [= <-]; rewrite app_length; cbn; lia). destruct (last_at s); [reflexivity|].
    do 2 f_equal. f_equal. lia.
  - rewrite orb_false_r. replace (i || (c =? 0)%N || (c =? 9)%N) with ((c =? 0)%N || (c =? 9)%N || i) by (destruct i, (c =? 0)%N, (c =? 9)%N; reflexivity).
    destruct ((c =? 0)%N || (c =? 9)%N || i); rewrite R by auto; destruct (last_at s); reflexivity.
Qed.

Lemma blanked_at : forall s i k, last_at s = Some k -> nth_error (blanked i s) k = Some 32%N.
Proof.
  induction s as [|c s IH]; intros i k H; [discriminate|]. cbn in H. cbn [blanked].
  destruct (last_at s) as [j|] eqn:L.
  - injection H as <-. destruct (c =? 40)%N; [now apply IH|]. destruct (c =? 41)%N; now apply IH.
  - destruct (N.eqb_spec c 64) as [->|]; [|discriminate]. injection H as <-. cbn. now rewrite orb_true_r.
Qed.

Lemma blanked_zero : forall s i, ~ In 0%N (blanked i s).
Proof.
  induction s as [|c s IH]; intros i; [intros []|]. cbn.
  destruct (c =? 40)%N; [intros [X|X]; [discriminate|now apply IH in X]|]. destruct (c =? 41)%N; [intros [X|X]; [discriminate|now apply IH in X]|].
  intros [X|X]; [|now apply IH in X]. destruct i; cbn in X; [discriminate|]. destruct (c =? 64)%N; cbn in X; [discriminate|].
  destruct (N.eqb_spec c 0); cbn in X; [discriminate|]. destruct (c =? 9)%N; cbn in X; [discriminate|congruence].
Qed.

(** ** All tokens *)

Fixpoint after_placed (sep : option nat) (s : state) (l : list (nat * word)) : state * bool :=
  match l with
  | [] => (s, true)
  | (p, w) :: rest =>
      match after_word (some sep) (match sep with Some k => k <? p | None => false end) s w with
      | (s, true) => after_placed sep s rest
      | (s, false) => (s, false)
      end
  end.

Lemma scan_exact : forall sep tail rest q w st s,
  inv sep q st s -> ended q -> no_blank w ->
  (forall k, sep = Some k -> length q <= k -> nth_error (w ++ rest) (k - length q) = Some 32%N) ->
  exists q' left st',
    scan_tokens (q ++ w ++ rest ++ tail) (length q + length w) (length rest) (match w with [] => None | _ => Some (length q) end) st =
      Ok (q' ++ left, st', length q') /\
    length (q' ++ left) = length (q ++ w ++ rest ++ tail) /\ length q' <= length q + length w + length rest /\
    (inv sep q' st' (fst (after_placed sep s (placed (length q) w rest))) \/
     ps_sample st' = true /\ st_sample (fst (after_placed sep s (placed (length q) w rest))) = true).
Proof.
  intros sep tail rest. induction rest as [|c rest IH]; intros q w st s I En Nb Sp.
  - cbn [length scan_tokens app placed]. destruct w as [|x w].
    + exists q, tail, st. cbn [app length] in *. rewrite Nat.add_0_r. repeat split; [lia|now left].
    + destruct (transform_exact sep q (x :: w) tail st s) as (q' & st' & T & L & R); auto; [discriminate| |].
      { destruct sep as [k|]; [|exact Logic.I]. destruct (le_lt_dec (length q) k) as [X|X]; [|now left]. right.
        specialize (Sp k eq_refl X). rewrite app_nil_r in Sp. apply nth_error_In in Sp. contradiction. }
      exists q', tail, st'. cbn [app length] in T. cbn [app length]. rewrite T. cbn [bind]. rewrite L. split; [reflexivity|].
      split; [rewrite !app_length, L; cbn [length]; rewrite !app_length; lia|]. split; [cbn [length] in *; lia|]. cbn [after_placed].
      destruct (after_word _ _ s (x :: w)) as [s' []]; cbn [fst snd] in *; destruct R as [R|(R1 & R2 & R3)]; auto.
  - cbn [length scan_tokens app].
    assert (RD : rd (q ++ w ++ c :: rest ++ tail) (length q + length w) = Ok c).
    { rewrite app_assoc, <- app_length. apply rd_app. }
    rewrite RD. cbn [bind placed]. destruct (N.eqb_spec c 32) as [->|Hc].
    + assert (None_case : forall q0 st0 s0, inv sep q0 st0 s0 -> length q0 = length q + length w ->
        (forall k, sep = Some k -> length q0 < k -> nth_error (w ++ 32%N :: rest) (k - length q) = Some 32%N) ->
        exists q' left st', scan_tokens (q0 ++ 32%N :: rest ++ tail) (S (length q0)) (length rest) None st0 = Ok (q' ++ left, st', length q') /\
          length (q' ++ left) = length (q ++ w ++ 32%N :: rest ++ tail) /\ length q' <= length q + length w + S (length rest) /\
          (inv sep q' st' (fst (after_placed sep s0 (placed (S (length q0)) [] rest))) \/
           ps_sample st' = true /\ st_sample (fst (after_placed sep s0 (placed (S (length q0)) [] rest))) = true)).
      { intros q0 st0 s0 I0 L0 Sp0. destruct (IH (q0 ++ [32%N]) [] st0 s0) as (q' & left & st' & S1 & S2 & S3 & S4).
        - apply inv_blanks; [assumption|repeat constructor].
        - right. now exists q0.
        - intros [].
        - intros k E Hk. rewrite app_length in *. cbn [length app] in *. specialize (Sp0 k E ltac:(lia)).
          rewrite nth_error_app2 in Sp0 by lia. replace (k - length q - length w) with (S (k - (length q0 + 1))) in Sp0 by lia. exact Sp0.
        - rewrite app_length, Nat.add_1_r, Nat.add_0_r in *. rewrite <- app_assoc in *. cbn [app length] in *. exists q', left, st'. split; [exact S1|].
          split; [clear - S2 L0; rewrite ?app_length in *; cbn [length] in *; rewrite ?app_length in *; lia|]. split; [lia|]. exact S4. }
      destruct w as [|x w].
      * cbn [app length] in *. rewrite Nat.add_0_r in None_case |- *. apply None_case; auto. intros k E Hk. apply Sp; [assumption|lia].
      * destruct (transform_exact sep q (x :: w) (32%N :: rest ++ tail) st s) as (q0 & st0 & T & L & R); auto; [discriminate| |].
        { destruct sep as [k|]; [|exact Logic.I]. destruct (le_lt_dec (length q) k) as [X|X]; [|now left]. right.
          destruct (le_lt_dec (length q + length (x :: w)) k) as [Y|Y]; [assumption|]. exfalso.
          specialize (Sp k eq_refl X). rewrite nth_error_app1 in Sp by lia. apply nth_error_In in Sp. contradiction. }
        cbn [app length] in T. cbn [app length]. rewrite T. cbn [bind after_placed].
        destruct (after_word _ _ s (x :: w)) as [s' go]. cbn [fst snd] in *.
        destruct go.
        -- assert (I0 : inv sep q0 st0 s') by (destruct R as [R|(R1 & R2 & R3)]; [assumption|discriminate]).
           destruct (None_case q0 st0 s' I0 L) as (q' & left & st' & S1 & S2 & S3 & S4).
           { intros k E Hk. apply Sp; [assumption|lia]. }
           cbn [length] in L. rewrite <- L. exists q', left, st'. cbn [length] in *. rewrite L in S4. replace (S (length q + S (length w))) with (length q + S (S (length w))) in S4 by lia.
           split; [exact S1|]. split; [exact S2|]. split; [lia|]. exact S4.
        -- cbn [length] in L. rewrite <- L. exists q0, (32%N :: rest ++ tail), st0. split; [reflexivity|]. split; [repeat (rewrite app_length || cbn [length]); lia|]. split; [cbn [length] in *; lia|].
           destruct R as [R|(R1 & R2 & R3)]; auto.
    + destruct (IH q (w ++ [c]) st s) as (q' & left & st' & S1 & S2 & S3 & S4); auto.
      { intros X. apply in_app_iff in X. destruct X as [X|[X|[]]]; [now apply Nb|now apply Hc]. }
      { intros k E Hk. rewrite <- app_assoc. now apply Sp. }
      replace (match w ++ [c] with [] => None | _ => Some (length q) end) with (match match w with [] => None | _ => Some (length q) end with Some start => Some start | None => Some (length q + length w) end) in S1
        by (destruct w; cbn; [now rewrite Nat.add_0_r|reflexivity]).
      rewrite <- app_assoc, app_length in *. cbn [app length] in *. rewrite Nat.add_1_r in S1. rewrite Nat.add_succ_r in S1.
      exists q', left, st'. split; [exact S1|]. split; [rewrite !app_length in *; lia|]. split; [lia|exact S4].
Qed.

(** ** Words before and after the '@' *)

Lemma after_placed_words : forall sep a l s,
  (forall p w, In (p, w) l -> match sep with Some k => k <? p | None => false end = a) ->
  after_placed sep s l = after_words (some sep) a s (map snd l).
Proof.
  intros sep a l. induction l as [|[p w] l IH]; intros s H; [reflexivity|]. cbn [after_placed after_words map snd]. rewrite (H p w) by now left.
  destruct (after_word (some sep) a s w) as [s' []]; [|reflexivity]. apply IH. intros q x Hx. apply (H q x). now right.
Qed.

Lemma after_placed_app : forall sep l m s,
  after_placed sep s (l ++ m) = match after_placed sep s l with (s', true) => after_placed sep s' m | r => r end.
Proof.
  intros sep l m. induction l as [|[p w] l IH]; intros s; [reflexivity|]. cbn. destruct (after_word _ _ s w) as [s' []]; [apply IH|reflexivity].
Qed.

Lemma placed_range : forall s p w x v, In (x, v) (placed p w s) -> p <= x /\ x + length v <= p + length w + length s /\ v <> [].
Proof.
  induction s as [|c s IH]; intros p w x v H; cbn in H.
  - destruct w as [|y w]; [destruct H|]. destruct H as [[= <- <-]|[]]. cbn. split; [lia|]. split; [lia|discriminate].
  - destruct (c =? 32)%N.
    + destruct w as [|y w].
      * apply IH in H. cbn in *. destruct H as (H1 & H2 & H3). repeat split; auto; lia.
      * destruct H as [[= <- <-]|H]; [cbn; split; [lia|]; split; [lia|discriminate]|]. apply IH in H. cbn in *. destruct H as (H1 & H2 & H3). repeat split; auto; lia.
    + apply IH in H. rewrite app_length in H. cbn in *. destruct H as (H1 & H2 & H3). repeat split; auto; lia.
Qed.

Lemma split_at : forall (t : list N) k c, nth_error t k = Some c -> t = firstn k t ++ c :: skipn (S k) t.
Proof.
  induction t as [|x t IH]; intros [|k] c H; cbn in *; try discriminate; [congruence|]. f_equal. now apply IH.
Qed.

Lemma after_placed_exact : forall sep t,
  (forall k, sep = Some k -> nth_error t k = Some 32%N) ->
  fst (after_placed sep state0 (placed 0 [] t)) =
  match sep with
  | None => fst (after_words false false state0 (words t))
  | Some k => match after_words true false state0 (words (firstn k t)) with
              | (st, true) => fst (after_words true true st (words (skipn (S k) t)))
              | (st, false) => st
              end
  end.
Proof.
  intros [k|] t H.
  - specialize (H k eq_refl). assert (E := split_at t k 32%N H). rewrite E at 1. rewrite placed_blank, after_placed_app.
    assert (L : length (firstn k t) = k) by (apply firstn_length_le; apply nth_error_some_lt in H; lia).
    rewrite (after_placed_words (Some k) false (placed 0 [] (firstn k t))).
    2: { intros p w Hp. apply placed_range in Hp. rewrite L in Hp. cbn in Hp. lia. }
    rewrite placed_words. cbn [some]. fold (words (firstn k t)). destruct (after_words true false state0 (words (firstn k t))) as [st []]; [|reflexivity].
    rewrite (after_placed_words (Some k) true).
    2: { intros p w Hp. apply placed_range in Hp. rewrite L in Hp. cbn in Hp. lia. }
    now rewrite placed_words.
  - rewrite (after_placed_words None false), placed_words; [reflexivity|]. reflexivity.
Qed.

(** ** The kept words *)

Lemma kept_no_zero : forall has_at a s w, Forall (fun x => ~ In 0%N (snd x)) (st_kept s) -> ~ In 0%N w ->
  (forall c, st_tag s = Letter c -> c <> 0%N) ->
  Forall (fun x => ~ In 0%N (snd x)) (st_kept (fst (after_word has_at a s w))) /\ forall c, st_tag (fst (after_word has_at a s w)) = Letter c -> c <> 0%N.
Proof.
  intros h a s w K W T.
  assert (RL : forall l : list (bool * word), Forall (fun x => ~ In 0%N (snd x)) l -> Forall (fun x => ~ In 0%N (snd x)) (removelast l)).
  { intros l Hl. destruct l as [|x l] using rev_ind; [constructor|]. rewrite removelast_last. apply Forall_app in Hl. tauto. }
  unfold after_word. destruct (a && st_number s); [cbn; split; [assumption|discriminate]|].
  set (v := without_amd (without_tm w)).
  assert (V : ~ In 0%N v).
  { intros X. apply W. assert (X' : In 0%N (without_tm w)).
    { unfold v, without_amd in X. destruct (_ && _) in X; [|assumption]. rewrite <- (firstn_skipn 4 (without_tm w)). apply in_app_iff. now right. }
    unfold without_tm in X'. destruct (rev w) as [|m [|t [|c r]]] eqn:E; try assumption. destruct (_ && _) in X'; [|assumption].
    apply in_rev. rewrite E. apply in_rev in X'. right. now right. }
  clearbody v. clear W w.
  assert (KP : Forall (fun x => ~ In 0%N (snd x)) (st_kept (keep h a s v)) /\ forall c, st_tag (keep h a s v) = Letter c -> c <> 0%N).
  { unfold keep. cbn [st_kept st_tag]. split.
    - apply Forall_app. split.
      + destruct (merges s v); [cbn; auto|assumption].
      + constructor; [|constructor]. cbn [snd]. unfold merges. destruct (st_tag s) as [|c| | |] eqn:Tg.
        2: { destruct (_ && _ && _); [intros X; apply in_app_iff in X; destruct X as [X|[X|[]]]; [now apply V|now apply (T c)]|].
             unfold lower_v. destruct v as [|x [|y [|z v]]]; try assumption. destruct (_ && _); [|assumption].
             intros [X|[X|[]]]; [discriminate|]. apply V. right. now left. }
        all: unfold lower_v; destruct v as [|x [|y [|z v]]]; try assumption; destruct (_ && _); [|assumption];
             intros [X|[X|[]]]; [discriminate|]; apply V; right; now left.
    - intros c. unfold tag_of. destruct v as [|x [|y v]].
      + now destruct (is_word [] "Dual"), (is_word [] "model").
      + destruct (capital x); [|discriminate]. intros [= ->] ->. apply V. now left.
      + destruct (is_word _ _); [discriminate|]. destruct (is_word _ _); discriminate. }
  unfold settle. destruct (one_of v ending); [cbn; split; [assumption|discriminate]|]. destruct (is_word v "Geode"); [exact KP|].
  destruct (one_of v dropped); [cbn; split; [assumption|discriminate]|]. destruct (one_of v cores); [cbn; split; [assumption|discriminate]|].
  assert (DF : let r := if st_engineering s && one_of v ["Sample"; "Sample,"; "Sample:"]%string then
        (State (st_kept s) Plain (st_engineering s) true (st_number s) (st_frequency s), false)
      else if forallb (fun c => c =? 48)%N v then (set_tag s Plain, true)
      else (keep h a s v, true) in
      Forall (fun x => ~ In 0%N (snd x)) (st_kept (fst r)) /\ forall c, st_tag (fst r) = Letter c -> c <> 0%N).
  { cbv zeta. destruct (_ && _); [cbn; split; [assumption|discriminate]|]. destruct (forallb _ v); [cbn; split; [assumption|discriminate]|]. exact KP. }
  cbv zeta in DF.
  destruct (st_tag s), (is_word v "Core"), (is_word v "Mobile"), (is_word v "unknown");
    try exact DF; cbn [fst set_tag forget_last st_kept st_tag]; split; auto; discriminate.
Qed.

Lemma placed_no_zero : forall sep t, ~ In 0%N t -> Forall (fun x => ~ In 0%N (snd x)) (st_kept (fst (after_placed sep state0 (placed 0 [] t)))).
Proof.
  intros sep t H.
  assert (P : forall s p w, ~ In 0%N s -> ~ In 0%N w -> Forall (fun x => ~ In 0%N (snd x)) (placed p w s)).
  { induction s as [|c s IH]; intros p w Hs Hw; cbn.
    - destruct w; repeat constructor; assumption.
    - assert (Hs' : ~ In 0%N s) by (intros X; apply Hs; now right).
      destruct (c =? 32)%N; [destruct w; [now apply IH|constructor; [assumption|apply IH; [assumption|intros []]]]|].
      apply IH; [assumption|]. intros X. apply in_app_iff in X. destruct X as [X|[X|[]]]; [now apply Hw|]. apply Hs. now left. }
  specialize (P t 0 [] H ltac:(intros [])).
  assert (G : forall l s, Forall (fun x : nat * word => ~ In 0%N (snd x)) l -> Forall (fun x => ~ In 0%N (snd x)) (st_kept s) ->
    (forall c, st_tag s = Letter c -> c <> 0%N) -> Forall (fun x => ~ In 0%N (snd x)) (st_kept (fst (after_placed sep s l)))).
  { induction l as [|[p w] l IH]; intros s Hl Hs Ht; [assumption|]. inversion Hl; subst. cbn [after_placed].
    destruct (kept_no_zero (some sep) (match sep with Some k => k <? p | None => false end) s w) as [K1 K2]; auto.
    destruct (after_word _ _ s w) as [s' []]; cbn [fst] in *; [now apply IH|assumption]. }
  apply G; [assumption|constructor|discriminate].
Qed.

Lemma far_blank : forall k q p, forallb (fun x => k <=? fst x) (placed p [] q) = forallb (fun c => c =? 32)%N (firstn (k - p) q).
Proof.
  intros k q. induction q as [|c q IH]; intros p; [now rewrite firstn_nil|]. cbn [placed].
  destruct (le_lt_dec k p) as [H|H].
  - replace (k - p) with 0 by lia. cbn [firstn forallb]. apply forallb_forall. intros [x v] Hx. cbn [fst].
    destruct (c =? 32)%N; apply placed_range in Hx; lia.
  - replace (k - p) with (S (k - S p)) by lia. cbn [firstn forallb]. destruct (N.eqb_spec c 32) as [->|Hc]; [cbn [andb]; apply IH|]. cbn [andb app].
    assert (Hd : forall s w, w <> [] -> exists w' l, placed p w s = (p, w') :: l).
    { clear. induction s as [|c s IH]; intros w H; cbn; [destruct w; [contradiction|eauto]|]. destruct (c =? 32)%N; [destruct w; [contradiction|eauto]|].
      apply IH. now destruct w. }
    destruct (Hd q [c] ltac:(discriminate)) as (w' & l & ->). cbn. replace (k <=? p) with false by lia. reflexivity.
Qed.

(** ** The output *)

Lemma put_exact : forall q w r o x (sp : bool), length o + (if sp then 1 else 0) + length w <= length o + length x ->
  exists x', put_token (q ++ w ++ r) (length q) (length q + length w) sp (o ++ x) (length o) =
    Ok ((o ++ (if sp then [32%N] else []) ++ w) ++ x', length (o ++ (if sp then [32%N] else []) ++ w)) /\
    length x' + length ((if sp then [32%N] else []) ++ w) = length x.
Proof.
  intros q w r o x sp H. unfold put_token, move_token. rewrite sub_length, read_app.
  assert (G : forall o x, length w <= length x -> exists x', write_bytes (o ++ x) (length o) w = Ok ((o ++ w) ++ x') /\ length x' + length w = length x).
  { intros o' y Hy. exists (skipn (length w) y). split; [|rewrite skipn_length; lia].
    rewrite <- (firstn_skipn (length w) y) at 1. rewrite write_app by (rewrite firstn_length; lia). now rewrite app_assoc. }
  destruct sp; cbn [bind].
  - destruct x as [|c x]; [cbn in H; lia|]. rewrite wr_app. cbn [bind]. destruct (G (o ++ [32%N]) x) as (x' & G1 & G2); [cbn in H; lia|].
    rewrite <- !app_assoc in G1. cbn [app] in G1. rewrite app_length, Nat.add_1_r in G1. rewrite G1. cbn [bind].
    exists x'. split; [|cbn; lia]. rewrite <- !app_assoc. cbn [app]. do 2 f_equal. rewrite app_length. cbn. lia.
  - destruct (G o x) as (x' & G1 & G2); [lia|]. rewrite G1. cbn [bind app]. exists x'. split; [|exact G2]. now rewrite app_length.
Qed.

Lemma starts_app : forall (w : word) c, w <> [] -> starts_with_dash (w ++ [c]) = starts_with_dash w.
Proof. intros [|x w] c H; [contradiction|reflexivity]. Qed.
Lemma ends_app : forall (w : word) c, ends_with_dash (w ++ [c]) = (c =? 45)%N.
Proof. intros w c. unfold ends_with_dash. now rewrite rev_app_distr. Qed.

Lemma no_blank_count : forall w, no_blank w -> count_occ N.eq_dec w 32%N = 0.
Proof. intros w H. now apply count_occ_not_In. Qed.

Lemma compact_exact : forall (tail rest q : list N) (w : word) (dash : bool) (o x : list N) (tokens : nat),
  no_blank w -> length o + (if dash then 0 else 1) <= length q -> length q + length w + length rest <= length o + length x ->
  exists x',
    compact_tokens (q ++ w ++ rest ++ tail) (length q + length w) (length rest)
      (match w with [] => None | _ => Some (length q, starts_with_dash w) end) dash (o ++ x) (length o) tokens =
    Ok ((o ++ join_after dash (map snd (placed (length q) w rest))) ++ x', length (o ++ join_after dash (map snd (placed (length q) w rest))),
        tokens + count_occ N.eq_dec (join_after dash (map snd (placed (length q) w rest))) 32%N) /\
    length x' + length (join_after dash (map snd (placed (length q) w rest))) = length x.
Proof.
  intros tail rest. induction rest as [|c rest IH]; intros q w dash o x tokens Nb H1 H2.
  - cbn [length compact_tokens placed app]. destruct w as [|y w].
    + exists x. cbn. rewrite !app_nil_r, !Nat.add_0_r. now split.
    + cbn [map snd join_after]. rewrite app_nil_r.
      set (sp := negb (starts_with_dash (y :: w)) && negb dash).
      assert (Sp : (if dash || starts_with_dash (y :: w) then [] else [32%N]) = if sp then [32%N] else []) by (unfold sp; now destruct dash, (starts_with_dash (y :: w))).
      rewrite Sp. destruct (put_exact q (y :: w) tail o x sp) as (x' & P1 & P2).
      { cbn [length] in *. unfold sp. destruct dash, (starts_with_dash (y :: w)); cbn [negb andb]; lia. }
      rewrite P1. cbn [bind fst snd]. exists x'. split; [|lia]. do 2 f_equal. rewrite count_occ_app, (no_blank_count (y :: w)) by assumption.
      destruct sp; cbn; lia.
  - cbn [length compact_tokens app].
    assert (RD : rd (q ++ w ++ c :: rest ++ tail) (length q + length w) = Ok c) by (rewrite app_assoc, <- app_length; apply rd_app).
    rewrite RD. cbn [bind placed]. destruct (N.eqb_spec c 32) as [->|Hc].
    + destruct w as [|y w].
      * destruct (IH (q ++ [32%N]) [] dash o x tokens) as (x' & C1 & C2); [intros []|rewrite app_length; cbn; lia|rewrite app_length; cbn in *; lia|].
        rewrite <- app_assoc, app_length, Nat.add_1_r, Nat.add_0_r in C1. rewrite app_length, Nat.add_1_r in C2. cbn [app length] in *. rewrite Nat.add_0_r.
        exists x'. split; [exact C1|exact C2].
      * cbn [map snd join_after].
        set (sp := negb (starts_with_dash (y :: w)) && negb dash).
        assert (Sp : (if dash || starts_with_dash (y :: w) then [] else [32%N]) = if sp then [32%N] else []) by (unfold sp; now destruct dash, (starts_with_dash (y :: w))).
        rewrite Sp. destruct (put_exact q (y :: w) (32%N :: rest ++ tail) o x sp) as (x1 & P1 & P2).
        { cbn [length] in *. unfold sp. destruct dash, (starts_with_dash (y :: w)); cbn [negb andb]; lia. }
        rewrite P1. cbn [bind fst snd].
        assert (EW : exists w0 z, y :: w = w0 ++ [z]) by (destruct (exists_last (l := y :: w)) as (w0 & z & E); [discriminate|eauto]).
        destruct EW as (w0 & z & EW).
        assert (RB : rd (q ++ (y :: w) ++ 32%N :: rest ++ tail) (length q + length (y :: w) - 1) = Ok z).
        { rewrite EW, !app_length. cbn [length]. replace (length q + (length w0 + 1) - 1) with (length (q ++ w0)) by (rewrite app_length; lia).
          rewrite <- app_assoc. cbn [app]. rewrite app_assoc. apply rd_app. }
        rewrite RB. cbn [bind].
        assert (ED : (z =? 45)%N = ends_with_dash (y :: w)) by (rewrite EW; now rewrite ends_app).
        rewrite ED.
        set (o1 := o ++ (if sp then [32%N] else []) ++ y :: w) in *.
        assert (Lo : length o1 <= length q + length (y :: w)).
        { unfold o1, sp. rewrite !app_length. destruct dash, (starts_with_dash (y :: w)); cbn [negb andb length] in *; lia. }
        destruct (IH (q ++ (y :: w) ++ [32%N]) [] (ends_with_dash (y :: w)) o1 x1 (if sp then S tokens else tokens)) as (x' & C1 & C2).
        { intros []. }
        { rewrite !app_length. cbn [length] in *. destruct (ends_with_dash (y :: w)); lia. }
        { rewrite !app_length in *. cbn [length] in *. unfold o1. rewrite !app_length. cbn [length]. lia. }
        assert (Lq : length (q ++ (y :: w) ++ [32%N]) = length q + S (length (y :: w))) by (rewrite !app_length; cbn; lia).
        rewrite Lq in C1, C2. rewrite <- !app_assoc in C1. cbn [app] in C1. cbn [length] in *. rewrite Nat.add_0_r in C1.
        replace (S (length q + S (length w))) with (length q + S (S (length w))) by lia. exists x'. cbn [app length]. rewrite C1. split.
        -- set (j := join_after (ends_with_dash (y :: w)) (map snd (placed (length q + S (S (length w))) [] rest))).
           assert (CE : (if sp then S tokens else tokens) + count_occ N.eq_dec j 32%N = tokens + count_occ N.eq_dec ((if sp then [32%N] else []) ++ (y :: w) ++ j) 32%N).
           { rewrite !count_occ_app, (no_blank_count (y :: w)) by assumption. destruct sp; cbn; lia. }
           cbn [app] in CE. rewrite CE. unfold o1. rewrite <- !app_assoc. cbn [app]. rewrite <- !app_assoc. reflexivity.
        -- clear - P2 C2. rewrite ?app_length in *. cbn [length] in *. rewrite ?app_length in *. cbn [length] in *. lia.
    + destruct (IH q (w ++ [c]) dash o x tokens) as (x' & C1 & C2); auto.
      { intros X. apply in_app_iff in X. destruct X as [X|[X|[]]]; [now apply Nb|now apply Hc]. }
      { rewrite app_length. cbn [length] in *. lia. }
      exists x'. split; [|exact C2]. rewrite <- C1. rewrite <- app_assoc, app_length. cbn [app length].
      replace (length q + (length w + 1)) with (S (length q + length w)) by lia. f_equal.
      destruct w as [|y w]; [cbn; now rewrite Nat.add_0_r|reflexivity].
Qed.

(** ** The whole function *)

Lemma inv_start : forall sep, inv sep [] (Parser None None None None None sep false false false false) state0.
Proof. intros sep. split; cbn; auto. split; reflexivity. Qed.

Definition final_state (raw : list N) : state :=
  fst (after_placed (last_at (without_zeros raw)) state0 (placed 0 [] (blanked false (without_zeros raw)))).

Lemma brand_name_eq : forall raw, brand_name raw =
  let st := final_state raw in
  let name := join (map snd (st_kept st)) in
  if st_sample st || (some (last_at (without_zeros raw)) && forallb fst (st_kept st)) || (st_frequency st && negb (existsb (N.eqb 32) name)) then [] else name.
Proof.
  intros raw. unfold brand_name, final_state. rewrite after_placed_exact.
  - destruct (last_at (without_zeros raw)) as [k|]; reflexivity.
  - intros k H. now apply blanked_at.
Qed.

(** What the scan leaves: an array of the same length and the end of the name. *)
Lemma scan_state : forall raw, length raw = 48 -> without_zeros raw <> [] ->
  let t := without_zeros raw in
  exists q left st',
    (do u <- unify_spaces raw 0 (length t) false None;
     scan_tokens (fst u) 0 (length t) None (Parser None None None None None (snd u) false false false false)) = Ok (q ++ left, st', length q) /\
    length (q ++ left) = 48 /\ length q <= length t /\ (inv (last_at t) q st' (final_state raw) \/ ps_sample st' = true /\ st_sample (final_state raw) = true).
Proof.
  intros raw L E t. destruct (without_zeros_prefix raw) as (zs & R & _). fold t in R.
  assert (U := unify_exact t [] false zs None ltac:(discriminate)). cbn [app length] in U.
  rewrite <- R in U. rewrite U. cbn [bind fst snd].
  replace (match last_at t with Some k => Some (0 + k) | None => None end) with (last_at t) by now destruct (last_at t).
  destruct (scan_exact (last_at t) zs (blanked false t) [] [] (Parser None None None None None (last_at t) false false false false) state0)
    as (q & left & st' & S1 & S2 & S3 & S4).
  - apply inv_start.
  - now left.
  - intros [].
  - intros k H _. cbn [app length]. rewrite Nat.sub_0_r. now apply blanked_at.
  - cbn [app length Nat.add] in *. rewrite blanked_length in *. rewrite S1. exists q, left, st'. split; [reflexivity|].
    split; [rewrite S2, app_length, blanked_length, <- app_length, <- R; assumption|]. split; [assumption|]. exact S4.
Qed.

Lemma join_length : forall q dash, length (join_after dash (map snd (placed 0 [] q))) <= length q + (if dash then 0 else 1).
Proof.
  assert (G : forall s p w dash, length (join_after dash (map snd (placed p w s))) <= length w + length s + (if dash then 0 else 1)).
  { induction s as [|c s IH]; intros p w dash; cbn [placed].
    - destruct w as [|x w]; [cbn; lia|]. cbn [map snd join_after]. rewrite !app_length. cbn [length].
      destruct dash; cbn [orb]; [cbn; lia|]. destruct (starts_with_dash (x :: w)); cbn; lia.
    - destruct (c =? 32)%N.
      + destruct w as [|x w]; [specialize (IH (S p) [] dash); cbn [length] in *; lia|]. cbn [map snd join_after]. rewrite !app_length.
        specialize (IH (p + S (length (x :: w))) [] (ends_with_dash (x :: w))). cbn [length] in *.
        assert (length (if dash || starts_with_dash (x :: w) then [] else [32%N]) <= if dash then 0 else 1) by (destruct dash, (starts_with_dash (x :: w)); cbn; lia).
        destruct (ends_with_dash (x :: w)); lia.
      + specialize (IH p (w ++ [c]) dash). rewrite app_length in IH. cbn [length] in *. lia. }
  intros q dash. apply (G q 0 [] dash).
Qed.

Lemma mark_words : forall sep l, map snd (map (mark sep) l) = map snd l.
Proof. intros. rewrite map_map. reflexivity. Qed.

Lemma normalize_exact : forall raw out, length raw = 48 -> length out = 48 ->
  exists m, normalize_brand_string raw out = Ok (m, length (brand_name raw)) /\ length m = 48 /\
    length (brand_name raw) <= length (without_zeros raw) /\ holds_string m (firstn 47 (brand_name raw)).
Proof.
  intros raw out Lr Lo. unfold normalize_brand_string.
  destruct out as [|c0 out]; [discriminate|]. rewrite (wr_app [] c0 out 0%N : wr (c0 :: out) 0 0%N = _). cbn [bind app].
  assert (Lo' : length out = 47) by (cbn in Lo; lia). clear Lo c0.
  rewrite firstn_all2 by lia. destruct (find_end_exact raw []) as (zs & R & Z & F). rewrite app_nil_r, Lr in F. rewrite F. cbn [bind].
  assert (Empty : forall n, n = length (brand_name raw) -> brand_name raw = [] -> exists m, Ok (0%N :: out, n) = Ok (m, length (brand_name raw)) /\ length m = 48 /\
    length (brand_name raw) <= length (without_zeros raw) /\ holds_string m (firstn 47 (brand_name raw))).
  { intros n -> E. exists (0%N :: out). rewrite E. cbn [firstn length]. repeat split; [lia|lia|]. exists out. split; [reflexivity|intros []]. }
  assert (Empty0 : brand_name raw = [] -> exists m, Ok (0%N :: out, 0) = Ok (m, length (brand_name raw)) /\ length m = 48 /\
    length (brand_name raw) <= length (without_zeros raw) /\ holds_string m (firstn 47 (brand_name raw))).
  { intros E. apply Empty; [now rewrite E|assumption]. }
  clear Empty.
  destruct (Nat.eqb_spec (length (without_zeros raw)) 0) as [E0|E0].
  { apply length_zero_iff_nil in E0. apply Empty0. rewrite brand_name_eq. unfold final_state. rewrite E0. reflexivity. }
  assert (NE : without_zeros raw <> []) by (intros X; rewrite X in E0; now apply E0).
  destruct (scan_state raw Lr NE) as (q & left & st' & S1 & S2 & S3 & S4).
  set (t := without_zeros raw) in *.
  destruct (unify_spaces raw 0 (length t) false None) as [[m0 sp]| |]; try discriminate. cbn [bind fst snd] in *. rewrite S1. cbn [bind].
  assert (BN := brand_name_eq raw). cbv zeta in BN. fold t in BN.
  destruct S4 as [I|[I1 I2]].
  2: { rewrite I1. apply Empty0. rewrite BN, I2. reflexivity. }
  destruct I as [K _ _ Isep Isam Inum Ifreq]. rewrite Isam, Isep, Ifreq.
  destruct (st_sample (final_state raw)) eqn:SM. { apply Empty0. rewrite BN. reflexivity. }
  assert (NZ : Forall (fun x => ~ In 0%N (snd x)) (st_kept (final_state raw))) by (apply placed_no_zero, blanked_zero).
  set (name := join (map snd (st_kept (final_state raw)))) in *.
  assert (NJ : name = join_after true (map snd (placed 0 [] q))) by (unfold name, join; rewrite K, mark_words; reflexivity).
  assert (NL : length name <= length q) by (rewrite NJ; assert (X := join_length q true); cbn in X; lia).
  assert (NN : ~ In 0%N name).
  { unfold name, join. clear - NZ. revert NZ. generalize true. induction (st_kept (final_state raw)) as [|[b w] l IH]; intros d H X; cbn in X; [exact X|].
    inversion H; subst. apply in_app_iff in X. destruct X as [X|X]; [destruct (_ || _) in X; cbn in X; [exact X|destruct X as [X|[]]; discriminate]|].
    apply in_app_iff in X. destruct X as [X|X]; [contradiction|]. eapply IH; eauto. }
  assert (Out : exists m,
    (do c <- compact_tokens (q ++ left) 0 (length q) None true (0%N :: out) 0 1;
     let '(normalized, out_ptr, tokens) := c in
     if st_frequency (final_state raw) && (tokens <=? 1) then do normalized <- wr normalized 0 0%N; Ok (normalized, 0) else
     do normalized <- if out_ptr <? 48 then wr normalized out_ptr 0%N else wr normalized 47 0%N;
     Ok (normalized, out_ptr)) = Ok (m, if st_frequency (final_state raw) && negb (existsb (N.eqb 32) name) then 0 else length name) /\ length m = 48 /\
     holds_string m (if st_frequency (final_state raw) && negb (existsb (N.eqb 32) name) then [] else firstn 47 name)).
  { destruct (compact_exact left q [] [] true [] (0%N :: out) 1) as (x' & C1 & C2); [intros []|cbn; lia|cbn [length]; rewrite app_length in S2; lia|].
    cbn [app length Nat.add] in C1, C2. rewrite <- NJ in C1, C2. rewrite C1. cbn [bind].
    assert (TC : (S (count_occ N.eq_dec name 32%N) <=? 1) = negb (existsb (N.eqb 32) name)).
    { destruct (existsb (N.eqb 32) name) eqn:X.
      - apply existsb_exists in X. destruct X as (y & X1 & X2). apply N.eqb_eq in X2. subst y. apply (count_occ_In N.eq_dec) in X1. cbn [negb]. lia.
      - destruct (in_dec N.eq_dec 32%N name) as [X1|X1]; [exfalso; assert (existsb (N.eqb 32) name = true) by (apply existsb_exists; exists 32%N; split; [assumption|reflexivity]); congruence|].
        apply (count_occ_not_In N.eq_dec) in X1. rewrite X1. reflexivity. }
    rewrite TC. assert (LX : length (name ++ x') = 48) by (rewrite app_length; cbn in C2; lia).
    destruct (st_frequency (final_state raw) && negb (existsb (N.eqb 32) name)).
    - destruct (name ++ x') as [|y l] eqn:EL; [discriminate|]. rewrite (wr_app [] y l 0%N : wr (y :: l) 0 0%N = _). cbn [bind app].
      exists (0%N :: l). repeat split; [exact LX|]. exists l. split; [reflexivity|intros []].
    - rewrite app_length in LX. destruct (Nat.ltb_spec (length name) 48) as [B|B].
      + destruct x' as [|y x']; [cbn in LX; lia|]. rewrite wr_app. cbn [bind]. exists (name ++ 0%N :: x'). split; [reflexivity|].
        split; [rewrite app_length; cbn in *; lia|]. rewrite firstn_all2 by lia. exists x'. split; [reflexivity|assumption].
      + assert (x' = []) by (destruct x'; [reflexivity|cbn in LX; lia]). subst x'. rewrite app_nil_r. cbn [length] in LX.
        destruct (exists_last (l := name)) as (n0 & z & En); [intros X; rewrite X in B; cbn in B; lia|]. rewrite En in *.
        rewrite app_length in *. cbn [length] in *. assert (L0 : length n0 = 47) by lia.
        assert (W : wr (n0 ++ [z]) 47 0%N = Ok (n0 ++ [0%N])) by (rewrite <- L0; apply wr_app). rewrite W. cbn [bind]. exists (n0 ++ [0%N]). split; [reflexivity|]. split; [rewrite app_length; cbn; lia|].
        rewrite firstn_app, L0, Nat.sub_diag, firstn_all2 by lia. cbn [firstn]. rewrite app_nil_r. exists []. split; [reflexivity|].
        intros X. apply NN. apply in_app_iff. now left. }
  destruct Out as (m & O1 & O2 & O3).
  assert (Done : brand_name raw = (if st_frequency (final_state raw) && negb (existsb (N.eqb 32) name) then [] else name) ->
    exists m', Ok (m, if st_frequency (final_state raw) && negb (existsb (N.eqb 32) name) then 0 else length name) = Ok (m', length (brand_name raw)) /\ length m' = 48 /\
    length (brand_name raw) <= length t /\ holds_string m' (firstn 47 (brand_name raw))).
  { intros E. exists m. rewrite E. destruct (st_frequency (final_state raw) && negb (existsb (N.eqb 32) name)); repeat split; auto; cbn; lia. }
  destruct (last_at t) as [k|] eqn:Sp; cbn [some andb orb] in BN.
  - unfold is_space, token_is. rewrite Nat.sub_0_r.
    assert (Hk : k < 48).
    { assert (X := blanked_at t false k Sp). apply nth_error_some_lt in X. rewrite blanked_length in X. rewrite R, app_length in Lr. lia. }
    assert (RB : read_bytes (q ++ left) 0 k = Ok (firstn k (q ++ left))).
    { assert (X := read_app (firstn k (q ++ left)) [] (skipn k (q ++ left))). cbn [app length] in X. rewrite firstn_skipn, firstn_length_le in X by lia. exact X. }
    rewrite RB. cbn [bind].
    assert (FB : forallb fst (st_kept (final_state raw)) = forallb (fun c => c =? 32)%N (firstn k q)).
    { rewrite K. assert (X := far_blank k q 0). rewrite Nat.sub_0_r in X. rewrite <- X. clear. induction (placed 0 [] q) as [|x l IH]; [reflexivity|]. cbn. now rewrite IH. }
    rewrite firstn_app, forallb_app, <- FB.
    destruct (forallb fst (st_kept (final_state raw))) eqn:FF; cbn [andb].
    + destruct (forallb (fun c => c =? 32)%N (firstn (k - length q) left)) eqn:FL; [apply Empty0; exact BN|].
      rewrite O1. apply Done. rewrite BN.
      (* the end came before the '@', so no word was kept *)
      assert (Hq : length q < k) by (destruct (le_lt_dec k (length q)) as [X|X]; [apply Nat.sub_0_le in X; rewrite X in FL; discriminate|assumption]).
      assert (KN : st_kept (final_state raw) = []).
      { rewrite K in FF |- *. destruct (placed 0 [] q) as [|[p w] l] eqn:P; [reflexivity|]. exfalso. cbn in FF.
        assert (X : In (p, w) (placed 0 [] q)) by (rewrite P; now left). apply placed_range in X. cbn in X. destruct w; [tauto|]. cbn in X. clear - X FF Hq. unfold far in FF. apply andb_true_iff in FF. destruct FF as [FF _]. apply Nat.leb_le in FF. lia. }
      unfold name. rewrite KN. destruct (st_frequency (final_state raw)); reflexivity.
    + rewrite O1. apply Done. exact BN.
  - cbn [bind]. rewrite O1. apply Done. exact BN.
Qed.

(** ** Clean names *)

Lemma placed_no_blank : forall s p w, no_blank w -> Forall (fun x => no_blank (snd x)) (placed p w s).
Proof.
  induction s as [|c s IH]; intros p w H; cbn.
  - destruct w; repeat constructor; assumption.
  - destruct (N.eqb_spec c 32) as [->|Hc]; [destruct w; [now apply IH|constructor; [assumption|apply IH; intros []]]|].
    apply IH. intros X. apply in_app_iff in X. destruct X as [X|[X|[]]]; [now apply H|now apply Hc].
Qed.

Definition good_words (ws : list word) : Prop := Forall (fun w => no_blank w /\ w <> []) ws.

Lemma single_app : forall a b, no_blank a -> a <> [] -> single_blanks b -> single_blanks (a ++ b).
Proof.
  induction a as [|x a IH]; intros b N E S; [contradiction|]. destruct a as [|y a].
  - cbn. destruct b as [|z b]; [exact I|]. split; [intros [-> _]; apply N; now left|exact S].
  - cbn [app single_blanks]. cbn [app single_blanks] in IH. split; [intros [-> _]; apply N; now left|].
    apply (IH b); [intros X; apply N; now right|discriminate|assumption].
Qed.

Lemma join_single : forall ws d, good_words ws -> single_blanks (join_after d ws).
Proof.
  induction ws as [|w ws IH]; intros d H; [exact I|]. inversion H as [|? ? [N E] H']; subst. cbn [join_after].
  assert (S : single_blanks (w ++ join_after (ends_with_dash w) ws)) by (apply single_app; auto).
  destruct (d || starts_with_dash w); [exact S|]. cbn [app]. destruct w as [|c w]; [contradiction|].
  cbn [app single_blanks] in *. split; [intros [_ ->]; apply N; now left|exact S].
Qed.

Lemma join_last : forall ws d, good_words ws -> hd_error (rev (join_after d ws)) <> Some 32%N.
Proof.
  induction ws as [|w ws IH]; intros d H; [discriminate|]. inversion H as [|? ? [N E] H']; subst. cbn [join_after].
  rewrite !rev_app_distr. destruct (rev (join_after (ends_with_dash w) ws)) as [|c r] eqn:R.
  - cbn [app]. destruct (rev w) as [|c r] eqn:W; [apply (f_equal (@rev _)) in W; rewrite rev_involutive in W; contradiction|].
    cbn. intros [= ->]. apply N. apply in_rev. rewrite W. now left.
  - cbn. specialize (IH (ends_with_dash w) H'). rewrite R in IH. exact IH.
Qed.

Lemma kept_good : forall raw, length raw = 48 -> st_sample (final_state raw) = false -> good_words (map snd (st_kept (final_state raw))).
Proof.
  intros raw L S. destruct (without_zeros raw) as [|c0 t0] eqn:E.
  { unfold final_state. rewrite E. constructor. }
  destruct (scan_state raw L) as (q & left & st' & _ & _ & _ & [I|[_ I]]); [rewrite E; discriminate| |congruence].
  rewrite (i_kept _ _ _ _ I), mark_words. unfold good_words. rewrite Forall_map. apply Forall_forall. intros [p w] Hp. cbn. split.
  - assert (P := placed_no_blank q 0 [] ltac:(intros [])). rewrite Forall_forall in P. exact (P _ Hp).
  - now apply placed_range in Hp.
Qed.

Lemma name_clean : forall raw, length raw = 48 -> clean (brand_name raw).
Proof.
  intros raw L. rewrite brand_name_eq. cbv zeta. destruct (st_sample (final_state raw)) eqn:S; [split; [discriminate|split; [discriminate|exact I]]|].
  destruct (_ || _ || _); [split; [discriminate|split; [discriminate|exact I]]|].
  assert (G := kept_good raw L S). unfold join. split; [|split; [now apply join_last|now apply join_single]].
  destruct (map snd (st_kept (final_state raw))) as [|w ws]; [discriminate|]. inversion G as [|? ? [N E] _]; subst. cbn [join_after orb app].
  destruct w as [|c w]; [contradiction|]. cbn. intros [= ->]. apply N. now left.
Qed.

(** A terminated brand string gives a name that fits. *)
Lemma name_fits : forall raw, length raw = 48 -> nth_error raw 47 = Some 0%N -> length (brand_name raw) <= 47.
Proof.
  intros raw L Z. destruct (normalize_exact raw (repeat 0%N 48) L (repeat_length _ _)) as (m & _ & _ & B & _).
  assert (length (without_zeros raw) <= 47); [|lia]. destruct (without_zeros_prefix raw) as (zs & R & ZS).
  destruct zs as [|z zs].
  - rewrite app_nil_r in R. exfalso. assert (L' : length raw = 48) by assumption.
    destruct (exists_last (l := raw)) as (r0 & z & E); [intros X; rewrite X in L; discriminate|].
    assert (A : forall x, without_zeros (x ++ [0%N]) = without_zeros x).
    { induction x as [|y x IHx]; cbn [app without_zeros]; [reflexivity|]. now rewrite IHx. }
    assert (length r0 = 47) by (rewrite E, app_length in L; cbn in L; lia).
    rewrite E, nth_error_app2 in Z by lia. replace (47 - length r0) with 0 in Z by lia. cbn in Z. injection Z as ->.
    rewrite E, A in R. apply (f_equal (@length N)) in R. rewrite app_length in R. cbn in R.
    destruct (without_zeros_prefix r0) as (z0 & R0 & _). apply (f_equal (@length N)) in R0. rewrite app_length in R0. lia.
  - rewrite R, app_length in L. cbn in L. lia.
Qed.
