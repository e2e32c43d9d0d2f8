(** Lemmas about brand strings: in-place editing computes the word-level specification. *)
From Verif Require Import Base BaseProofs Text X86NameModel X86NameSpec.
Open Scope nat_scope.

(** ** Arrays as concatenations *)

Lemma rd_app : forall (a : list N) c r, rd (a ++ c :: r) (length a) = Ok c.
Proof. intros a c r. unfold rd. rewrite nth_error_app2, Nat.sub_diag by lia. reflexivity. Qed.

Lemma upd_app : forall (a : list N) c r x, upd (a ++ c :: r) (length a) x = a ++ x :: r.
Proof. induction a as [|h a IH]; intros; cbn; [reflexivity|now rewrite IH]. Qed.

Lemma wr_app : forall (a : list N) c r x, wr (a ++ c :: r) (length a) x = Ok (a ++ x :: r).
Proof.
  intros a c r x. unfold wr. rewrite app_length. cbn [length]. replace (length a <? length a + S (length r)) with true by lia.
  now rewrite upd_app.
Qed.

Lemma read_app : forall x a r, read_bytes (a ++ x ++ r) (length a) (length x) = Ok x.
Proof.
  induction x as [|c x IH]; intros a r; [reflexivity|].
  cbn [length read_bytes app]. rewrite rd_app. cbn [bind].
  specialize (IH (a ++ [c]) r). rewrite <- app_assoc, app_length in IH. cbn in IH. rewrite Nat.add_1_r in IH. now rewrite IH.
Qed.

Lemma write_app : forall y x a r, length y = length x -> write_bytes (a ++ x ++ r) (length a) y = Ok (a ++ y ++ r).
Proof.
  induction y as [|d y IH]; intros [|c x] a r E; try discriminate; [reflexivity|].
  cbn [write_bytes app]. rewrite wr_app. cbn [bind].
  specialize (IH x (a ++ [d]) r). rewrite <- !app_assoc, app_length in IH. cbn in IH. rewrite Nat.add_1_r in IH.
  rewrite IH by (cbn in E; lia). reflexivity.
Qed.

Definition blanks (s : list N) : Prop := Forall (eq 32%N) s.
Definition no_blank (s : list N) : Prop := ~ In 32%N s.

Lemma memset_app : forall x a r, memset (a ++ x ++ r) (length a) 32%N (length x) = Ok (a ++ repeat 32%N (length x) ++ r).
Proof. intros. apply write_app. now rewrite repeat_length. Qed.

Lemma blanks_repeat : forall n, blanks (repeat 32%N n).
Proof. intros. apply Forall_forall. intros x Hx. now apply repeat_spec in Hx. Qed.

(** ** Words with their places *)

Fixpoint placed (p : nat) (w : word) (s : list N) : list (nat * word) :=
  match s with
  | [] => match w with [] => [] | _ => [(p, w)] end
  | c :: t => if (c =? 32)%N then match w with [] => placed (S p) [] t | _ => (p, w) :: placed (p + S (length w)) [] t end
              else placed p (w ++ [c]) t
  end.

Lemma placed_words : forall s p w, map snd (placed p w s) = words_from w s.
Proof.
  induction s as [|c s IH]; intros p w; cbn.
  - now destruct w.
  - destruct (c =? 32)%N; [destruct w; cbn; now rewrite ?IH|apply IH].
Qed.

Definition ended (s : list N) : Prop := s = [] \/ exists t, s = t ++ [32%N].

Lemma placed_blank : forall s p w t, placed p w (s ++ 32%N :: t) = placed p w s ++ placed (p + S (length w + length s)) [] t.
Proof.
  induction s as [|c s IH]; intros p w t; cbn [app placed].
  - cbn. destruct w; cbn; f_equal; [lia|]. f_equal. f_equal. lia.
  - destruct (c =? 32)%N.
    + destruct w as [|x w]; cbn [length].
      * rewrite IH. f_equal. f_equal. cbn. lia.
      * rewrite IH. cbn [app]. do 2 f_equal. f_equal. cbn. lia.
    + rewrite IH. f_equal. f_equal. rewrite app_length. cbn. lia.
Qed.

Lemma placed_ended : forall s t, ended s -> placed 0 [] (s ++ t) = placed 0 [] s ++ placed (length s) [] t.
Proof.
  intros s t [->|(u & ->)]; [reflexivity|]. rewrite <- app_assoc. cbn [app].
  rewrite placed_blank. rewrite (placed_blank u 0 [] []). cbn [placed]. rewrite app_nil_r. f_equal. f_equal.
  rewrite app_length. cbn. lia.
Qed.

Lemma placed_blanks : forall b p, blanks b -> placed p [] b = [].
Proof. induction b as [|c b IH]; intros p H; [reflexivity|]. inversion H; subst. cbn. now apply IH. Qed.

Lemma placed_skip : forall b p t, blanks b -> placed p [] (b ++ t) = placed (p + length b) [] t.
Proof.
  induction b as [|c b IH]; intros p t H; cbn.
  - f_equal. lia.
  - inversion H; subst. cbn. rewrite IH by assumption. f_equal. lia.
Qed.

Lemma placed_more : forall b p w s, blanks b -> placed p w (s ++ b) = placed p w s.
Proof.
  intros [|c b] p w s H; [now rewrite app_nil_r|]. inversion H; subst. rewrite placed_blank, placed_blanks by assumption. apply app_nil_r.
Qed.

Lemma placed_word_from : forall v p u, no_blank v -> placed p u v = match u ++ v with [] => [] | x => [(p, x)] end.
Proof.
  induction v as [|c v IH]; intros p u H; cbn.
  - rewrite app_nil_r. now destruct u.
  - destruct (N.eqb_spec c 32) as [->|]; [destruct H; now left|]. rewrite IH by (intros X; apply H; now right).
    rewrite <- app_assoc. reflexivity.
Qed.

Lemma placed_word : forall v p, no_blank v -> v <> [] -> placed p [] v = [(p, v)].
Proof. intros v p H E. rewrite placed_word_from by assumption. cbn. now destruct v. Qed.

Lemma ended_blanks : forall s b, ended s -> blanks b -> ended (s ++ b).
Proof.
  intros s b E H. destruct b as [|c b] using rev_ind; [now rewrite app_nil_r|]. apply Forall_app in H. destruct H as [_ H]. inversion H; subst.
  right. exists (s ++ b). now rewrite app_assoc.
Qed.

Lemma ended_cons : forall s b, blanks b -> b <> [] -> ended (s ++ b).
Proof.
  intros s b H E. destruct b as [|c b] using rev_ind; [contradiction|]. apply Forall_app in H. destruct H as [_ H]. inversion H; subst.
  right. exists (s ++ b). now rewrite app_assoc.
Qed.

(** ** The tables of rules *)

Definition asked (previous : parser) (r : rule) : bool :=
  match r_when r with None => true | Some c => match context_of previous c with Some _ => true | None => false end end.
Definition applies (previous : parser) (v : word) (r : rule) : bool := asked previous r && is_word v (r_word r).

Lemma memequal_word : forall a v r t, length (text t) = length v -> memequal (a ++ v ++ r) (length a) (length v) t = Ok (is_word v t).
Proof.
  intros a v r t E. unfold memequal. rewrite read_app. cbn [bind]. rewrite <- E, firstn_all. reflexivity.
Qed.

Lemma run_rules_find : forall rules a v r previous st,
  Forall (fun x => length (text (r_word x)) = length v) rules -> NoDup (map (fun x => text (r_word x)) rules) ->
  run_rules rules (a ++ v ++ r) (length a) (length a + length v) previous st =
  match find (applies previous v) rules with
  | None => Ok (a ++ v ++ r, st, None)
  | Some x => act (a ++ v ++ r) (length a) (length a + length v) previous st (r_action x)
  end.
Proof.
  induction rules as [|x rules IH]; intros a v r previous st L D; [reflexivity|].
  apply Forall_cons_iff in L. destruct L as [L1 L2]. cbn [map] in D. inversion D as [|? ? D1 D2]; subst.
  cbn [run_rules find]. fold (asked previous x). unfold applies at 1.
  replace (length a + length v - length a) with (length v) by lia.
  assert (R := IH a v r previous). clear IH.
  destruct (asked previous x); cbn [andb]; [|apply R; auto].
  rewrite memequal_word by assumption. cbn [bind].
  destruct (is_word v (r_word x)) eqn:M; [|apply R; auto].
  assert (F : find (applies previous v) rules = None).
  { unfold is_word in M. destruct (word_dec v (text (r_word x))) as [E|]; [|discriminate].
    destruct (find (applies previous v) rules) as [y|] eqn:F; [|reflexivity].
    apply find_some in F. destruct F as [F1 F2]. unfold applies, is_word in F2. apply andb_true_iff in F2. destruct F2 as [_ F2].
    destruct (word_dec v (text (r_word y))) as [E'|]; [|discriminate]. destruct D1. apply in_map_iff. exists y. split; [congruence|assumption]. }
  destruct (act (a ++ v ++ r) (length a) (length a + length v) previous st (r_action x)) as [[[m st'] [b|]]| |] eqn:A; cbn [bind]; try reflexivity.
  assert (m = a ++ v ++ r).
  { destruct (r_action x) as [| |c|c [?|]| | |]; cbn in A; try congruence.
    - destruct (memset _ _ _ _) in A; cbn in A; congruence.
    - destruct (memset _ _ _ _) in A; cbn in A; congruence.
    - destruct (context_of previous c); [|discriminate]. destruct (memset _ _ _ _) in A; cbn in A; congruence. }
  subst m. rewrite R, F; auto.
Qed.

Definition all_rules : list rule := flat_map token_rules (seq 0 12).

Lemma find_other : forall previous v rules, Forall (fun x => length (text (r_word x)) <> length v) rules -> find (applies previous v) rules = None.
Proof.
  intros previous v rules. induction rules as [|x rules IH]; intros H; [reflexivity|]. inversion H; subst. cbn. unfold applies at 1, is_word.
  destruct (word_dec v (text (r_word x))) as [->|]; [contradiction|]. rewrite andb_false_r. now apply IH.
Qed.

Lemma find_app : forall {A} (f : A -> bool) l m, find f (l ++ m) = match find f l with Some x => Some x | None => find f m end.
Proof. intros A f l m. induction l as [|x l IH]; [reflexivity|]. cbn. destruct (f x); [reflexivity|apply IH]. Qed.

Lemma rules_length : forall n, Forall (fun x => length (text (r_word x)) = n) (token_rules n).
Proof. intros n. do 12 (destruct n as [|n]; [repeat constructor|]). constructor. Qed.

Lemma rules_nodup : forall n, NoDup (map (fun x => text (r_word x)) (token_rules n)).
Proof.
  intros n. do 12 (destruct n as [|n]; [cbn; repeat (constructor; [cbn; intros X; repeat (destruct X as [X|X]; [discriminate X|]); exact X|]); constructor|]).
  constructor.
Qed.

Lemma find_all : forall previous v, find (applies previous v) (token_rules (length v)) = find (applies previous v) all_rules.
Proof.
  intros previous v. unfold all_rules.
  assert (H : forall k n, find (applies previous v) (flat_map token_rules (seq k n)) =
                        if (k <=? length v) && (length v <? k + n) then find (applies previous v) (token_rules (length v)) else None).
  { intros k n. revert k. induction n as [|n IH]; intros k; cbn [seq flat_map].
    - replace ((k <=? length v) && (length v <? k + 0)) with false by lia. reflexivity.
    - rewrite find_app. destruct (Nat.eq_dec k (length v)) as [->|E].
      + rewrite IH. replace ((S (length v) <=? length v) && (length v <? S (length v) + n)) with false by lia.
        replace ((length v <=? length v) && (length v <? length v + S n)) with true by lia.
        destruct (find _ _); reflexivity.
      + rewrite find_other, IH.
        * replace ((S k <=? length v) && (length v <? S k + n)) with ((k <=? length v) && (length v <? k + S n)) by lia. reflexivity.
        * assert (L := rules_length k). revert L. apply Forall_impl. intros x Hx. lia. }
  rewrite H. cbn [Nat.leb andb]. destruct (length v <? 0 + 12) eqn:E; [reflexivity|].
  assert (X : 12 <= length v) by lia. remember (length v) as n. do 12 (destruct n as [|n]; [lia|]). reflexivity.
Qed.

(** The rule for a word, over all lengths. *)
Definition rule_for (previous : parser) (v : word) : option action := option_map r_action (find (applies previous v) all_rules).

Lemma run_rules_exact : forall a v r previous st,
  run_rules (token_rules (length v)) (a ++ v ++ r) (length a) (length a + length v) previous st =
  match rule_for previous v with
  | None => Ok (a ++ v ++ r, st, None)
  | Some x => act (a ++ v ++ r) (length a) (length a + length v) previous st x
  end.
Proof.
  intros a v r previous st. rewrite run_rules_find; [|apply rules_length|apply rules_nodup].
  unfold rule_for. rewrite find_all. now destruct (find _ _).
Qed.
