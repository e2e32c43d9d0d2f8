From Verif Require Import Base Text LinuxTextSpec ToolsModel ReportSpec ReportProofs MockFileModel MockFileSpec RecordModel RecordSpec RecordProofs
  AndroidRecordModel AndroidRecordSpec.
From Verif Require CpuidDumpModel.
Open Scope N_scope.

(** ** getprop *)
Definition nonblank (c : N) : bool := negb (python_blank c).
Lemma lstrip_all b s : forallb python_blank b = true -> lstrip (b ++ s) = lstrip s.
Proof. induction b as [|c b IH]; intros F; [reflexivity|]. cbn in F. apply Bool.andb_true_iff in F as [H F]. cbn. rewrite H. now apply IH. Qed.
Lemma forallb_rev {A} (f : A -> bool) l : forallb f (rev l) = forallb f l.
Proof. induction l as [|a l IH]; [reflexivity|]. cbn. rewrite forallb_app, IH. cbn. rewrite Bool.andb_true_r. apply Bool.andb_comm. Qed.
Lemma strip_core b1 c a d b2 : forallb python_blank b1 = true -> forallb python_blank b2 = true -> nonblank c = true -> nonblank d = true ->
  strip (b1 ++ (c :: a ++ [d]) ++ b2) = c :: a ++ [d].
Proof.
  intros B1 B2 C D. unfold nonblank in C, D. apply Bool.negb_true_iff in C, D. unfold strip. rewrite lstrip_all by exact B1. cbn [app lstrip]. rewrite C.
  change (c :: (a ++ [d]) ++ b2) with ((c :: a ++ [d]) ++ b2). rewrite rev_app_distr, lstrip_all by (now rewrite forallb_rev).
  change (c :: a ++ [d]) with ((c :: a) ++ [d]). rewrite rev_app_distr. cbn [rev app lstrip]. rewrite D.
  change (d :: rev a ++ [c]) with ([d] ++ rev (c :: a)). rewrite <- (rev_involutive [d]). cbn [rev app]. rewrite rev_app_distr, rev_involutive. reflexivity.
Qed.
Lemma strip_blank b : forallb python_blank b = true -> strip b = [].
Proof. intros F. unfold strip. rewrite <- (app_nil_r b), lstrip_all by exact F. reflexivity. Qed.

Lemma split_first c a b : ~ In c a -> split_at c (a ++ c :: b) = Some (a, b).
Proof.
  induction a as [|d a IH]; intros H; cbn; [now rewrite N.eqb_refl|]. destruct (N.eqb_spec d c) as [->|]; [destruct H; now left|].
  rewrite IH; [reflexivity|]. intros I. apply H. now right.
Qed.

Definition one_property (p : list N * list N) : list N := text "[" ++ fst p ++ text "]: [" ++ snd p ++ text "]".
Fixpoint body (nl : list N) (ps : list (list N * list N)) : list N :=
  match ps with [] => [] | [p] => one_property p | p :: ps' => one_property p ++ nl ++ body nl ps' end.
Lemma body_ends nl ps : ps <> [] -> exists a, body nl ps = 91 :: a ++ [93].
Proof.
  induction ps as [|p ps IH]; [congruence|]. intros _. destruct ps as [|q ps].
  - exists (fst p ++ text "]: [" ++ snd p). cbn. now rewrite <- !app_assoc.
  - destruct IH as (a & E); [discriminate|]. cbn [body]. cbn [body] in E. rewrite E.
    exists (fst p ++ text "]: [" ++ snd p ++ text "]" ++ nl ++ 91 :: a). unfold one_property. rewrite <- !app_assoc. reflexivity.
Qed.
Definition more (nl : list N) (ps : list (list N * list N)) : list N := match ps with [] => [] | _ => nl ++ body nl ps end.
Lemma body_cons nl p ps : body nl (p :: ps) = one_property p ++ more nl ps.
Proof. destruct ps; [cbn; now rewrite app_nil_r|reflexivity]. Qed.
Lemma more_ends nl ps : exists a, text "]" ++ more nl ps = a ++ [93].
Proof.
  destruct ps as [|p ps]; [now exists []|]. destruct (body_ends nl (p :: ps)) as (a & E); [discriminate|]. unfold more. rewrite E.
  exists (text "]" ++ nl ++ 91 :: a). now rewrite <- !app_assoc.
Qed.
Lemma strip_more nl ps : forallb python_blank nl = true -> strip (more nl ps) = body nl ps.
Proof.
  intros B. destruct ps as [|p ps]; [reflexivity|]. destruct (body_ends nl (p :: ps)) as (a & E); [discriminate|]. unfold more. rewrite E.
  rewrite <- (app_nil_r (nl ++ _)), <- app_assoc. now apply strip_core.
Qed.
Definition bracketed (p : list N * list N) : Prop := ~ In 93 (fst p) /\ ~ In 93 (snd p).
Lemma next_read nl p ps tail : bracketed p -> forallb python_blank nl = true -> forallb python_blank tail = true ->
  next_property (body nl (p :: ps) ++ tail) = Some (p, body nl ps).
Proof.
  intros [K V] B T. rewrite body_cons. unfold one_property. rewrite <- !app_assoc. unfold next_property.
  change (behind 91 (text "[" ++ ?x)) with (Some x). cbv iota.
  change (text "]: [" ++ ?x) with (93 :: text ": [" ++ x). rewrite split_first by exact K.
  destruct (more_ends nl ps) as (a & E).
  assert (S1 : strip (text ": [" ++ snd p ++ text "]" ++ more nl ps ++ tail) = text ": [" ++ snd p ++ text "]" ++ more nl ps).
  { rewrite (app_assoc (text "]")), E.
    pose proof (strip_core [] 58 ([32; 91] ++ snd p ++ a) 93 tail eq_refl T eq_refl eq_refl) as S.
    cbn [app] in S. cbn [app text]. rewrite <- !app_assoc in S. rewrite <- !app_assoc. exact S. }
  rewrite S1. change (behind 58 (text ": [" ++ ?x)) with (Some (text " [" ++ x)). cbv iota.
  assert (S2 : strip (text " [" ++ snd p ++ text "]" ++ more nl ps) = text "[" ++ snd p ++ text "]" ++ more nl ps).
  { rewrite E. pose proof (strip_core [32] 91 (snd p ++ a) 93 [] eq_refl eq_refl eq_refl eq_refl) as S.
    rewrite app_nil_r in S. cbn [app] in S. rewrite <- !app_assoc in S. exact S. }
  rewrite S2. change (behind 91 (text "[" ++ ?x)) with (Some x). cbv iota. change (text "]" ++ ?x) with (93 :: x).
  rewrite split_first by exact V. rewrite strip_more by exact B. now destruct p.
Qed.
Lemma getprop_read nl : forallb python_blank nl = true -> forall ps fuel tail, Forall bracketed ps -> forallb python_blank tail = true ->
  (ps = [] -> tail = []) -> (length ps <= fuel)%nat -> adb_getprop fuel (body nl ps ++ tail) = Some ps.
Proof.
  intros B ps. induction ps as [|p ps IH]; intros fuel tail F T Z L.
  - rewrite (Z eq_refl). now destruct fuel.
  - inversion F; subst. destruct fuel as [|fuel]; [cbn in L; lia|].
    cbn [adb_getprop]. destruct (body nl (p :: ps) ++ tail) eqn:E.
    { exfalso. destruct (body_ends nl (p :: ps)) as (a & Ea); [discriminate|]. rewrite Ea in E. discriminate. }
    rewrite <- E. rewrite next_read by assumption. rewrite <- (app_nil_r (body nl ps)). rewrite IH; auto. cbn in L. lia.
Qed.
Definition line_end (crlf : bool) : list N := if crlf then [13; 10] else [10].
Lemma adb_plain crlf s : ~ In 10 s -> through_adb crlf s = s.
Proof.
  induction s as [|c s IH]; intros H; [reflexivity|]. unfold through_adb. cbn [flat_map]. destruct (N.eqb_spec c 10) as [->|]; [destruct H; now left|].
  rewrite Bool.andb_false_r. cbn [app]. f_equal. apply IH. intros I. apply H. now right.
Qed.
Lemma adb_app crlf a b : through_adb crlf (a ++ b) = through_adb crlf a ++ through_adb crlf b.
Proof. apply flat_map_app. Qed.
Definition plain_pair (p : list N * list N) : Prop := ~ In 10 (fst p) /\ ~ In 10 (snd p).
Lemma printed_body crlf ps : Forall plain_pair ps -> ps <> [] -> through_adb crlf (getprop ps) = body (line_end crlf) ps ++ line_end crlf.
Proof.
  intros F. induction F as [|p ps [K V] F IH]; [congruence|]. intros _. rewrite body_cons. unfold getprop. cbn [flat_map].
  change (flat_map _ ps) with (getprop ps). rewrite !adb_app, (adb_plain crlf (fst p)), (adb_plain crlf (snd p)) by assumption.
  unfold one_property. rewrite <- !app_assoc.
  destruct ps as [|q ps].
  - destruct crlf; reflexivity.
  - rewrite IH by discriminate. unfold more. rewrite <- !app_assoc. destruct crlf; reflexivity.
Qed.
Lemma body_length nl ps : (length ps <= length (body nl ps))%nat.
Proof.
  induction ps as [|p ps IH]; [constructor|]. rewrite body_cons. unfold one_property. rewrite !app_length. change (length (text "[")) with 1%nat.
  destruct ps as [|q ps]; [cbn; lia|]. unfold more. rewrite app_length. cbn [length] in *. lia.
Qed.
Lemma getprop_exact crlf ps : Forall plain_pair ps -> Forall bracketed ps ->
  adb_getprop (length (through_adb crlf (getprop ps))) (through_adb crlf (getprop ps)) = Some ps.
Proof.
  intros P F. destruct ps as [|p ps]; [reflexivity|]. rewrite printed_body by (assumption || discriminate).
  apply getprop_read; try assumption; try (now destruct crlf); try discriminate.
  pose proof (body_length (line_end crlf) (p :: ps)). rewrite app_length. lia.
Qed.

(** ** The 32-bit /proc/cpuinfo *)
Definition unbroken (s : list N) : Prop := ~ In 10 s /\ ~ In 13 s.
Lemma chomp_unbroken a b : unbroken a -> chomp (a ++ b) = a ++ chomp b.
Proof.
  induction a as [|c a IH]; intros [H K]; [reflexivity|]. cbn [app chomp].
  destruct (N.eqb_spec c 10) as [->|]; [destruct H; now left|]. destruct (N.eqb_spec c 13) as [->|]; [destruct K; now left|]. cbn [orb].
  f_equal. apply IH. split; intros I; [apply H|apply K]; now right.
Qed.
Lemma without_newline_snoc s : without_newline (s ++ [10]) = s.
Proof. unfold without_newline. rewrite rev_app_distr. cbn. apply rev_involutive. Qed.
Lemma without_newline_last s c : c <> 10 -> without_newline (s ++ [c]) = s ++ [c].
Proof. intros H. unfold without_newline. rewrite rev_app_distr. cbn. apply N.eqb_neq in H. now rewrite H. Qed.
Lemma without_newline_app a b : b <> [] -> without_newline (a ++ b) = a ++ without_newline b.
Proof.
  intros H. destruct (exists_last H) as (b' & c & ->). destruct (N.eq_dec c 10) as [->|NE].
  - rewrite app_assoc, !without_newline_snoc. reflexivity.
  - rewrite app_assoc, !without_newline_last by exact NE. now rewrite app_assoc.
Qed.
Lemma without_newline_unbroken s : unbroken s -> without_newline s = s.
Proof.
  intros [H _]. destruct s as [|c s]; [reflexivity|]. destruct (@exists_last _ (c :: s)) as (b & d & E); [discriminate|].
  rewrite E in *. apply without_newline_last. intros ->. apply H, in_or_app. right. now left.
Qed.
Lemma splitlines_nil_iff s : forall cur, splitlines cur s = [] -> cur = [] /\ s = [].
Proof.
  induction s as [|c s IH]; intros cur; cbn [splitlines].
  - destruct cur; [now split|discriminate].
  - destruct (c =? 10); [discriminate|]. destruct (c =? 13).
    + destruct s as [|d s]; [discriminate|]. destruct (d =? 10); discriminate.
    + intros E. apply IH in E as [E _]. destruct cur; discriminate.
Qed.
Lemma rejoined crlf s : ~ In 13 s -> forall cur, unbroken cur ->
  join (map chomp (splitlines cur (through_adb crlf s))) = without_newline (cur ++ s).
Proof.
  induction s as [|c s IH]; intros H cur U.
  - cbn. rewrite app_nil_r, without_newline_unbroken by exact U. destruct cur as [|c cur]; [reflexivity|].
    cbn [map join]. rewrite <- (app_nil_r (c :: cur)) at 1. rewrite chomp_unbroken by exact U. apply app_nil_r.
  - assert (H' : ~ In 13 s) by (intros I; apply H; now right).
    destruct (N.eq_dec c 10) as [->|NE].
    + assert (E : exists e, splitlines cur (through_adb crlf (10 :: s)) = (cur ++ e) :: splitlines [] (through_adb crlf s) /\ chomp e = []).
      { destruct crlf; [exists [13; 10]|exists [10]]; split; reflexivity. }
      destruct E as (e & -> & Ee). cbn [map]. rewrite chomp_unbroken, Ee, app_nil_r by exact U.
      specialize (IH H' [] (conj (fun I => I) (fun I => I))). cbn [app] in IH.
      destruct (splitlines [] (through_adb crlf s)) as [|l ls] eqn:Es.
      * apply splitlines_nil_iff in Es as [_ Es]. destruct s as [|d s]; [symmetry; apply without_newline_snoc|].
        exfalso. unfold through_adb in Es. cbn in Es. now destruct (_ && _) in Es.
      * cbn [map join] in *. rewrite IH. destruct s as [|d s]; [discriminate|].
        rewrite (without_newline_app cur) by discriminate. change (10 :: d :: s) with ([10] ++ d :: s).
        now rewrite without_newline_app by discriminate.
    + assert (E : splitlines cur (through_adb crlf (c :: s)) = splitlines (cur ++ [c]) (through_adb crlf s)).
      { unfold through_adb. cbn [flat_map]. apply N.eqb_neq in NE as NE'. rewrite NE', Bool.andb_false_r. cbn [app splitlines]. rewrite NE'.
        replace (c =? 13) with false; [reflexivity|]. symmetry. apply N.eqb_neq. intros ->. apply H. now left. }
      rewrite E, IH; [now rewrite <- app_assoc|exact H'|]. destruct U as [U V]. split; intros I; apply in_app_or in I as [I|[I|[]]]; auto.
      subst c. apply H. now left.
Qed.
