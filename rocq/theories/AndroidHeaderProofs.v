From Verif Require Import Base Text LinuxTextSpec ToolsModel ReportSpec ReportProofs MockFileModel MockFileSpec RecordModel RecordSpec RecordProofs
  AndroidRecordModel AndroidRecordSpec AndroidRecordProofs.
From Verif Require CpuidDumpModel.
Open Scope N_scope.

(** ** Texts without directives *)
Fixpoint scan (start : bool) (s : list N) : option bool :=
  match s with [] => Some start | c :: s' => if start && (c =? 35) then None else scan (c =? 10) s' end.
Lemma scan_app st a b : scan st (a ++ b) = match scan st a with Some st' => scan st' b | None => None end.
Proof. revert st. induction a as [|c a IH]; intros st; [reflexivity|]. cbn. destruct (st && _); [reflexivity|]. apply IH. Qed.
Lemma scan_seq st a st' b : scan st a = Some st' -> scan st (a ++ b) = scan st' b.
Proof. intros E. now rewrite scan_app, E. Qed.
Ltac words := repeat match goal with
  | |- context [scan ?st (text ?t ++ ?b)] => erewrite (scan_seq st (text t)) by reflexivity
  | |- context [scan ?st ([newline] ++ ?b)] => erewrite (scan_seq st [newline]) by reflexivity
  | |- context [scan ?st (quote ++ ?b)] => erewrite (scan_seq st quote) by reflexivity
  end.
Lemma scan_middle s : ~ In 10 s -> scan false s = Some false.
Proof.
  induction s as [|c s IH]; intros H; [reflexivity|]. cbn. destruct (N.eqb_spec c 10) as [->|]; [destruct H; now left|].
  apply IH. intros I. apply H. now right.
Qed.
Definition whole (ls : list (list N)) : list N := flat_map (fun l => l ++ [10]) ls.
Definition starts_hash (l : list N) : bool := match l with c :: _ => c =? 35 | [] => false end.
Definition plain_line (l : list N) : Prop := ~ In 10 l /\ starts_hash l = false.
Lemma scan_lines s : forall cur st, st = match cur with [] => true | _ => false end -> plain_line cur -> scan st s = Some true ->
  exists ls, cur ++ s = whole ls /\ Forall plain_line ls.
Proof.
  induction s as [|c s IH]; intros cur st Es [P Q] E; cbn in E.
  - destruct cur; [now exists []|]. subst st. discriminate.
  - destruct (st && (c =? 35)) eqn:H; [discriminate|]. destruct (N.eqb_spec c 10) as [->|NE].
    + destruct (IH [] true eq_refl (conj (fun I => I) eq_refl) E) as (ls & Els & F). cbn in Els. subst s. exists (cur :: ls).
      split; [cbn; now rewrite <- app_assoc|]. constructor; [now split|exact F].
    + destruct (IH (cur ++ [c]) false) as (ls & Els & F).
      * now destruct cur.
      * split; [intros I; apply in_app_or in I as [I|[I|[]]]; auto|]. destruct cur as [|d cur]; [|exact Q]. subst st. exact H.
      * exact E.
      * exists ls. split; [rewrite <- Els, <- app_assoc; reflexivity|exact F].
Qed.

(** ** The preprocessor *)
Definition preprocess_from (defined : list N -> bool) (st : option (bool * bool)) (s : list N) : option (list N) :=
  match lines_from [] s with Some ls => choose defined st ls | None => None end.
Definition adds (t : list N) (r : option (list N)) : option (list N) := option_map (app t) r.
Lemma adds_app a b r : adds a (adds b r) = adds (a ++ b) r.
Proof. destruct r; [|reflexivity]. cbn. now rewrite app_assoc. Qed.
Definition steps (defined : list N -> bool) (st : option (bool * bool)) (s : list N) (st' : option (bool * bool)) (t : list N) : Prop :=
  forall r, preprocess_from defined st (s ++ r) = adds t (preprocess_from defined st' r).
Lemma steps_app defined st a st1 t b st2 u : steps defined st a st1 t -> steps defined st1 b st2 u -> steps defined st (a ++ b) st2 (t ++ u).
Proof. intros A B r. rewrite <- app_assoc, A, B. apply adds_app. Qed.
Lemma steps_nil defined st : steps defined st [] st [].
Proof. intros r. cbn [app]. unfold adds. now destruct (preprocess_from defined st r). Qed.

Lemma lines_from_cur l s : ~ In 10 l -> forall cur, lines_from cur (l ++ 10 :: s) = option_map (cons (cur ++ l)) (lines_from [] s).
Proof.
  induction l as [|c l IH]; intros H cur.
  - cbn. rewrite app_nil_r. now destruct (lines_from [] s).
  - cbn [app lines_from]. destruct (N.eqb_spec c 10) as [->|]; [destruct H; now left|]. rewrite IH; [now rewrite <- app_assoc|].
    intros I. apply H. now right.
Qed.
Definition active (st : option (bool * bool)) : bool := match st with Some (_, a) => a | None => true end.
Lemma steps_line defined st l : plain_line l -> steps defined st (l ++ [10]) st (if active st then l ++ [10] else []).
Proof.
  intros [P Q] r. unfold preprocess_from. rewrite <- app_assoc. cbn [app]. rewrite lines_from_cur by exact P. cbn [app].
  destruct (lines_from [] r) as [ls|]; [|reflexivity]. cbn [option_map choose]. unfold starts_hash in Q. rewrite Q.
  change (match st with Some (_, a) => a | None => true end) with (active st).
  destruct (choose defined st ls); [|reflexivity]. unfold adds. cbn [option_map]. f_equal. destruct (active st); [|reflexivity].
  now rewrite <- app_assoc.
Qed.
Lemma steps_whole defined st ls : Forall plain_line ls -> steps defined st (whole ls) st (if active st then whole ls else []).
Proof.
  induction 1 as [|l ls P F IH]; [destruct (active st); apply steps_nil|]. cbn [whole flat_map].
  pose proof (steps_app _ _ _ _ _ _ _ _ (steps_line defined st l P) IH) as S. destruct (active st); exact S.
Qed.
Lemma steps_plain defined st s : scan true s = Some true -> steps defined st s st (if active st then s else []).
Proof.
  intros E. destruct (scan_lines s [] true eq_refl (conj (fun I => I) eq_refl) E) as (ls & Els & F). cbn in Els. subst s. now apply steps_whole.
Qed.
Lemma steps_directive defined st l st' : ~ In 10 l ->
  (forall ls, choose defined st (l :: ls) = choose defined st' ls) -> steps defined st (l ++ [10]) st' [].
Proof.
  intros P H r. unfold preprocess_from. rewrite <- app_assoc. cbn [app]. rewrite lines_from_cur by exact P. cbn [app].
  destruct (lines_from [] r) as [ls|]; [|reflexivity]. cbn [option_map]. rewrite H. now destruct (choose defined st' ls).
Qed.

(** ** Entries have no directives *)
Lemma itself_plain s : forallb itself s = true -> ~ In 10 s.
Proof. intros F I. rewrite forallb_forall in F. specialize (F 10 I). discriminate. Qed.
Lemma escape_plain c : c < 256 -> ~ In 10 (escape_byte c).
Proof.
  intros B I. assert (A : forallb (fun c => negb (existsb (N.eqb 10) (escape_byte c))) (map N.of_nat (seq 0 256)) = true) by (vm_compute; reflexivity).
  rewrite forallb_forall in A. specialize (A c). rewrite Bool.negb_true_iff in A. rewrite <- Bool.not_true_iff_false in A. apply A.
  - apply in_map_iff. exists (N.to_nat c). split; [lia|]. apply in_seq. lia.
  - apply existsb_exists. exists 10. now split.
Qed.
Lemma escapes_plain s : bytes s -> ~ In 10 (c_escape s).
Proof. intros B I. apply in_flat_map in I as (c & I & J). unfold bytes in B. rewrite Forall_forall in B. exact (escape_plain c (B c I) J). Qed.
Lemma number_no_newline n : ~ In 10 (number n).
Proof. pose proof (number_plain n) as F. rewrite Forall_forall in F. intros I. now apply (F 10 I). Qed.

Lemma bytes_concat ls : bytes (concat ls) -> Forall bytes ls.
Proof. induction ls as [|l ls IH]; intros B; [constructor|]. cbn in B. apply Forall_app in B as [A B]. constructor; [exact A|now apply IH]. Qed.
Lemma scan_line_texts ls : Forall bytes ls -> scan false (flat_map line_text ls) = Some false.
Proof.
  induction 1 as [|l ls B F IH]; [reflexivity|]. cbn [flat_map]. unfold line_text at 1. rewrite <- !app_assoc. words.
  rewrite (scan_seq false (c_escape l) false) by (now apply scan_middle, escapes_plain). words. exact IH.
Qed.
Lemma entry_plain path content : forallb itself path = true -> bytes content -> scan true (mock_entry path content) = Some true.
Proof.
  intros P B. rewrite mock_entry_eq. unfold field. words.
  rewrite (scan_seq false path false) by (now apply scan_middle, itself_plain). words.
  rewrite (scan_seq false (number _) false) by (now apply scan_middle, number_no_newline). words.
  assert (E : scan true (if (1 <? length (splitlines [] content))%nat then
     text "		.content =" ++ flat_map line_text (splitlines [] content) ++ text "," ++ [newline]
   else text "		.content = " ++ quote ++ c_escape content ++ quote ++ text "," ++ [newline]) = Some true).
  { destruct (1 <? _)%nat.
    - words. rewrite (scan_seq false (flat_map line_text _) false); [reflexivity|]. apply scan_line_texts.
      apply bytes_concat. now rewrite splitlines_concat.
    - words. rewrite (scan_seq false (c_escape content) false) by (now apply scan_middle, escapes_plain). reflexivity. }
  rewrite (scan_seq _ _ _ _ E). reflexivity.
Qed.
Lemma property_plain p : bytes (fst p) -> bytes (snd p) -> scan true (property_entry p) = Some true.
Proof.
  intros K V. unfold property_entry. words.
  rewrite (scan_seq false (c_escape (fst p)) false) by (now apply scan_middle, escapes_plain). words.
  rewrite (scan_seq false (c_escape (snd p)) false) by (now apply scan_middle, escapes_plain). reflexivity.
Qed.
Lemma scan_flat {A} (f : A -> list N) l : Forall (fun a => scan true (f a) = Some true) l -> scan true (flat_map f l) = Some true.
Proof. induction 1 as [|a l H F IH]; [reflexivity|]. cbn [flat_map]. now rewrite scan_app, H. Qed.

(** ** Reading the properties *)
Lemma string_read s r : bytes s -> apart s = true -> c_string ([32] ++ quote ++ c_escape s ++ quote ++ text "," ++ r) = Some (told s, text "," ++ r).
Proof.
  intros B A. unfold c_string, token. rewrite skip_all by reflexivity. cbn [quote app skip_blanks]. change (blank 34) with false. cbv iota.
  cbn [after]. rewrite N.eqb_refl. unfold quote. cbn [app]. rewrite literal_read by assumption. cbn. now rewrite app_nil_r.
Qed.
Definition property_fields (p : list N * list N) : list N :=
  text "		.key = " ++ quote ++ c_escape (fst p) ++ quote ++ text "," ++ [newline] ++
  text "		.value = " ++ quote ++ c_escape (snd p) ++ quote ++ text "," ++ [newline] ++
  text "	}," ++ [newline].
Definition sayable (p : list N * list N) : Prop := bytes (fst p) /\ apart (fst p) = true /\ bytes (snd p) /\ apart (snd p) = true.
Definition told_pair (p : list N * list N) : list N * list N := (told (fst p), told (snd p)).
Lemma property_read p r : sayable p -> property_initializer (property_fields p ++ r) = Some (told_pair p, newline :: r).
Proof.
  intros (KB & KA & VB & VA). unfold property_fields. rewrite <- !app_assoc.
  set (t2 := text "		.value = " ++ quote ++ c_escape (snd p) ++ quote ++ text "," ++ [newline] ++ text "	}," ++ [newline] ++ r).
  pose proof (string_read (fst p) ([newline] ++ t2) KB KA) as C1.
  pose proof (string_read (snd p) ([newline] ++ text "	}," ++ [newline] ++ r) VB VA) as C2.
  unfold property_initializer.
  match goal with |- context [token (text ".key") (text "		.key = " ++ ?x)] =>
    change (token (text ".key") (text "		.key = " ++ x)) with (Some (text " = " ++ x)) end. cbv iota.
  match goal with |- context [token (text "=") (text " = " ++ ?x)] =>
    change (token (text "=") (text " = " ++ x)) with (Some ([32] ++ x)) end. cbv iota. rewrite C1.
  change (token (text ",") (text "," ++ ?x)) with (Some x). cbv iota. unfold t2.
  match goal with |- context [token (text ".value") ([newline] ++ text "		.value = " ++ ?x)] =>
    change (token (text ".value") ([newline] ++ text "		.value = " ++ x)) with (Some (text " = " ++ x)) end. cbv iota.
  match goal with |- context [token (text "=") (text " = " ++ ?x)] =>
    change (token (text "=") (text " = " ++ x)) with (Some ([32] ++ x)) end. cbv iota. rewrite C2.
  reflexivity.
Qed.
Lemma property_entry_eq p : property_entry p = text "	{" ++ [newline] ++ property_fields p.
Proof. reflexivity. Qed.
Lemma properties_read r : forall l fuel, Forall sayable l -> (length (flat_map property_entry l) < fuel)%nat ->
  property_initializers fuel ([newline] ++ flat_map property_entry l ++ text "	{ NULL }," ++ r) = Some (map told_pair l, r).
Proof.
  induction l as [|p l IH]; intros fuel H F.
  - destruct fuel; [now apply Nat.nlt_0_r in F|]. reflexivity.
  - inversion H as [|x y Hw H' Ex]; subst. cbn [flat_map] in *. rewrite property_entry_eq in *. destruct fuel as [|fuel]; [now apply Nat.nlt_0_r in F|].
    assert (F' : (length (flat_map property_entry l) < fuel)%nat).
    { rewrite app_length in F. change (length (text "	{" ++ [newline] ++ property_fields p)) with (S (S (S (length (property_fields p))))) in F. lia. }
    rewrite <- !app_assoc. cbn [property_initializers].
    match goal with |- context [token (text "{") ([newline] ++ text "	{" ++ ?x)] =>
      change (token (text "{") ([newline] ++ text "	{" ++ x)) with (Some x) end. cbv iota.
    match goal with |- context [token (text "NULL") ?x] => change (token (text "NULL") x) with (@None (list N)) end. cbv iota.
    match goal with |- context [property_initializer ([newline] ++ ?x)] => change (property_initializer ([newline] ++ x)) with (property_initializer x) end.
    rewrite property_read by assumption.
    match goal with |- context [property_initializers fuel (newline :: ?x)] => change (newline :: x) with ([newline] ++ x) end.
    rewrite (IH fuel); [reflexivity|assumption|exact F'].
Qed.
Lemma table_read l r : Forall sayable l ->
  mock_properties ([newline] ++ text "struct cpuinfo_mock_property properties[] = {" ++ [newline] ++ flat_map property_entry l ++ text "	{ NULL }," ++ [newline] ++ text "};" ++ r) =
  Some (map told_pair l, r).
Proof.
  intros H. unfold mock_properties. set (body := flat_map property_entry l ++ text "	{ NULL }," ++ [newline] ++ text "};" ++ r).
  change (token (text "struct") ([newline] ++ text "struct cpuinfo_mock_property properties[] = {" ++ [newline] ++ body))
    with (Some (text " cpuinfo_mock_property properties[] = {" ++ [newline] ++ body)). cbv iota.
  change (token (text "cpuinfo_mock_property") (text " cpuinfo_mock_property properties[] = {" ++ [newline] ++ body))
    with (Some (text " properties[] = {" ++ [newline] ++ body)). cbv iota.
  change (token (text "properties") (text " properties[] = {" ++ [newline] ++ body)) with (Some (text "[] = {" ++ [newline] ++ body)). cbv iota.
  change (token (text "[") (text "[] = {" ++ [newline] ++ body)) with (Some (text "] = {" ++ [newline] ++ body)). cbv iota.
  change (token (text "]") (text "] = {" ++ [newline] ++ body)) with (Some (text " = {" ++ [newline] ++ body)). cbv iota.
  change (token (text "=") (text " = {" ++ [newline] ++ body)) with (Some (text " {" ++ [newline] ++ body)). cbv iota.
  change (token (text "{") (text " {" ++ [newline] ++ body)) with (Some ([newline] ++ body)). cbv iota.
  subst body. rewrite (properties_read ([newline] ++ text "};" ++ r) l); [reflexivity|exact H|].
  rewrite !app_length. change (length [newline]) with 1%nat. lia.
Qed.
