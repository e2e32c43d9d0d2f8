From Verif Require Import Base Text LinuxTextSpec ToolsModel ReportSpec ReportProofs MockFileModel MockFileSpec RecordModel RecordSpec.
From Verif Require CpuidDumpModel.
Open Scope N_scope.

(** What a byte becomes. *)
Definition textual (c : N) : bool := (c =? 9) || (c =? 10) || (c =? 13) || ((32 <=? c) && (c <=? 126)) || (c =? 0).
Definition told_byte (c : N) : list N := if textual c then [c] else 120 :: CpuidDumpModel.hex 2 c.
Definition told (s : list N) : list N := flat_map told_byte s.
Definition octal_head (s : list N) : bool := match s with c :: _ => octal c | [] => false end.
Fixpoint apart (s : list N) : bool :=
  match s with [] => true | c :: s' => (negb (c =? 0) || negb (octal_head s')) && apart s' end.

Lemma textual_iff c : textual c = true <-> text_byte c.
Proof.
  unfold textual, text_byte. rewrite !Bool.orb_true_iff, Bool.andb_true_iff, !N.eqb_eq, !N.leb_le. tauto.
Qed.

Lemma apart_iff s : apart s = true <-> zeros_apart s.
Proof.
  induction s as [|c s IH]; cbn [apart].
  - split; [|reflexivity]. intros _ i d E. destruct i; discriminate.
  - rewrite Bool.andb_true_iff, IH, Bool.orb_true_iff, !Bool.negb_true_iff, N.eqb_neq. split.
    + intros [H A] i d Ei Ed. destruct i as [|i]; cbn [nth_error] in Ei, Ed.
      * injection Ei as ->. destruct H as [H|H]; [now destruct H|]. destruct s as [|e s]; [discriminate|].
        injection Ed as ->. cbn in H. unfold octal in H. apply Bool.andb_false_iff in H. rewrite !N.leb_gt in H. lia.
      * exact (A i d Ei Ed).
    + intros H. split; [|intros i d Ei Ed; exact (H (S i) d Ei Ed)].
      destruct (N.eq_dec c 0) as [->|]; [right|now left]. destruct s as [|e s]; [reflexivity|].
      specialize (H O e eq_refl eq_refl). cbn. unfold octal. apply Bool.andb_false_iff. rewrite !N.leb_gt. lia.
Qed.

Lemma apart_app a b : apart (a ++ b) = true -> apart a = true /\ apart b = true.
Proof.
  induction a as [|c a IH]; cbn [app apart]; [now split|]. rewrite Bool.andb_true_iff. intros [H A]. apply IH in A as [A B].
  split; [|exact B]. rewrite A, Bool.andb_true_r. destruct a as [|d a]; [|exact H]. cbn. now rewrite Bool.orb_true_r.
Qed.

(** ** Literals *)
Definition prepend (l : list N) (r : option (list N * list N)) : option (list N * list N) :=
  match r with Some (l', s) => Some (l ++ l', s) | None => None end.
Lemma prepend_app a b r : prepend a (prepend b r) = prepend (a ++ b) r.
Proof. destruct r as [[]|]; [|reflexivity]. cbn. now rewrite app_assoc. Qed.
Lemma and_then_prepend c r : and_then c r = prepend [c] r.
Proof. now destruct r as [[]|]. Qed.
Lemma prepend_nil r : prepend [] r = r.
Proof. now destruct r as [[]|]. Qed.

(** Characters that stand for themselves. *)
Definition itself (c : N) : bool := negb (c =? 34) && negb (c =? 92) && negb (c =? 10).
Lemma itself_read l s : forallb itself l = true -> literals Within (l ++ s) = prepend l (literals Within s).
Proof.
  induction l as [|c l IH]; intros F; [now rewrite prepend_nil|]. cbn [forallb] in F. apply Bool.andb_true_iff in F as [H F].
  cbn [app literals]. unfold itself in H. rewrite !Bool.andb_true_iff, !Bool.negb_true_iff in H. destruct H as [[-> ->] ->].
  rewrite (IH F), and_then_prepend, prepend_app. reflexivity.
Qed.

Lemma hex_digits_itself c : c < 256 -> forallb itself (CpuidDumpModel.hex 2 c) = true.
Proof.
  intros B. assert (A : forallb (fun c => forallb itself (CpuidDumpModel.hex 2 c)) (map N.of_nat (seq 0 256)) = true) by (vm_compute; reflexivity).
  rewrite forallb_forall in A. apply A. apply in_map_iff. exists (N.to_nat c). split; [lia|]. apply in_seq. lia.
Qed.

Lemma octal_step s r : octal_head s = false -> s <> [] -> literals (Octal 1 0) (s ++ r) = prepend [0] (literals Within (s ++ r)).
Proof.
  destruct s as [|c s]; [congruence|]. cbn [octal_head]. intros H _. cbn [app literals]. rewrite H. cbn [andb]. change (255 <? 0) with false.
  cbv iota. now rewrite and_then_prepend.
Qed.

Lemma escape_nonnil c : escape_byte c <> [].
Proof. unfold escape_byte. now repeat destruct (_ =? _); try destruct (_ && _). Qed.

Lemma escape_head c s : octal c = false -> octal_head (escape_byte c ++ s) = false.
Proof.
  intros H. unfold escape_byte. repeat match goal with |- context [if ?b then _ else _] => destruct b end; cbn; try reflexivity. exact H.
Qed.

Lemma escape_read c s r : c < 256 -> (c = 0 -> octal_head s = false /\ s <> []) ->
  literals Within (escape_byte c ++ s ++ r) = prepend (told_byte c) (literals Within (s ++ r)).
Proof.
  intros B Z. unfold escape_byte, told_byte, textual.
  destruct (c =? 92) eqn:E1; [apply N.eqb_eq in E1 as ->; exact (and_then_prepend _ _)|].
  destruct (c =? 34) eqn:E2; [apply N.eqb_eq in E2 as ->; exact (and_then_prepend _ _)|].
  destruct (c =? 9) eqn:E3; [apply N.eqb_eq in E3 as ->; exact (and_then_prepend _ _)|].
  destruct (c =? 10) eqn:E4; [apply N.eqb_eq in E4 as ->; exact (and_then_prepend _ _)|].
  destruct (c =? 13) eqn:E5; [apply N.eqb_eq in E5 as ->; exact (and_then_prepend _ _)|].
  destruct (c =? 0) eqn:E6.
  - apply N.eqb_eq in E6 as ->. destruct (Z eq_refl) as [H NE]. exact (octal_step s r H NE).
  - cbn [orb]. rewrite Bool.orb_false_r. destruct ((32 <=? c) && (c <? 127)) eqn:E7.
    + replace ((32 <=? c) && (c <=? 126)) with true.
      * apply (itself_read [c]). cbn. unfold itself. now rewrite E1, E2, E4.
      * symmetry. apply Bool.andb_true_iff in E7 as [E7 E8]. apply N.ltb_lt in E8. apply N.leb_le in E7.
        apply Bool.andb_true_iff. rewrite !N.leb_le. lia.
    + replace ((32 <=? c) && (c <=? 126)) with false.
      * rewrite <- app_assoc, app_assoc. apply itself_read. exact (hex_digits_itself c B).
      * symmetry. apply Bool.andb_false_iff in E7. rewrite N.ltb_ge, N.leb_gt in E7. apply Bool.andb_false_iff. rewrite !N.leb_gt. lia.
Qed.

Lemma escape_head_all s r : octal_head s = false -> octal_head (c_escape s ++ 34 :: r) = false.
Proof. destruct s as [|c s]; [reflexivity|]. intros H. cbn [c_escape flat_map]. rewrite <- app_assoc. now apply escape_head. Qed.

Lemma literal_read s r : bytes s -> apart s = true -> literals Within (c_escape s ++ 34 :: r) = prepend (told s) (literals Between r).
Proof.
  intros B. induction B as [|c s Hc B IH]; intros A; [cbn; now rewrite prepend_nil|].
  cbn [apart] in A. apply Bool.andb_true_iff in A as [H A]. cbn [c_escape flat_map told]. rewrite <- app_assoc.
  change (flat_map escape_byte s) with (c_escape s). rewrite <- (app_nil_r (c_escape s ++ 34 :: r)).
  rewrite escape_read; [|exact Hc|].
  - rewrite app_nil_r, (IH A), prepend_app. reflexivity.
  - intros ->. split; [|destruct (c_escape s); discriminate]. apply escape_head_all. cbn in H. now apply Bool.negb_true_iff.
Qed.

Lemma token_read p s c r : p = c :: r -> blank c = false -> token p (p ++ s) = Some s.
Proof. intros -> H. unfold token. cbn [app skip_blanks]. rewrite H. exact (after_app (c :: r) s). Qed.
Lemma skip_all b s : forallb blank b = true -> skip_blanks (b ++ s) = skip_blanks s.
Proof. induction b as [|c b IH]; intros F; [reflexivity|]. cbn in F. apply Bool.andb_true_iff in F as [H F]. cbn. rewrite H. now apply IH. Qed.
Lemma between_blanks b s : forallb blank b = true -> literals Between (b ++ s) = literals Between s.
Proof. induction b as [|c b IH]; intros F; [reflexivity|]. cbn in F. apply Bool.andb_true_iff in F as [H F]. cbn. rewrite H. now apply IH. Qed.

(** ** Lines *)
Lemma splitlines_concat_upto k : forall s current, (length s <= k)%nat -> concat (splitlines current s) = current ++ s.
Proof.
  induction k as [|k IH]; intros s current L; (destruct s as [|c s]; [destruct current; cbn; now rewrite ?app_nil_r|]); cbn in L; [lia|].
  cbn [splitlines].
  destruct (c =? 10); [cbn [concat]; rewrite IH by lia; now rewrite <- app_assoc|].
  destruct (c =? 13).
  - destruct s as [|d s]; [cbn; now rewrite app_nil_r|]. cbn in L.
    destruct (d =? 10); cbn [concat]; rewrite IH by (cbn; lia); now rewrite <- app_assoc.
  - rewrite IH by lia. now rewrite <- app_assoc.
Qed.
Lemma splitlines_concat s : concat (splitlines [] s) = s.
Proof. exact (splitlines_concat_upto _ s [] (le_n _)). Qed.

Definition line_text (l : list N) : list N := [newline] ++ text "			" ++ quote ++ c_escape l ++ quote.
Lemma lines_read ls r : bytes (concat ls) -> apart (concat ls) = true ->
  literals Between (flat_map line_text ls ++ 44 :: r) = Some (told (concat ls), 44 :: r).
Proof.
  induction ls as [|l ls IH]; intros B A; [reflexivity|]. cbn [concat] in B, A.
  apply Forall_app in B as [Bl B]. apply apart_app in A as [Al A].
  cbn [flat_map]. unfold line_text at 1. rewrite <- !app_assoc. rewrite (app_assoc [newline] (text "			")).
  rewrite between_blanks by reflexivity. unfold quote. cbn [app]. change (literals Between (34 :: ?x)) with (literals Within x).
  rewrite literal_read by assumption. rewrite (IH B A). cbn [prepend]. f_equal. f_equal.
  unfold told. cbn [concat]. now rewrite flat_map_app.
Qed.

(** ** Entries *)
Definition field (path content : list N) : list N :=
  text "		.path = " ++ quote ++ path ++ quote ++ text "," ++ [newline] ++
  text "		.size = " ++ number (N.of_nat (length content)) ++ text "," ++ [newline] ++
  (if (1 <? length (splitlines [] content))%nat then
     text "		.content =" ++ flat_map line_text (splitlines [] content) ++ text "," ++ [newline]
   else text "		.content = " ++ quote ++ c_escape content ++ quote ++ text "," ++ [newline]) ++
  text "	}," ++ [newline].
Lemma mock_entry_eq path content : mock_entry path content = text "	{" ++ [newline] ++ field path content.
Proof. reflexivity. Qed.

Lemma content_read content r : bytes content -> apart content = true ->
  exists t, (if (1 <? length (splitlines [] content))%nat then
     text "		.content =" ++ flat_map line_text (splitlines [] content) ++ text "," ++ [newline]
   else text "		.content = " ++ quote ++ c_escape content ++ quote ++ text "," ++ [newline]) ++ r = text "		.content =" ++ t /\
   c_string t = Some (told content, text "," ++ [newline] ++ r).
Proof.
  intros B A. destruct (1 <? _)%nat eqn:L.
  - eexists. split; [rewrite <- !app_assoc; reflexivity|]. unfold c_string, token.
    pose proof (splitlines_concat content) as C. destruct (splitlines [] content) as [|l ls]; [discriminate|].
    assert (E : literals Between (flat_map line_text (l :: ls) ++ text "," ++ [newline] ++ r) = Some (told content, text "," ++ [newline] ++ r)).
    { rewrite <- C. apply lines_read; now rewrite C. }
    revert E. cbn [flat_map]. unfold line_text at 1 3. rewrite <- !app_assoc. rewrite !(app_assoc [newline] (text "			")).
    rewrite between_blanks, skip_all by reflexivity. exact (fun E => E).
  - eexists. split; [rewrite <- !app_assoc; change (text "		.content = ") with (text "		.content =" ++ [32]); rewrite <- !app_assoc; reflexivity|].
    unfold c_string, token. rewrite skip_all by reflexivity. cbn [quote app skip_blanks]. change (blank 34) with false. cbv iota.
    cbn [after]. rewrite N.eqb_refl. unfold quote. cbn [app]. rewrite literal_read by assumption. cbn. now rewrite app_nil_r.
Qed.

Lemma path_read path r : forallb itself path = true -> literals Within (path ++ 34 :: r) = prepend path (literals Between r).
Proof. intros F. rewrite itself_read by exact F. reflexivity. Qed.

Lemma field_read path content r : forallb itself path = true -> bytes content -> apart content = true -> N.of_nat (length content) < two32 ->
  initializer (field path content ++ r) = Some ((path, N.of_nat (length content), told content), newline :: r).
Proof.
  intros P B A L. unfold field. rewrite <- !app_assoc.
  destruct (content_read content (text "	}," ++ [newline] ++ r) B A) as (t & Et & Rt). rewrite Et. clear Et.
  set (num := number (N.of_nat (length content))). set (t3 := text "		.content =" ++ t).
  set (t2 := text "," ++ [newline] ++ text "		.size = " ++ num ++ text "," ++ [newline] ++ t3).
  set (t1 := quote ++ path ++ quote ++ t2).
  assert (C1 : c_string ([32] ++ t1) = Some (path, t2)).
  { unfold c_string, token. rewrite skip_all by reflexivity. subst t1. unfold quote. cbn [app skip_blanks]. change (blank 34) with false. cbv iota.
    cbn [after]. rewrite N.eqb_refl, path_read by exact P. subst t2. cbn. now rewrite app_nil_r. }
  assert (C2 : a_number (skip_blanks ([32] ++ num ++ text "," ++ [newline] ++ t3)) = Some (N.of_nat (length content), text "," ++ [newline] ++ t3)).
  { rewrite skip_all by reflexivity. destruct (number_head (N.of_nat (length content))) as (d & ds & Ed & D).
    replace (skip_blanks (num ++ text "," ++ [newline] ++ t3)) with (num ++ text "," ++ [newline] ++ t3).
    - apply a_number_read; [exact L|apply no_digit; reflexivity].
    - subst num. rewrite Ed. cbn [app skip_blanks]. replace (blank d) with false; [reflexivity|]. symmetry. unfold is_digit in D.
      unfold blank. rewrite !Bool.orb_false_iff, !N.eqb_neq. lia. }
  unfold initializer.
  change (token (text ".path") (text "		.path = " ++ t1)) with (Some (text " = " ++ t1)). cbv iota.
  change (token (text "=") (text " = " ++ t1)) with (Some ([32] ++ t1)). cbv iota. rewrite C1. unfold t2 at 1.
  change (token (text ",") (text "," ++ ?x)) with (Some x). cbv iota.
  match goal with |- context [token (text ".size") ([newline] ++ text "		.size = " ++ ?x)] =>
    change (token (text ".size") ([newline] ++ text "		.size = " ++ x)) with (Some (text " = " ++ x)) end. cbv iota.
  match goal with |- context [token (text "=") (text " = " ++ ?x)] =>
    change (token (text "=") (text " = " ++ x)) with (Some ([32] ++ x)) end. cbv iota.
  rewrite C2. change (token (text ",") (text "," ++ ?x)) with (Some x). cbv iota. unfold t3.
  change (token (text ".content") ([newline] ++ text "		.content =" ++ t)) with (Some (text " =" ++ t)). cbv iota.
  change (token (text "=") (text " =" ++ t)) with (Some t). cbv iota. rewrite Rt. reflexivity.
Qed.

Lemma no_null x y : token (text "NULL") ([newline] ++ text "		.path = " ++ x ++ y) = None.
Proof. reflexivity. Qed.
Definition recorded (pc : list N * list N) : list N := mock_entry (fst pc) (snd pc).
Definition entry_told (pc : list N * list N) : entry := (fst pc, N.of_nat (length (snd pc)), told (snd pc)).
Definition writable (pc : list N * list N) : Prop :=
  forallb itself (fst pc) = true /\ bytes (snd pc) /\ apart (snd pc) = true /\ N.of_nat (length (snd pc)) < two32.
Lemma entries_read r : forall l fuel, Forall writable l -> (length (flat_map recorded l) < fuel)%nat ->
  initializers fuel ([newline] ++ flat_map recorded l ++ text "	{ NULL }," ++ r) = Some (map entry_told l, r).
Proof.
  induction l as [|[path content] l IH]; intros fuel H F.
  - destruct fuel; [now apply Nat.nlt_0_r in F|]. reflexivity.
  - inversion H as [|x y Hw H' Ex]; subst. destruct Hw as (P & B & A & L). cbn [flat_map] in *. unfold recorded at 1. unfold recorded at 1 in F.
    cbn [fst snd] in *.
    rewrite mock_entry_eq in *. destruct fuel as [|fuel]; [now apply Nat.nlt_0_r in F|].
    assert (F' : (length (flat_map recorded l) < fuel)%nat).
    { rewrite app_length in F. change (length (text "	{" ++ [newline] ++ field path content)) with (S (S (S (length (field path content))))) in F. lia. }
    rewrite <- !app_assoc. cbn [initializers].
    match goal with |- context [token (text "{") ([newline] ++ text "	{" ++ ?x)] =>
      change (token (text "{") ([newline] ++ text "	{" ++ x)) with (Some x) end. cbv iota.
    match goal with |- context [token (text "NULL") ?x] => change (token (text "NULL") x) with (@None (list N)) end. cbv iota.
    match goal with |- context [initializer ([newline] ++ ?x)] => change (initializer ([newline] ++ x)) with (initializer x) end.
    rewrite field_read by assumption.
    match goal with |- context [initializers fuel (newline :: ?x)] => change (newline :: x) with ([newline] ++ x) end.
    rewrite (IH fuel); [reflexivity|assumption|exact F'].
Qed.

Lemma paths_itself : forallb (forallb itself) linux_paths = true.
Proof. vm_compute. reflexivity. Qed.

Definition filed (fs : list N -> option (list N)) (path : list N) : list (list N * list N) :=
  match fs path with Some content => [(path, content)] | None => [] end.
Lemma dump_filed fs paths : flat_map (dump_system_file fs) paths = flat_map recorded (flat_map (filed fs) paths).
Proof.
  induction paths as [|path paths IH]; [reflexivity|]. cbn [flat_map]. rewrite flat_map_app, <- IH. f_equal.
  unfold dump_system_file, filed. destruct (fs path); [|reflexivity]. cbn [flat_map]. symmetry. apply app_nil_r.
Qed.
Lemma files_read l r : Forall writable l ->
  mock_files (text "struct cpuinfo_mock_file filesystem[] = {" ++ [newline] ++ flat_map recorded l ++ text "	{ NULL }," ++ [newline] ++ text "};" ++ r) =
  Some (map entry_told l, r).
Proof.
  intros H. unfold mock_files. set (body := flat_map recorded l ++ text "	{ NULL }," ++ [newline] ++ text "};" ++ r).
  change (token (text "struct") (text "struct cpuinfo_mock_file filesystem[] = {" ++ [newline] ++ body))
    with (Some (text " cpuinfo_mock_file filesystem[] = {" ++ [newline] ++ body)). cbv iota.
  change (token (text "cpuinfo_mock_file") (text " cpuinfo_mock_file filesystem[] = {" ++ [newline] ++ body))
    with (Some (text " filesystem[] = {" ++ [newline] ++ body)). cbv iota.
  change (token (text "filesystem") (text " filesystem[] = {" ++ [newline] ++ body)) with (Some (text "[] = {" ++ [newline] ++ body)). cbv iota.
  change (token (text "[") (text "[] = {" ++ [newline] ++ body)) with (Some (text "] = {" ++ [newline] ++ body)). cbv iota.
  change (token (text "]") (text "] = {" ++ [newline] ++ body)) with (Some (text " = {" ++ [newline] ++ body)). cbv iota.
  change (token (text "=") (text " = {" ++ [newline] ++ body)) with (Some (text " {" ++ [newline] ++ body)). cbv iota.
  change (token (text "{") (text " {" ++ [newline] ++ body)) with (Some ([newline] ++ body)). cbv iota.
  subst body. rewrite (entries_read ([newline] ++ text "};" ++ r) l); [reflexivity|exact H|].
  rewrite !app_length. change (length [newline]) with 1%nat. lia.
Qed.
Lemma header_read paths fs : Forall writable (flat_map (filed fs) paths) ->
  read_header (dump_with paths fs) = Some (map entry_told (flat_map (filed fs) paths)).
Proof. intros H. unfold read_header, dump_with. rewrite dump_filed, files_read by exact H. reflexivity. Qed.

(** ** What the mock files contain *)
Lemma told_text s : Forall text_byte s -> told s = s.
Proof.
  induction 1 as [|c s H F IH]; [reflexivity|]. cbn [told flat_map]. unfold told_byte at 1. apply textual_iff in H. rewrite H.
  cbn [app]. f_equal. exact IH.
Qed.
Lemma told_longer s : (length s <= length (told s))%nat.
Proof.
  induction s as [|c s IH]; [constructor|]. cbn [told flat_map]. rewrite app_length. cbn [length].
  assert (1 <= length (told_byte c))%nat by (unfold told_byte; destruct (textual c); cbn; lia). unfold told in IH. lia.
Qed.
Lemma told_back s : firstn (length s) (told s ++ [0]) = s <-> Forall text_byte s.
Proof.
  split.
  - induction s as [|c s IH]; [constructor|]. cbn [told flat_map length]. unfold told_byte at 1. destruct (textual c) eqn:T.
    + cbn [app firstn]. intros E. injection E as E. constructor; [now apply textual_iff|apply IH; exact E].
    + cbn [app firstn]. intros E. injection E as E _. subst c. discriminate.
  - intros F. rewrite (told_text s F), firstn_app, Nat.sub_diag, firstn_all. apply app_nil_r.
Qed.

Lemma contents_entry path content : contents (as_mock_file (path, N.of_nat (length content), told content)) = firstn (length content) (told content ++ [0]).
Proof. unfold as_mock_file, contents. cbn [mf_size mf_content]. now rewrite Nat2N.id. Qed.

Lemma entries_in fs paths e : In e (map entry_told (flat_map (filed fs) paths)) <-> exists path content, In path paths /\ fs path = Some content /\ e = (path, N.of_nat (length content), told content).
Proof.
  rewrite in_map_iff. unfold filed. split.
  - intros (pc & <- & I). apply in_flat_map in I as (path & I & J). destruct (fs path) as [content|] eqn:E; [|easy]. destruct J as [<-|[]]. now exists path, content.
  - intros (path & content & I & E & ->). exists (path, content). split; [reflexivity|]. apply in_flat_map. exists path. rewrite E. split; [exact I|now left].
Qed.

Lemma first_named path files : In path (map mf_path files) -> exists i, named path files i.
Proof.
  unfold named. induction files as [|f files IH]; [easy|]. cbn [map]. destruct (list_eq_dec N.eq_dec (mf_path f) path) as [<-|NE].
  - intros _. exists O. split; [reflexivity|]. intros j L. now apply Nat.nlt_0_r in L.
  - intros [E|I]; [now destruct NE|]. destruct (IH I) as (i & E & F). exists (S i). split; [exact E|].
    intros [|j] L; cbn [nth_error]; [congruence|]. apply F. now apply Nat.succ_lt_mono.
Qed.

(** The mock files that come of some files. *)
Lemma mock_files_of paths fs : let files := map as_mock_file (map entry_told (flat_map (filed fs) paths)) in
  Forall backed files /\
  (forall path, (exists i, named path files i) <-> In path paths /\ fs path <> None) /\
  (forall path content i f, fs path = Some content -> named path files i -> nth_error files i = Some f ->
     length (contents f) = length content /\ (contents f = content <-> Forall text_byte content)).
Proof.
  intros files. subst files. split; [|split].
  - apply Forall_map, Forall_forall. intros e I. apply entries_in in I as (path & content & _ & _ & ->). unfold backed, as_mock_file.
    cbn [mf_size mf_content]. rewrite Nat2N.id, app_length. pose proof (told_longer content). lia.
  - intros path. split.
    + intros (i & E & _). apply nth_error_In in E. rewrite map_map in E. apply in_map_iff in E as (e & E & I).
      apply entries_in in I as (p & content & I & F & ->). cbn in E. subst p. split; [exact I|]. rewrite F. discriminate.
    + intros [I F]. destruct (fs path) as [content|] eqn:E; [|now destruct F]. apply first_named. rewrite map_map. apply in_map_iff.
      exists (path, N.of_nat (length content), told content). split; [reflexivity|]. apply entries_in. now exists path, content.
  - intros path content i f F [N _] E. rewrite nth_error_map, E in N. cbn in N. injection N as N.
    apply nth_error_In in E. apply in_map_iff in E as (e & E & I). apply entries_in in I as (p & content' & I & F' & ->).
    subst f. cbn [as_mock_file mf_path] in N. subst p. rewrite F in F'. injection F' as <-. rewrite contents_entry. split.
    + apply firstn_length_le. rewrite app_length. pose proof (told_longer content). lia.
    + apply told_back.
Qed.
Lemma all_writable paths fs : forallb (forallb itself) paths = true ->
  (forall path content, In path paths -> fs path = Some content -> bytes content /\ zeros_apart content /\ N.of_nat (length content) < two32) ->
  Forall writable (flat_map (filed fs) paths).
Proof.
  intros P H. rewrite forallb_forall in P. apply Forall_forall. intros [p c] I. apply in_flat_map in I as (path & I & J).
  unfold filed in J. destruct (fs path) as [content|] eqn:E; [|easy]. destruct J as [J|[]]. injection J as <- <-.
  destruct (H path content I E) as (B & Z & L). apply apart_iff in Z. split; [exact (P path I)|]. now repeat split.
Qed.

Lemma recording paths : forallb (forallb itself) paths = true -> forall fs,
  (forall path content, In path paths -> fs path = Some content -> bytes content /\ zeros_apart content /\ N.of_nat (length content) < two32) ->
  exists es, read_header (dump_with paths fs) = Some es /\ Forall backed (map as_mock_file es) /\
    (forall path, (exists i, named path (map as_mock_file es) i) <-> In path paths /\ fs path <> None) /\
    (forall path content i f, fs path = Some content -> named path (map as_mock_file es) i -> nth_error (map as_mock_file es) i = Some f ->
       length (contents f) = length content /\ (contents f = content <-> Forall text_byte content)).
Proof.
  intros P fs H. eexists. split; [apply header_read; now apply all_writable|]. apply mock_files_of.
Qed.

Lemma recording_linux : forall fs,
  (forall path content, In path linux_paths -> fs path = Some content -> bytes content /\ zeros_apart content /\ N.of_nat (length content) < two32) ->
  exists es, read_header (dump_linux fs) = Some es /\ Forall backed (map as_mock_file es) /\
    (forall path, (exists i, named path (map as_mock_file es) i) <-> In path linux_paths /\ fs path <> None) /\
    (forall path content i f, fs path = Some content -> named path (map as_mock_file es) i -> nth_error (map as_mock_file es) i = Some f ->
       length (contents f) = length content /\ (contents f = content <-> Forall text_byte content)).
Proof. exact (recording linux_paths paths_itself). Qed.
