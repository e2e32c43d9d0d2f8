(** The readers of text files do not depend on the sizes of the reads, nor on whether
    char is signed. *)
From Coq Require Import NArith List Lia Bool Arith.
From Verif Require Import Base BaseProofs LinuxTextModel LinuxTextSpec CpuinfoLineModel X86CpuinfoModel ArmCpuinfoModel SameAnswerSpec.
Import ListNotations.
Open Scope nat_scope.

(** ** Digits *)
Lemma digits_agree sg c : (c < 256)%N -> digit_of sg c = digit_of false c \/ (10 < digit_of sg c /\ 10 < digit_of false c)%N.
Proof.
  intros H. destruct sg; [|now left]. unfold digit_of, char_to_u32. cbn [andb].
  destruct (N.leb_spec 128 c) as [K|K]; [|now left]. right.
  assert (X : forallb (fun c => if (128 <=? c)%N then ((10 <? sub32 (u32 (c + (two32 - 256))) chr_zero) && (10 <? sub32 c chr_zero))%N else true)
                (map N.of_nat (seq 0 256)) = true) by (vm_compute; reflexivity).
  rewrite forallb_forall in X. specialize (X c).
  assert (I : In c (map N.of_nat (seq 0 256))).
  { apply in_map_iff. exists (N.to_nat c). split; [apply N2Nat.id|]. apply in_seq. lia. }
  specialize (X I). destruct (N.leb_spec 128 c); [|lia]. apply andb_prop in X. destruct X as (X1 & X2).
  apply N.ltb_lt in X1, X2. split; assumption.
Qed.

Lemma bytes_cons c s : bytes (c :: s) -> (c < 256)%N /\ bytes s.
Proof. intros H. inversion H; subst. now split. Qed.
Lemma bytes_app a b : bytes (a ++ b) <-> bytes a /\ bytes b.
Proof. apply Forall_app. Qed.
Lemma bytes_rev a : bytes a -> bytes (rev a).
Proof. apply Forall_rev. Qed.
Lemma bytes_firstn n s : bytes s -> bytes (firstn n s).
Proof. intros H. rewrite <- (firstn_skipn n s) in H. now apply bytes_app in H. Qed.
Lemma bytes_skipn n s : bytes s -> bytes (skipn n s).
Proof. intros H. rewrite <- (firstn_skipn n s) in H. now apply bytes_app in H. Qed.
Lemma bytes_slice s a b : bytes s -> bytes (slice s a b).
Proof. intros H. unfold slice. now apply bytes_firstn, bytes_skipn. Qed.


Lemma number_agree sg : forall s acc, bytes s -> parse_number_from sg acc s = parse_number_from false acc s.
Proof.
  induction s as [|c s IH]; intros acc H; [reflexivity|]. cbn [parse_number_from].
  apply bytes_cons in H. destruct H as (C & B). destruct (digits_agree sg c C) as [->|(L & L')].
  - now rewrite IH.
  - destruct (N.leb_spec 10 (digit_of sg c)), (N.leb_spec 10 (digit_of false c)); try lia; reflexivity.
Qed.
Lemma processor_number_agree sg : forall s acc, bytes s -> parse_processor_number_from sg acc s = parse_processor_number_from false acc s.
Proof.
  induction s as [|c s IH]; intros acc H; [reflexivity|]. cbn [parse_processor_number_from].
  apply bytes_cons in H. destruct H as (C & B). destruct (digits_agree sg c C) as [->|(L & L')].
  - now rewrite IH.
  - destruct (N.ltb_spec 10 (digit_of sg c)), (N.ltb_spec 10 (digit_of false c)); try lia; reflexivity.
Qed.
Lemma all_digits_agree sg : forall s acc, bytes s -> parse_all_digits_from sg acc s = parse_all_digits_from false acc s.
Proof.
  induction s as [|c s IH]; intros acc H; [reflexivity|]. cbn [parse_all_digits_from].
  apply bytes_cons in H. destruct H as (C & B). destruct (digits_agree sg c C) as [->|(L & L')].
  - now rewrite IH.
  - destruct (N.leb_spec 10 (digit_of sg c)), (N.leb_spec 10 (digit_of false c)); try lia; reflexivity.
Qed.
Lemma leading_agree sg : forall s acc, bytes s -> leading_number sg acc s = leading_number false acc s.
Proof.
  induction s as [|c s IH]; intros acc H; [reflexivity|]. cbn [leading_number].
  apply bytes_cons in H. destruct H as (C & B). destruct (digits_agree sg c C) as [->|(L & L')].
  - now rewrite IH.
  - destruct (N.leb_spec 10 (digit_of sg c)), (N.leb_spec 10 (digit_of false c)); try lia; reflexivity.
Qed.
Lemma number_rest sg : forall s acc, bytes s -> bytes (snd (parse_number_from sg acc s)).
Proof.
  induction s as [|c s IH]; intros acc H; [exact H|]. cbn [parse_number_from].
  destruct (10 <=? _)%N; [exact H|]. apply bytes_cons in H. apply IH, H.
Qed.
Lemma uint32_agree sg ctx s : bytes s -> uint32_parser sg ctx s = uint32_parser false ctx s.
Proof. intros H. unfold uint32_parser, parse_number. destruct s; [reflexivity|]. now rewrite number_agree. Qed.

Lemma bytes_drop_ws s : bytes s -> bytes (drop_ws s).
Proof. induction s as [|c s IH]; cbn [drop_ws]; auto. intros H. destruct (is_whitespace c); [|exact H]. apply IH, (bytes_cons c), H. Qed.
Lemma bytes_trim s : bytes s -> bytes (trim_ws s).
Proof. intros H. unfold trim_ws. now apply bytes_rev, bytes_drop_ws, bytes_rev, bytes_drop_ws. Qed.

Lemma entry_agree {S} (h : S -> N -> N -> bool * S) sg ctx e : bytes e -> parse_entry h sg ctx e = parse_entry h false ctx e.
Proof.
  intros H. apply bytes_trim in H. unfold parse_entry. destruct (trim_ws e) as [|c s] eqn:E; [reflexivity|].
  unfold parse_number. rewrite (number_agree sg) by exact H.
  pose proof (number_rest false (c :: s) 0%N H) as R. destruct (parse_number_from false 0 (c :: s)) as (first, r). cbn [snd] in R.
  destruct (_ =? _); [reflexivity|]. destruct r as [|d r']; [reflexivity|]. destruct (negb _); [reflexivity|].
  apply bytes_cons in R. now rewrite (number_agree sg) by apply R.
Qed.
Lemma overread_agree sg e : bytes e -> entry_overreads sg e = entry_overreads false e.
Proof. intros H. unfold entry_overreads, parse_number. now rewrite (number_agree sg) by now apply bytes_trim. Qed.

(** ** Cutting a file into pieces, whatever the reads are *)

(** The complete pieces, and the last one: it ends with the file, or fills the buffer. *)
Fixpoint cut (size : nat) (sep : N) (cur : list N) (rest : list N) : list (list N) * list N :=
  if size <=? length cur then ([], rev cur)
  else match rest with
       | [] => ([], rev cur)
       | c :: rest' =>
           if (c =? sep)%N then let '(es, l) := cut size sep [] rest' in (rev cur :: es, l)
           else cut size sep (c :: cur) rest'
       end.

Lemma cut_prefix size sep : 0 < size -> forall now cur later, length cur + length now <= size ->
  cut size sep cur (now ++ later) =
  let '(es, p) := scan_entries sep cur now in
  let '(es', l) := cut size sep (rev p) later in (es ++ es', l).
Proof.
  intros H0. induction now as [|c now IH]; intros cur later L.
  - cbn [app scan_entries]. rewrite rev_involutive. now destruct (cut size sep cur later).
  - cbn [length] in L. cbn [app scan_entries cut]. destruct (Nat.leb_spec size (length cur)); try lia.
    destruct (c =? sep)%N.
    + rewrite IH by (cbn [length]; lia). destruct (scan_entries sep [] now) as (es, p). now destruct (cut size sep (rev p) later).
    + apply IH. cbn [length]. lia.
Qed.
Lemma scan_length sep : forall data cur, length (snd (scan_entries sep cur data)) <= length cur + length data.
Proof.
  induction data as [|c data IH]; intros cur; cbn [scan_entries].
  - cbn [snd]. rewrite rev_length. lia.
  - destruct (c =? sep)%N.
    + specialize (IH []). destruct (scan_entries sep [] data). cbn [snd length] in *. lia.
    + specialize (IH (c :: cur)). cbn [length] in *. lia.
Qed.
Lemma scan_app sep : forall a cur b, ~ In sep a -> scan_entries sep cur (a ++ b) = scan_entries sep (rev a ++ cur) b.
Proof.
  induction a as [|c a IH]; intros cur b H; [reflexivity|]. cbn [app scan_entries].
  destruct (N.eqb_spec c sep) as [->|]; [destruct H; now left|]. rewrite IH by (intros X; apply H; now right).
  cbn [rev]. now rewrite <- app_assoc.
Qed.
Lemma scan_last sep : forall data cur, ~ In sep cur -> ~ In sep (snd (scan_entries sep cur data)).
Proof.
  induction data as [|c data IH]; intros cur H; cbn [scan_entries].
  - cbn [snd]. now rewrite <- in_rev.
  - destruct (N.eqb_spec c sep) as [E|E].
    + specialize (IH [] (fun x => x)). now destruct (scan_entries sep [] data).
    + apply IH. intros [X|X]; [now apply E|now apply H].
Qed.

Lemma cut_full size sep cur rest : size <= length cur -> cut size sep cur rest = ([], rev cur).
Proof. intros H. destruct rest; cbn [cut]; destruct (Nat.leb_spec size (length cur)); try lia; reflexivity. Qed.
Lemma cut_end size sep cur : cut size sep cur [] = ([], rev cur).
Proof. cbn [cut]. now destruct (size <=? length cur). Qed.

Lemma cut_bytes size sep : forall rest cur, bytes cur -> bytes rest ->
  Forall bytes (fst (cut size sep cur rest)) /\ bytes (snd (cut size sep cur rest)).
Proof.
  induction rest as [|c rest IH]; intros cur Hc Hr; cbn [cut]; destruct (size <=? length cur);
    try (cbn [fst snd]; split; [constructor|now apply bytes_rev]).
  apply bytes_cons in Hr. destruct Hr as (C & Hr). destruct (c =? sep)%N.
  - destruct (IH [] ltac:(constructor) Hr) as (I1 & I2). destruct (cut size sep [] rest). cbn [fst snd] in *.
    split; [constructor; auto; now apply bytes_rev|exact I2].
  - apply IH; [now constructor|exact Hr].
Qed.

Lemma no_error_hd wants space : no_io_error wants -> exists w, hd (Some space) wants = Some w.
Proof. destruct wants as [|w wants]; cbn [hd]; [now exists space|]. intros H. inversion H; subst. destruct w; [eauto|congruence]. Qed.
Lemma no_error_tl wants : no_io_error wants -> no_io_error (tl wants).
Proof. destruct wants; [auto|]. intros H. now inversion H. Qed.

(** ** Files of lines *)
Lemma feed_lines_app {S} (cb : S -> list N -> bool * S) : forall a b ctx,
  feed_lines cb ctx (a ++ b) = let '(ok, c) := feed_lines cb ctx a in if ok then feed_lines cb c b else (false, c).
Proof.
  induction a as [|l a IH]; intros b ctx; cbn [app feed_lines]; [now destruct (feed_lines cb ctx b)|].
  destruct (cb ctx l) as ([|], c); [apply IH|reflexivity].
Qed.
Definition lines_result {S} (cb : S -> list N -> bool * S) (ctx : S) (pieces : list (list N) * list N) : bool * S :=
  let '(ok, c) := feed_lines cb ctx (fst pieces) in if ok then cb c (snd pieces) else (false, c).

Lemma multiline_loop_cut {S} (cb : S -> list N -> bool * S) size : 0 < size -> forall fuel wants partial rest ctx,
  no_io_error wants -> length rest < fuel -> length partial <= size -> ~ In chr_nl partial ->
  multiline_loop cb fuel size wants partial rest ctx = Ok (lines_result cb ctx (cut size chr_nl (rev partial) rest)).
Proof.
  intros H0. induction fuel as [|fuel IH]; intros wants partial rest ctx NE LF LP NP; [lia|].
  cbn [multiline_loop]. destruct (Nat.ltb_spec size (length partial)); [lia|].
  destruct (no_error_hd wants (size - length partial) NE) as (w & ->). cbn [read_call].
  destruct (Nat.min (Nat.max 1 w) (Nat.min (size - length partial) (length rest))) as [|n] eqn:En.
  - assert (E : cut size chr_nl (rev partial) rest = ([], partial)).
    { rewrite <- (rev_involutive partial) at 2. destruct (Nat.eq_dec (length partial) size).
      - apply cut_full. rewrite rev_length. lia.
      - destruct rest; [apply cut_end|cbn [length] in En; lia]. }
    rewrite E. unfold lines_result. cbn [fst snd feed_lines]. now destruct (cb ctx partial).
  - set (now := firstn (Datatypes.S n) rest).
    assert (LN : length now = Datatypes.S n) by (unfold now; rewrite firstn_length; lia).
    replace (cut size chr_nl (rev partial) rest) with (cut size chr_nl (rev partial) (now ++ skipn (Datatypes.S n) rest))
      by (unfold now; now rewrite firstn_skipn).
    rewrite cut_prefix by (try rewrite rev_length; lia).
    rewrite scan_app by exact NP. rewrite app_nil_r.
    pose proof (scan_length chr_nl now (rev partial)) as SL. pose proof (scan_last chr_nl now (rev partial) ltac:(now rewrite <- in_rev)) as SN.
    destruct (scan_entries chr_nl (rev partial) now) as (es, p). cbn [snd] in SL, SN. rewrite rev_length in SL.
    destruct (feed_lines cb ctx es) as (ok, c) eqn:EF. destruct ok.
    + rewrite IH; [|now apply no_error_tl|rewrite skipn_length; lia|lia|exact SN].
      f_equal. unfold lines_result. destruct (cut size chr_nl (rev p) (skipn (Datatypes.S n) rest)) as (es', l). cbn [fst snd].
      now rewrite feed_lines_app, EF.
    + f_equal. unfold lines_result. destruct (cut size chr_nl (rev p) (skipn (Datatypes.S n) rest)) as (es', l). cbn [fst snd].
      now rewrite feed_lines_app, EF.
Qed.

Lemma feed_lines_agree {S} (cb cb' : S -> list N -> bool * S) : (forall ctx l, bytes l -> cb ctx l = cb' ctx l) ->
  forall ls ctx, Forall bytes ls -> feed_lines cb ctx ls = feed_lines cb' ctx ls.
Proof.
  intros H. induction ls as [|l ls IH]; intros ctx F; cbn [feed_lines]; [reflexivity|]. inversion F; subst.
  rewrite H by assumption. destruct (cb' ctx l) as ([|], c); auto.
Qed.

Lemma multiline_agree {S} (cb cb' : S -> list N -> bool * S) size f g ctx : 0 < size -> same_file f g ->
  (forall ctx l, bytes l -> cb ctx l = cb' ctx l) ->
  parse_multiline_file cb size (f_contents f) (f_reads f) ctx = parse_multiline_file cb' size (f_contents g) (f_reads g) ctx.
Proof.
  intros H0 [SC SB (R1 & R2)] H. rewrite <- SC. unfold parse_multiline_file. destruct (f_contents f) as [c|]; [|reflexivity].
  rewrite !multiline_loop_cut by (auto; cbn [length]; lia). cbn [rev]. f_equal. unfold lines_result.
  destruct (cut_bytes size chr_nl c [] ltac:(constructor) (SB c eq_refl)) as (B1 & B2).
  rewrite (feed_lines_agree cb cb' H) by exact B1. destruct (feed_lines cb' ctx _) as ([|], c'); [now apply H|reflexivity].
Qed.

(** ** Lists of CPUs *)
Lemma feed_entries_app {S} (h : S -> N -> N -> bool * S) sg : forall a b st ctx,
  feed_entries h sg st ctx (a ++ b) = let '(s, c) := feed_entries h sg st ctx a in feed_entries h sg s c b.
Proof.
  induction a as [|l a IH]; intros b st ctx; cbn [app feed_entries]; [reflexivity|].
  destruct (parse_entry h sg ctx l) as (ok, c). apply IH.
Qed.
Definition entries_result {S} (h : S -> N -> N -> bool * S) sg size st (ctx : S) (pieces : list (list N) * list N) : res (bool * S) :=
  let '(s, c) := feed_entries h sg st ctx (fst pieces) in
  if (length (snd pieces) =? size) && entry_overreads sg (snd pieces) then UB else Ok (feed_entries h sg s c [snd pieces]).

Lemma cpulist_loop_cut {S} (h : S -> N -> N -> bool * S) sg size : 0 < size -> forall fuel wants st partial rest ctx,
  no_io_error wants -> length rest < fuel -> length partial <= size -> ~ In chr_comma partial ->
  cpulist_loop h sg fuel size wants st partial rest ctx = entries_result h sg size st ctx (cut size chr_comma (rev partial) rest).
Proof.
  intros H0. induction fuel as [|fuel IH]; intros wants st partial rest ctx NE LF LP NP; [lia|].
  cbn [cpulist_loop]. destruct (Nat.ltb_spec size (length partial)); [lia|].
  destruct (no_error_hd wants (size - length partial) NE) as (w & ->). cbn [read_call].
  destruct (Nat.min (Nat.max 1 w) (Nat.min (size - length partial) (length rest))) as [|n] eqn:En.
  - assert (E : cut size chr_comma (rev partial) rest = ([], partial)).
    { rewrite <- (rev_involutive partial) at 2. destruct (Nat.eq_dec (length partial) size).
      - apply cut_full. rewrite rev_length. lia.
      - destruct rest; [apply cut_end|cbn [length] in En; lia]. }
    rewrite E. unfold entries_result. cbn [fst snd]. reflexivity.
  - set (now := firstn (Datatypes.S n) rest).
    assert (LN : length now = Datatypes.S n) by (unfold now; rewrite firstn_length; lia).
    replace (cut size chr_comma (rev partial) rest) with (cut size chr_comma (rev partial) (now ++ skipn (Datatypes.S n) rest))
      by (unfold now; now rewrite firstn_skipn).
    rewrite cut_prefix by (try rewrite rev_length; lia).
    rewrite scan_app by exact NP. rewrite app_nil_r.
    pose proof (scan_length chr_comma now (rev partial)) as SL. pose proof (scan_last chr_comma now (rev partial) ltac:(now rewrite <- in_rev)) as SN.
    destruct (scan_entries chr_comma (rev partial) now) as (es, p). cbn [snd] in SL, SN. rewrite rev_length in SL.
    destruct (feed_entries h sg st ctx es) as (s, c) eqn:EF.
    rewrite IH; [|now apply no_error_tl|rewrite skipn_length; lia|lia|exact SN].
    unfold entries_result. destruct (cut size chr_comma (rev p) (skipn (Datatypes.S n) rest)) as (es', l). cbn [fst snd].
    now rewrite feed_entries_app, EF.
Qed.
Lemma feed_entries_agree {S} (h : S -> N -> N -> bool * S) sg : forall es st ctx, Forall bytes es ->
  feed_entries h sg st ctx es = feed_entries h false st ctx es.
Proof.
  induction es as [|e es IH]; intros st ctx F; cbn [feed_entries]; [reflexivity|]. inversion F; subst.
  rewrite (entry_agree h sg) by assumption. destruct (parse_entry h false ctx e). auto.
Qed.
Lemma cpulist_plain {S} (h : S -> N -> N -> bool * S) sg c wants ctx : bytes c -> no_io_error wants ->
  parse_cpulist h sg (Some c) wants ctx = entries_result h false cpulist_buffer_size true ctx (cut cpulist_buffer_size chr_comma [] c).
Proof.
  intros B NE. unfold parse_cpulist. rewrite cpulist_loop_cut by (auto; unfold cpulist_buffer_size; cbn [length]; lia).
  cbn [rev]. unfold entries_result. destruct (cut_bytes cpulist_buffer_size chr_comma c [] ltac:(constructor) B) as (B1 & B2).
  rewrite feed_entries_agree by exact B1. destruct (feed_entries h false true ctx _) as (s, c').
  rewrite overread_agree by exact B2. now rewrite (feed_entries_agree h sg) by (repeat constructor; exact B2).
Qed.
Lemma cpulist_agree {S} (h : S -> N -> N -> bool * S) sg sg' f g ctx : same_file f g ->
  parse_cpulist h sg (f_contents f) (f_reads f) ctx = parse_cpulist h sg' (f_contents g) (f_reads g) ctx.
Proof.
  intros [SC SB (R1 & R2)]. rewrite <- SC. destruct (f_contents f) as [c|]; [|reflexivity].
  specialize (SB c eq_refl). now rewrite !cpulist_plain by assumption.
Qed.

(** ** Small files *)
Definition small_result {S} (cb : S -> list N -> bool * S) (size : nat) (ctx : S) (c : list N) : bool * S :=
  if size <=? length c then (false, ctx) else cb ctx c.
Lemma smallfile_loop_whole {S} (cb : S -> list N -> bool * S) size : forall fuel wants buf rest ctx,
  no_io_error wants -> length rest < fuel -> length buf < size ->
  smallfile_loop cb fuel size wants buf rest ctx = Ok (small_result cb size ctx (buf ++ rest)).
Proof.
  induction fuel as [|fuel IH]; intros wants buf rest ctx NE LF LB; [lia|].
  cbn [smallfile_loop]. destruct (Nat.ltb_spec size (length buf)); [lia|].
  destruct (no_error_hd wants (size - length buf) NE) as (w & ->). cbn [read_call].
  remember (Nat.min (Nat.max 1 w) (Nat.min (size - length buf) (length rest))) as n eqn:E0.
  assert (Ln : length (buf ++ firstn n rest) = length buf + n) by (rewrite app_length, firstn_length; lia).
  unfold small_result at 1. destruct (Nat.leb_spec size (length (buf ++ firstn n rest))).
  - rewrite app_length. destruct (Nat.leb_spec size (length buf + length rest)); [reflexivity|lia].
  - destruct n as [|n'].
    + destruct rest; [|cbn [length] in E0; lia]. cbn [firstn] in *. rewrite !app_nil_r in *.
      destruct (Nat.leb_spec size (length buf)); [lia|reflexivity].
    + rewrite IH; [|now apply no_error_tl|rewrite skipn_length; lia|lia].
      rewrite <- app_assoc, firstn_skipn. reflexivity.
Qed.
Lemma small_agree sg sg' f g : same_file f g ->
  parse_small_file (uint32_parser sg) small_filesize (f_contents f) (f_reads f) 0%N
  = parse_small_file (uint32_parser sg') small_filesize (f_contents g) (f_reads g) 0%N.
Proof.
  intros [SC SB (R1 & R2)]. rewrite <- SC. unfold parse_small_file. destruct (f_contents f) as [c|]; [|reflexivity].
  rewrite !smallfile_loop_whole by (auto; unfold small_filesize; cbn [length]; lia). cbn [app]. unfold small_result.
  destruct (_ <=? _); [reflexivity|]. now rewrite (uint32_agree sg), (uint32_agree sg') by now apply SB.
Qed.
