(** Property theorems about the kernel text readers (C08-C13). *)
From Verif Require Import Base Text LinuxTextModel LinuxTextSpec LinuxTextProofs CpulistProofs CpulistFileProofs.
Open Scope N_scope.

(** ** C08 *)

(** Whatever the sizes of the individual reads, the handler is given exactly the
    lines of the file, in order, once each. *)
Theorem multiline_chunk_independent :
  forall S (handle : S -> list N -> bool * S) buffer_size wants ctx lines,
  no_io_error wants -> lines <> [] -> Forall (fun l => ~ In 10 l) lines ->
  pieces_fit buffer_size lines ->
  parse_multiline_file handle buffer_size (Some (join 10 lines)) wants ctx
  = Ok (run_lines handle ctx lines).
Proof.
  intros S handle b wants ctx lines H1 H2 H3 H4. rewrite <- feed_run_lines.
  exact (multiline_all handle b wants ctx lines H1 H2 H3 H4).
Qed.
Print Assumptions multiline_chunk_independent.

Example multiline_chunk_independent_case :
  no_io_error [Some 1%nat; Some 3%nat; Some 2%nat] /\ pieces_fit 8 [text "ab"; text "cdefg"; []] /\
  parse_multiline_file record_line 8 (Some (text "ab" ++ [10] ++ text "cdefg" ++ [10]))
    [Some 1%nat; Some 3%nat; Some 2%nat] [] = Ok (true, [text "ab"; text "cdefg"; []]).
Proof. repeat split; try (repeat constructor; discriminate); try (cbn; lia); vm_compute; reflexivity. Qed.

(** Every file is a list of lines, so the theorem speaks about every file. *)
Theorem every_file_is_lines : forall contents,
  exists lines, lines <> [] /\ Forall (fun l => ~ In 10 l) lines /\ contents = join 10 lines.
Proof. exact (split_pieces 10). Qed.
Print Assumptions every_file_is_lines.

(** With I/O errors too, the reader stops, stays inside its buffer and hands over
    only lines of the file: a failed read is reported as a failure. *)
Theorem multiline_any_reads :
  forall S (handle : S -> list N -> bool * S) buffer_size wants ctx lines,
  lines <> [] -> Forall (fun l => ~ In 10 l) lines ->
  exists given others, lines = given ++ others /\
    (parse_multiline_file handle buffer_size (Some (join 10 lines)) wants ctx
       = Ok (false, snd (run_lines handle ctx given)) \/
     exists last dropped, last ++ dropped = join 10 others /\ ~ In 10 last /\
       (dropped <> [] -> length last = buffer_size) /\
       parse_multiline_file handle buffer_size (Some (join 10 lines)) wants ctx
       = Ok (run_lines handle ctx (given ++ [last]))).
Proof.
  intros S handle b wants ctx lines H1 H2.
  destruct (multiline_total handle b wants ctx lines H1 H2) as (ok & es & l' & tail & E & [(H & _)|(p & H & Hp & Hn & Hb & _)]).
  - exists es, l'. split; [exact E|left]. now rewrite <- feed_run_lines.
  - exists es, l'. split; [exact E|right]. exists p, tail. now rewrite <- feed_run_lines.
Qed.
Print Assumptions multiline_any_reads.

(** ** C09 *)

(** The full property: a successful parse has handled every line. *)
Definition no_line_is_lost (buffer_size : nat) : Prop :=
  forall S (handle : S -> list N -> bool * S) wants ctx lines ctx',
  no_io_error wants -> lines <> [] -> Forall (fun l => ~ In 10 l) lines ->
  parse_multiline_file handle buffer_size (Some (join 10 lines)) wants ctx = Ok (true, ctx') ->
  run_lines handle ctx lines = (true, ctx').

(** What happens instead: the first line that fills the buffer is cut to the
    size of the buffer, everything after the cut is ignored, and the result is
    that of the lines before it. *)
Theorem over_long_line_ends_file :
  forall S (handle : S -> list N -> bool * S) buffer_size wants ctx before long after,
  no_io_error wants -> Forall (fun l => ~ In 10 l) (before ++ long :: after) ->
  Forall (fun l => (length l < buffer_size)%nat) before -> (buffer_size <= length long)%nat ->
  parse_multiline_file handle buffer_size (Some (join 10 (before ++ long :: after))) wants ctx
  = Ok (run_lines handle ctx (before ++ [firstn buffer_size long])).
Proof.
  intros. rewrite <- feed_run_lines. now apply multiline_long.
Qed.
Print Assumptions over_long_line_ends_file.

Example over_long_line_case :
  parse_multiline_file record_line 4 (Some (text "ab" ++ [10] ++ text "cdefg" ++ [10] ++ text "hi")) [] []
  = Ok (true, [text "ab"; text "cdef"]).
Proof. reflexivity. Qed.

(** For every buffer size some file loses lines while success is reported. *)
Theorem over_long_lines_refuted : forall buffer_size, ~ no_line_is_lost buffer_size.
Proof.
  intros b H.
  set (long := repeat 120 (Datatypes.S b)).
  assert (Hl : Forall (fun l => ~ In 10 l) ([] ++ long :: [[121]])).
  { constructor; [|repeat constructor; cbn; intros [E|[]]; discriminate].
    intros Hi. apply repeat_spec in Hi. discriminate. }
  assert (Hlen : (b <= length long)%nat) by (unfold long; rewrite repeat_length; lia).
  specialize (H _ record_line [] [] ([] ++ long :: [[121]]) [firstn b long]
                (Forall_nil _) ltac:(discriminate) Hl).
  rewrite (over_long_line_ends_file _ record_line b [] [] [] long [[121]] (Forall_nil _) Hl (Forall_nil _) Hlen) in H.
  specialize (H eq_refl). cbn in H. discriminate.
Qed.
Print Assumptions over_long_lines_refuted.

(** ** C10 *)

Theorem cpulist_exact :
  forall S (handle : S -> N -> N -> bool * S) char_signed wants ctx contents ranges,
  no_io_error wants -> cpu_list_file contents ranges ->
  parse_cpulist handle char_signed (Some contents) wants ctx
  = Ok (run_ranges handle true ctx (map Some ranges)).
Proof. exact @cpu_list_file_parse. Qed.
Print Assumptions cpulist_exact.

(** The delivered half-open ranges are exactly the listed ones. *)
Theorem cpulist_ranges_exact :
  forall char_signed wants contents ranges,
  no_io_error wants -> cpu_list_file contents ranges ->
  parse_cpulist record_range char_signed (Some contents) wants []
  = Ok (true, map (fun r => (fst r, snd r + 1)) ranges).
Proof.
  intros sg wants contents rs H1 H2.
  rewrite (cpulist_exact _ record_range sg wants [] contents rs H1 H2), run_ranges_record.
  f_equal. f_equal; clear.
  - induction rs; cbn; auto.
  - induction rs as [|[f l] rs IH]; cbn in *; [reflexivity|now f_equal].
Qed.
Print Assumptions cpulist_ranges_exact.

(** The readers of sibling lists pass on every listed range, cut at the end of
    the table. *)
Theorem sibling_lists_exact :
  forall char_signed max wants contents ranges,
  no_io_error wants -> cpu_list_file contents ranges ->
  detect_siblings char_signed max record_range (Some contents) wants []
  = Ok (true, map (fun r => (fst r, N.min max (snd r + 1))) ranges).
Proof. exact sibling_ranges. Qed.
Print Assumptions sibling_lists_exact.

Example sibling_lists_case : detect_siblings true 6 record_range (Some (text "0-1,4,5-7" ++ [10])) [] []
  = Ok (true, [(0, 2); (4, 5); (5, 6)]).
Proof. vm_compute. reflexivity. Qed.

Ltac chars :=
  unfold blanks, is_decimal, bytes;
  repeat first [apply Forall_nil | apply Forall_cons | split]; try discriminate;
  unfold is_digit, is_blank; cbn; lia.

Lemma entry_text_single n c : is_digit c -> n = c - 48 -> cpu_entry [c] n n.
Proof.
  intros H ->. replace (c - 48) with (dec_value [c]) by reflexivity.
  apply (entry_single [] [c] []); repeat constructor; try discriminate; apply H.
Qed.

Example cpu_list_case : cpu_list_file (text "0-3,5, 17" ++ [10]) [(0, 3); (5, 5); (17, 17)].
Proof.
  exists [text "0-3"; text "5"; text " 17" ++ [10]]. split; [discriminate|]. split; [reflexivity|].
  split; [repeat constructor; cbn; lia|].
  repeat apply Forall2_cons; [..|apply Forall2_nil]; (split; [|unfold u32max; cbn; lia]).
  - apply (entry_range [] [48] [51] []); chars.
  - apply entry_text_single; [split; discriminate|reflexivity].
  - apply (entry_single [32] [49; 55] [10]); chars.
Qed.

(** ** C11 *)

(** Each entry has a meaning; malformed ones only spoil the final status, and
    the ranges of the others are all delivered, in order. *)
Theorem cpulist_malformed :
  forall char_signed wants entries meanings,
  no_io_error wants -> entries <> [] -> Forall (fun e => ~ In 44 e) entries ->
  Forall short_entry entries -> Forall2 entry_meaning entries meanings ->
  parse_cpulist record_range char_signed (Some (join 44 entries)) wants []
  = Ok (forallb (fun m => match m with Some _ => true | None => false end) meanings,
        flat_map (fun m => match m with Some (f, l) => [(f, l + 1)] | None => [] end) meanings).
Proof.
  intros sg wants entries ms H1 H2 H3 H4 H5.
  rewrite (cpulist_meanings record_range sg wants [] entries ms H1 H2 H3 H4 H5).
  now rewrite run_ranges_record.
Qed.
Print Assumptions cpulist_malformed.

Example cpulist_malformed_case :
  Forall2 entry_meaning [text "0-3"; text "9-7"; text "5"; text "x"; []]
          [Some (0, 3); None; Some (5, 5); None; None] /\
  parse_cpulist record_range true (Some (text "0-3,9-7,5,x,")) [] [] = Ok (false, [(0, 4); (5, 6)]).
Proof.
  split; [|reflexivity].
  assert (Hsmall : forall t, (length t <= 3)%nat -> bytes t ->
     forall b1 ds s, t = b1 ++ ds ++ s -> blanks b1 -> is_decimal ds -> dec_value ds < two32).
  { intros t Ht Hby b1 ds s -> _ (_ & Hd). rewrite !app_length in Ht.
    destruct ds as [|x [|y [|z [|w ds]]]]; cbn [length] in Ht; try lia;
      repeat match goal with H : Forall is_digit (_ :: _) |- _ => inversion H; clear H; subst end;
      unfold is_digit, dec_value, two32 in *; cbn [fold_left]; lia. }
  repeat apply Forall2_cons; [..|apply Forall2_nil]; cbn [entry_meaning].
  - split; [|unfold u32max; lia]. apply (entry_range [] [48] [51] []); chars.
  - assert (Hb : bytes (text "9-7")) by (repeat constructor).
    split; [exact Hb|]. split; [|apply Hsmall; [cbn; lia|exact Hb]].
    apply (bad_order [] [57] [55] []); try chars.
    intros (c & s & H & _). discriminate.
  - split; [|unfold u32max; lia]. apply entry_text_single; [split; discriminate|reflexivity].
  - assert (Hb : bytes (text "x")) by (repeat constructor).
    split; [exact Hb|]. split; [|apply Hsmall; [cbn; lia|exact Hb]].
    apply (bad_start [] 120 []); [constructor|unfold is_blank; lia|unfold is_digit; lia].
  - split; [constructor|]. split; [constructor; constructor|apply Hsmall; [cbn; lia|constructor]].
Qed.

(** Every entry is well formed, malformed, or a range followed by junk ... *)
Theorem entry_kinds : forall entry,
  (exists f l, cpu_entry entry f l) \/ bad_entry entry \/ (exists f l, junk_entry entry f l).
Proof. exact entry_classes. Qed.
Print Assumptions entry_kinds.

(** ... and junk after a range is silently ignored, e.g. "0-3x" counts as 0-3. *)
Theorem junk_after_range_ignored :
  forall S (handle : S -> N -> N -> bool * S) char_signed entry f l ctx,
  bytes entry -> junk_entry entry f l -> l < u32max ->
  parse_entry handle char_signed ctx entry = handle ctx f (l + 1).
Proof. exact @entry_junk. Qed.
Print Assumptions junk_after_range_ignored.

Example junk_case : junk_entry (text "0-3x") 0 3.
Proof.
  apply (junk_range [] [48] [51] [120]); try chars.
  - intros (c & s & H & Hc). injection H as <- _. unfold is_digit in Hc. lia.
  - intros H. inversion H as [|? ? Hb _]; subst. unfold is_blank in Hb. lia.
Qed.

(** A number of 2^32 or more wraps: the list "4294967297" is taken for CPU 1. *)
Theorem cpulist_large_number_refuted :
  exists contents, contents = text "4294967297" /\
    parse_cpulist record_range true (Some contents) [] [] = Ok (true, [(1, 2)]).
Proof. eexists; split; reflexivity. Qed.
Print Assumptions cpulist_large_number_refuted.

(** The reader touches one byte past its buffer when the last entry fills it and
    ends in "-". *)
Theorem cpulist_overread_refuted :
  parse_cpulist record_range true (Some (repeat 32 254%nat ++ text "0-")) [] [] = UB.
Proof. reflexivity. Qed.
Print Assumptions cpulist_overread_refuted.

(** ** C12 *)

Theorem detect_flags_exact :
  forall char_signed max flag wants contents ranges flags,
  no_io_error wants -> cpu_list_file contents ranges -> length flags = N.to_nat max ->
  exists flags', detect_listed_processors char_signed max flag (Some contents) wants flags
                 = Ok (true, flags') /\
    length flags' = length flags /\
    forall cpu f, nth_error flags cpu = Some f ->
      (listed ranges (N.of_nat cpu) -> nth_error flags' cpu = Some (N.lor f flag)) /\
      (~ listed ranges (N.of_nat cpu) -> nth_error flags' cpu = Some f).
Proof. exact detect_listed_exact. Qed.
Print Assumptions detect_flags_exact.

Theorem max_listed_processor_exact :
  forall char_signed max wants contents ranges,
  no_io_error wants -> cpu_list_file contents ranges -> 0 < max -> max < two32 ->
  exists m, listed ranges m /\ (forall c, listed ranges c -> c <= m) /\
    get_max_listed_processor char_signed max (Some contents) wants = Ok (N.min m (max - 1)).
Proof. exact max_listed_exact. Qed.
Print Assumptions max_listed_processor_exact.

Example detect_case :
  detect_listed_processors true 6 1 (Some (text "0-3,5, 17" ++ [10])) [] [0; 0; 2; 0; 0; 0]
    = Ok (true, [1; 1; 3; 1; 0; 1]) /\
  get_max_listed_processor true 6 (Some (text "0-3,5, 17" ++ [10])) [] = Ok 5 /\
  get_max_listed_processor true 64 (Some (text "0-3,5, 17" ++ [10])) [] = Ok 17.
Proof. repeat split; reflexivity. Qed.

(** ** C13 *)

(** A file holding a decimal number below 2^32 followed by anything that is not
    a digit (e.g. a newline), shorter than 32 bytes, gives exactly that number. *)
Theorem small_file_number_exact :
  forall wants digits tail,
  no_io_error wants -> is_decimal digits -> bytes tail -> ~ starts_with_digit tail ->
  dec_value digits < two32 -> (length (digits ++ tail) < 32)%nat ->
  get_processor_frequency (Some (digits ++ tail)) wants = Ok (dec_value digits) /\
  get_processor_id_file (Some (digits ++ tail)) wants = Ok (Some (dec_value digits)) /\
  (forall default, dec_value digits < u32max ->
     get_max_processors_count default (Some (digits ++ tail)) wants = Ok (dec_value digits + 1)).
Proof.
  intros wants ds tail H1 H2 H3 H4 H5 H6.
  assert (E : parse_small_file (uint32_parser false) small_filesize (Some (ds ++ tail)) wants 0
              = Ok (true, dec_value ds)).
  { destruct (small_file_total (uint32_parser false) small_filesize (Some (ds ++ tail)) wants 0)
      as [(t & Ht & _ & Hp)|(_ & Hp)]; [unfold small_filesize; lia| |].
    - injection Ht as <-. rewrite Hp. now rewrite uint32_parser_decimal.
    - specialize (Hp H1 _ eq_refl). unfold small_filesize in Hp. lia. }
  unfold get_processor_frequency, get_processor_id_file, get_max_processors_count.
  rewrite E. cbn [bind]. repeat split. intros default Hd. f_equal.
  unfold u32. unfold u32max in Hd. apply N.mod_small. unfold two32. lia.
Qed.
Print Assumptions small_file_number_exact.

Example small_file_case :
  is_decimal (text "2400000") /\ dec_value (text "2400000") = 2400000 /\
  get_processor_frequency (Some (text "2400000" ++ [10])) [Some 3%nat; Some 1%nat] = Ok 2400000 /\
  get_max_processors_count 1024 (Some (text "8191" ++ [10])) [Some 3%nat] = Ok 8192.
Proof. repeat split; try discriminate; repeat constructor; discriminate. Qed.

(** Otherwise the fallback is returned. *)
Theorem small_file_fallback :
  forall default file wants,
  (file = None \/ (exists contents, file = Some contents /\ no_io_error wants /\
      ((32 <= length contents)%nat \/ (bytes contents /\ ~ starts_with_digit contents)))) ->
  get_processor_frequency file wants = Ok 0 /\
  get_processor_id_file file wants = Ok None /\
  get_max_processors_count default file wants = Ok default.
Proof.
  intros default file wants H.
  assert (E : parse_small_file (uint32_parser false) small_filesize file wants 0 = Ok (false, 0)).
  { destruct (small_file_total (uint32_parser false) small_filesize file wants 0)
      as [(t & Ht & Hl & Hp)|(Hp & _)]; [unfold small_filesize; lia| |exact Hp].
    subst file. rewrite Hp. destruct H as [H|(c & Hc & _ & [Hbig|(Hb & Hd)])]; [discriminate|..];
      injection Hc as <-.
    - unfold small_filesize in Hl. lia.
    - now rewrite uint32_parser_bad. }
  unfold get_processor_frequency, get_processor_id_file, get_max_processors_count.
  rewrite E. repeat split.
Qed.
Print Assumptions small_file_fallback.

(** And whatever the reads do, the result is the number at the start of the
    complete contents or the fallback: never a number cut short by a read. *)
Theorem small_file_never_partial :
  forall file wants,
  get_processor_id_file file wants = Ok None \/
  exists contents, file = Some contents /\ (length contents < 32)%nat /\
    get_processor_id_file file wants
    = Ok (let '(ok, v) := uint32_parser false 0 contents in if ok then Some v else None).
Proof.
  intros file wants. unfold get_processor_id_file.
  destruct (small_file_total (uint32_parser false) small_filesize file wants 0)
      as [(t & -> & Hl & Hp)|(Hp & _)]; [unfold small_filesize; lia| |]; rewrite Hp; [right|now left].
  exists t. split; [reflexivity|]. split; [exact Hl|]. now destruct (uint32_parser false 0 t).
Qed.
Print Assumptions small_file_never_partial.

(** "4294967295" in kernel_max makes the processor limit wrap to 0. *)
Theorem kernel_max_wraps_refuted :
  get_max_processors_count 1024 (Some (text "4294967295" ++ [10])) [] = Ok 0.
Proof. reflexivity. Qed.
Print Assumptions kernel_max_wraps_refuted.
