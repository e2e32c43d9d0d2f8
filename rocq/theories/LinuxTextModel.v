(** Model of the three text-file readers of src/linux and of the number and
    CPU-list parsers built on them.  Definitions only. *)
From Verif Require Import Base.
Open Scope N_scope.

(** Characters are byte values.  (ASCII codes used by the C text.) *)
Definition chr_tab : N := 9.
Definition chr_nl : N := 10.
Definition chr_cr : N := 13.
Definition chr_space : N := 32.
Definition chr_comma : N := 44.
Definition chr_dash : N := 45.
Definition chr_zero : N := 48.
Definition chr_colon : N := 58.

(** The C type [char] is signed on x86 and unsigned on ARM; [(uint32_t)c] of a
    byte at or above 128 sign-extends in the first case.  [char_signed] tells
    which. *)
Definition char_to_u32 (char_signed : bool) (c : N) : N :=
  if char_signed && (128 <=? c) then u32 (c + (two32 - 256)) else c.

(** src/linux/cpulist.c:43 and src/linux/processors.c:58,
    [digit = (uint32_t)c - '0'] in uint32_t. *)
Definition digit_of (sg : bool) (c : N) : N := sub32 (char_to_u32 sg c) chr_zero.

(** One call of read(2).  [space] is the size argument; [want] is the kernel's
    choice: [None] an error (-1), [Some w] any positive number of bytes, capped
    by the space and by what is left.  read() returns 0 only at the end of the
    file or when the size argument is 0. *)
Definition read_call (want : option nat) (space : nat) (rest : list N) : option nat :=
  match want with
  | None => None
  | Some w => Some (Nat.min (Nat.max 1 w) (Nat.min space (length rest)))
  end.

(** The inner do-while loop shared by src/linux/multiline.c:69-90 and
    src/linux/cpulist.c:202-222, without the callback: split the bytes in the
    buffer at [sep] into the complete entries and the partial entry that is
    left at the end.  [cur] is the current entry so far, reversed. *)
Fixpoint scan_entries (sep : N) (cur : list N) (data : list N) : list (list N) * list N :=
  match data with
  | [] => ([], rev cur)
  | c :: data' =>
      if c =? sep then
        let '(es, r) := scan_entries sep [] data' in (rev cur :: es, r)
      else scan_entries sep (c :: cur) data'
  end.

Section MULTILINE.
  Context {S : Type}.
  (** The line callback: new context and whether it succeeded.  The line number
      passed by the C code is used for messages only and is left out. *)
  Variable callback : S -> list N -> bool * S.

  (** src/linux/multiline.c:84-89: call the callback on each complete line and
      stop at the first failure. *)
  Fixpoint feed_lines (ctx : S) (lines : list (list N)) : bool * S :=
    match lines with
    | [] => (true, ctx)
    | l :: ls =>
        let '(ok, ctx') := callback ctx l in
        if ok then feed_lines ctx' ls else (false, ctx')
    end.

  (** src/linux/multiline.c:44-98: the read loop.  [partial] is the text kept at
      the start of the buffer (its length is [data_start - buffer]), [rest] what
      the file still holds, [wants] the kernel's choices for the coming reads
      (a shorter list means that the remaining reads are full reads).  [fuel]
      bounds the number of reads. *)
  Fixpoint multiline_loop (fuel : nat) (buffer_size : nat) (wants : list (option nat))
           (partial rest : list N) (ctx : S) : res (bool * S) :=
    match fuel with
    | O => Hang
    | Datatypes.S fuel' =>
        if (buffer_size <? length partial)%nat then UB else
        let space := (buffer_size - length partial)%nat in
        match read_call (hd (Some space) wants) space rest with
        | None => Ok (false, ctx)                                   (* line 50-54 *)
        | Some O => Ok (callback ctx partial)                       (* line 60-66 *)
        | Some n =>
            let data := partial ++ firstn n rest in
            let '(lines, partial') := scan_entries chr_nl [] data in
            let '(ok, ctx') := feed_lines ctx lines in
            if ok then multiline_loop fuel' buffer_size (tl wants) partial' (skipn n rest) ctx'
            else Ok (false, ctx')
        end
    end.

  (** src/linux/multiline.c:19-113.  [file = None] when open() fails. *)
  Definition parse_multiline_file (buffer_size : nat) (file : option (list N))
             (wants : list (option nat)) (ctx : S) : res (bool * S) :=
    match file with
    | None => Ok (false, ctx)
    | Some contents =>
        multiline_loop (Datatypes.S (length contents)) buffer_size wants [] contents ctx
    end.
End MULTILINE.

(** src/linux/cpulist.c:28-38 and src/linux/processors.c:69-79. *)
Definition is_whitespace (c : N) : bool :=
  (c =? chr_space) || (c =? chr_tab) || (c =? chr_nl) || (c =? chr_cr).

(** src/linux/cpulist.c:40-52 and src/linux/processors.c:54-66: the number and
    the text after it.  The number wraps modulo 2^32. *)
Fixpoint parse_number_from (sg : bool) (acc : N) (s : list N) : N * list N :=
  match s with
  | [] => (acc, [])
  | c :: s' =>
      if 10 <=? digit_of sg c then (acc, s)
      else parse_number_from sg (u32 (u32 (acc * 10) + digit_of sg c)) s'
  end.
Definition parse_number (sg : bool) (s : list N) : N * list N := parse_number_from sg 0 s.

(** src/linux/cpulist.c:59-64 (leading) and 65-70 (trailing). *)
Fixpoint drop_ws (s : list N) : list N :=
  match s with
  | [] => []
  | c :: s' => if is_whitespace c then drop_ws s' else s
  end.
Definition trim_ws (s : list N) : list N := rev (drop_ws (rev (drop_ws s))).

Section CPULIST.
  Context {S : Type}.
  (** The CPU-list callback, called with a half-open range of CPU numbers. *)
  Variable callback : S -> N -> N -> bool * S.
  Variable sg : bool.

  (** src/linux/cpulist.c:54-152. *)
  Definition parse_entry (ctx : S) (entry : list N) : bool * S :=
    let e := trim_ws entry in
    match e with
    | [] => (false, ctx)
    | _ :: _ =>
        let '(first, r) := parse_number sg e in
        if (length r =? length e)%nat then (false, ctx)
        else match r with
             | [] => callback ctx first (u32 (first + 1))
             | c :: r' =>
                 if negb (c =? chr_dash) then (false, ctx)
                 else
                   let '(last, r2) := parse_number sg r' in
                   if (length r2 =? length r')%nat then (false, ctx)
                   else if last <? first then (false, ctx)
                   else callback ctx first (u32 (last + 1))
             end
    end.

  (** src/linux/cpulist.c:115-121: when the entry is a number followed by '-' and
      nothing else, the warning reads [*number_start], one byte past the trimmed
      entry.  True when that happens and no trailing blank was trimmed, so the
      byte is the one just past the entry as it lies in the buffer. *)
  Definition entry_overreads (entry : list N) : bool :=
    let e := trim_ws entry in
    let '(_, r) := parse_number sg e in
    match r with
    | [c] => (c =? chr_dash) && negb (length r =? length e)%nat
             && negb (match rev entry with c' :: _ => is_whitespace c' | [] => true end)
    | _ => false
    end.

  (** src/linux/cpulist.c:216-221: parse each complete entry; a failure is
      remembered but parsing goes on. *)
  Fixpoint feed_entries (status : bool) (ctx : S) (es : list (list N)) : bool * S :=
    match es with
    | [] => (status, ctx)
    | e :: es' =>
        let '(ok, ctx') := parse_entry ctx e in feed_entries (status && ok) ctx' es'
    end.

  (** src/linux/cpulist.c:177-230. *)
  Fixpoint cpulist_loop (fuel : nat) (buffer_size : nat) (wants : list (option nat))
           (status : bool) (partial rest : list N) (ctx : S) : res (bool * S) :=
    match fuel with
    | O => Hang
    | Datatypes.S fuel' =>
        if (buffer_size <? length partial)%nat then UB else
        let space := (buffer_size - length partial)%nat in
        match read_call (hd (Some space) wants) space rest with
        | None => Ok (false, ctx)                                   (* line 183-188 *)
        | Some O =>                                                 (* line 194-199 *)
            if (length partial =? buffer_size)%nat && entry_overreads partial then UB
            else Ok (feed_entries status ctx [partial])
        | Some n =>
            let data := partial ++ firstn n rest in
            let '(es, partial') := scan_entries chr_comma [] data in
            let '(status', ctx') := feed_entries status ctx es in
            cpulist_loop fuel' buffer_size (tl wants) status' partial' (skipn n rest) ctx'
        end
    end.

  (** src/linux/cpulist.c:25 *)
  Definition cpulist_buffer_size : nat := 256%nat.

  (** src/linux/cpulist.c:154-242. *)
  Definition parse_cpulist (file : option (list N)) (wants : list (option nat)) (ctx : S)
    : res (bool * S) :=
    match file with
    | None => Ok (false, ctx)
    | Some contents =>
        cpulist_loop (Datatypes.S (length contents)) cpulist_buffer_size wants true [] contents ctx
    end.
End CPULIST.

Section SMALLFILE.
  Context {S : Type}.
  Variable callback : S -> list N -> bool * S.

  (** src/linux/smallfile.c:44-66: [buf] is the text read so far. *)
  Fixpoint smallfile_loop (fuel : nat) (buffer_size : nat) (wants : list (option nat))
           (buf rest : list N) (ctx : S) : res (bool * S) :=
    match fuel with
    | O => Hang
    | Datatypes.S fuel' =>
        if (buffer_size <? length buf)%nat then UB else
        let space := (buffer_size - length buf)%nat in
        match read_call (hd (Some space) wants) space rest with
        | None => Ok (false, ctx)
        | Some n =>
            let buf' := buf ++ firstn n rest in
            if (buffer_size <=? length buf')%nat then Ok (false, ctx)
            else match n with
                 | O => Ok (callback ctx buf')
                 | _ => smallfile_loop fuel' buffer_size (tl wants) buf' (skipn n rest) ctx
                 end
        end
    end.

  (** src/linux/smallfile.c:19-78. *)
  Definition parse_small_file (buffer_size : nat) (file : option (list N))
             (wants : list (option nat)) (ctx : S) : res (bool * S) :=
    match file with
    | None => Ok (false, ctx)
    | Some contents =>
        smallfile_loop (Datatypes.S (length contents)) buffer_size wants [] contents ctx
    end.
End SMALLFILE.

(** src/linux/processors.c:95-126.  The context is the variable the number is
    stored to; it is unchanged on failure. *)
Definition uint32_parser (sg : bool) (ctx : N) (text : list N) : bool * N :=
  match text with
  | [] => (false, ctx)
  | _ :: _ =>
      let '(n, r) := parse_number sg text in
      if (length r =? length text)%nat then (false, ctx) else (true, n)
  end.

(** Size limits of src/linux/processors.c:21,27,31,34. *)
Definition small_filesize : nat := 32%nat.

(** src/linux/processors.c:128-148.  [default] is CPU_SETSIZE (line 92). *)
Definition get_max_processors_count (default : N) (file : option (list N))
           (wants : list (option nat)) : res N :=
  do r <- parse_small_file (uint32_parser false) small_filesize file wants 0;
  let '(ok, v) := r in Ok (if ok then u32 (v + 1) else default).

(** src/linux/processors.c:150-231: the three frequency getters differ only in
    the file name and in messages. *)
Definition get_processor_frequency (file : option (list N)) (wants : list (option nat)) : res N :=
  do r <- parse_small_file (uint32_parser false) small_filesize file wants 0;
  let '(ok, v) := r in Ok (if ok then v else 0).

(** src/linux/processors.c:233-281: core id and package id; [None] when the
    function returns false. *)
Definition get_processor_id_file (file : option (list N)) (wants : list (option nat))
  : res (option N) :=
  do r <- parse_small_file (uint32_parser false) small_filesize file wants 0;
  let '(ok, v) := r in Ok (if ok then Some v else None).

(** src/linux/processors.c:283-290. *)
Definition max_processor_number_parser (ctx : N) (first end_ : N) : bool * N :=
  let last := sub32 end_ 1 in
  (true, if ctx <? last then last else ctx).

(** src/linux/processors.c:292-334: the two functions differ in the file name
    only.  UINT32_MAX reports failure. *)
Definition get_max_listed_processor (sg : bool) (max_processors_count : N)
           (file : option (list N)) (wants : list (option nat)) : res N :=
  do r <- parse_cpulist max_processor_number_parser sg file wants 0;
  let '(ok, m) := r in
  Ok (if ok then
        if max_processors_count <=? m then sub32 max_processors_count 1 else m
      else u32max).

(** src/linux/processors.c:349-354: one iteration of the loop over a range; the
    fuel is the length of the range. *)
Fixpoint detect_range (fuel : nat) (max : N) (flag : N) (p end_ : N) (flags : list N)
  : res (list N) :=
  match fuel with
  | O => Ok flags
  | Datatypes.S fuel' =>
      if negb (p <? end_) then Ok flags
      else if max <=? p then Ok flags
      else do flags' <- modify flags (N.to_nat p) (fun f => N.lor f flag);
           detect_range fuel' max flag (p + 1) end_ flags'
  end.

(** src/linux/processors.c:343-356.  The table of flags is the context; the
    struct stride of the C code is abstracted: the context is the list of the
    flags fields.  A range of [end_ - first] numbers is cut at [max], so at most
    [max] iterations run. *)
Definition detect_processor_parser (max flag : N) (ctx : res (list N)) (first end_ : N)
  : bool * res (list N) :=
  (true, do flags <- ctx; detect_range (N.to_nat (N.min end_ max - first)) max flag first end_ flags).

(** src/linux/processors.c:358-394 (possible and present). *)
Definition detect_listed_processors (sg : bool) (max flag : N) (file : option (list N))
           (wants : list (option nat)) (flags : list N) : res (bool * list N) :=
  do r <- parse_cpulist (detect_processor_parser max flag) sg file wants (Ok flags);
  let '(ok, fl) := r in do fl' <- fl; Ok (ok, fl').

(** src/linux/processors.c:404-420.  The sibling callback gets the range cut at
    the limit (the start may then exceed the end). *)
Definition siblings_parser {S} (max : N) (callback : S -> N -> N -> bool * S)
           (ctx : S) (first end_ : N) : bool * S :=
  callback ctx first (if max <? end_ then max else end_).

(** src/linux/processors.c:422-580: detect_core_cpus, detect_core_siblings,
    detect_thread_siblings, detect_cluster_cpus and detect_package_cpus differ
    only in the file they read. *)
Definition detect_siblings {S} (sg : bool) (max : N) (callback : S -> N -> N -> bool * S)
           (file : option (list N)) (wants : list (option nat)) (ctx : S) : res (bool * S) :=
  parse_cpulist (siblings_parser max callback) sg file wants ctx.

(** A file as the kernel answers: contents ([None] if it cannot be opened) and
    the behaviour of the read() calls. *)
Record file := File { f_contents : option (list N); f_reads : list (option nat) }.
