(** The system calls of the functions that read files on Linux.  Definitions only.  What they make of the
    contents is in LinuxTextModel and ArmIsaModel; here the same loops record their calls. *)
From Verif Require Import Base LinuxTextModel.
From Verif Require ArmIsaModel.
From Coq Require Import ZArith.
Open Scope nat_scope.

(** open() with its result, read() with the descriptor, the place in the buffer, the size and the result
    ([None]: -1), and close(). *)
Inductive event := Opened (result : Z) | Read (fd : Z) (offset size : nat) (got : option nat) | Closed (fd : Z).

(** src/linux/multiline.c:104-111, src/linux/smallfile.c:69-76, src/linux/cpulist.c:233-240 and
    src/arm/linux/hwcap.c:134-138: "if (file != -1) { close(file); file = -1; }". *)
Definition cleanup (file : Z) : list event := if (file =? -1)%Z then [] else [Closed file].

(** All begin with "file = open(..); if (file == -1) goto cleanup;". *)
Definition with_file {A} (file : Z) (failure : A) (body : res (A * list event)) : res (A * list event) :=
  if (file =? -1)%Z then Ok (failure, Opened file :: cleanup file)
  else do r <- body; Ok (fst r, Opened file :: snd r ++ cleanup file).

Section READERS.
  Context {S : Type}.
  Variable file : Z.

  (** src/linux/multiline.c:44-98, see LinuxTextModel.multiline_loop. *)
  Fixpoint multiline_calls (callback : S -> list N -> bool * S) (fuel buffer_size : nat) (wants : list (option nat)) (partial rest : list N) (ctx : S)
    : res ((bool * S) * list event) :=
    match fuel with
    | O => Hang
    | Datatypes.S fuel' =>
        if buffer_size <? length partial then UB else
        let space := buffer_size - length partial in
        let got := read_call (hd (Some space) wants) space rest in
        let call := Read file (length partial) space got in
        match got with
        | None => Ok ((false, ctx), [call])
        | Some O => Ok (callback ctx partial, [call])
        | Some n =>
            let '(lines, partial') := scan_entries chr_nl [] (partial ++ firstn n rest) in
            let '(ok, ctx') := feed_lines callback ctx lines in
            if ok then do r <- multiline_calls callback fuel' buffer_size (tl wants) partial' (skipn n rest) ctx'; Ok (fst r, call :: snd r)
            else Ok ((false, ctx'), [call])
        end
    end.
  Definition multiline_traced (callback : S -> list N -> bool * S) (buffer_size : nat) (contents : list N) (wants : list (option nat)) (ctx : S) :=
    with_file file (false, ctx) (multiline_calls callback (Datatypes.S (length contents)) buffer_size wants [] contents ctx).

  (** src/linux/cpulist.c:177-230. *)
  Fixpoint cpulist_calls (sg : bool) (callback : S -> N -> N -> bool * S) (fuel buffer_size : nat) (wants : list (option nat)) (status : bool)
    (partial rest : list N) (ctx : S) : res ((bool * S) * list event) :=
    match fuel with
    | O => Hang
    | Datatypes.S fuel' =>
        if buffer_size <? length partial then UB else
        let space := buffer_size - length partial in
        let got := read_call (hd (Some space) wants) space rest in
        let call := Read file (length partial) space got in
        match got with
        | None => Ok ((false, ctx), [call])
        | Some O =>
            if (length partial =? buffer_size) && entry_overreads sg partial then UB
            else Ok (feed_entries callback sg status ctx [partial], [call])
        | Some n =>
            let '(es, partial') := scan_entries chr_comma [] (partial ++ firstn n rest) in
            let '(status', ctx') := feed_entries callback sg status ctx es in
            do r <- cpulist_calls sg callback fuel' buffer_size (tl wants) status' partial' (skipn n rest) ctx'; Ok (fst r, call :: snd r)
        end
    end.
  Definition cpulist_traced (sg : bool) (callback : S -> N -> N -> bool * S) (contents : list N) (wants : list (option nat)) (ctx : S) :=
    with_file file (false, ctx) (cpulist_calls sg callback (Datatypes.S (length contents)) cpulist_buffer_size wants true [] contents ctx).

  (** src/linux/smallfile.c:44-66. *)
  Fixpoint smallfile_calls (callback : S -> list N -> bool * S) (fuel buffer_size : nat) (wants : list (option nat)) (buf rest : list N) (ctx : S)
    : res ((bool * S) * list event) :=
    match fuel with
    | O => Hang
    | Datatypes.S fuel' =>
        if buffer_size <? length buf then UB else
        let space := buffer_size - length buf in
        let got := read_call (hd (Some space) wants) space rest in
        let call := Read file (length buf) space got in
        match got with
        | None => Ok ((false, ctx), [call])
        | Some n =>
            let buf' := buf ++ firstn n rest in
            if buffer_size <=? length buf' then Ok ((false, ctx), [call])
            else match n with
                 | O => Ok (callback ctx buf', [call])
                 | _ => do r <- smallfile_calls callback fuel' buffer_size (tl wants) buf' (skipn n rest) ctx; Ok (fst r, call :: snd r)
                 end
        end
    end.
  Definition smallfile_traced (callback : S -> list N -> bool * S) (buffer_size : nat) (contents : list N) (wants : list (option nat)) (ctx : S) :=
    with_file file (false, ctx) (smallfile_calls callback (Datatypes.S (length contents)) buffer_size wants [] contents ctx).
End READERS.

(** src/arm/linux/hwcap.c:102-131: every call reads eight bytes into one Elf32_auxv_t. *)
Definition auxv_got (r : ArmIsaModel.auxv_read) : option nat :=
  match r with ArmIsaModel.Entry _ _ => Some 8 | ArmIsaModel.Short n => Some n | ArmIsaModel.Failed => None end.
Fixpoint auxv_calls (file : Z) (reads : list ArmIsaModel.auxv_read) (hwcap hwcap2 : N) : option (N * N) * list event :=
  match reads with
  | [] => (Some (hwcap, hwcap2), [Read file 0 8 (Some 0)])
  | r :: rest =>
      let call := Read file 0 8 (auxv_got r) in
      match r with
      | ArmIsaModel.Failed => (None, [call])
      | ArmIsaModel.Short O => (Some (hwcap, hwcap2), [call])
      | ArmIsaModel.Short (S _) => (None, [call])
      | ArmIsaModel.Entry type value =>
          let '(h, h2) := if (type =? 16)%N then (u32 value, hwcap2) else if (type =? 26)%N then (hwcap, value) else (hwcap, hwcap2) in
          let '(result, calls) := auxv_calls file rest h h2 in (result, call :: calls)
      end
  end.
(** Lines 87-139. *)
Definition auxv_traced (file : Z) (reads : list ArmIsaModel.auxv_read) : res (option (N * N) * list event) :=
  with_file file None (Ok (auxv_calls file reads 0%N 0%N)).
