(** Model of src/log.c (the CPUINFO_LOG_TO_STDIO branch).  Definitions only. *)
From Verif Require Import Base Text.
Open Scope nat_scope.

(** log.c:30. *)
Definition stack_buffer_size : nat := 1024.

(** A buffer whose bytes may be uninitialised ([None]). *)
Definition buffer := list (option N).

(** Store bytes from an offset on: undefined outside the buffer. *)
Definition store (b : buffer) (offset : nat) (bytes : list N) : res buffer :=
  if offset + length bytes <=? length b
  then Ok (firstn offset b ++ map Some bytes ++ skipn (offset + length bytes) b) else UB.

(** What vsnprintf stores when given room for [size] bytes and the complete
    formatted message is [msg] (ISO C 7.21.6.12): at most [size - 1] bytes and a
    terminating 0; nothing if [size] is 0. *)
Definition vsnprintf_bytes (size : nat) (msg : list N) : list N :=
  match size with O => [] | S n => firstn n msg ++ [0%N] end.

(** cpuinfo_vlog, log.c:50-130.  [newline] is CPUINFO_LOG_NEWLINE_LENGTH bytes
    ("\n", or "\r\n" on Windows); [formatted] is the complete formatted message,
    or [None] if vsnprintf reports an error; [malloc_ok] says whether malloc
    succeeds.  The result is the contents of the single write, [None] if there
    is none.  The subtractions are of size_t: line 70 wraps if the prefix is too
    long, which is excluded by the assertion of line 66 (UB here). *)
Definition vlog (newline prefix : list N) (formatted : option (list N)) (malloc_ok : bool)
  : res (option buffer) :=
  let np := length prefix in
  let nl := length newline in
  do sb0 <- store (repeat None stack_buffer_size) 0 prefix;                        (* 65 *)
  if negb (np + nl <=? stack_buffer_size) then UB else                              (* 66 *)
  match formatted with
  | None => Ok None                                                                 (* 73 *)
  | Some msg =>
      do sb <- store sb0 np (vsnprintf_bytes (stack_buffer_size - (np + nl)) msg);  (* 68 *)
      let nf := length msg in
      do out <- (if stack_buffer_size <? np + nf + nl then                          (* 79 *)
                   if malloc_ok then
                     do hb <- store (repeat None (np + nf + nl)) 0 prefix;          (* 94 *)
                     do hb <- store hb np (vsnprintf_bytes (nf + nl) msg);          (* 95 *)
                     Ok (Some hb)
                   else Ok None                                                     (* 90 *)
                 else Ok (Some sb));
      match out with
      | None => Ok None
      | Some buf =>
          do buf <- store buf (np + nf) newline;                                    (* 103, 116 *)
          if np + nf + nl <=? length buf then Ok (Some (firstn (np + nf + nl) buf)) else UB  (* 107, 118 *)
      end
  end.

(** The five prefixes, log.c:138-195. *)
Definition debug_prefix : list N := text "Debug (cpuinfo): ".
Definition info_prefix : list N := text "Note (cpuinfo): ".
Definition warning_prefix : list N := text "Warning in cpuinfo: ".
Definition error_prefix : list N := text "Error in cpuinfo: ".
Definition fatal_prefix : list N := text "Fatal error in cpuinfo: ".
