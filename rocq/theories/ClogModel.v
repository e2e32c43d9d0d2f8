(** Model of deps/clog (src/clog.c with output to the standard streams, include/clog.h).
    Definitions only. *)
From Verif Require Import Base Text LogModel.
Open Scope nat_scope.

(** clog.c:30. *)
Definition clog_buffer_size : nat := 1024.
(** INT_MAX. *)
Definition int_max : N := 2147483647.

(** clog.h:7-12. *)
Inductive severity := Fatal | Error | Warning | Info | Debug.
Definition severity_number (l : severity) : nat := match l with Fatal => 1 | Error => 2 | Warning => 3 | Info => 4 | Debug => 5 end.

(** The prefixes and their formats, clog.c:32-46.  The *_LENGTH macros are the lengths of the prefixes. *)
Definition plain_prefix (l : severity) : list N :=
  match l with
  | Fatal => text "Fatal error: " | Error => text "Error: " | Warning => text "Warning: " | Info => text "Note: " | Debug => text "Debug: "
  end.
Definition module_prefix (l : severity) (m : list N) : list N :=
  match l with
  | Fatal => text "Fatal error in " ++ m ++ text ": "
  | Error => text "Error in " ++ m ++ text ": "
  | Warning => text "Warning in " ++ m ++ text ": "
  | Info => text "Note (" ++ m ++ text "): "
  | Debug => text "Debug (" ++ m ++ text "): "
  end.

(** Which stream, clog.c:117, 195, 273, 351, 429. *)
Inductive stream := Stdout | Stderr.
Definition clog_stream (l : severity) : stream := match l with Fatal | Error | Warning => Stderr | Info | Debug => Stdout end.

(** memcpy of the first [n] bytes. *)
Definition copy (dst src : buffer) (n : nat) : res buffer :=
  if (n <=? length dst) && (n <=? length src) then Ok (firstn n src ++ skipn n dst) else UB.

(** clog_vlog_fatal, clog.c:48-124; the other four (126-202, 204-280, 282-358, 360-436) differ in the
    prefix and the stream only.  [module] is [None] for NULL; [prefix_ok] says whether snprintf can
    format the prefix; [formatted] is the complete formatted message, [None] if vsnprintf reports an
    error; results beyond INT_MAX are errors (POSIX: EOVERFLOW).  The result is what is written where,
    [None] if nothing is.  The sums are of int. *)
Definition clog_vlog (l : severity) (module : option (list N)) (prefix_ok : bool) (formatted : option (list N)) (malloc_ok : bool)
  : res (option (stream * buffer)) :=
  let stack := repeat None clog_buffer_size in
  let whole := match module with None => plain_prefix l | Some m => module_prefix l m end in
  do r <- match module with
          | None => do sb <- store stack 0 whole; Ok (sb, length whole)                                    (* 60-62 *)
          | Some _ => if prefix_ok && (N.of_nat (length whole) <=? int_max)%N
                      then do sb <- store stack 0 (vsnprintf_bytes clog_buffer_size whole); Ok (sb, length whole)   (* 64 *)
                      else Ok (stack, 0)                                                                  (* 65-68 *)
          end;
  let '(sb0, np) := r in
  if (int_max <? N.of_nat (np + 1))%N then UB else                                                        (* 72 *)
  do sb <- (if clog_buffer_size <=? np + 1 then Ok sb0                                                     (* 77 *)
            else match formatted with
                 | Some msg => store sb0 np (vsnprintf_bytes (clog_buffer_size - np - 1) msg)              (* 79-84 *)
                 | None => Ok sb0
                 end);
  match formatted with
  | None => Ok None                                                                                       (* 86-89 *)
  | Some msg =>
      let nf := length msg in
      if (int_max <? N.of_nat nf)%N then Ok None else
      if (int_max <? N.of_nat (np + nf + 1))%N then UB else                                               (* 90 *)
      do out <- (if clog_buffer_size <? np + nf + 1 then
                   if malloc_ok then                                                                      (* 92-95 *)
                     let heap := repeat None (np + nf + 1) in
                     do hb <- (if clog_buffer_size <? np then store heap 0 (vsnprintf_bytes (np + 1) whole)   (* 99 *)
                               else copy heap sb np);                                                     (* 102 *)
                     do hb <- store hb np (vsnprintf_bytes (nf + 1) msg);                                 (* 104 *)
                     Ok (Some hb)
                   else Ok None
                 else Ok (Some sb));
      match out with
      | None => Ok None
      | Some buf =>
          do buf <- store buf (np + nf) [10%N];                                                            (* 107 *)
          if np + nf + 1 <=? length buf then Ok (Some (clog_stream l, firstn (np + nf + 1) buf)) else UB   (* 117 *)
      end
  end.

(** The functions that CLOG_DEFINE_LOG_* define, clog.h:40-98: what is written, and whether abort is called. *)
Definition clog_log (l : severity) (level : nat) (module : option (list N)) (prefix_ok : bool) (formatted : option (list N)) (malloc_ok : bool)
  : res (option (stream * buffer) * bool) :=
  do out <- (if severity_number l <=? level then clog_vlog l module prefix_ok formatted malloc_ok else Ok None);
  Ok (out, match l with Fatal => true | _ => false end).
