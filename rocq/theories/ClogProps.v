(** Property theorems about deps/clog: C72. *)
From Verif Require Import Base Text LogModel ClogModel ClogSpec ClogProofs.
Open Scope nat_scope.

(** The line is complete unless the prefix or the line has exactly the size of the buffer. *)
Theorem clog_message_complete : forall l module msg malloc_ok,
  countable (size l module msg) -> length (head l module) <> 1024 -> (size l module msg <> 1024 \/ msg = []) ->
  (size l module msg <= 1024 \/ malloc_ok = true) ->
  clog_vlog l module true (Some msg) malloc_ok = Ok (Some (stream_of l, map Some (line l module msg))).
Proof. exact clog_complete. Qed.
Print Assumptions clog_message_complete.

Example clog_message_complete_case :
  clog_vlog Info (Some (text "nn")) true (Some (text "ready")) false = Ok (Some (Stdout, map Some (text "Note (nn): ready" ++ [10%N]))) /\
  countable (size Info (Some (text "nn")) (text "ready")) /\ size Info (Some (text "nn")) (text "ready") = 17 /\
  size Fatal None (repeat 65%N 2000) = 2014 /\
  clog_vlog Fatal (Some (repeat 66%N 1500)) true (Some [65%N]) true =
    Ok (Some (Stderr, map Some (text "Fatal error in " ++ repeat 66%N 1500 ++ text ": A" ++ [10%N]))).
Proof. repeat split; vm_compute; congruence. Qed.

(** At exactly that size the last character of the message or of the prefix is a NUL. *)
Theorem clog_message_at_limit : forall l module msg malloc_ok, size l module msg = 1024 -> msg <> [] ->
  clog_vlog l module true (Some msg) malloc_ok = Ok (Some (stream_of l, map Some (head l module ++ removelast msg ++ [0%N; 10%N]))).
Proof. exact clog_at_limit. Qed.
Print Assumptions clog_message_at_limit.
Theorem clog_prefix_at_limit : forall l module msg, countable (size l module msg) -> length (head l module) = 1024 ->
  clog_vlog l module true (Some msg) true = Ok (Some (stream_of l, map Some (removelast (head l module) ++ [0%N] ++ msg ++ [10%N]))).
Proof. exact clog_head_at_limit. Qed.
Print Assumptions clog_prefix_at_limit.

Example clog_at_limit_case : size Error None (repeat 65%N 1016) = 1024 /\ length (head Error (Some (repeat 66%N 1013))) = 1024.
Proof. split; vm_compute; reflexivity. Qed.

(** So it is false that lines are always complete. *)
Theorem clog_message_complete_refuted :
  ~ (forall l module msg, countable (size l module msg) -> clog_vlog l module true (Some msg) true = Ok (Some (stream_of l, map Some (line l module msg)))).
Proof. exact complete_refuted. Qed.
Print Assumptions clog_message_complete_refuted.

(** Without memory a long line is dropped as a whole; so is a message that cannot be formatted. *)
Theorem clog_message_dropped : forall l module msg, countable (size l module msg) -> 1024 < size l module msg ->
  clog_vlog l module true (Some msg) false = Ok None.
Proof. exact clog_dropped. Qed.
Print Assumptions clog_message_dropped.
Theorem clog_format_errors : forall l module prefix_ok malloc_ok, countable (length (head l module) + 1) ->
  clog_vlog l module prefix_ok None malloc_ok = Ok None.
Proof. exact clog_format_error. Qed.
Print Assumptions clog_format_errors.
(** If the name of the module cannot be formatted the message is written alone. *)
Theorem clog_prefix_errors : forall l m msg malloc_ok, length msg < 1023 ->
  clog_vlog l (Some m) false (Some msg) malloc_ok = Ok (Some (stream_of l, map Some (msg ++ [10%N]))).
Proof. exact clog_no_prefix. Qed.
Print Assumptions clog_prefix_errors.

Example clog_errors_case : 1024 < size Warning None (repeat 65%N 1100) /\ countable (size Warning None (repeat 65%N 1100)) /\
  clog_vlog Debug (Some (text "m")) false (Some (text "x")) true = Ok (Some (Stdout, map Some (text "x" ++ [10%N]))).
Proof. split; [vm_compute; lia|]. split; [unfold countable; vm_compute; congruence|vm_compute; reflexivity]. Qed.

(** Every access is inside the buffers, and only written bytes go out. *)
Theorem clog_never_out_of_bounds : forall l module prefix_ok formatted malloc_ok,
  countable (length (head l module) + match formatted with Some msg => length msg | None => 0 end + 1) ->
  exists out, clog_vlog l module prefix_ok formatted malloc_ok = Ok out /\ forall s b, out = Some (s, b) -> exists bytes, b = map Some bytes.
Proof. exact clog_safe. Qed.
Print Assumptions clog_never_out_of_bounds.
(** Only the prefix and the message being countable is not enough: the sum overflows an int. *)
Theorem clog_huge_message_refuted : ~ (forall l module msg malloc_ok, countable (length (head l module)) -> countable (length msg) ->
  exists out, clog_vlog l module true (Some msg) malloc_ok = Ok out).
Proof. exact clog_huge_refuted. Qed.
Print Assumptions clog_huge_message_refuted.

Example clog_never_out_of_bounds_case : countable (length (head Error (Some (repeat 66%N 5000))) + length (repeat 65%N 1) + 1).
Proof. unfold countable. vm_compute. congruence. Qed.

(** The functions that the macros define write what their level enables; a fatal one always aborts. *)
Theorem clog_levels : forall l level module prefix_ok formatted malloc_ok,
  countable (length (head l module) + match formatted with Some msg => length msg | None => 0 end + 1) ->
  exists out aborts, clog_log l level module prefix_ok formatted malloc_ok = Ok (out, aborts) /\ (aborts = true <-> l = Fatal) /\
    (~ enabled level l -> out = None) /\ (enabled level l -> clog_vlog l module prefix_ok formatted malloc_ok = Ok out).
Proof. exact log_level. Qed.
Print Assumptions clog_levels.

Example clog_levels_case : enabled 3 Warning /\ ~ enabled 3 Info /\ clog_log Fatal 0 None true (Some (text "x")) true = Ok (None, true).
Proof. rewrite !enabled_number. cbn. repeat split; lia. Qed.
