(** Property theorems about log messages: C38. *)
From Verif Require Import Base Text LogModel LogProofs.
Open Scope nat_scope.

(** Every message is written completely, in one write, followed by a newline,
    unless prefix, message and newline take exactly 1024 bytes, or malloc fails
    for a longer one. *)
Theorem log_message_complete : forall prefix newline msg malloc_ok,
  In prefix prefixes -> In newline newlines ->
  let total := length prefix + length msg + length newline in
  total <> 1024 -> (total < 1024 \/ malloc_ok = true) ->
  vlog newline prefix (Some msg) malloc_ok = Ok (Some (map Some (prefix ++ msg ++ newline))).
Proof. exact log_complete. Qed.
Print Assumptions log_message_complete.

Example log_message_complete_case :
  In info_prefix prefixes /\ In [10%N] newlines /\
  vlog [10%N] info_prefix (Some (text "hello")) false =
    Ok (Some (map Some (text "Note (cpuinfo): hello" ++ [10%N]))) /\
  (length info_prefix + length (repeat 65%N 2000) + 1 <> 1024 /\
   vlog [10%N] info_prefix (Some (repeat 65%N 2000)) true =
     Ok (Some (map Some (info_prefix ++ repeat 65%N 2000 ++ [10%N])))).
Proof. split; [right; left; reflexivity|]. split; [left; reflexivity|]. split; [reflexivity|]. split; [now vm_compute|vm_compute; reflexivity]. Qed.

(** No message, formatting error or malloc failure leads outside the buffers. *)
Theorem log_never_out_of_bounds : forall prefix newline formatted malloc_ok,
  In prefix prefixes -> In newline newlines ->
  exists written, vlog newline prefix formatted malloc_ok = Ok written.
Proof. exact log_safe. Qed.
Print Assumptions log_never_out_of_bounds.

Example log_format_error : vlog [10%N] info_prefix None true = Ok None.
Proof. reflexivity. Qed.

(** A longer message for which malloc fails is dropped completely. *)
Theorem log_message_dropped : forall prefix newline msg, In prefix prefixes -> In newline newlines ->
  1024 < length prefix + length msg + length newline ->
  vlog newline prefix (Some msg) false = Ok None.
Proof. exact log_dropped. Qed.
Print Assumptions log_message_dropped.

Example log_message_dropped_case : 1024 < length error_prefix + length (repeat 65%N 1100) + 1.
Proof. apply Nat.ltb_lt. reflexivity. Qed.

(** At exactly 1024 bytes the last character is replaced by a 0 byte. *)
Theorem log_message_at_limit : forall prefix newline msg malloc_ok,
  In prefix prefixes -> In newline newlines ->
  length prefix + length msg + length newline = 1024 ->
  vlog newline prefix (Some msg) malloc_ok = Ok (Some (map Some (prefix ++ removelast msg ++ [0%N] ++ newline))).
Proof. exact log_at_limit. Qed.
Print Assumptions log_message_at_limit.

(** So the property is false: a message of 1005 letters loses its last one. *)
Theorem log_message_complete_refuted : exists prefix newline msg,
  In prefix prefixes /\ In newline newlines /\
  vlog newline prefix (Some msg) true <> Ok (Some (map Some (prefix ++ msg ++ newline))).
Proof.
  exists error_prefix, [10%N], (repeat 65%N 1005). split; [do 3 right; left; reflexivity|]. split; [left; reflexivity|].
  vm_compute. discriminate.
Qed.
Print Assumptions log_message_complete_refuted.
