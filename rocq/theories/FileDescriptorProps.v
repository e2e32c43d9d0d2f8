(** Property theorems about file descriptors: C99. *)
From Verif Require Import Base Text LinuxTextModel FileDescriptorModel FileDescriptorSpec FileDescriptorProofs.
From Verif Require ArmIsaModel.
From Coq Require Import ZArith.
Open Scope nat_scope.

(** Each reader, whatever open() and read() answer and whatever the callback does, returns what LinuxTextModel says and treats its descriptor well. *)
Theorem multiline_file_closed : forall S fd callback size contents wants (ctx : S),
  result (multiline_traced fd callback size contents wants ctx) = parse_multiline_file callback size (opened_file fd contents) wants ctx /\
  forall r t, multiline_traced fd callback size contents wants ctx = Ok (r, t) -> one_file size fd t.
Proof. exact @multiline_closed. Qed.
Print Assumptions multiline_file_closed.

Theorem cpulist_file_closed : forall S fd sg callback contents wants (ctx : S),
  result (cpulist_traced fd sg callback contents wants ctx) = parse_cpulist callback sg (opened_file fd contents) wants ctx /\
  forall r t, cpulist_traced fd sg callback contents wants ctx = Ok (r, t) -> one_file 256 fd t.
Proof. exact @cpulist_closed. Qed.
Print Assumptions cpulist_file_closed.

Theorem small_file_closed : forall S fd callback size contents wants (ctx : S),
  result (smallfile_traced fd callback size contents wants ctx) = parse_small_file callback size (opened_file fd contents) wants ctx /\
  forall r t, smallfile_traced fd callback size contents wants ctx = Ok (r, t) -> one_file size fd t.
Proof. exact @smallfile_closed. Qed.
Print Assumptions small_file_closed.

(** The auxiliary vector on Android for 32-bit ARM. *)
Theorem auxv_file_closed : forall fd reads,
  result (auxv_traced fd reads) = Ok (if (fd =? -1)%Z then None else ArmIsaModel.read_auxv reads 0%N 0%N) /\
  forall r t, auxv_traced fd reads = Ok (r, t) -> one_file 8 fd t.
Proof. exact auxv_closed. Qed.
Print Assumptions auxv_file_closed.

(** So any number of files, read one after the other, leave the process with the descriptors it had. *)
Theorem files_leave_no_descriptor : forall opened traces,
  Forall (fun t => exists size fd, one_file size fd t /\ ~ In fd opened) traces -> run opened (concat traces) = Some opened.
Proof. exact run_all. Qed.
Print Assumptions files_leave_no_descriptor.

(** Descriptor 0 (a process whose standard input is closed): two reads, the end of the file, close.  A failing read, a failing open. *)
Example file_closed_case :
  let line := fun (n : nat) (_ : list N) => (true, S n) in
  multiline_traced 0 line 8 (text "ab" ++ [10%N] ++ text "cde") [Some 4; None] 0 =
    Ok ((false, 1), [Opened 0; Read 0 0 8 (Some 4); Read 0 1 7 None; Closed 0]) /\
  multiline_traced 0 line 8 (text "ab" ++ [10%N] ++ text "cde") [Some 4; Some 9] 0 =
    Ok ((true, 2), [Opened 0; Read 0 0 8 (Some 4); Read 0 1 7 (Some 2); Read 0 3 5 (Some 0); Closed 0]) /\
  multiline_traced (-1) line 8 [] [] 0 = Ok ((false, 0), [Opened (-1)]) /\
  smallfile_traced 5 line 4 (text "1234") [] 0 = Ok ((false, 0), [Opened 5; Read 5 0 4 (Some 4); Closed 5]) /\
  auxv_traced 3 [ArmIsaModel.Entry 16 7; ArmIsaModel.Short 3] = Ok (None, [Opened 3; Read 3 0 8 (Some 8); Read 3 0 8 (Some 3); Closed 3]).
Proof. vm_compute. repeat split. Qed.
Example descriptors_case : run [1; 2]%Z [Opened 0; Read 0 0 8 (Some 0); Closed 0; Opened (-1); Opened 0; Read 0 0 4 None; Closed 0] = Some [1; 2]%Z /\
  run [1; 2]%Z [Opened 0; Read 0 0 8 (Some 0)] = Some [0; 1; 2]%Z /\ run [1; 2]%Z [Opened 0; Closed 0; Closed 0] = None.
Proof. repeat split. Qed.
