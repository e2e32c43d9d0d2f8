(** What the dumps of /proc/cpuinfo and of the auxiliary vector should say. *)
From Verif Require Import Base Text LinuxTextModel CpuidDumpSpec DumpToolsModel.
Open Scope N_scope.

(** Nothing but a prefix of the file is printed, and a successful exit vouches for all of it. *)
Definition faithful_copy (contents : option (list N)) (o : outcome) : Prop :=
  match contents with
  | None => o = Outcome [] false
  | Some bytes =>
      (exists lost, bytes = o_stdout o ++ lost) /\ (o_success o = true -> o_stdout o = bytes)
  end.

(** A line of the dump: a name and a number of at least eight upper-case hexadecimal digits. *)
Definition says_word (name : list N) (word : N) (line : list N) : Prop :=
  exists digits, hex_text 8 word digits /\ line = name ++ text " = 0x" ++ digits ++ [10].
