(** What a message in the log should look like. *)
From Verif Require Import Base Text ClogModel.
Open Scope nat_scope.

(** The beginning of a line tells how serious the message is and which module it is from. *)
Definition head (l : severity) (module : option (list N)) : list N :=
  match module with
  | None => text match l with
                 | Fatal => "Fatal error: " | Error => "Error: " | Warning => "Warning: " | Info => "Note: " | Debug => "Debug: "
                 end
  | Some m => text match l with
                   | Fatal => "Fatal error in " | Error => "Error in " | Warning => "Warning in " | Info => "Note (" | Debug => "Debug ("
                   end ++ m ++ text match l with Fatal | Error | Warning => ": " | Info | Debug => "): " end
  end.
(** The line, and the size of what it takes. *)
Definition line (l : severity) (module : option (list N)) (msg : list N) : list N := head l module ++ msg ++ [10%N].
Definition size (l : severity) (module : option (list N)) (msg : list N) : nat := length (line l module msg).
(** C strings longer than INT_MAX have no meaning for printf. *)
Definition countable (n : nat) : Prop := (N.of_nat n <= int_max)%N.
(** Problems go to the error stream. *)
Definition is_problem (l : severity) : bool := match l with Fatal | Error | Warning => true | Info | Debug => false end.
Definition stream_of (l : severity) : stream := if is_problem l then Stderr else Stdout.
(** A level enables that many severities, the most serious ones first. *)
Definition enabled (level : nat) (l : severity) : Prop := exists i, i < level /\ nth_error [Fatal; Error; Warning; Info; Debug] i = Some l.
