(** How a program should treat files that it reads. *)
From Verif Require Import Base FileDescriptorModel.
From Coq Require Import ZArith.
Open Scope nat_scope.

(** Of one file: if it cannot be opened, nothing else is called.  Otherwise it is read at least once, every time into a
    buffer of [size] bytes and with the descriptor that open() gave, and never after an error or the end of the file;
    and the last call closes it.  Zero is a descriptor like any other. *)
Definition read_of (size : nat) (fd : Z) (e : event) : Prop :=
  exists offset space got, e = Read fd offset space got /\ offset + space <= size.
Definition goes_on (e : event) : Prop := exists fd offset space n, e = Read fd offset space (Some (S n)).
Definition one_file (size : nat) (fd : Z) (trace : list event) : Prop :=
  (fd = -1)%Z /\ trace = [Opened fd] \/
  (fd <> -1)%Z /\ exists reads last, trace = Opened fd :: reads ++ [last; Closed fd] /\
    Forall (read_of size fd) (reads ++ [last]) /\ Forall goes_on reads.

(** Of a whole program: [opened] are the descriptors that are open; reading or closing another one, or closing one twice,
    is a mistake.  The system never gives a descriptor that is open. *)
Fixpoint run (opened : list Z) (trace : list event) : option (list Z) :=
  match trace with
  | [] => Some opened
  | Opened r :: rest => if (r =? -1)%Z then run opened rest else run (r :: opened) rest
  | Read fd _ _ _ :: rest => if existsb (Z.eqb fd) opened then run opened rest else None
  | Closed fd :: rest => if existsb (Z.eqb fd) opened then run (filter (fun x => negb (x =? fd)%Z) opened) rest else None
  end.

(** What a function returns, without its calls. *)
Definition result {A} (e : res (A * list event)) : res A := do r <- e; Ok (fst r).
(** The file as LinuxTextModel has it. *)
Definition opened_file (fd : Z) (contents : list N) : option (list N) := if (fd =? -1)%Z then None else Some contents.
