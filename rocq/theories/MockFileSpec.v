(** How a read-only file system answers. *)
From Verif Require Import Base MockFileModel.
Open Scope nat_scope.

(** Calls with their answers. *)
Definition event : Type := call * answer.

(** The first file of that name. *)
Definition named (path : list N) (files : list mock_file) (i : nat) : Prop :=
  nth_error (map mf_path files) i = Some path /\ forall j, j < i -> nth_error (map mf_path files) j <> Some path.
Definition contents (f : mock_file) : list N := firstn (mf_size f) (mf_content f).
(** The array is as long as the size says. *)
Definition backed (f : mock_file) : Prop := mf_size f <= length (mf_content f).

(** How far a descriptor has been read; None if it is not open. *)
Definition follow (fd : Z) (p : option nat) (e : event) : option nat :=
  match e with
  | (Open _ _, Fd fd') => if (fd =? fd')%Z then Some 0 else p
  | (Read fd' _, Bytes l) => if (fd =? fd')%Z then option_map (fun n => n + length l) p else p
  | (Close fd', Done) => if (fd =? fd')%Z then None else p
  | _ => p
  end.
Definition position (events : list event) (fd : Z) : option nat := fold_left (follow fd) events None.

(** What a call must answer after those events. *)
Definition expected (files : list mock_file) (events : list event) (c : call) (a : answer) : Prop :=
  match c with
  | Open path oflag =>
      (exists i, named path files i /\
         a = if (oflag =? 0)%N then match position events (Z.of_nat i) with Some _ => Error enfile | None => Fd (Z.of_nat i) end
             else Error eacces) \/
      (forall i, ~ named path files i) /\ a = Error enoent
  | Read fd capacity =>
      match position events fd with
      | None => a = Error ebadf
      | Some p => exists f, (0 <= fd)%Z /\ nth_error files (Z.to_nat fd) = Some f /\ a = Bytes (firstn capacity (skipn p (contents f)))
      end
  | Close fd => a = match position events fd with Some _ => Done | None => Error ebadf end
  end.

(** All that the reads of a descriptor gave. *)
Definition given (fd : Z) (e : event) : list N :=
  match e with (Read fd' _, Bytes l) => if (fd =? fd')%Z then l else [] | _ => [] end.
Definition read_from (fd : Z) (events : list event) : list N := flat_map (given fd) events.
