(** src/linux/mockfile.c: files that the library reads instead of the system's.  Definitions
    only.  There are fewer than 2^31 files, so that their numbers are file descriptors; the
    size of a file is less than SIZE_MAX, which marks a file that is not open. *)
From Verif Require Import Base.
Open Scope nat_scope.

(** include/cpuinfo-mock.h:43-48.  [mf_content] are the bytes of the array that the pointer
    points to, [mf_offset] is None for SIZE_MAX. *)
Record mock_file := MockFile { mf_path : list N; mf_size : nat; mf_content : list N; mf_offset : option nat }.
Definition with_offset (o : option nat) (f : mock_file) : mock_file := MockFile (mf_path f) (mf_size f) (mf_content f) o.

Definition enoent : N := 2%N.
Definition ebadf : N := 9%N.
Definition eacces : N := 13%N.
Definition enfile : N := 23%N.
(** What a call returns: a descriptor, the bytes that were read, 0, or -1 with errno. *)
Inductive answer := Fd (fd : Z) | Bytes (l : list N) | Done | Error (errno : N).

(** Lines 26-36. *)
Definition mock_filesystem (files : list mock_file) : list mock_file := map (with_offset None) files.

(** strcmp. *)
Fixpoint strings_equal (a b : list N) : bool :=
  match a, b with
  | [], [] => true
  | x :: a', y :: b' => (x =? y)%N && strings_equal a' b'
  | _, _ => false
  end.
(** Lines 44-58: the loop, from the file with the number [i]. *)
Fixpoint open_from (i : nat) (path : list N) (oflag : N) (fs : list mock_file) : list mock_file * answer :=
  match fs with
  | [] => ([], Error enoent)
  | f :: rest =>
      if strings_equal (mf_path f) path then
        if negb (oflag =? 0)%N then (fs, Error eacces)
        else match mf_offset f with
             | Some _ => (fs, Error enfile)
             | None => (with_offset (Some 0) f :: rest, Fd (Z.of_nat i))
             end
      else let '(rest', a) := open_from (S i) path oflag rest in (f :: rest', a)
  end.
Definition mock_open (path : list N) (oflag : N) (fs : list mock_file) : list mock_file * answer := open_from 0 path oflag fs.

(** (unsigned int)fd >= count: the number of a file, or none. *)
Definition number_of (fd : Z) (fs : list mock_file) : option nat :=
  if (0 <=? fd)%Z && (fd <? Z.of_nat (length fs))%Z then Some (Z.to_nat fd) else None.

(** Lines 61-77. *)
Definition mock_close (fd : Z) (fs : list mock_file) : res (list mock_file * answer) :=
  match number_of fd fs with
  | None => Ok (fs, Error ebadf)
  | Some i =>
      do f <- rd fs i;
      match mf_offset f with
      | None => Ok (fs, Error ebadf)
      | Some _ => do fs' <- wr fs i (with_offset None f); Ok (fs', Done)
      end
  end.
(** Lines 79-103: memcpy reads within the array only. *)
Definition mock_read (fd : Z) (capacity : nat) (fs : list mock_file) : res (list mock_file * answer) :=
  match number_of fd fs with
  | None => Ok (fs, Error ebadf)
  | Some i =>
      do f <- rd fs i;
      match mf_offset f with
      | None => Ok (fs, Error ebadf)
      | Some offset =>
          if mf_size f <? offset then UB else
          let count := mf_size f - offset in
          let count := if capacity <? count then capacity else count in
          if length (mf_content f) <? offset + count then UB else
          do fs' <- wr fs i (with_offset (Some (offset + count)) f);
          Ok (fs', Bytes (firstn count (skipn offset (mf_content f))))
      end
  end.

(** A sequence of calls. *)
Inductive call := Open (path : list N) (oflag : N) | Read (fd : Z) (capacity : nat) | Close (fd : Z).
Definition step (fs : list mock_file) (c : call) : res (list mock_file * answer) :=
  match c with
  | Open path oflag => Ok (mock_open path oflag fs)
  | Read fd capacity => mock_read fd capacity fs
  | Close fd => mock_close fd fs
  end.
Fixpoint run (fs : list mock_file) (calls : list call) : res (list mock_file * list answer) :=
  match calls with
  | [] => Ok (fs, [])
  | c :: rest =>
      do r <- step fs c;
      let '(fs', a) := r in
      do r' <- run fs' rest;
      let '(fs'', answers) := r' in Ok (fs'', a :: answers)
  end.
