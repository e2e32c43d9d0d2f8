(** Property C78: the files that tests put in the place of the system's. *)
From Verif Require Import Base Text LinuxTextModel MockFileModel MockFileSpec MockFileProofs.
Open Scope nat_scope.

(** Whatever is called, nothing outside the arrays is read, and every call is answered as a
    read-only file system would: see [expected]. *)
Theorem mock_files_exact : forall files calls, Forall backed files ->
  exists fs answers, run (mock_filesystem files) calls = Ok (fs, answers) /\ length answers = length calls /\
  forall i c a, nth_error (combine calls answers) i = Some (c, a) -> expected files (firstn i (combine calls answers)) c a.
Proof. exact mock_exact. Qed.
Print Assumptions mock_files_exact.

(** While a file is open its reads give its contents from the start, whatever happens to other
    files in between; each gives as much as fits, as the readers of C08 to C13 may find it; and
    once one gives nothing, all has been read. *)
Theorem mock_files_contents : forall files calls path during fs answers fd answers', Forall backed files ->
  run (mock_filesystem files) (calls ++ Open path 0%N :: during) = Ok (fs, answers ++ Fd fd :: answers') -> length answers = length calls ->
  ~ In (Close fd) during ->
  let events := combine during answers' in
  exists i f, fd = Z.of_nat i /\ named path files i /\ nth_error files i = Some f /\
    (forall k capacity a, nth_error events k = Some (Read fd capacity, a) ->
       exists rest, contents f = read_from fd (firstn k events) ++ rest /\ a = Bytes (firstn capacity rest) /\
                    read_call (Some capacity) capacity rest = Some (length (firstn capacity rest))) /\
    (forall capacity, In (Read fd capacity, Bytes []) events -> 0 < capacity -> read_from fd events = contents f).
Proof. exact mock_reading. Qed.
Print Assumptions mock_files_contents.

Definition two_files : list mock_file :=
  [MockFile (text "/a") 5 (text "hello") None; MockFile (text "/b") 2 (text "0-3") (Some 1)].
Example mock_files_case : Forall backed two_files /\
  match run (mock_filesystem two_files)
    [Open (text "/b") 0%N; Read 1 4; Open (text "/a") 0%N; Read 0 3; Read 1 4; Open (text "/a") 0%N; Read 0 9; Read 0 9; Close 0; Read 0 9;
     Open (text "/a") 0%N; Read 0 2; Open (text "/c") 0%N; Open (text "/a") 1%N; Close 7] with
  | Ok (_, answers) =>
      answers = [Fd 1; Bytes (text "0-"); Fd 0; Bytes (text "hel"); Bytes []; Error enfile; Bytes (text "lo"); Bytes []; Done; Error ebadf;
                 Fd 0; Bytes (text "he"); Error enoent; Error eacces; Error ebadf]
  | _ => False
  end.
Proof. split; [repeat constructor; vm_compute; repeat constructor|vm_compute; reflexivity]. Qed.

(** A size that is larger than the array leads outside of it. *)
Theorem mock_files_size_refuted : exists files calls, run (mock_filesystem files) calls = UB.
Proof. exact (ex_intro _ [MockFile (text "/a") 6 (text "hello") None] (ex_intro _ [Open (text "/a") 0%N; Read 0 64] eq_refl)). Qed.
Print Assumptions mock_files_size_refuted.
