(** Property C80: recordings of a machine's files as mock files. *)
From Verif Require Import Base Text MockFileModel MockFileSpec SysfsNameModel RecordModel RecordSpec RecordProofs RecordPathProofs.
Open Scope N_scope.

(** The header that the script writes is read by a C compiler as mock files; there is one for every
    file of the list that the machine has and for no other; it is as long as the file, and its
    contents are the file's exactly if that consists of text and zeros. *)
Theorem recording_replays : forall fs,
  (forall path content, In path linux_paths -> fs path = Some content -> bytes content /\ zeros_apart content /\ N.of_nat (length content) < two32) ->
  exists es, read_header (dump_linux fs) = Some es /\ Forall backed (map as_mock_file es) /\
    (forall path, (exists i, named path (map as_mock_file es) i) <-> In path linux_paths /\ fs path <> None) /\
    (forall path content i f, fs path = Some content -> named path (map as_mock_file es) i -> nth_error (map as_mock_file es) i = Some f ->
       length (contents f) = length content /\ (contents f = content <-> Forall text_byte content)).
Proof. exact recording_linux. Qed.
Print Assumptions recording_replays.

Definition a_machine (path : list N) : option (list N) :=
  if strings_equal path (text "/proc/cpuinfo") then Some (text "processor	: 0" ++ [13; 10; 13; 0] ++ text "Say ""hi""\ " ++ [10])
  else if strings_equal path (text "/sys/devices/system/cpu/cpu3/topology/core_siblings_list") then Some (text "0-3" ++ [10])
  else if strings_equal path (text "/sys/devices/system/cpu/cpu0/topology/core_id") then Some [] else None.
Example recording_replays_case :
  read_header (dump_linux a_machine) =
    Some [(text "/proc/cpuinfo", 28, text "processor	: 0" ++ [13; 10; 13; 0] ++ text "Say ""hi""\ " ++ [10]);
          (text "/sys/devices/system/cpu/cpu0/topology/core_id", 0, []);
          (text "/sys/devices/system/cpu/cpu3/topology/core_siblings_list", 4, text "0-3" ++ [10])].
Proof. vm_compute. reflexivity. Qed.

(** Other bytes are written as an x and digits without a backslash: here the first byte of a
    letter in UTF-8 becomes an x, and the second a digit. *)
Theorem recording_bytes_refuted : exists fs content f,
  fs (text "/proc/cpuinfo") = Some content /\ option_map (map as_mock_file) (read_header (dump_linux fs)) = Some [f] /\
  content = [195; 169] /\ contents f = text "xC".
Proof. exact recording_bytes. Qed.
Print Assumptions recording_bytes_refuted.

(** A zero before octal digits is read as one character with them: the array is shorter than
    the size, and reading the mock file leads outside of it. *)
Theorem recording_zero_refuted : exists fs content files,
  fs (text "/proc/cpuinfo") = Some content /\ Forall text_byte content /\
  option_map (map as_mock_file) (read_header (dump_linux fs)) = Some files /\
  run (mock_filesystem files) [Open (text "/proc/cpuinfo") 0; Read 0 64] = UB.
Proof. exact recording_zero. Qed.
Print Assumptions recording_zero_refuted.

(** Of the files that the library looks for, see C79, the recording has those of the whole
    machine, and six of the ten for each of the first sixteen processors; *)
Theorem recording_has : (forall path, In path single_files -> In path linux_paths) /\
  forall k n path, n < two32 -> file_name k n = Some path ->
  (In path linux_paths <-> n < 16 /\ In k [Max_freq; Min_freq; Package_id; Core_siblings; Core_id; Thread_siblings]).
Proof. exact (conj recorded_single recorded_paths). Qed.
Print Assumptions recording_has.

(** so that no recording has the clusters that src/arm/linux/init.c asks for first. *)
Theorem recording_clusters_refuted : forall fs es n path i,
  (forall path content, In path linux_paths -> fs path = Some content -> bytes content /\ zeros_apart content /\ N.of_nat (length content) < two32) ->
  read_header (dump_linux fs) = Some es -> n < two32 -> file_name Cluster_cpus n = Some path -> ~ named path (map as_mock_file es) i.
Proof. exact recording_clusters. Qed.
Print Assumptions recording_clusters_refuted.
