(** Property C81: recordings of Android devices. *)
From Verif Require Import Base Text ToolsModel MockFileModel MockFileSpec SysfsNameModel RecordModel RecordSpec AndroidRecordModel AndroidRecordSpec
  AndroidReplayProofs.
From Verif Require ArmPackageModel.
Open Scope N_scope.

(** Whether or not adb changes the ends of lines, the header can be compiled for 32-bit and for
    64-bit ARM; it has exactly the device's properties, and the files of the list that the device
    has for such a program, as in C80.  The 32-bit /proc/cpuinfo of a 64-bit device lacks the
    newline at its end. *)
Theorem android_recording_replays : forall d crlf props x32 kernel_max,
  dv_getprop d = through_adb crlf (getprop props) -> dv_cpuinfo32 d = option_map (through_adb crlf) x32 ->
  NoDup (map fst props) -> Forall (fun p => property_text (fst p) /\ property_text (snd p)) props ->
  dv_file d (text "/sys/devices/system/cpu/kernel_max") = Some (number kernel_max ++ [10]) -> kernel_max < two32 ->
  dv_file d (text "/proc/cpuinfo") <> None ->
  (forall path content, In path (android_paths kernel_max) -> dv_file d path = Some content -> bytes content /\ zeros_apart content /\ N.of_nat (length content) < two32) ->
  (forall x, x32 = Some x -> bytes x /\ zeros_apart x /\ N.of_nat (length x) < two32 /\ ~ In 13 x) ->
  exists t, dump_android d = Some t /\
  forall a, let file := device_file a (arm64_device props) (dv_file d) (match x32 with Some ((_ :: _) as x) => Some (without_newline x) | _ => None end) in
  exists es, read_android a t = Some (es, props) /\ Forall backed (map as_mock_file es) /\
    (forall path, (exists i, named path (map as_mock_file es) i) <-> In path (android_paths kernel_max) /\ file path <> None) /\
    (forall path content i f, file path = Some content -> named path (map as_mock_file es) i -> nth_error (map as_mock_file es) i = Some f ->
       length (contents f) = length content /\ (contents f = content <-> Forall text_byte content)).
Proof. exact recording_android. Qed.
Print Assumptions android_recording_replays.

Definition phone_file (path : list N) : option (list N) :=
  if strings_equal path (text "/proc/cpuinfo") then Some (text "Processor	: AArch64" ++ [10])
  else if strings_equal path (text "/sys/devices/system/cpu/kernel_max") then Some (text "1" ++ [10])
  else if strings_equal path (text "/sys/devices/system/cpu/cpu1/topology/core_id") then Some (text "1" ++ [10]) else None.
Definition phone_properties : list (list N * list N) :=
  [(text "ro.product.cpu.abi", text "arm64-v8a"); (text "ro.board.platform", text "[msm8996"); (text "ro.empty", [])].
Definition phone : device :=
  Device phone_file (through_adb true (getprop phone_properties)) (Some (through_adb true (text "Processor	: ARMv8" ++ [10] ++ text "x" ++ [10]))).
Example android_recording_case : exists t, dump_android phone = Some t /\
  read_android Arm64 t = Some ([(text "/proc/cpuinfo", 20, text "Processor	: AArch64" ++ [10]); (text "/sys/devices/system/cpu/kernel_max", 2, text "1" ++ [10]);
                                (text "/sys/devices/system/cpu/cpu1/topology/core_id", 2, text "1" ++ [10])], phone_properties) /\
  read_android Arm32 t = Some ([(text "/proc/cpuinfo", 19, text "Processor	: ARMv8" ++ [10] ++ text "x"); (text "/sys/devices/system/cpu/kernel_max", 2, text "1" ++ [10]);
                                (text "/sys/devices/system/cpu/cpu1/topology/core_id", 2, text "1" ++ [10])], phone_properties).
Proof. eexists. split; [vm_compute; reflexivity|]. split; vm_compute; reflexivity. Qed.

(** The library then finds every property under its name, and so decodes the same chip (C68, C71). *)
Theorem android_properties_replay : forall props, Forall (fun p => (length (snd p) <= 92)%nat) props ->
  (forall key, (length key < 32)%nat -> mock_property props key = property_of props key) /\
  ArmPackageModel.parse_properties (mock_property props) = ArmPackageModel.parse_properties (property_of props).
Proof. exact (fun props F => conj (fun key L => property_replayed props key L F) (chip_properties props F)). Qed.
Print Assumptions android_properties_replay.

Example android_properties_case :
  mock_property phone_properties (text "ro.board.platform") = text "[msm8996" /\ mock_property phone_properties (text "ro.board") = [] /\
  Forall (fun p => (length (snd p) <= 92)%nat) phone_properties.
Proof. split; [|split]; [vm_compute; reflexivity..|]. repeat constructor; vm_compute; lia. Qed.

(** A closing bracket in a value stops the script. *)
Theorem android_bracket_refuted : exists d, (exists props, dv_getprop d = getprop props) /\ dump_android d = None.
Proof. exact bracket_stops. Qed.
Print Assumptions android_bracket_refuted.

(** Without a readable /proc/cpuinfo the header of a 64-bit device has an end of a condition
    without its beginning. *)
Theorem android_condition_refuted : exists d t, (exists props, dv_getprop d = getprop props) /\ dump_android d = Some t /\ forall a, read_android a t = None.
Proof. exact condition_broken. Qed.
Print Assumptions android_condition_refuted.

(** Names that agree in 32 characters are taken for one another. *)
Theorem android_long_names_refuted : exists props key, NoDup (map fst props) /\ Forall (fun p => (length (snd p) <= 92)%nat) props /\
  mock_property props key <> property_of props key.
Proof. exact long_names. Qed.
Print Assumptions android_long_names_refuted.

(** Of the files that the library looks for, six of ten are recorded for each processor up to kernel_max. *)
Theorem android_recording_has : forall kernel_max k n path, kernel_max < two32 -> n < two32 -> file_name k n = Some path ->
  (In path (android_paths kernel_max) <-> n <= kernel_max /\ In k [Max_freq; Min_freq; Package_id; Core_siblings; Core_id; Thread_siblings]).
Proof. exact android_has. Qed.
Print Assumptions android_recording_has.
