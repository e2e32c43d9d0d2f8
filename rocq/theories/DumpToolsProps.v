(** C84: the dumps of /proc/cpuinfo and of the auxiliary vector. *)
From Coq Require Import Lia.
From Verif Require Import Base Text LinuxTextModel LinuxTextSpec ArmClusterMidrModel ArmIsaModel CpuidDumpSpec DumpToolsModel DumpToolsSpec DumpToolsProofs.
Open Scope N_scope.

(** However the reads are cut and whatever fails, the tool ends, prints nothing that is not in the file, in its order,
    and exits successfully only if it printed all of it. *)
Theorem cpuinfo_dump_faithful : forall f, exists o, cpuinfo_dump f = Ok o /\ faithful_copy (f_contents f) o.
Proof. exact dump_faithful. Qed.
Print Assumptions cpuinfo_dump_faithful.

(** Without read errors all of it is printed. *)
Theorem cpuinfo_dump_complete : forall bytes wants, no_io_error wants ->
  cpuinfo_dump (File (Some bytes) wants) = Ok (Outcome bytes true).
Proof. exact dump_complete. Qed.
Print Assumptions cpuinfo_dump_complete.

(** Short reads; and a read error after five bytes. *)
Example cpuinfo_dump_cases :
  no_io_error [Some 2%nat; Some 0%nat] /\
  cpuinfo_dump (File (Some (text "processor : 0")) [Some 2%nat; Some 0%nat]) = Ok (Outcome (text "processor : 0") true) /\
  cpuinfo_dump (File (Some (text "processor : 0")) [Some 2%nat; Some 3%nat; None]) = Ok (Outcome (text "proce") false) /\
  cpuinfo_dump (File (Some []) []) = Ok (Outcome [] true) /\ cpuinfo_dump (File None []) = Ok (Outcome [] false).
Proof. repeat split; try (repeat constructor; discriminate). Qed.

(** One line for each word, or nothing and a failure. *)
Theorem auxv_dump_lines : forall arm32 getauxval, getauxval 16 < 2 ^ 64 -> getauxval 26 < 2 ^ 64 ->
  exists line line2, auxv_dump arm32 (Has_getauxval getauxval) = Outcome (line ++ if arm32 then line2 else []) true /\
    says_word (text "AT_HWCAP") (getauxval 16) line /\ says_word (text "AT_HWCAP2") (getauxval 26) line2.
Proof. exact auxv_lines. Qed.
Print Assumptions auxv_dump_lines.

(** Devices with the same dump have the same words, as far as the dump has them. *)
Theorem auxv_dump_read_back : forall arm32 d e,
  (forall g, d = Has_getauxval g \/ e = Has_getauxval g -> g 16 < 2 ^ 64 /\ g 26 < 2 ^ 64) ->
  auxv_dump arm32 d = auxv_dump arm32 e -> o_success (auxv_dump arm32 d) = true ->
  exists g h, d = Has_getauxval g /\ e = Has_getauxval h /\ g 16 = h 16 /\ (arm32 = true -> g 26 = h 26).
Proof. exact auxv_read_back. Qed.
Print Assumptions auxv_dump_read_back.

(** "The dump has the words from which the library decides" is false on 64-bit ARM: two devices of the same kind with the
    same dump, one with the 8-bit matrix multiplication and one without. *)
Theorem auxv_dump_arm64_refuted : exists g h target chip ps,
  auxv_dump false (Has_getauxval g) = auxv_dump false (Has_getauxval h) /\
  has_arm false (arm_linux_isa false (Getauxval (g 16) (g 26)) target chip ps) Has_i8mm = true /\
  has_arm false (arm_linux_isa false (Getauxval (h 16) (h 26)) target chip ps) Has_i8mm = false.
Proof.
  exists (fun t => if t =? 16 then 0xFFF else if t =? 26 then 0x2000 else 0), (fun t => if t =? 16 then 0xFFF else 0),
    (Target false false 0 0), (Chipset 0 0 0), [].
  vm_compute. tauto.
Qed.
Print Assumptions auxv_dump_arm64_refuted.

(** A word of 40 bits, and two of 32-bit ARM. *)
Example auxv_dump_cases :
  (forall g, auxv_dump false (Has_getauxval (fun t => if t =? 16 then 0xABCDEF0123 else g)) =
    Outcome (text "AT_HWCAP = 0xABCDEF0123" ++ [10]) true) /\
  auxv_dump true (Has_getauxval (fun t => if t =? 16 then 0x37B0D6 else if t =? 26 then 0x1F else 0)) =
    Outcome (text "AT_HWCAP = 0x0037B0D6" ++ [10] ++ text "AT_HWCAP2 = 0x0000001F" ++ [10]) true.
Proof. split; reflexivity. Qed.
