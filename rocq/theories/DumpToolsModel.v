(** tools/cpuinfo-dump.c and tools/auxv-dump.c: the dumps that users of an unknown device send.
    Left out: the messages on stderr, errors of fwrite, printf and close. *)
From Verif Require Import Base Text LinuxTextModel CpuidDumpModel.
Open Scope N_scope.

(** What a tool leaves behind: the bytes on stdout and whether the exit status is EXIT_SUCCESS.
    stdout is flushed by exit and by the return from main. *)
Record outcome := Outcome { o_stdout : list N; o_success : bool }.

(** tools/cpuinfo-dump.c:8-9. *)
Definition dump_buffer_size : nat := N.to_nat 4096.

(** tools/cpuinfo-dump.c:25-40: the loop until read returns 0. *)
Fixpoint copy_loop (fuel : nat) (wants : list (option nat)) (rest printed : list N) : res outcome :=
  match fuel with
  | O => Hang
  | S fuel' =>
      match read_call (hd (Some dump_buffer_size) wants) dump_buffer_size rest with
      | None => Ok (Outcome printed false)
      | Some O => Ok (Outcome printed true)
      | Some n => copy_loop fuel' (tl wants) (skipn n rest) (printed ++ firstn n rest)
      end
  end.

(** tools/cpuinfo-dump.c:14-47.  Every round but the last reads at least one byte. *)
Definition cpuinfo_dump (f : file) : res outcome :=
  match f_contents f with
  | None => Ok (Outcome [] false)
  | Some contents => copy_loop (S (length contents)) (f_reads f) contents []
  end.

(** printf of %08lX for an unsigned long of at most 64 bits. *)
Definition hex_long (n : N) : list N :=
  let ds := hex_from 16 n [] in repeat 48 (8 - length ds) ++ ds.

(** The C library: no libc.so (as on systems where it is a linker script), one without getauxval, or one with
    getauxval, which is a function of the type of the entry. *)
Inductive dynamic := No_libc | No_getauxval | Has_getauxval (getauxval : N -> N).
Definition at_hwcap : N := 16.
Definition at_hwcap2 : N := 26.

(** tools/auxv-dump.c:12-31.  The second line is compiled only with CPUINFO_ARCH_ARM, which is 32-bit ARM
    (include/cpuinfo.h:24-26). *)
Definition auxv_dump (arm32 : bool) (d : dynamic) : outcome :=
  match d with
  | No_libc | No_getauxval => Outcome [] false
  | Has_getauxval getauxval =>
      Outcome (text "AT_HWCAP = 0x" ++ hex_long (getauxval at_hwcap) ++ [10] ++
               (if arm32 then text "AT_HWCAP2 = 0x" ++ hex_long (getauxval at_hwcap2) ++ [10] else [])) true
  end.
