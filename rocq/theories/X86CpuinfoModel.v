(** Model of src/x86/linux/cpuinfo.c.  Definitions only. *)
From Verif Require Import Base Text LinuxTextModel CpuinfoLineModel.
Open Scope N_scope.

(** src/linux/api.h:10-24, the flags used by the x86 code. *)
Definition flag_present : N := 1.
Definition flag_possible : N := 2.
Definition flag_apic_id : N := 128.
Definition flag_proc_cpuinfo : N := 2048.
Definition flag_valid : N := 4096.

(** struct cpuinfo_x86_linux_processor, src/x86/linux/api.h:11-15. *)
Record xproc := XProc { x_apic_id : N; x_linux_id : N; x_flags : N }.

(** src/x86/linux/cpuinfo.c:15 *)
Definition proc_cpuinfo_buffer_size : nat := N.to_nat 2048.

(** src/x86/linux/cpuinfo.c:17-40 (and src/arm/linux/cpuinfo.c:18-41): the test
    is [digit > 10], so the character after '9' counts as the digit 10.  The
    arithmetic wraps modulo 2^32. *)
Fixpoint parse_processor_number_from (sg : bool) (acc : N) (s : list N) : N :=
  match s with
  | [] => acc
  | c :: s' =>
      if 10 <? digit_of sg c then acc
      else parse_processor_number_from sg (u32 (u32 (acc * 10) + digit_of sg c)) s'
  end.
Definition parse_processor_number (sg : bool) (s : list N) : N := parse_processor_number_from sg 0 s.

(** src/x86/linux/cpuinfo.c:52-65: a number all of whose characters must be
    digits; [None] when the line is ignored. *)
Fixpoint parse_all_digits_from (sg : bool) (acc : N) (s : list N) : option N :=
  match s with
  | [] => Some acc
  | c :: s' =>
      if 10 <=? digit_of sg c then None
      else parse_all_digits_from sg (u32 (u32 (acc * 10) + digit_of sg c)) s'
  end.
Definition parse_all_digits (sg : bool) (s : list N) : option N := parse_all_digits_from sg 0 s.

(** src/x86/linux/cpuinfo.c:48-69. *)
Definition parse_apic_id (sg : bool) (value : list N) (p : xproc) : xproc :=
  match parse_all_digits sg value with
  | None => p
  | Some a => XProc a (x_linux_id p) (N.lor (x_flags p) flag_apic_id)
  end.

(** src/x86/linux/cpuinfo.c:71-76.  The dummy processor, whose contents are
    never read, is left out. *)
Record pstate := PState { ps_index : N; ps_procs : list xproc }.

(** Equality of byte strings: the memcmp calls of lines 161 and 168 together
    with the switch on the length. *)
Definition bytes_eqb (a b : list N) : bool := if list_eq_dec N.eq_dec a b then true else false.

(** src/x86/linux/cpuinfo.c:82-206.  [max] is state->max_processors_count. *)
Definition x86_parse_line (sg : bool) (max : N) (st : pstate) (line : list N) : res pstate :=
  do kv <- split_line line;
  match kv with
  | None => Ok st
  | Some (key, value) =>
      if bytes_eqb key (text "apicid") then
        if ps_index st <? max then
          do ps <- modify (ps_procs st) (N.to_nat (ps_index st)) (parse_apic_id sg value);
          Ok (PState (ps_index st) ps)
        else Ok st                                        (* dummy processor *)
      else if bytes_eqb key (text "processor") then
        let new := parse_processor_number sg value in
        if max <=? new then Ok (PState new (ps_procs st))
        else
          do ps <- modify (ps_procs st) (N.to_nat new)
                     (fun p => XProc (x_apic_id p) (x_linux_id p)
                                     (N.lor (x_flags p) flag_proc_cpuinfo));
          Ok (PState new ps)
      else Ok st
  end.

(** The callback as parse_multiline_file calls it: it always returns true. *)
Definition x86_line_callback (sg : bool) (max : N) (ctx : res pstate) (line : list N)
  : bool * res pstate :=
  (true, do st <- ctx; x86_parse_line sg max st line).

(** src/x86/linux/cpuinfo.c:208-219. *)
Definition x86_parse_proc_cpuinfo (sg : bool) (max : N) (file : option (list N))
           (wants : list (option nat)) (procs : list xproc) : res (bool * list xproc) :=
  do r <- parse_multiline_file (x86_line_callback sg max) proc_cpuinfo_buffer_size file wants
            (Ok (PState 0 procs));
  let '(ok, st) := r in
  do st' <- st;
  Ok (ok, ps_procs st').
