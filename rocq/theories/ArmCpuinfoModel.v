(** Model of src/arm/linux/cpuinfo.c.  [arm32] is CPUINFO_ARCH_ARM (false:
    CPUINFO_ARCH_ARM64), [sg] whether char is signed.  Definitions only.
    The log messages are left out. *)
From Verif Require Import Base Text LinuxTextModel CpuinfoLineModel X86CpuinfoModel ArmMidrModel ArmClustersModel.
Open Scope N_scope.

(** src/arm/linux/cpuinfo.c:16. *)
Definition arm_cpuinfo_buffer_size : nat := N.to_nat 1024.
(** src/arm/linux/api.h:14-17. *)
Definition hardware_value_max : nat := 64.
Definition revision_value_max : nat := 9.

(** src/arm/linux/cpuinfo.c:105-325, the names: the bits each sets in features and
    in features2 on ARM and on ARM64 (src/arm/linux/api.h:53-147).  A name that only
    the other architecture uses sets nothing. *)
Definition feature_names : list (list N * ((N * N) * (N * N))) :=
  [ (text "fp", ((0, 0), (0x1, 0)));
    (text "wp", ((0x1, 0), (0, 0)));
    (text "aes", ((0, 0x1), (0x8, 0)));
    (text "swp", ((0x1, 0), (0, 0)));
    (text "fpa", ((0x20, 0), (0, 0)));
    (text "vfp", ((0x40, 0), (0, 0)));
    (text "tls", ((0x8000, 0), (0, 0)));
    (text "sha1", ((0, 0x4), (0x20, 0)));
    (text "sha2", ((0, 0x8), (0x40, 0)));
    (text "fphp", ((0, 0), (0x200, 0)));
    (text "fcma", ((0, 0), (0x4000, 0)));
    (text "i8mm", ((0, 0), (0, 0x2000)));
    (text "half", ((0x2, 0), (0, 0)));
    (text "edsp", ((0x80, 0), (0, 0)));
    (text "java", ((0x100, 0), (0, 0)));
    (text "neon", ((0x1000, 0), (0, 0)));
    (text "lpae", ((0x100000, 0), (0, 0)));
    (text "tlsi", ((0x8000, 0), (0, 0)));
    (text "pmull", ((0, 0x2), (0x10, 0)));
    (text "crc32", ((0, 0x10), (0x80, 0)));
    (text "asimd", ((0, 0), (0x2, 0)));
    (text "cpuid", ((0, 0), (0x800, 0)));
    (text "jscvt", ((0, 0), (0x2000, 0)));
    (text "lrcpc", ((0, 0), (0x8000, 0)));
    (text "thumb", ((0x4, 0), (0, 0)));
    (text "26bit", ((0x8, 0), (0, 0)));
    (text "vfpv3", ((0x2000, 0), (0, 0)));
    (text "vfpv4", ((0x10000, 0), (0, 0)));
    (text "idiva", ((0x20000, 0), (0, 0)));
    (text "idivt", ((0x40000, 0), (0, 0)));
    (text "iwmmxt", ((0x200, 0), (0, 0)));
    (text "crunch", ((0x400, 0), (0, 0)));
    (text "vfpd32", ((0x80000, 0), (0, 0)));
    (text "evtstrm", ((0x200000, 0), (0x4, 0)));
    (text "atomics", ((0, 0), (0x100, 0)));
    (text "asimdhp", ((0, 0), (0x400, 0)));
    (text "thumbee", ((0x800, 0), (0, 0)));
    (text "asimdrdm", ((0, 0), (0x1000, 0)));
    (text "asimdfhm", ((0, 0), (0x800000, 0)));
    (text "fastmult", ((0x10, 0), (0, 0)));
    (text "vfpv3d16", ((0x4000, 0), (0, 0))) ].

(** src/arm/linux/cpuinfo.c:122-310: the switch on one word. *)
Definition feature_bits (arm32 : bool) (word : list N) : N * N :=
  match find (fun e => bytes_eqb (fst e) word) feature_names with
  | Some (_, (bits32, bits64)) => if arm32 then bits32 else bits64
  | None => (0, 0)
  end.

Definition with_features (v v2 : N) (r : areport) : areport :=
  AReport (ar_architecture_version r) (ar_architecture_flags r) (ar_icache r) (ar_dcache r) v v2.
Definition with_architecture (v f : N) (r : areport) : areport :=
  AReport v f (ar_icache r) (ar_dcache r) (ar_features r) (ar_features2 r).
Definition with_icache (c : l1_report) (r : areport) : areport :=
  AReport (ar_architecture_version r) (ar_architecture_flags r) c (ar_dcache r) (ar_features r) (ar_features2 r).
Definition with_dcache (c : l1_report) (r : areport) : areport :=
  AReport (ar_architecture_version r) (ar_architecture_flags r) (ar_icache r) c (ar_features r) (ar_features2 r).

Definition add_feature (arm32 : bool) (word : list N) (p : aproc) : aproc :=
  let '(b, b2) := feature_bits arm32 word in
  let r := a_report p in
  with_areport (with_features (N.lor (ar_features r) b) (N.lor (ar_features2 r) b2) r) p.

(** src/arm/linux/cpuinfo.c:115-324: the loop over the words, with positions as
    indices into the value. *)
Fixpoint features_loop (fuel : nat) (arm32 : bool) (value : list N) (start : nat) (p : aproc) : res aproc :=
  match fuel with
  | O => Hang
  | S fuel' =>
      do fend <- scan_fwd (S (length value)) (fun c => c =? chr_space) value (S start);
      let p' := add_feature arm32 (slice value start fend) p in
      do next <- scan_fwd (S (length value)) (fun c => negb (c =? chr_space)) value fend;
      if (next =? fend)%nat then Ok p' else features_loop fuel' arm32 value next p'
  end.

(** src/arm/linux/cpuinfo.c:105-325. *)
Definition parse_features (arm32 : bool) (value : list N) (p : aproc) : res aproc :=
  features_loop (S (length value)) arm32 value 0 (add_aflag (N.lor af_features af_processor) p).

(** src/arm/linux/cpuinfo.c:343-355: the number at the start and what follows it;
    [None] when there is no digit. *)
Fixpoint leading_number (sg : bool) (acc : N) (s : list N) : N * list N :=
  match s with
  | [] => (acc, [])
  | c :: s' =>
      if 10 <=? digit_of sg c then (acc, s)
      else leading_number sg (u32 (u32 (acc * 10) + digit_of sg c)) s'
  end.

(** src/arm/linux/api.h:35-40. *)
Definition arch_t : N := 1.
Definition arch_e : N := 2.
Definition arch_j : N := 4.

(** src/arm/linux/cpuinfo.c:367-394. *)
Fixpoint arch_letters (arm32 : bool) (flags : N) (s : list N) : N :=
  match s with
  | [] => flags
  | c :: s' =>
      let bit := if arm32 then
                   if c =? 84 then arch_t else if c =? 69 then arch_e else if c =? 74 then arch_j else 0
                 else 0 in
      arch_letters arm32 (N.lor flags bit) s'
  end.

(** src/arm/linux/cpuinfo.c:403-420. *)
Definition midr_architecture_of (arm32 : bool) (version flags : N) : N :=
  if arm32 then
    if version =? 6 then 0x7
    else if version =? 5 then
      if N.land flags 7 =? 7 then 0x6
      else if N.land flags 3 =? 3 then 0x5
      else 0x4
    else 0xF
  else 0xF.

(** src/arm/linux/cpuinfo.c:327-422. *)
Definition parse_cpu_architecture (arm32 sg : bool) (value : list N) (p : aproc) : aproc :=
  if bytes_eqb value (text "AArch64") then
    add_aflag (N.lor af_architecture af_processor)
      (with_areport (with_architecture 8 (ar_architecture_flags (a_report p)) (a_report p))
        (with_amidr (midr_set_architecture (a_midr p) 0xF) p))
  else
    let '(number, rest) := leading_number sg 0 value in
    let p1 :=
      if (length rest =? length value)%nat then p
      else if number =? 0 then p
      else add_aflag (N.lor af_architecture af_processor)
             (with_areport (with_architecture number
                              (arch_letters arm32 (ar_architecture_flags (a_report p)) rest) (a_report p)) p) in
    with_amidr (midr_set_architecture (a_midr p1)
                  (midr_architecture_of arm32 (ar_architecture_version (a_report p1))
                                        (ar_architecture_flags (a_report p1)))) p1.

(** src/arm/linux/cpuinfo.c:456-465 (also 516-525, 574-580). *)
Definition hex_digit (c : N) : option N :=
  if (48 <=? c) && (c <=? 57) then Some (c - 48)
  else if (65 <=? c) && (c <=? 70) then Some (10 + (c - 65))
  else if (97 <=? c) && (c <=? 102) then Some (10 + (c - 97))
  else None.

(** src/arm/linux/cpuinfo.c:452-474. *)
Fixpoint hex_digits (acc : N) (s : list N) : option N :=
  match s with
  | [] => Some acc
  | c :: s' =>
      match hex_digit c with
      | None => None
      | Some d => hex_digits (u32 (u32 (acc * 16) + d)) s'
      end
  end.

(** The common shape of lines 424-481, 483-545 and 547-597: a length between two
    bounds, "0x", hexadecimal digits; [None] when the line is ignored. *)
Definition hex_value_of (shortest longest : nat) (value : list N) : option N :=
  if (length value <? shortest)%nat || (longest <? length value)%nat then None
  else match value with
       | z :: x :: digits => if (z =? 48) && (x =? 120) then hex_digits 0 digits else None
       | _ => None
       end.

(** src/arm/linux/cpuinfo.c:424-481. *)
Definition parse_cpu_part (value : list N) (p : aproc) : aproc :=
  match hex_value_of 3 5 value with
  | None => p
  | Some v => add_aflag (N.lor af_part af_processor) (with_amidr (midr_set_part (a_midr p) v) p)
  end.

(** src/arm/linux/cpuinfo.c:483-545. *)
Definition parse_cpu_implementer (value : list N) (p : aproc) : aproc :=
  match hex_value_of 3 4 value with
  | None => p
  | Some v => add_aflag (N.lor af_implementer af_processor) (with_amidr (midr_set_implementer (a_midr p) v) p)
  end.

(** src/arm/linux/cpuinfo.c:547-597. *)
Definition parse_cpu_variant (value : list N) (p : aproc) : aproc :=
  match hex_value_of 3 3 value with
  | None => p
  | Some v => add_aflag (N.lor af_variant af_processor) (with_amidr (midr_set_variant (a_midr p) v) p)
  end.

(** src/arm/linux/cpuinfo.c:599-624. *)
Definition parse_cpu_revision (sg : bool) (value : list N) (p : aproc) : aproc :=
  match parse_all_digits sg value with
  | None => p
  | Some v => add_aflag (N.lor af_revision af_processor) (with_amidr (midr_set_revision (a_midr p) v) p)
  end.

(** src/arm/linux/api.h:156-171. *)
Definition af_icache_size : N := 0x01000000.
Definition af_icache_sets : N := 0x02000000.
Definition af_icache_ways : N := 0x04000000.
Definition af_icache_line : N := 0x08000000.
Definition af_dcache_size : N := 0x10000000.
Definition af_dcache_sets : N := 0x20000000.
Definition af_dcache_ways : N := 0x40000000.
Definition af_dcache_line : N := 0x80000000.

Inductive l1_number := L1Size | L1Assoc | L1Line | L1Sets.
Definition with_l1_number (which : l1_number) (v : N) (c : l1_report) : l1_report :=
  match which with
  | L1Size => L1Report v (lr_assoc c) (lr_line c) (lr_sets c)
  | L1Assoc => L1Report (lr_size c) v (lr_line c) (lr_sets c)
  | L1Line => L1Report (lr_size c) (lr_assoc c) v (lr_sets c)
  | L1Sets => L1Report (lr_size c) (lr_assoc c) (lr_line c) v
  end.

(** src/arm/linux/cpuinfo.c:642-694.  The value is stored, and marked valid, even
    when it is 0 or an impossible line size: these cases only log a message that
    says it is ignored. *)
Definition parse_cache_number (sg data : bool) (which : l1_number) (mask : N) (value : list N) (p : aproc) : aproc :=
  match parse_all_digits sg value with
  | None => p
  | Some v =>
      let r := a_report p in
      add_aflag (N.lor mask af_processor)
        (with_areport (if data then with_dcache (with_l1_number which v (ar_dcache r)) r
                       else with_icache (with_l1_number which v (ar_icache r)) r) p)
  end.

(** src/arm/linux/cpuinfo.c:789-1004, the keys that concern the current processor. *)
Definition processor_line (arm32 sg : bool) (key value : list N) (p : aproc) : res aproc :=
  if bytes_eqb key (text "CPU part") then Ok (parse_cpu_part value p)
  else if bytes_eqb key (text "Features") then parse_features arm32 value p
  else if bytes_eqb key (text "CPU variant") then Ok (parse_cpu_variant value p)
  else if bytes_eqb key (text "CPU revision") then Ok (parse_cpu_revision sg value p)
  else if bytes_eqb key (text "CPU implementer") then Ok (parse_cpu_implementer value p)
  else if bytes_eqb key (text "CPU implementor") then Ok (parse_cpu_implementer value p)
  else if bytes_eqb key (text "CPU architecture") then Ok (parse_cpu_architecture arm32 sg value p)
  else if negb arm32 then Ok p
  else if bytes_eqb key (text "I size") then Ok (parse_cache_number sg false L1Size af_icache_size value p)
  else if bytes_eqb key (text "I sets") then Ok (parse_cache_number sg false L1Sets af_icache_sets value p)
  else if bytes_eqb key (text "D size") then Ok (parse_cache_number sg true L1Size af_dcache_size value p)
  else if bytes_eqb key (text "D sets") then Ok (parse_cache_number sg true L1Sets af_dcache_sets value p)
  else if bytes_eqb key (text "I assoc") then Ok (parse_cache_number sg false L1Assoc af_icache_ways value p)
  else if bytes_eqb key (text "D assoc") then Ok (parse_cache_number sg true L1Assoc af_dcache_ways value p)
  else if bytes_eqb key (text "I line length") then Ok (parse_cache_number sg false L1Line af_icache_line value p)
  else if bytes_eqb key (text "D line length") then Ok (parse_cache_number sg true L1Line af_dcache_line value p)
  else Ok p.

(** A char array on the stack of the caller: [None] is a cell never written. *)
Definition chars := list (option N).

(** memcpy to the start of the array. *)
Fixpoint store_from (buf : chars) (k : nat) (s : list N) : res chars :=
  match s with
  | [] => Ok buf
  | c :: s' => do b <- wr buf k (Some c); store_from b (S k) s'
  end.

(** src/arm/linux/cpuinfo.c:858-873 and 874-888. *)
Definition store_string (buf : chars) (max : nat) (value : list N) : res chars :=
  if (max <? length value)%nat then store_from buf 0 (firstn max value)
  else do b <- wr buf (length value) (Some 0); store_from b 0 value.

(** struct proc_cpuinfo_parser_state, src/arm/linux/cpuinfo.c:696-704. *)
Record cstate := CState {
  cs_index : N; cs_procs : list aproc; cs_dummy : aproc; cs_hardware : chars; cs_revision : chars
}.

(** src/arm/linux/cpuinfo.c:726-1006. *)
Definition arm_parse_line (arm32 sg : bool) (max : N) (st : cstate) (line : list N) : res cstate :=
  do kv <- split_line line;
  match kv with
  | None => Ok st
  | Some (key, value) =>
      if bytes_eqb key (text "Hardware") then
        do b <- store_string (cs_hardware st) hardware_value_max value;
        Ok (CState (cs_index st) (cs_procs st) (cs_dummy st) b (cs_revision st))
      else if bytes_eqb key (text "Revision") then
        do b <- store_string (cs_revision st) revision_value_max value;
        Ok (CState (cs_index st) (cs_procs st) (cs_dummy st) (cs_hardware st) b)
      else if bytes_eqb key (text "processor") then
        let new := parse_processor_number sg value in
        do ps <- (if new <? max then modify (cs_procs st) (N.to_nat new) (add_aflag af_processor)
                  else Ok (cs_procs st));
        Ok (CState new ps (cs_dummy st) (cs_hardware st) (cs_revision st))
      else if cs_index st <? max then
        do p <- rd (cs_procs st) (N.to_nat (cs_index st));
        do p' <- processor_line arm32 sg key value p;
        do ps <- wr (cs_procs st) (N.to_nat (cs_index st)) p';
        Ok (CState (cs_index st) ps (cs_dummy st) (cs_hardware st) (cs_revision st))
      else
        do p' <- processor_line arm32 sg key value (cs_dummy st);
        Ok (CState (cs_index st) (cs_procs st) p' (cs_hardware st) (cs_revision st))
  end.

(** The callback as parse_multiline_file calls it: it always returns true. *)
Definition arm_line_callback (arm32 sg : bool) (max : N) (ctx : res cstate) (line : list N) : bool * res cstate :=
  (true, do st <- ctx; arm_parse_line arm32 sg max st line).

(** src/arm/linux/cpuinfo.c:1008-1023.  [hardware] and [revision] are the arrays
    the caller passes. *)
Definition arm_parse_proc_cpuinfo (arm32 sg : bool) (max : N) (file : option (list N)) (wants : list (option nat))
           (hardware revision : chars) (procs : list aproc) : res (bool * cstate) :=
  do hardware0 <- wr hardware 0 (Some 0);
  do r <- parse_multiline_file (arm_line_callback arm32 sg max) arm_cpuinfo_buffer_size file wants
            (Ok (CState 0 procs aproc0 hardware0 revision));
  let '(ok, st) := r in
  do st' <- st;
  Ok (ok, st').
