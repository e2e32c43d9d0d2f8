(** Model of the CPUID recorder and of the replay of its recordings:
    tools/cpuid-dump.c, scripts/parse-x86-cpuid-dump.py and src/x86/mockcpuid.c.
    Definitions only.
    The C text that the script prints is left out: its result is the table that this
    text initialises (a member that is not mentioned is 0). *)
From Verif Require Import Base Text X86DescriptorModel X86DecodeModel.
Open Scope N_scope.

(** One line of the recording, by the function that prints it. *)
Inductive line :=
| Plain (leaf : N) (r : regs)
| Sub (leaf sub : N) (r : regs)
| Vendor (leaf : N) (r : regs)
| Brand (leaf : N) (r : regs).

(** printf: the upper-case hexadecimal digits of a number, padded with zeros to at least
    [width]. *)
Definition hex_digit (d : N) : N := if d <? 10 then 48 + d else 55 + d.
Fixpoint hex_from (fuel : nat) (n : N) (after : list N) : list N :=
  match fuel with
  | O => after
  | S k => let l := hex_digit (N.land n 0xF) :: after in
           if N.shiftr n 4 =? 0 then l else hex_from k (N.shiftr n 4) l
  end.
Definition hex (width : nat) (n : N) : list N :=
  let ds := hex_from 8 n [] in repeat 48 (width - length ds) ++ ds.

(** printf of %.Ns: the bytes before the first null, at most N. *)
Fixpoint until_null (s : list N) : list N :=
  match s with
  | [] => []
  | c :: s' => if c =? 0 then [] else c :: until_null s'
  end.

(** The part that all four formats share. *)
Definition print_regs (leaf : N) (r : regs) : list N :=
  text "CPUID " ++ hex 8 leaf ++ text ": " ++ hex 8 (eax r) ++ text "-" ++ hex 8 (ebx r) ++ text "-"
  ++ hex 8 (ecx r) ++ text "-" ++ hex 8 (edx r).

(** tools/cpuid-dump.c:8-59.  print_cpuid_vendor falls back to print_cpuid when the
    three registers are 0. *)
Definition print_line (l : line) : list N :=
  match l with
  | Plain leaf r => print_regs leaf r ++ [10]
  | Sub leaf sub r => print_regs leaf r ++ text " [SL " ++ hex 2 sub ++ text "]" ++ [10]
  | Vendor leaf r =>
      if negb (N.lor (N.lor (ebx r) (ecx r)) (edx r) =? 0)
      then print_regs leaf r ++ text " ["
           ++ until_null (word_bytes (ebx r) ++ word_bytes (edx r) ++ word_bytes (ecx r)) ++ text "]" ++ [10]
      else print_regs leaf r ++ [10]
  | Brand leaf r =>
      print_regs leaf r ++ text " ["
      ++ until_null (word_bytes (eax r) ++ word_bytes (ebx r) ++ word_bytes (ecx r) ++ word_bytes (edx r)) ++ text "]" ++ [10]
  end.

(** tools/cpuid-dump.c:71-79, 89-97, 98-108: loops without a bound on ecx; a loop that
    does not end within [fuel] rounds is None. *)
Fixpoint open_loop (m : cpu) (stop : N -> regs -> bool) (leaf : N) (fuel : nat) (ecx : N) : option (list line) :=
  match fuel with
  | O => None
  | S k =>
      let r := cpuidex m leaf ecx in
      if stop ecx r then Some []
      else match open_loop m stop leaf k (u32 (ecx + 1)) with
           | Some l => Some (Sub leaf ecx r :: l)
           | None => None
           end
  end.

(** tools/cpuid-dump.c:80-88, 109-117, 118-126, 127-135: loops up to the highest subleaf,
    which subleaf 0 gives.  The variables start at 0, or for leaf 0x24 at what leaf 0x17
    left in max_socid_index: [max] has no effect before subleaf 0 is read. *)
Fixpoint index_loop (m : cpu) (leaf : N) (fuel : nat) (max ecx : N) : option (list line) :=
  match fuel with
  | O => None
  | S k =>
      if ecx <=? max then
        let r := cpuidex m leaf ecx in
        let max := if ecx =? 0 then eax r else max in
        match index_loop m leaf k max (u32 (ecx + 1)) with
        | Some l => Some (Sub leaf ecx r :: l)
        | None => None
        end
      else Some []
  end.

(** tools/cpuid-dump.c:66-140: one round of the loop over the base leaves, the value of
    has_sgx before and after it. *)
Definition base_leaf (m : cpu) (fuel : nat) (sgx : bool) (leaf : N) : option (list line * bool) :=
  let keep (l : option (list line)) := match l with Some l => Some (l, sgx) | None => None end in
  if leaf =? 0 then keep (Some [Vendor leaf (cpuid m leaf)])
  else if leaf =? 4 then keep (open_loop m (fun _ r => N.land (eax r) 0x1F =? 0) leaf fuel 0)
  else if leaf =? 7 then
    match index_loop m leaf fuel 0 0 with
    | Some l => Some (l, negb (N.land (ebx (cpuidex m leaf 0)) 4 =? 0))
    | None => None
    end
  else if leaf =? 0xB then keep (open_loop m (fun _ r => N.land (ecx r) 0xFF00 =? 0) leaf fuel 0)
  else if leaf =? 0x12 then
    keep (if sgx then open_loop m (fun s r => (2 <=? s) && (N.land (eax r) 0xF =? 0)) leaf fuel 0 else Some [])
  else if (leaf =? 0x14) || (leaf =? 0x17) || (leaf =? 0x24) then keep (index_loop m leaf fuel 0 0)
  else keep (Some [Plain leaf (cpuidex m leaf 0)]).

(** tools/cpuid-dump.c:65-141; eax is a uint32_t. *)
Fixpoint base_loop (m : cpu) (inner fuel : nat) (max : N) (sgx : bool) (leaf : N) : option (list line) :=
  match fuel with
  | O => None
  | S k =>
      if leaf <=? max then
        match base_leaf m inner sgx leaf with
        | Some (l, sgx) =>
            match base_loop m inner k max sgx (u32 (leaf + 1)) with
            | Some l' => Some (l ++ l')
            | None => None
            end
        | None => None
        end
      else Some []
  end.

(** tools/cpuid-dump.c:145-156. *)
Definition extended_leaf (m : cpu) (leaf : N) : line :=
  if leaf =? 0x80000000 then Vendor leaf (cpuid m leaf)
  else if (leaf =? 0x80000002) || (leaf =? 0x80000003) || (leaf =? 0x80000004) then Brand leaf (cpuid m leaf)
  else Plain leaf (cpuidex m leaf 0).

(** tools/cpuid-dump.c:144-157. *)
Fixpoint extended_loop (m : cpu) (fuel : nat) (max leaf : N) : option (list line) :=
  match fuel with
  | O => None
  | S k =>
      if leaf <=? max then
        match extended_loop m k max (u32 (leaf + 1)) with
        | Some l => Some (extended_leaf m leaf :: l)
        | None => None
        end
      else Some []
  end.

(** tools/cpuid-dump.c:61-158. *)
Definition dump (m : cpu) (fuel : nat) : option (list line) :=
  match base_loop m fuel fuel (eax (cpuid m 0)) false 0 with
  | Some l =>
      match extended_loop m fuel (eax (cpuid m 0x80000000)) 0x80000000 with
      | Some l' => Some (l ++ l')
      | None => None
      end
  | None => None
  end.
Definition dump_text (m : cpu) (fuel : nat) : option (list N) :=
  match dump m fuel with
  | Some l => Some (flat_map print_line l)
  | None => None
  end.

(** struct cpuinfo_mock_cpuid, include/cpuinfo-mock.h:24-31. *)
Record entry := Entry { input_eax : N; input_ecx : N; answer : regs }.

(** scripts/parse-x86-cpuid-dump.py:19: a file opened in text mode: carriage returns are
    line ends ... *)
Fixpoint universal_newlines (s : list N) : list N :=
  match s with
  | [] => []
  | c :: s' =>
      if c =? 13 then 10 :: match s' with
                            | d :: s'' => if d =? 10 then universal_newlines s'' else universal_newlines s'
                            | [] => []
                            end
      else c :: universal_newlines s'
  end.
(** ... and str.splitlines also splits at vertical tabs, form feeds and the separators
    28 to 30; there is no line after a final line end. *)
Definition line_end (c : N) : bool :=
  (c =? 10) || (c =? 11) || (c =? 12) || (c =? 13) || (c =? 28) || (c =? 29) || (c =? 30).
Fixpoint split_from (current : list N) (s : list N) : list (list N) :=
  match s with
  | [] => match current with [] => [] | _ => [current] end
  | c :: s' => if line_end c then current :: split_from [] s' else split_from (current ++ [c]) s'
  end.
Definition splitlines (s : list N) : list (list N) := split_from [] s.

(** The regular expressions: a literal text and eight characters of [\dA-F]. *)
Fixpoint literal (p s : list N) : option (list N) :=
  match p, s with
  | [], _ => Some s
  | a :: p', c :: s' => if a =? c then literal p' s' else None
  | _ :: _, [] => None
  end.
Definition digit_value (c : N) : option N :=
  if (48 <=? c) && (c <=? 57) then Some (c - 48) else if (65 <=? c) && (c <=? 70) then Some (c - 55) else None.
Fixpoint hex_field (n : nat) (value : N) (s : list N) : option (N * list N) :=
  match n with
  | O => Some (value, s)
  | S k =>
      match s with
      | c :: s' => match digit_value c with
                   | Some d => hex_field k (value * 16 + d) s'
                   | None => None
                   end
      | [] => None
      end
  end.

(** str.strip at the start of the text; what is stripped from its end does not
    matter to the expression that is matched afterwards. *)
Definition is_space (c : N) : bool := ((9 <=? c) && (c <=? 13)) || ((28 <=? c) && (c <=? 32)).
Fixpoint strip_left (s : list N) : list N :=
  match s with
  | c :: s' => if is_space c then strip_left s' else s
  | [] => []
  end.

(** scripts/parse-x86-cpuid-dump.py:25-27: \[SL (\d{2})\], two decimal digits read as a
    hexadecimal number. *)
Definition parse_sub (s : list N) : option N :=
  match literal (text "[SL ") s with
  | Some (a :: b :: s') =>
      if ((48 <=? a) && (a <=? 57)) && ((48 <=? b) && (b <=? 57)) then
        match literal (text "]") s' with
        | Some _ => Some ((a - 48) * 16 + (b - 48))
        | None => None
        end
      else None
  | _ => None
  end.

(** scripts/parse-x86-cpuid-dump.py:20-28. *)
Definition parse_line (s : list N) : option entry :=
  match literal (text "CPUID ") s with None => None | Some s =>
  match hex_field 8 0 s with None => None | Some (leaf, s) =>
  match literal (text ": ") s with None => None | Some s =>
  match hex_field 8 0 s with None => None | Some (a, s) =>
  match literal (text "-") s with None => None | Some s =>
  match hex_field 8 0 s with None => None | Some (b, s) =>
  match literal (text "-") s with None => None | Some s =>
  match hex_field 8 0 s with None => None | Some (c, s) =>
  match literal (text "-") s with None => None | Some s =>
  match hex_field 8 0 s with None => None | Some (d, s) =>
    Some (Entry leaf (match parse_sub (strip_left s) with Some e => e | None => 0 end) (Regs a b c d))
  end end end end end end end end end end.

(** scripts/parse-x86-cpuid-dump.py:18-28.  None: the file is not ASCII; whether Python
    reads it then depends on the locale. *)
Definition parse (file : list N) : option (list entry) :=
  if forallb (fun c => c <? 128) file
  then Some (flat_map (fun l => match parse_line l with Some e => [e] | None => [] end)
                      (splitlines (universal_newlines file)))
  else None.

(** src/x86/mockcpuid.c:18-52, for leaves other than 4 (the library never reads leaf 4 by
    this function). *)
Fixpoint mock_cpuid (table : list entry) (leaf : N) : regs :=
  match table with
  | [] => regs0
  | e :: t => if leaf =? input_eax e then answer e else mock_cpuid t leaf
  end.
(** src/x86/mockcpuid.c:54-70. *)
Fixpoint mock_cpuidex (table : list entry) (leaf sub : N) : regs :=
  match table with
  | [] => regs0
  | e :: t => if (leaf =? input_eax e) && (sub =? input_ecx e) then answer e else mock_cpuidex t leaf sub
  end.

(** The leaves that the library reads with cpuidex: src/x86/isa.c:46-50 and 70,
    src/x86/cache/init.c:83 and 94, src/x86/topology.c:105.  It reads all others with
    cpuid. *)
Definition with_subleaves (leaf : N) : bool :=
  (leaf =? 4) || (leaf =? 7) || (leaf =? 0xB) || (leaf =? 0xD) || (leaf =? 0x24) || (leaf =? 0x8000001D).

(** What the library sees in mock mode (src/x86/cpuid.h:17-25, 43-51); XCR0 and the MXCSR
    mask are still those of the processor that runs it. *)
Definition replayed (table : list entry) (xcr0 mxcsr : N) : cpu :=
  Cpu (fun leaf sub => if with_subleaves leaf then mock_cpuidex table leaf sub else mock_cpuid table leaf)
      (fun _ => mock_cpuid table 2) xcr0 mxcsr.
