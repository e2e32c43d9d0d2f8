(** Sample processors for the examples about instruction sets. *)
From Verif Require Import Base X86DescriptorModel X86DecodeModel X86DecodeSample.
Open Scope N_scope.

(** An x86-64 desktop processor with AVX-512, AMX and VAES announced; [x] is XCR0. *)
Definition vector_cpu (x : N) : cpu :=
  Cpu (fun l s =>
    if l =? 0 then intel_leaf0 0x24
    else if l =? 1 then Regs 0x000806F8 0x00100800 0x7FFEFBBF 0xBFEBFBFF
    else if l =? 7 then if s =? 0 then Regs 2 0xF3BFBFFF 0x1B415F7E 0xFFDD4432 else Regs 0x00201C30 0 0 0x00080430
    else if l =? 0xD then Regs 0x000602FF 0 0 0
    else if l =? 0x24 then Regs 0 0x00070002 0 0
    else if l =? 0x80000000 then Regs 0x80000008 0 0 0
    else if l =? 0x80000001 then Regs 0 0 0x121 0x2C100800
    else regs0) (fun _ => regs0) x 0xFFFF.

(** An early Pentium 4 without SSE3. *)
Definition p4_cpu (mask : N) : cpu :=
  Cpu (fun l s => if l =? 0 then intel_leaf0 2 else if l =? 1 then Regs 0xF0A 0x8 0 0x3FEBFBFF else regs0) (fun _ => regs0) 0 mask.

(** A Geode LX. *)
Definition geode_cpu : cpu :=
  Cpu (fun l s => if l =? 0 then Regs 1 0x68747541 0x444D4163 0x69746E65 else if l =? 1 then Regs 0x5A2 0x400 0 0x0088A93D
    else if l =? 0x80000000 then Regs 0x80000006 0 0 0 else if l =? 0x80000001 then Regs 0x5A1 0 0 0xC0C0A13D else regs0) (fun _ => regs0) 0 0.
