(** Model of the CPUID decoding: src/x86/info.c, vendor.c, uarch.c, topology.c,
    cache/deterministic.c, cache/init.c and init.c.  Definitions only.
    Log messages are left out. *)
From Verif Require Import Base TopologySpec X86LinuxModel X86DescriptorModel.
Open Scope N_scope.

(** struct cpuid_regs, src/x86/api.h:9-14. *)
Record regs := Regs { eax : N; ebx : N; ecx : N; edx : N }.
Definition regs0 : regs := Regs 0 0 0 0.

(** The processor: the answer of the CPUID instruction to each leaf and subleaf,
    except that the answers to successive reads of leaf 2 may differ; XCR0; and the
    MXCSR mask stored by FXSAVE. *)
Record cpu := Cpu {
  cpuidex : N -> N -> regs;
  cpuid2 : nat -> regs;
  xcr0 : N;
  mxcsr_mask : N
}.
Definition cpuid (m : cpu) (leaf : N) : regs := cpuidex m leaf 0.

(** src/cpuinfo/utils.h:8-21; __builtin_clz(n) is 31 - log2(n). *)
Definition bit_length (n : N) : N :=
  let n1 := sub32 n 1 in
  if n1 =? 0 then 0 else 32 - (31 - N.log2 n1).

(** struct cpuinfo_x86_model_info, src/x86/api.h:36-46. *)
Record model_info := ModelInfo {
  mi_model : N; mi_family : N; mi_base_model : N; mi_base_family : N; mi_stepping : N;
  mi_extended_model : N; mi_extended_family : N; mi_processor_type : N
}.

(** src/x86/info.c:6-18. *)
Definition decode_model_info (eax : N) : model_info :=
  let stepping := N.land eax 0xF in
  let base_model := N.land (N.shiftr eax 4) 0xF in
  let base_family := N.land (N.shiftr eax 8) 0xF in
  let processor_type := N.land (N.shiftr eax 12) 0x3 in
  let extended_model := N.land (N.shiftr eax 16) 0xF in
  let extended_family := N.land (N.shiftr eax 20) 0xFF in
  ModelInfo (u32 (base_model + u32 (N.shiftl extended_model 4))) (u32 (base_family + extended_family))
            base_model base_family stepping extended_model extended_family processor_type.

(** src/x86/vendor.c:6-71 and 73-187.  The cases of the nested switches are tried
    one by one; no two of them overlap. *)
Definition vendor_cases : list (N * N * N * bool * N) :=
  (* ebx, edx, ecx, only in 32-bit builds, vendor *)
  [(0x756E6547, 0x49656E69, 0x6C65746E, false, vendor_intel);
   (0x756E6547, 0x54656E69, 0x3638784D, true, vendor_transmeta);
   (0x756E6547, 0x20656E69, 0x43445220, true, vendor_rdc);
   (0x68747541, 0x69746E65, 0x444D4163, false, vendor_amd);
   (0x746E6543, 0x48727561, 0x736C7561, false, vendor_via);
   (0x6F677948, 0x6E65476E, 0x656E6975, false, vendor_hygon);
   (0x69444D41, 0x74656273, 0x21726574, true, vendor_amd);
   (0x20444D41, 0x45425349, 0x52455454, true, vendor_amd);
   (0x20414956, 0x20414956, 0x20414956, true, vendor_via);
   (0x6E617254, 0x74656D73, 0x55504361, true, vendor_transmeta);
   (0x69727943, 0x736E4978, 0x64616574, true, vendor_cyrix);
   (0x65736952, 0x65736952, 0x65736952, true, vendor_rise);
   (0x646F6547, 0x79622065, 0x43534E20, true, vendor_nsc);
   (0x20536953, 0x20536953, 0x20536953, true, vendor_sis);
   (0x4778654E, 0x72446E65, 0x6E657669, true, vendor_nexgen);
   (0x20434D55, 0x20434D55, 0x20434D55, true, vendor_umc);
   (0x74726F56, 0x36387865, 0x436F5320, true, vendor_dmp)].

Definition decode_vendor (b : build) (ebx ecx edx : N) : N :=
  match find (fun c => let '(vb, vd, vc, only32, _) := c in
                       (vb =? ebx) && (vd =? edx) && (vc =? ecx) && (b_x86_32 b || negb only32)) vendor_cases with
  | Some (_, _, _, _, v) => v
  | None => vendor_unknown
  end.

(** Microarchitecture numbers, include/cpuinfo.h:317-600. *)
Definition uarch_unknown : N := 0.
Definition uarch_geode : N := 0x00200200.
Definition uarch_dhyana : N := 0x01000100.

Definition one_of (x : N) (l : list N) : bool := existsb (N.eqb x) l.

Definition first_of (cases : list (bool * N)) : N :=
  match find fst cases with Some (_, u) => u | None => uarch_unknown end.

(** src/x86/uarch.c:6-404. *)
Definition decode_uarch (b : build) (vendor : N) (mi : model_info) : N :=
  let x32 := b_x86_32 b in
  let family := mi_family mi in
  let model := mi_model mi in
  let extended_model := mi_extended_model mi in
  if vendor =? vendor_intel then
    if family =? 0x05 then first_of (* 13-27 *)
      [(x32 && one_of model [0x01; 0x02; 0x03; 0x04], 0x00100100);
       (x32 && one_of model [0x09], 0x00100101)]
    else if family =? 0x06 then first_of (* 29-205 *)
      [(x32 && one_of model [0x01; 0x03; 0x05; 0x06; 0x07; 0x08; 0x0A; 0x0B], 0x00100200);
       (x32 && one_of model [0x09; 0x0D; 0x15], 0x00100201);
       (x32 && one_of model [0x0E], 0x00100202);
       (one_of model [0x0F; 0x16], 0x00100203);
       (one_of model [0x17; 0x1D], 0x00100204);
       (one_of model [0x1A; 0x1E; 0x1F; 0x2E; 0x25; 0x2C; 0x2F], 0x00100205);
       (one_of model [0x2A; 0x2D], 0x00100206);
       (one_of model [0x3A; 0x3E], 0x00100207);
       (one_of model [0x3C; 0x3F; 0x45; 0x46], 0x00100208);
       (one_of model [0x3D; 0x47; 0x4F; 0x56], 0x00100209);
       (one_of model [0x4E; 0x55; 0x5E; 0x8E; 0x9E; 0xA5; 0xA6], 0x0010020A);
       (one_of model [0x66], 0x0010020B);
       (one_of model [0x6A; 0x6C; 0x7D; 0x7E], 0x0010020C);
       (one_of model [0x1C; 0x26], 0x00100400);
       (one_of model [0x27; 0x35; 0x36], 0x00100401);
       (one_of model [0x37; 0x4A; 0x4D; 0x5A; 0x5D], 0x00100402);
       (one_of model [0x4C; 0x75], 0x00100403);
       (one_of model [0x5C; 0x5F], 0x00100404);
       (one_of model [0x7A], 0x00100405);
       (one_of model [0x57], 0x00100502);
       (one_of model [0x85], 0x00100504)]
    else if family =? 0x0F then first_of (* 206-252 *)
      [(one_of model [0x00; 0x01; 0x02], 0x00100300);
       (one_of model [0x03; 0x04; 0x06], 0x00100301)]
    else uarch_unknown
  else if vendor =? vendor_amd then
    if family =? 0x5 then first_of (* 258-272 *)
      [(x32 && one_of model [0x00; 0x01; 0x02], 0x00200100);
       (x32 && one_of model [0x06; 0x07; 0x08; 0x0D], 0x00200101);
       (x32 && one_of model [0x0A], uarch_geode)]
    else if family =? 0x6 then first_of [(x32, 0x00200102)] (* 273-274 *)
    else if one_of family [0xF; 0x11] then 0x00200103
    else if one_of family [0x10; 0x12] then 0x00200104
    else if family =? 0x14 then 0x00200201
    else if family =? 0x15 then first_of (* 284-323 *)
      [(one_of model [0x00; 0x01], 0x00200105);
       (one_of model [0x02; 0x10; 0x13], 0x00200106);
       (one_of model [0x38; 0x30], 0x00200107);
       (one_of model [0x60; 0x65; 0x70], 0x00200108);
       (one_of extended_model [0x0], 0x00200105);
       (one_of extended_model [0x1; 0x2], 0x00200106);
       (one_of extended_model [0x3; 0x4], 0x00200107)]
    else if family =? 0x16 then (if 0x03 <=? extended_model then 0x00200203 else 0x00200202) (* 324-329 *)
    else if family =? 0x17 then first_of (* 330-360 *)
      [(one_of extended_model [0x0; 0x1], 0x00200109);
       (one_of extended_model [0x3; 0x4; 0x6; 0x7; 0x9], 0x0020010A)]
    else if family =? 0x19 then first_of (* 361-389 *)
      [(one_of extended_model [0x0; 0x2; 0x3; 0x4; 0x5], 0x0020010B);
       (one_of extended_model [0x1; 0x6; 0x7; 0xA], 0x0020010C)]
    else if family =? 0x1A then 0x0020010D
    else uarch_unknown
  else if vendor =? vendor_hygon then
    if family =? 0x00 then uarch_dhyana else uarch_unknown (* 394-399 *)
  else uarch_unknown.

(** Flags of struct cpuinfo_cache, include/cpuinfo.h:107-109. *)
Definition cache_unified : N := 1.
Definition cache_inclusive : N := 2.
Definition cache_complex_indexing : N := 4.

(** The cache that both leaves describe: src/x86/cache/deterministic.c:19-34
    (28-38) and the initializers; [flags] as computed there. *)
Definition described_cache (r : regs) (flags : N) : xcache :=
  let sets := u32 (1 + ecx r) in
  let line_size := 1 + N.land (ebx r) 0xFFF in
  let partitions := 1 + N.land (N.shiftr (ebx r) 12) 0x3FF in
  let associativity := 1 + N.shiftr (ebx r) 22 in
  let processors := 1 + N.land (N.shiftr (eax r) 14) 0xFFF in
  XCache (Geometry (u32 (u32 (u32 (associativity * partitions) * line_size) * sets))
                   associativity sets partitions line_size flags)
         (bit_length processors).

(** src/x86/cache/deterministic.c:15-144: [None] if the function returns false,
    otherwise the caches and *package_cores_max. *)
Definition decode_deterministic_cache_parameters (r : regs) (cs : cstate) : option (cstate * N) :=
  let type := N.land (eax r) 0x1F in
  if type =? 0 then None else
  let level := N.land (N.shiftr (eax r) 5) 0x7 in
  let package_cores_max := 1 + N.shiftr (eax r) 26 in
  let flags := N.lor (if negb (N.land (edx r) 2 =? 0) then cache_inclusive else 0)
                     (if negb (N.land (edx r) 4 =? 0) then cache_complex_indexing else 0) in
  let c := described_cache r flags in
  let u := described_cache r (N.lor flags cache_unified) in
  let outer s := if type =? 3 then set_cache s u cs else if type =? 1 then set_cache s c cs else cs in
  let cs' :=
    if level =? 1 then
      if type =? 3 then set_cache L1D u (set_cache L1I u cs)
      else if type =? 1 then set_cache L1D c cs
      else if type =? 2 then set_cache L1I c cs
      else cs
    else if level =? 2 then outer L2
    else if level =? 3 then outer L3
    else if level =? 4 then outer L4
    else cs in
  Some (cs', package_cores_max).

(** src/x86/cache/deterministic.c:146-247. *)
Definition decode_cache_properties (r : regs) (cs : cstate) : option cstate :=
  let type := N.land (eax r) 0x1F in
  if type =? 0 then None else
  let level := N.land (N.shiftr (eax r) 5) 0x7 in
  let flags := if negb (N.land (edx r) 2 =? 0) then cache_inclusive else 0 in
  let c := described_cache r flags in
  let u := described_cache r (N.lor flags cache_unified) in
  let outer s := if type =? 3 then set_cache s u cs else if type =? 1 then set_cache s c cs else cs in
  Some (
    if level =? 1 then
      if type =? 3 then set_cache L1D u (set_cache L1I u cs)
      else if type =? 1 then set_cache L1D c cs
      else if type =? 2 then set_cache L1I c cs
      else cs
    else if level =? 2 then outer L2
    else if level =? 3 then outer L3
    else cs).

(** The bytes of the four registers in memory order (little endian): union
    cpuinfo_x86_cache_descriptors, src/x86/cache/init.c:9-12. *)
Definition word_bytes (w : N) : list N :=
  [N.land w 0xFF; N.land (N.shiftr w 8) 0xFF; N.land (N.shiftr w 16) 0xFF; N.land (N.shiftr w 24) 0xFF].
Definition regs_bytes (r : regs) : list N :=
  word_bytes (eax r) ++ word_bytes (ebx r) ++ word_bytes (ecx r) ++ word_bytes (edx r).

(** src/x86/cache/init.c:48-71: decode the bytes but the first of one reading. *)
Definition decode_descriptors (b : build) (vendor : N) (mi : model_info) (r : regs) (cs : cstate) : cstate :=
  fold_left (fun cs d => if negb (d =? 0) then decode_cache_descriptor b vendor (mi_family mi) (mi_model mi) d cs else cs)
            (tl (regs_bytes r)) cs.

(** src/x86/cache/init.c:42-76: the first reading of leaf 2 gives the number of
    readings. *)
Fixpoint repeat_descriptors (b : build) (m : cpu) (vendor : N) (mi : model_info) (iterations : nat) (i : nat) (cs : cstate) : cstate :=
  match iterations with
  | O => cs
  | S k => repeat_descriptors b m vendor mi k (S i) (decode_descriptors b vendor mi (cpuid2 m i) cs)
  end.

(** src/x86/cache/init.c:79-84.  [input_ecx] is a uint32_t; the loop has no bound of
    its own. *)
Fixpoint leaf4_loop (m : cpu) (fuel : nat) (input_ecx : N) (cs : cstate) (package_cores_max : N) : res (cstate * N) :=
  match fuel with
  | O => Hang
  | S k =>
      match decode_deterministic_cache_parameters (cpuidex m 4 input_ecx) cs with
      | None => Ok (cs, package_cores_max)
      | Some (cs', max) => leaf4_loop m k (u32 (input_ecx + 1)) cs' max
      end
  end.

(** src/x86/cache/init.c:90-96. *)
Fixpoint leaf1d_loop (m : cpu) (fuel : nat) (input_ecx : N) (cs : cstate) : res cstate :=
  match fuel with
  | O => Hang
  | S k =>
      match decode_cache_properties (cpuidex m 0x8000001D input_ecx) cs with
      | None => Ok cs
      | Some cs' => leaf1d_loop m k (u32 (input_ecx + 1)) cs'
      end
  end.

(** src/x86/cache/init.c:21-97.  The last component is *log2_package_cores_max. *)
Definition detect_cache (b : build) (m : cpu) (fuel : nat) (max_base max_extended : N) (amd_topology_extensions : bool)
           (vendor : N) (mi : model_info) (cs : cstate) (log2_package_cores_max : N) : res (cstate * N) :=
  do (cs, log2) <-
    (if 2 <=? max_base then
       let iterations := N.land (eax (cpuid2 m 0)) 0xFF in
       let cs := repeat_descriptors b m vendor mi (N.to_nat iterations) 0 cs in
       if negb (vendor =? vendor_amd) && negb (vendor =? vendor_hygon) && (4 <=? max_base) then
         do (cs, package_cores_max) <- leaf4_loop m fuel 0 cs 0;
         Ok (cs, if negb (package_cores_max =? 0) then bit_length package_cores_max else log2_package_cores_max)
       else Ok (cs, log2_package_cores_max)
     else Ok (cs, log2_package_cores_max));
  if amd_topology_extensions && (0x8000001D <=? max_extended) then
    do cs <- leaf1d_loop m fuel 0 cs; Ok (cs, log2)
  else Ok (cs, log2).

(** struct cpuinfo_x86_topology, src/x86/api.h:48-54. *)
Record topology := Topology {
  tp_apic_id : N; tp_thread_offset : N; tp_thread_length : N; tp_core_offset : N; tp_core_length : N
}.

(** src/x86/topology.c:104-150: the loop over the levels of leaf 0xB. *)
Fixpoint leafB_loop (m : cpu) (fuel : nat) (level total_shift : N) (t : topology) : res topology :=
  match fuel with
  | O => Hang
  | S k =>
      let r := cpuidex m 0xB level in
      let type := N.land (N.shiftr (ecx r) 8) 0xFF in
      let level_shift := N.land (eax r) 0x1F in
      let t :=
        if type =? 1 then Topology (edx r) total_shift level_shift (tp_core_offset t) (tp_core_length t)
        else if type =? 2 then Topology (edx r) (tp_thread_offset t) (tp_thread_length t) total_shift level_shift
        else Topology (edx r) (tp_thread_offset t) (tp_thread_length t) (tp_core_offset t) (tp_core_length t) in
      if negb (type =? 0) then leafB_loop m k (u32 (level + 1)) (u32 (total_shift + level_shift)) t else Ok t
  end.

(** src/x86/topology.c:16-163.  [t] is the structure on entry: all fields 0 but
    the length of the core field. *)
Definition detect_topology (m : cpu) (fuel : nat) (max_base max_extended : N) (leaf1 : regs) (t : topology) : res topology :=
  let htt := negb (N.land (edx leaf1) 0x10000000 =? 0) in
  let legacy :=
    if htt then
      let apic_id := N.shiftr (ebx leaf1) 24 in
      let amd_cmp_legacy :=
        if 0x80000001 <=? max_extended then negb (N.land (ecx (cpuid m 0x80000001)) 2 =? 0) else false in
      if amd_cmp_legacy then
        if 0x80000008 <=? max_extended then
          let cores := 1 + N.land (ecx (cpuid m 0x80000008)) 0xFF in
          Topology apic_id (tp_thread_offset t) (tp_thread_length t) (tp_core_offset t) (bit_length cores)
        else
          let cores := N.land (N.shiftr (ebx leaf1) 16) 0xFF in
          if negb (cores =? 0)
          then Topology apic_id (tp_thread_offset t) (tp_thread_length t) (tp_core_offset t) (bit_length cores)
          else Topology apic_id (tp_thread_offset t) (tp_thread_length t) (tp_core_offset t) (tp_core_length t)
      else
        let logical := N.land (N.shiftr (ebx leaf1) 16) 0xFF in
        if negb (logical =? 0) then
          let threads := sub32 (bit_length logical) (tp_core_length t) in
          Topology apic_id (tp_thread_offset t) threads threads (tp_core_length t)
        else Topology apic_id (tp_thread_offset t) (tp_thread_length t) (tp_core_offset t) (tp_core_length t)
    else Topology 0 (tp_thread_offset t) (tp_thread_length t) (tp_core_offset t) (tp_core_length t) in
  let x2apic := negb (N.land (ecx leaf1) 0x00200000 =? 0) in
  if x2apic && (0xB <=? max_base)
  then leafB_loop m fuel 0 0 (Topology (tp_apic_id legacy) 0 0 0 0)
  else Ok legacy.

(** struct cpuinfo_x86_processor as memset to 0 by its callers. *)
Definition xcache0 : xcache := XCache (Geometry 0 0 0 0 0 0) 0.
Definition cstate0 : cstate := CState (fun _ => xcache0) (fun _ => Tlb 0 0 0) (0, 0) 0.

(** src/x86/init.c:14-78, the part used to build the topology (the clflush size, the
    instruction set and the brand string are left out here). *)
Definition init_processor (b : build) (m : cpu) (fuel : nat) : res xinfo :=
  let leaf0 := cpuid m 0 in
  let max_base := eax leaf0 in
  let vendor := decode_vendor b (ebx leaf0) (ecx leaf0) (edx leaf0) in
  let leafE := cpuid m 0x80000000 in
  let max_extended := if 0x80000000 <=? eax leafE then eax leafE else 0 in
  let leafE1 := if 0x80000001 <=? max_extended then cpuid m 0x80000001 else regs0 in
  if 1 <=? max_base then
    let leaf1 := cpuid m 1 in
    let mi := decode_model_info (eax leaf1) in
    let uarch := decode_uarch b vendor mi in
    let amd_topology_extensions := negb (N.land (ecx leafE1) 0x00400000 =? 0) in
    do (cs, core_length) <- detect_cache b m fuel max_base max_extended amd_topology_extensions vendor mi cstate0 0;
    do t <- detect_topology m fuel max_base max_extended leaf1 (Topology 0 0 0 0 core_length);
    Ok (XInfo vendor uarch (eax leaf1) (tp_thread_offset t) (tp_thread_length t) (tp_core_offset t) (tp_core_length t)
              (cs_cache cs L1I) (cs_cache cs L1D) (cs_cache cs L2) (cs_cache cs L3) (cs_cache cs L4))
  else Ok (XInfo vendor 0 0 0 0 0 0 xcache0 xcache0 xcache0 xcache0 xcache0).
