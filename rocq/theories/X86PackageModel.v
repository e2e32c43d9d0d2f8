(** Model of how x86 initialisation names the packages: src/x86/init.c:71-78,
    src/x86/linux/init.c:222-223, 475-476 (the other systems do the same). *)
From Verif Require Import Base Text X86DescriptorModel X86DecodeModel X86NameModel.
Open Scope N_scope.

(** The 48 bytes of CPUID leaves 0x80000002 to 0x80000004, or zeros. *)
Definition raw_brand_string (m : cpu) : list N :=
  let leafE := cpuid m 0x80000000 in
  let max_extended := if 0x80000000 <=? eax leafE then eax leafE else 0 in
  if 0x80000004 <=? max_extended
  then flat_map (fun i => regs_bytes (cpuid m (0x80000002 + i))) [0; 1; 2]
  else repeat 0 48.

(** [stack] is the uninitialised array brand_string; the name of a package is in zeroed
    memory. *)
Definition detect_package_name (b : build) (m : cpu) (stack : list N) : res (list N) :=
  let leaf0 := cpuid m 0 in
  let vendor := decode_vendor b (ebx leaf0) (ecx leaf0) (edx leaf0) in
  do n <- normalize_brand_string (raw_brand_string m) stack;
  do p <- format_package_name vendor (fst n) (repeat 0 48);
  Ok (fst p).
