(** Model of src/x86/cache/descriptor.c: the meaning of the one-byte cache
    descriptors of CPUID leaf 2.  Definitions only.  *)
From Verif Require Import Base TopologySpec X86LinuxModel.
Open Scope N_scope.

(** The caches of struct cpuinfo_x86_caches, src/x86/api.h:26-34, and the TLBs of
    struct cpuinfo_x86_processor, src/x86/api.h:62-76. *)
Inductive slot := L1I | L1D | L2 | L3 | L4.
Inductive tlb_slot :=
| ITLB_4KB | ITLB_2MB | ITLB_4MB | DTLB0_4KB | DTLB0_2MB | DTLB0_4MB
| DTLB_4KB | DTLB_2MB | DTLB_4MB | DTLB_1GB | STLB2_4KB | STLB2_2MB | STLB2_1GB.

(** struct cpuinfo_tlb, include/cpuinfo.h:148-152. *)
Record tlb := Tlb { tlb_entries : N; tlb_associativity : N; tlb_pages : N }.

Scheme Equality for slot.
Scheme Equality for tlb_slot.

(** struct cpuinfo_x86_caches and the TLBs as one state. *)
Record cstate := CState {
  cs_cache : slot -> xcache;
  cs_tlb : tlb_slot -> tlb;
  cs_trace : N * N;
  cs_prefetch : N
}.

Definition set_cache (s : slot) (c : xcache) (cs : cstate) : cstate :=
  CState (fun s' => if slot_beq s s' then c else cs_cache cs s') (cs_tlb cs) (cs_trace cs) (cs_prefetch cs).
Definition set_tlb (s : tlb_slot) (t : tlb) (cs : cstate) : cstate :=
  CState (cs_cache cs) (fun s' => if tlb_slot_beq s s' then t else cs_tlb cs s') (cs_trace cs) (cs_prefetch cs).

(** One assignment of the switch. *)
Inductive action :=
| SetCache (s : slot) (c : xcache)
| SetTlb (s : tlb_slot) (t : tlb)
| SetTrace (uops associativity : N)
| SetPrefetch (size : N).

Definition act (cs : cstate) (a : action) : cstate :=
  match a with
  | SetCache s c => set_cache s c cs
  | SetTlb s t => set_tlb s t cs
  | SetTrace u w => CState (cs_cache cs) (cs_tlb cs) (u, w) (cs_prefetch cs)
  | SetPrefetch n => CState (cs_cache cs) (cs_tlb cs) (cs_trace cs) n
  end.

(** A designated initializer without .apic_bits: that field is zero. *)
Definition descriptor_cache (size associativity sets partitions line_size flags : N) : xcache :=
  XCache (Geometry size associativity sets partitions line_size flags) 0.

(** Vendor numbers, include/cpuinfo.h:156-307. *)
Definition vendor_unknown : N := 0.
Definition vendor_intel : N := 1.
Definition vendor_amd : N := 2.
Definition vendor_via : N := 11.
Definition vendor_hygon : N := 16.
Definition vendor_rdc : N := 32.
Definition vendor_dmp : N := 33.
Definition vendor_transmeta : N := 50.
Definition vendor_cyrix : N := 51.
Definition vendor_rise : N := 52.
Definition vendor_nsc : N := 53.
Definition vendor_sis : N := 54.
Definition vendor_nexgen : N := 55.
Definition vendor_umc : N := 56.

(** The build: a 32-bit x86 build (CPUINFO_ARCH_X86) or a 64-bit one, for Android
    or not. *)
Record build := Build { b_x86_32 : bool; b_android : bool }.

(** The cases that depend on nothing but the descriptor; each line cites the
    lines of src/x86/cache/descriptor.c. *)
Definition descriptor_table : list (N * list action) :=
  [
   (* 36-49 *) (0x01, [SetTlb ITLB_4KB (Tlb 32 4 4096)]);
   (* 50-63 *) (0x02, [SetTlb ITLB_4MB (Tlb 2 2 4194304)]);
   (* 64-76 *) (0x03, [SetTlb DTLB_4KB (Tlb 64 4 4096)]);
   (* 77-89 *) (0x04, [SetTlb DTLB_4MB (Tlb 8 4 4194304)]);
   (* 90-102 *) (0x05, [SetTlb DTLB_4MB (Tlb 32 4 4194304)]);
   (* 103-118 *) (0x06, [SetCache L1I (descriptor_cache (8 * 1024) 4 64 1 32 0)]);
   (* 119-134 *) (0x08, [SetCache L1I (descriptor_cache (16 * 1024) 4 128 1 32 0)]);
   (* 135-150 *) (0x09, [SetCache L1I (descriptor_cache (32 * 1024) 4 128 1 64 0)]);
   (* 151-166 *) (0x0A, [SetCache L1D (descriptor_cache (8 * 1024) 2 128 1 32 0)]);
   (* 167-180 *) (0x0B, [SetTlb ITLB_4MB (Tlb 4 4 4194304)]);
   (* 181-196 *) (0x0C, [SetCache L1D (descriptor_cache (16 * 1024) 4 128 1 32 0)]);
   (* 197-212 *) (0x0D, [SetCache L1D (descriptor_cache (16 * 1024) 4 64 1 64 0)]);
   (* 213-228 *) (0x0E, [SetCache L1D (descriptor_cache (24 * 1024) 6 64 1 64 0)]);
   (* 229-243 *) (0x1D, [SetCache L2 (descriptor_cache (128 * 1024) 2 1024 1 64 2)]);
   (* 244-260 *) (0x21, [SetCache L2 (descriptor_cache (256 * 1024) 8 512 1 64 2)]);
   (* 261-277 *) (0x22, [SetCache L3 (descriptor_cache (512 * 1024) 4 2048 1 64 2)]);
   (* 278-294 *) (0x23, [SetCache L3 (descriptor_cache (1024 * 1024) 8 2048 1 64 2)]);
   (* 295-309 *) (0x24, [SetCache L2 (descriptor_cache (1024 * 1024) 16 1024 1 64 2)]);
   (* 310-326 *) (0x25, [SetCache L3 (descriptor_cache (2 * 1024 * 1024) 8 4096 1 64 2)]);
   (* 327-343 *) (0x29, [SetCache L3 (descriptor_cache (4 * 1024 * 1024) 8 8192 1 64 2)]);
   (* 344-359 *) (0x2C, [SetCache L1D (descriptor_cache (32 * 1024) 8 64 1 64 0)]);
   (* 360-375 *) (0x30, [SetCache L1I (descriptor_cache (32 * 1024) 8 64 1 64 0)]);
   (* 376-386 *) (0x39, [SetCache L2 (descriptor_cache (128 * 1024) 4 512 1 64 2)]);
   (* 387-397 *) (0x3A, [SetCache L2 (descriptor_cache (192 * 1024) 6 512 1 64 2)]);
   (* 398-408 *) (0x3B, [SetCache L2 (descriptor_cache (128 * 1024) 2 1024 1 64 2)]);
   (* 409-419 *) (0x3C, [SetCache L2 (descriptor_cache (256 * 1024) 4 1024 1 64 2)]);
   (* 420-430 *) (0x3D, [SetCache L2 (descriptor_cache (384 * 1024) 6 1024 1 64 2)]);
   (* 431-441 *) (0x3E, [SetCache L2 (descriptor_cache (512 * 1024) 4 2048 1 64 2)]);
   (* 442-451 *) (0x40, []);
   (* 452-468 *) (0x41, [SetCache L2 (descriptor_cache (128 * 1024) 4 1024 1 32 2)]);
   (* 469-485 *) (0x42, [SetCache L2 (descriptor_cache (256 * 1024) 4 2048 1 32 2)]);
   (* 486-502 *) (0x43, [SetCache L2 (descriptor_cache (512 * 1024) 4 4096 1 32 2)]);
   (* 503-519 *) (0x44, [SetCache L2 (descriptor_cache (1024 * 1024) 4 8192 1 32 2)]);
   (* 520-536 *) (0x45, [SetCache L2 (descriptor_cache (2 * 1024 * 1024) 4 16384 1 32 2)]);
   (* 537-553 *) (0x46, [SetCache L3 (descriptor_cache (4 * 1024 * 1024) 4 16384 1 64 2)]);
   (* 554-570 *) (0x47, [SetCache L3 (descriptor_cache (8 * 1024 * 1024) 8 16384 1 64 2)]);
   (* 571-587 *) (0x48, [SetCache L2 (descriptor_cache (3 * 1024 * 1024) 12 4096 1 64 2)]);
   (* 621-637 *) (0x4A, [SetCache L3 (descriptor_cache (6 * 1024 * 1024) 12 8192 1 64 2)]);
   (* 638-654 *) (0x4B, [SetCache L3 (descriptor_cache (8 * 1024 * 1024) 16 8192 1 64 2)]);
   (* 655-671 *) (0x4C, [SetCache L3 (descriptor_cache (12 * 1024 * 1024) 12 16384 1 64 2)]);
   (* 672-688 *) (0x4D, [SetCache L3 (descriptor_cache (16 * 1024 * 1024) 16 16384 1 64 2)]);
   (* 689-705 *) (0x4E, [SetCache L2 (descriptor_cache (6 * 1024 * 1024) 24 4096 1 64 2)]);
   (* 706-721 *) (0x4F, [SetTlb ITLB_4KB (Tlb 32 32 4096)]);
   (* 722-735 *) (0x50, [SetTlb ITLB_4MB (Tlb 64 64 6295552); SetTlb ITLB_2MB (Tlb 64 64 6295552); SetTlb ITLB_4KB (Tlb 64 64 6295552)]);
   (* 736-749 *) (0x51, [SetTlb ITLB_4MB (Tlb 128 128 6295552); SetTlb ITLB_2MB (Tlb 128 128 6295552); SetTlb ITLB_4KB (Tlb 128 128 6295552)]);
   (* 750-763 *) (0x52, [SetTlb ITLB_4MB (Tlb 256 256 6295552); SetTlb ITLB_2MB (Tlb 256 256 6295552); SetTlb ITLB_4KB (Tlb 256 256 6295552)]);
   (* 764-777 *) (0x55, [SetTlb ITLB_4MB (Tlb 7 7 6291456); SetTlb ITLB_2MB (Tlb 7 7 6291456)]);
   (* 778-790 *) (0x56, [SetTlb DTLB0_4MB (Tlb 16 4 4194304)]);
   (* 791-803 *) (0x57, [SetTlb DTLB0_4KB (Tlb 16 4 4096)]);
   (* 804-816 *) (0x59, [SetTlb DTLB0_4KB (Tlb 16 16 4096)]);
   (* 817-830 *) (0x5A, [SetTlb DTLB0_4MB (Tlb 32 4 6291456); SetTlb DTLB0_2MB (Tlb 32 4 6291456)]);
   (* 831-844 *) (0x5B, [SetTlb DTLB_4MB (Tlb 64 64 4198400); SetTlb DTLB_4KB (Tlb 64 64 4198400)]);
   (* 845-857 *) (0x5C, [SetTlb DTLB_4MB (Tlb 128 128 4198400); SetTlb DTLB_4KB (Tlb 128 128 4198400)]);
   (* 858-870 *) (0x5D, [SetTlb DTLB_4MB (Tlb 256 256 4198400); SetTlb DTLB_4KB (Tlb 256 256 4198400)]);
   (* 871-884 *) (0x60, [SetCache L1D (descriptor_cache (16 * 1024) 8 32 1 64 0)]);
   (* 885-896 *) (0x61, [SetTlb ITLB_4KB (Tlb 48 48 4096)]);
   (* 897-914 *) (0x63, [SetTlb DTLB_4MB (Tlb 32 4 6291456); SetTlb DTLB_2MB (Tlb 32 4 6291456); SetTlb DTLB_1GB (Tlb 4 4 1073741824)]);
   (* 915-927 *) (0x64, [SetTlb DTLB_4KB (Tlb 512 4 4096)]);
   (* 928-941 *) (0x66, [SetCache L1D (descriptor_cache (8 * 1024) 4 32 1 64 0)]);
   (* 942-955 *) (0x67, [SetCache L1D (descriptor_cache (16 * 1024) 4 64 1 64 0)]);
   (* 956-969 *) (0x68, [SetCache L1D (descriptor_cache (32 * 1024) 4 128 1 64 0)]);
   (* 970-985 *) (0x6A, [SetTlb DTLB_4KB (Tlb 64 8 4096)]);
   (* 986-997 *) (0x6B, [SetTlb DTLB_4KB (Tlb 256 8 4096)]);
   (* 998-1009 *) (0x6C, [SetTlb DTLB_4MB (Tlb 128 8 6291456); SetTlb DTLB_2MB (Tlb 128 8 6291456)]);
   (* 1010-1021 *) (0x6D, [SetTlb DTLB_1GB (Tlb 16 16 1073741824)]);
   (* 1050-1061 *) (0x71, [SetTrace (16 * 1024) 8]);
   (* 1062-1073 *) (0x72, [SetTrace (32 * 1024) 8]);
   (* 1074-1080 *) (0x73, [SetTrace (64 * 1024) 8]);
   (* 1081-1093 *) (0x76, [SetTlb ITLB_4MB (Tlb 8 8 6291456); SetTlb ITLB_2MB (Tlb 8 8 6291456)]);
   (* 1094-1110 *) (0x78, [SetCache L2 (descriptor_cache (1024 * 1024) 4 4096 1 64 2)]);
   (* 1111-1127 *) (0x79, [SetCache L2 (descriptor_cache (128 * 1024) 8 256 1 64 2)]);
   (* 1128-1144 *) (0x7A, [SetCache L2 (descriptor_cache (256 * 1024) 8 512 1 64 2)]);
   (* 1145-1161 *) (0x7B, [SetCache L2 (descriptor_cache (512 * 1024) 8 1024 1 64 2)]);
   (* 1162-1178 *) (0x7C, [SetCache L2 (descriptor_cache (1024 * 1024) 8 2048 1 64 2)]);
   (* 1179-1195 *) (0x7D, [SetCache L2 (descriptor_cache (2 * 1024 * 1024) 8 4096 1 64 2)]);
   (* 1196-1212 *) (0x7F, [SetCache L2 (descriptor_cache (512 * 1024) 2 4096 1 64 2)]);
   (* 1248-1264 *) (0x82, [SetCache L2 (descriptor_cache (256 * 1024) 4 2048 1 32 2)]);
   (* 1265-1281 *) (0x83, [SetCache L2 (descriptor_cache (512 * 1024) 8 2048 1 32 2)]);
   (* 1282-1298 *) (0x84, [SetCache L2 (descriptor_cache (1024 * 1024) 8 4096 1 32 2)]);
   (* 1299-1315 *) (0x85, [SetCache L2 (descriptor_cache (2 * 1024 * 1024) 8 8192 1 32 2)]);
   (* 1316-1332 *) (0x86, [SetCache L2 (descriptor_cache (512 * 1024) 4 2048 1 64 2)]);
   (* 1333-1349 *) (0x87, [SetCache L2 (descriptor_cache (1024 * 1024) 8 2048 1 64 2)]);
   (* 1350-1360 *) (0xA0, [SetTlb DTLB_4KB (Tlb 32 32 4096)]);
   (* 1361-1374 *) (0xB0, [SetTlb ITLB_4KB (Tlb 128 4 4096)]);
   (* 1375-1393 *) (0xB1, [SetTlb ITLB_2MB (Tlb 8 4 6291456); SetTlb ITLB_4MB (Tlb 4 4 6291456)]);
   (* 1394-1407 *) (0xB2, [SetTlb ITLB_4KB (Tlb 64 4 4096)]);
   (* 1408-1420 *) (0xB3, [SetTlb DTLB_4KB (Tlb 128 4 4096)]);
   (* 1421-1433 *) (0xB4, [SetTlb DTLB_4KB (Tlb 256 4 4096)]);
   (* 1434-1445 *) (0xB5, [SetTlb ITLB_4KB (Tlb 64 8 4096)]);
   (* 1446-1457 *) (0xB6, [SetTlb ITLB_4KB (Tlb 128 8 4096)]);
   (* 1458-1470 *) (0xBA, [SetTlb ITLB_4KB (Tlb 64 4 4096)]);
   (* 1471-1484 *) (0xC0, [SetTlb ITLB_4MB (Tlb 8 4 4198400); SetTlb ITLB_4KB (Tlb 8 4 4198400)]);
   (* 1485-1496 *) (0xC1, [SetTlb STLB2_2MB (Tlb 1024 8 2101248); SetTlb STLB2_4KB (Tlb 1024 8 2101248)]);
   (* 1497-1508 *) (0xC2, [SetTlb DTLB_2MB (Tlb 16 4 2101248); SetTlb DTLB_4KB (Tlb 16 4 2101248)]);
   (* 1509-1526 *) (0xC3, [SetTlb STLB2_2MB (Tlb 1536 6 2101248); SetTlb STLB2_4KB (Tlb 1536 6 2101248); SetTlb STLB2_1GB (Tlb 16 4 1073741824)]);
   (* 1527-1538 *) (0xC4, [SetTlb DTLB_4MB (Tlb 32 4 6291456); SetTlb DTLB_2MB (Tlb 32 4 6291456)]);
   (* 1539-1552 *) (0xCA, [SetTlb STLB2_4KB (Tlb 512 4 4096)]);
   (* 1553-1569 *) (0xD0, [SetCache L3 (descriptor_cache (512 * 1024) 4 2048 1 64 2)]);
   (* 1570-1586 *) (0xD1, [SetCache L3 (descriptor_cache (1024 * 1024) 4 4096 1 64 2)]);
   (* 1587-1603 *) (0xD2, [SetCache L3 (descriptor_cache (2 * 1024 * 2014) 4 8192 1 64 2)]);
   (* 1604-1620 *) (0xD6, [SetCache L3 (descriptor_cache (1024 * 1024) 8 2048 1 64 2)]);
   (* 1621-1637 *) (0xD7, [SetCache L3 (descriptor_cache (2 * 1024 * 1024) 8 4096 1 64 2)]);
   (* 1638-1654 *) (0xD8, [SetCache L3 (descriptor_cache (4 * 1024 * 1024) 8 8192 1 64 2)]);
   (* 1655-1671 *) (0xDC, [SetCache L3 (descriptor_cache (3 * 512 * 1024) 12 2048 1 64 2)]);
   (* 1672-1688 *) (0xDD, [SetCache L3 (descriptor_cache (3 * 1024 * 1024) 12 4096 1 64 2)]);
   (* 1689-1705 *) (0xDE, [SetCache L3 (descriptor_cache (6 * 1024 * 1024) 12 8192 1 64 2)]);
   (* 1706-1722 *) (0xE2, [SetCache L3 (descriptor_cache (2 * 1024 * 1024) 16 2048 1 64 2)]);
   (* 1723-1739 *) (0xE3, [SetCache L3 (descriptor_cache (4 * 1024 * 1024) 16 4096 1 64 2)]);
   (* 1740-1756 *) (0xE4, [SetCache L3 (descriptor_cache (8 * 1024 * 1024) 16 8192 1 64 2)]);
   (* 1757-1773 *) (0xEA, [SetCache L3 (descriptor_cache (12 * 1024 * 1024) 24 8192 1 64 2)]);
   (* 1774-1790 *) (0xEB, [SetCache L3 (descriptor_cache (18 * 1024 * 1024) 24 12288 1 64 2)]);
   (* 1791-1807 *) (0xEC, [SetCache L3 (descriptor_cache (24 * 1024 * 1024) 24 16384 1 64 2)]);
   (* 1808-1816 *) (0xF0, [SetPrefetch 64]);
   (* 1817-1825 *) (0xF1, [SetPrefetch 128])
  ].

(** The switch, src/x86/cache/descriptor.c:36-1826.  [family] and [model] are
    those of the CPUID signature. *)
Definition descriptor_actions (b : build) (vendor family model descriptor : N) : list action :=
  let cyrix := (vendor =? vendor_cyrix) || (vendor =? vendor_nsc) in
  if descriptor =? 0x49 then (* 588-620 *)
    let c := descriptor_cache (4 * 1024 * 1024) 16 4096 1 64 2 in
    if (vendor =? vendor_intel) && (model =? 0x06) && (family =? 0x0F) then [SetCache L3 c] else [SetCache L2 c]
  else if descriptor =? 0x70 then (* 1022-1049 *)
    if b_x86_32 b && cyrix then [SetTlb ITLB_4KB (Tlb 32 4 4096); SetTlb DTLB_4KB (Tlb 32 4 4096)]
    else [SetTrace (12 * 1024) 8]
  else if descriptor =? 0x80 then (* 1213-1247 *)
    if b_x86_32 b && negb (b_android b) && cyrix then
      let c := descriptor_cache (16 * 1024) 4 256 1 16 1 in [SetCache L1D c; SetCache L1I c]
    else [SetCache L2 (descriptor_cache (512 * 1024) 8 1024 1 64 2)]
  else match find (fun e => fst e =? descriptor) descriptor_table with
       | Some e => snd e
       | None => []
       end.

Definition decode_cache_descriptor (b : build) (vendor family model descriptor : N) (cs : cstate) : cstate :=
  fold_left act (descriptor_actions b vendor family model descriptor) cs.
