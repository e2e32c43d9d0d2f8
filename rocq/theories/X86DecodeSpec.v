(** What the vendors document about CPUID: the encoding of caches, signatures,
    vendor strings, cache descriptors and topology levels.  Independent of the
    decoding code. *)
From Verif Require Import Base Text TopologySpec X86LinuxModel.
From Verif Require Import X86DescriptorModel X86DecodeModel.
Open Scope N_scope.

(** Bits [lo .. lo + width - 1] of a word. *)
Definition field (lo width x : N) : N := x / 2 ^ lo mod 2 ^ width.

(** [b] is the smallest exponent with [n <= 2^b]. *)
Definition log2_up (n b : N) : Prop := n <= 2 ^ b /\ forall k, n <= 2 ^ k -> b <= k.

Definition regs_ok (r : regs) : Prop := eax r < two32 /\ ebx r < two32 /\ ecx r < two32 /\ edx r < two32.

(** ** Caches: leaf 4 (Intel) and leaf 0x8000001D (AMD) *)

Definition d_type (r : regs) : N := field 0 5 (eax r).
Definition d_level (r : regs) : N := field 5 3 (eax r).
Definition d_sharing (r : regs) : N := field 14 12 (eax r) + 1.
Definition d_package_cores (r : regs) : N := field 26 6 (eax r) + 1.
Definition d_line_size (r : regs) : N := field 0 12 (ebx r) + 1.
Definition d_partitions (r : regs) : N := field 12 10 (ebx r) + 1.
Definition d_ways (r : regs) : N := field 22 10 (ebx r) + 1.
Definition d_sets (r : regs) : N := ecx r + 1.
Definition d_size (r : regs) : N := d_ways r * d_partitions r * d_line_size r * d_sets r.

(** Types: 1 data, 2 instruction, 3 unified.  [levels] is the highest level that
    the leaf is read for. *)
Definition describes (levels : N) (r : regs) (s : slot) : Prop :=
  let data_or_unified := d_type r = 1 \/ d_type r = 3 in
  match s with
  | L1I => d_level r = 1 /\ (d_type r = 2 \/ d_type r = 3)
  | L1D => d_level r = 1 /\ data_or_unified
  | L2 => d_level r = 2 /\ data_or_unified
  | L3 => d_level r = 3 /\ data_or_unified
  | L4 => d_level r = 4 /\ 4 <= levels /\ data_or_unified
  end.

(** Flags: bit 0 unified, bit 1 inclusive, bit 2 complex indexing. *)
Record cache_of (complex_indexing : bool) (r : regs) (c : xcache) : Prop := {
  of_ways : g_associativity (xc_geometry c) = d_ways r;
  of_partitions : g_partitions (xc_geometry c) = d_partitions r;
  of_line_size : g_line_size (xc_geometry c) = d_line_size r;
  of_sets : d_sets r < two32 -> g_sets (xc_geometry c) = d_sets r;
  of_size : d_size r < two32 -> g_size (xc_geometry c) = d_size r;
  of_sharing : log2_up (d_sharing r) (xc_apic_bits c);
  of_flags : forall i, N.testbit (g_flags (xc_geometry c)) i =
    match i with
    | 0 => d_type r =? 3
    | 1 => N.testbit (edx r) 1
    | 2 => complex_indexing && N.testbit (edx r) 2
    | _ => false
    end
}.

(** The cache of slot [s] after subleafs [0 .. k-1] have been read: the one of the
    last subleaf that describes it, [c0] if there is none. *)
Definition last_described (complex : bool) (levels : N) (leaf : N -> regs) (k : nat) (s : slot) (c0 c : xcache) : Prop :=
  (exists i, (i < k)%nat /\ describes levels (leaf (N.of_nat i)) s /\ cache_of complex (leaf (N.of_nat i)) c /\
     forall j, (i < j < k)%nat -> ~ describes levels (leaf (N.of_nat j)) s) \/
  ((forall i, (i < k)%nat -> ~ describes levels (leaf (N.of_nat i)) s) /\ c = c0).

(** Subleafs [0 .. k-1] have a type and subleaf [k] has none. *)
Definition ends_at (type : regs -> N) (leaf : N -> regs) (k : nat) : Prop :=
  N.of_nat k < two32 /\ type (leaf (N.of_nat k)) = 0 /\ forall i, (i < k)%nat -> type (leaf (N.of_nat i)) <> 0.

(** ** The signature in eax of leaf 1 *)

(** Intel: the extended family counts only with base family 15, the extended
    model only with base families 6 and 15.  (AMD: only with 15.) *)
Definition documented_family (sig : N) : N :=
  if field 8 4 sig =? 15 then field 8 4 sig + field 20 8 sig else field 8 4 sig.
Definition documented_model (sig : N) : N :=
  if (field 8 4 sig =? 15) || (field 8 4 sig =? 6) then field 16 4 sig * 16 + field 4 4 sig else field 4 4 sig.

(** ** Vendor strings *)

(** Four characters in a little-endian word. *)
Definition word_of (l : list N) : N :=
  match l with [a; b; c; d] => a + 256 * b + 65536 * c + 16777216 * d | _ => 0 end.

(** The vendor string is in ebx, edx, ecx of leaf 0. *)
Definition spells (s : string) (ebx ecx edx : N) : Prop :=
  length (text s) = 12%nat /\ ebx = word_of (firstn 4 (text s)) /\
  edx = word_of (firstn 4 (skipn 4 (text s))) /\ ecx = word_of (skipn 8 (text s)).

(** Vendor strings known in 64-bit builds, and the further ones of 32-bit builds. *)
Definition vendor_strings (b : build) : list (string * N) :=
  [("GenuineIntel", vendor_intel); ("AuthenticAMD", vendor_amd); ("CentaurHauls", vendor_via); ("HygonGenuine", vendor_hygon)]%string ++
  (if b_x86_32 b then
     [("GenuineTMx86", vendor_transmeta); ("TransmetaCPU", vendor_transmeta); ("Genuine  RDC", vendor_rdc);
      ("AMDisbetter!", vendor_amd); ("AMD ISBETTER", vendor_amd); ("VIA VIA VIA ", vendor_via);
      ("CyrixInstead", vendor_cyrix); ("RiseRiseRise", vendor_rise); ("Geode by NSC", vendor_nsc);
      ("SiS SiS SiS ", vendor_sis); ("NexGenDriven", vendor_nexgen); ("UMC UMC UMC ", vendor_umc);
      ("Vortex86 SoC", vendor_dmp)]%string
   else []).

(** ** Cache descriptors of leaf 2 *)

(** Intel SDM volume 2, table "Encoding of CPUID leaf 2 descriptors", or
    Application Note 485 for descriptors missing there: descriptor, cache,
    kilobytes, ways, line size.  (0x49 is documented twice, see below.) *)
Definition intel_caches : list (N * (slot * N * N * N)) :=
  [
   (0x06, (L1I, 8, 4, 32));
   (0x08, (L1I, 16, 4, 32));
   (0x09, (L1I, 32, 4, 64));
   (0x0A, (L1D, 8, 2, 32));
   (0x0C, (L1D, 16, 4, 32));
   (0x0D, (L1D, 16, 4, 64));
   (0x0E, (L1D, 24, 6, 64));
   (0x1D, (L2, 128, 2, 64));
   (0x21, (L2, 256, 8, 64));
   (0x22, (L3, 512, 4, 64));
   (0x23, (L3, 1024, 8, 64));
   (0x24, (L2, 1024, 16, 64));
   (0x25, (L3, 2048, 8, 64));
   (0x29, (L3, 4096, 8, 64));
   (0x2C, (L1D, 32, 8, 64));
   (0x30, (L1I, 32, 8, 64));
   (0x41, (L2, 128, 4, 32));
   (0x42, (L2, 256, 4, 32));
   (0x43, (L2, 512, 4, 32));
   (0x44, (L2, 1024, 4, 32));
   (0x45, (L2, 2048, 4, 32));
   (0x46, (L3, 4096, 4, 64));
   (0x47, (L3, 8192, 8, 64));
   (0x48, (L2, 3072, 12, 64));
   (0x4A, (L3, 6144, 12, 64));
   (0x4B, (L3, 8192, 16, 64));
   (0x4C, (L3, 12288, 12, 64));
   (0x4D, (L3, 16384, 16, 64));
   (0x4E, (L2, 6144, 24, 64));
   (0x60, (L1D, 16, 8, 64));
   (0x66, (L1D, 8, 4, 64));
   (0x67, (L1D, 16, 4, 64));
   (0x68, (L1D, 32, 4, 64));
   (0x78, (L2, 1024, 4, 64));
   (0x79, (L2, 128, 8, 64));
   (0x7A, (L2, 256, 8, 64));
   (0x7B, (L2, 512, 8, 64));
   (0x7C, (L2, 1024, 8, 64));
   (0x7D, (L2, 2048, 8, 64));
   (0x7F, (L2, 512, 2, 64));
   (0x80, (L2, 512, 8, 64));
   (0x82, (L2, 256, 8, 32));
   (0x83, (L2, 512, 8, 32));
   (0x84, (L2, 1024, 8, 32));
   (0x85, (L2, 2048, 8, 32));
   (0x86, (L2, 512, 4, 64));
   (0x87, (L2, 1024, 8, 64));
   (0xD0, (L3, 512, 4, 64));
   (0xD1, (L3, 1024, 4, 64));
   (0xD2, (L3, 2048, 4, 64));
   (0xD6, (L3, 1024, 8, 64));
   (0xD7, (L3, 2048, 8, 64));
   (0xD8, (L3, 4096, 8, 64));
   (0xDC, (L3, 1536, 12, 64));
   (0xDD, (L3, 3072, 12, 64));
   (0xDE, (L3, 6144, 12, 64));
   (0xE2, (L3, 2048, 16, 64));
   (0xE3, (L3, 4096, 16, 64));
   (0xE4, (L3, 8192, 16, 64));
   (0xEA, (L3, 12288, 24, 64));
   (0xEB, (L3, 18432, 24, 64));
   (0xEC, (L3, 24576, 24, 64))
  ].

(** 0x49 is a third level cache on Xeon MP (family 15, model 6) and a second level
    cache otherwise: 4 MB, 16 ways, 64-byte lines. *)
Definition intel_cache (family model descriptor : N) : option (slot * N * N * N) :=
  if descriptor =? 0x49
  then Some (if (family =? 15) && (model =? 6) then (L3, 4096, 16, 64) else (L2, 4096, 16, 64))
  else match find (fun e => fst e =? descriptor) intel_caches with Some e => Some (snd e) | None => None end.

(** The descriptors without a source: "Where does this come from?". *)
Definition unsourced (descriptor : N) : Prop := 0x39 <= descriptor <= 0x3E.

(** size = ways * sets * partitions * line size, nothing is zero, the line size is
    a power of two. *)
Definition consistent_geometry (g : geometry) : Prop :=
  g_size g = g_associativity g * g_sets g * g_partitions g * g_line_size g /\ g_size g <> 0 /\
  exists k, g_line_size g = 2 ^ k.

(** The cache of a documented descriptor. *)
Definition documented_geometry (kilobytes ways line : N) (g : geometry) : Prop :=
  g_size g = kilobytes * 1024 /\ g_associativity g = ways /\ g_line_size g = line /\ g_partitions g = 1 /\
  consistent_geometry g.

(** Leaf 2: a register with bit 31 set is reserved and holds no descriptors. *)
Definition no_valid_register (r : regs) : Prop :=
  N.testbit (eax r) 31 = true /\ N.testbit (ebx r) 31 = true /\ N.testbit (ecx r) 31 = true /\ N.testbit (edx r) 31 = true.

(** ** Microarchitectures *)

(** include/cpuinfo.h: the upper bits of a microarchitecture number are the number
    of its vendor. *)
Definition uarch_vendor (uarch : N) : N := uarch / 2 ^ 20.

(** ** Topology *)

(** Levels of leaf 0xB: subleaf [i] has a type (1 SMT, 2 core) and the number of
    low x2APIC id bits below the next level. *)
Definition t_type (r : regs) : N := field 8 8 (ecx r).
Definition t_shift (r : regs) : N := field 0 5 (eax r).

(** The sum of the shifts of the subleafs before [i], in 32 bits. *)
Fixpoint shifts_before (leaf : N -> regs) (i : nat) : N :=
  match i with O => 0 | S k => (shifts_before leaf k + t_shift (leaf (N.of_nat k))) mod two32 end.

(** The field for [type] after subleafs [0 .. k-1]: that of the last subleaf of
    this type, width 0 if there is none. *)
Definition level_field (type : N) (leaf : N -> regs) (k : nat) (offset length : N) : Prop :=
  (exists i, (i < k)%nat /\ t_type (leaf (N.of_nat i)) = type /\
     offset = shifts_before leaf i /\ length = t_shift (leaf (N.of_nat i)) /\
     forall j, (i < j < k)%nat -> t_type (leaf (N.of_nat j)) <> type) \/
  ((forall i, (i < k)%nat -> t_type (leaf (N.of_nat i)) <> type) /\ offset = 0 /\ length = 0).

(** Intel SDM: the shift of the SMT level is the width of the thread field; the
    shift of the core level is the width of thread and core fields together. *)
Definition documented_x2apic (smt_shift core_shift : N) (t : topology) : Prop :=
  tp_thread_offset t = 0 /\ tp_thread_length t = smt_shift /\
  tp_core_offset t = smt_shift /\ tp_core_offset t + tp_core_length t = core_shift.

(** Leaf 1 and the AMD leaves: hyper-threading flag, number of addressable logical
    processors in the package, x2APIC support, AMD's CmpLegacy flag, the number of
    cores of an AMD package. *)
Definition l_htt (leaf1 : regs) : bool := N.testbit (edx leaf1) 28.
Definition l_logical (leaf1 : regs) : N := field 16 8 (ebx leaf1).
Definition l_x2apic (leaf1 : regs) : bool := N.testbit (ecx leaf1) 21.
Definition l_cmp_legacy (m : cpu) : bool := N.testbit (ecx (cpuid m 0x80000001)) 1.
Definition l_amd_cores (m : cpu) : N := field 0 8 (ecx (cpuid m 0x80000008)) + 1.

(** Threads and cores, the arrangement the Intel manual shows. *)
Definition two_levels (leaf : N -> regs) : Prop :=
  t_type (leaf 0) = 1 /\ t_type (leaf 1) = 2 /\ t_type (leaf 2) = 0.

(** Leaf 0xB is not used: no x2APIC, or the leaf does not exist. *)
Definition legacy_used (leaf1 : regs) (max_base : N) : Prop := l_x2apic leaf1 = false \/ max_base < 0xB.

(** Leaf 4 ends, and leaf 0x8000001D ends. *)
Definition leaves_end (m : cpu) (fuel : nat) : Prop :=
  (exists k, (k < fuel)%nat /\ ends_at d_type (cpuidex m 4) k) /\
  (exists k, (k < fuel)%nat /\ ends_at d_type (cpuidex m 0x8000001D) k).

(** The leaves that give the topology make sense: threads and cores in leaf 0xB
    within 32 bits; or, without it, leaf 4 does not claim more cores than leaf 1
    claims logical processors. *)
Definition sane_topology (m : cpu) : Prop :=
  let leaf1 := cpuid m 1 in
  (l_x2apic leaf1 = true /\ 0xB <= eax (cpuid m 0) /\ two_levels (cpuidex m 0xB) /\
     t_shift (cpuidex m 0xB 0) + t_shift (cpuidex m 0xB 1) <= 32) \/
  (legacy_used leaf1 (eax (cpuid m 0)) /\
     (l_htt leaf1 = false \/ (0x80000008 <= eax (cpuid m 0x80000000) /\ l_cmp_legacy m = true) \/
      l_logical leaf1 = 0 \/ forall i, d_package_cores (cpuidex m 4 i) <= l_logical leaf1)).

(** Processors and their microarchitectures by vendor, family and model, from the
    table of signatures in Intel SDM volume 4 and AMD's revision guides.  Only
    microarchitectures that include/cpuinfo.h has a number for, and only
    processors with 64-bit mode. *)
Definition documented_processors : list (N * N * list N * N) :=
  [(* Intel *)
   (1, 0x06, [0x0F], 0x00100203);                    (* Merom, Conroe, Kentsfield, Woodcrest, Clovertown *)
   (1, 0x06, [0x16], 0x00100203);                    (* Merom-L, Conroe-L *)
   (1, 0x06, [0x17], 0x00100204);                    (* Penryn, Wolfdale, Yorkfield, Harpertown *)
   (1, 0x06, [0x1D], 0x00100204);                    (* Dunnington *)
   (1, 0x06, [0x1A; 0x1E; 0x1F; 0x2E], 0x00100205);  (* Nehalem *)
   (1, 0x06, [0x25; 0x2C; 0x2F], 0x00100205);        (* Westmere *)
   (1, 0x06, [0x2A; 0x2D], 0x00100206);              (* Sandy Bridge *)
   (1, 0x06, [0x3A; 0x3E], 0x00100207);              (* Ivy Bridge *)
   (1, 0x06, [0x3C; 0x45; 0x46], 0x00100208);        (* Haswell *)
   (1, 0x06, [0x3F], 0x00100208);                    (* Haswell-E, Haswell-EP *)
   (1, 0x06, [0x3D; 0x47], 0x00100209);              (* Broadwell *)
   (1, 0x06, [0x4F; 0x56], 0x00100209);              (* Broadwell-E, Broadwell-DE *)
   (1, 0x06, [0x4E; 0x5E], 0x0010020A);              (* Sky Lake *)
   (1, 0x06, [0x55], 0x0010020A);                    (* Sky Lake, Cascade Lake, Cooper Lake servers *)
   (1, 0x06, [0x8E; 0x9E], 0x0010020A);              (* Kaby Lake, Coffee Lake, Whiskey Lake *)
   (1, 0x06, [0xA5; 0xA6], 0x0010020A);              (* Comet Lake *)
   (1, 0x06, [0x66], 0x0010020B);                    (* Cannon Lake *)
   (1, 0x06, [0x7D; 0x7E], 0x0010020C);              (* Ice Lake *)
   (1, 0x06, [0x6A; 0x6C], 0x0010020C);              (* Ice Lake servers *)
   (1, 0x06, [0x1C; 0x26], 0x00100400);              (* Atom on 45 nm *)
   (1, 0x06, [0x27; 0x35; 0x36], 0x00100401);        (* Atom on 32 nm *)
   (1, 0x06, [0x37; 0x4A; 0x4D; 0x5A; 0x5D], 0x00100402);  (* Silvermont *)
   (1, 0x06, [0x4C], 0x00100403);                    (* Airmont *)
   (1, 0x06, [0x5C; 0x5F], 0x00100404);              (* Goldmont *)
   (1, 0x06, [0x7A], 0x00100405);                    (* Goldmont Plus *)
   (1, 0x06, [0x57], 0x00100502);                    (* Knights Landing *)
   (1, 0x06, [0x85], 0x00100504);                    (* Knights Mill *)
   (1, 0x0F, [0x03; 0x04; 0x06], 0x00100301);        (* Pentium 4 on 90 and 65 nm *)
   (* AMD *)
   (2, 0x0F, [0x04; 0x05; 0x07; 0x08; 0x0B; 0x0C; 0x0E; 0x0F; 0x21; 0x23; 0x41; 0x43; 0x48; 0x4B], 0x00200103);
   (2, 0x10, [0x02; 0x04; 0x05; 0x06; 0x08; 0x09; 0x0A], 0x00200104);  (* Barcelona, Shanghai, Istanbul, ... *)
   (2, 0x12, [0x01], 0x00200104);                    (* Llano *)
   (2, 0x14, [0x01; 0x02], 0x00200201);              (* Ontario, Zacate *)
   (2, 0x15, [0x01], 0x00200105);                    (* Zambezi, Interlagos *)
   (2, 0x15, [0x02; 0x10; 0x13], 0x00200106);        (* Vishera, Trinity, Richland *)
   (2, 0x15, [0x30; 0x38], 0x00200107);              (* Kaveri, Godavari *)
   (2, 0x15, [0x60; 0x65; 0x70], 0x00200108);        (* Carrizo, Bristol Ridge, Stoney Ridge *)
   (2, 0x16, [0x00], 0x00200202);                    (* Kabini *)
   (2, 0x16, [0x30], 0x00200203);                    (* Beema, Mullins *)
   (2, 0x17, [0x01; 0x08; 0x11; 0x18], 0x00200109);  (* Naples, Pinnacle Ridge, Raven Ridge, Picasso *)
   (2, 0x17, [0x31; 0x47; 0x60; 0x68; 0x71; 0x90], 0x0020010A);  (* Rome, Xbox, Renoir, Lucienne, Matisse, Van Gogh *)
   (2, 0x19, [0x01; 0x08; 0x21; 0x44; 0x50], 0x0020010B);  (* Milan, Chagall, Vermeer, Rembrandt, Cezanne *)
   (2, 0x19, [0x11; 0x61; 0x74; 0x75; 0x78; 0xA0], 0x0020010C);  (* Genoa, Raphael, Phoenix, Bergamo *)
   (2, 0x1A, [0x02; 0x11; 0x24; 0x44; 0x60; 0x70], 0x0020010D)  (* Turin, Strix Point, Granite Ridge, ... *)
  ].
Definition documented_uarch (vendor family model uarch : N) : Prop :=
  exists models, In (vendor, family, models, uarch) documented_processors /\ In model models.

(** The extended fields are used as documented or are zero. *)
Definition regular_signature (sig : N) : Prop :=
  (field 8 4 sig = 15 \/ field 20 8 sig = 0) /\ (field 8 4 sig = 15 \/ field 8 4 sig = 6 \/ field 16 4 sig = 0).

(** ** Which leaves may be read *)

(** A leaf is there if it is not above the largest one of its range, and leaf
    0x8000001D only with AMD's topology extensions. *)
Definition amd_extensions (m : cpu) : Prop :=
  0x80000001 <= eax (cpuid m 0x80000000) /\ N.testbit (ecx (cpuid m 0x80000001)) 22 = true.
Definition leaf_there (m : cpu) (leaf : N) : Prop :=
  (leaf < 0x80000000 -> leaf <= eax (cpuid m 0)) /\
  (0x80000000 < leaf -> leaf <= eax (cpuid m 0x80000000)) /\
  (leaf = 0x8000001D -> amd_extensions m).

(** The cache of [s] is as subleaf [i] of [leaf] says, if that is the last one
    before the end that describes it. *)
Definition caches_follow (complex : bool) (levels : N) (leaf : N -> regs) (cache : slot -> xcache) : Prop :=
  exists k, ends_at d_type leaf k /\ forall i s, (i < k)%nat -> describes levels (leaf (N.of_nat i)) s ->
    (forall j, (i < j < k)%nat -> ~ describes levels (leaf (N.of_nat j)) s) -> cache_of complex (leaf (N.of_nat i)) (cache s).

Definition xi_cache (x : xinfo) (s : slot) : xcache :=
  match s with L1I => xi_l1i x | L1D => xi_l1d x | L2 => xi_l2 x | L3 => xi_l3 x | L4 => xi_l4 x end.
