(** Model of src/arm/linux/aarch64-isa.c, src/arm/linux/aarch32-isa.c and
    src/arm/linux/hwcap.c, of the lines of src/arm/linux/init.c that use them, and of the
    getters in include/cpuinfo.h.  Definitions only; log messages are left out. *)
From Verif Require Import Base ArmMidrModel ArmClustersModel ArmClusterMidrModel.
Open Scope N_scope.

(** The flags of struct cpuinfo_arm_isa, include/cpuinfo.h:1665-1715. *)
Inductive flag :=
  | F_thumb | F_thumb2 | F_thumbee | F_jazelle | F_armv5e | F_armv6 | F_armv6k | F_armv7 | F_armv7mp | F_armv8 | F_idiv
  | F_vfpv2 | F_vfpv3 | F_d32 | F_fp16 | F_fma | F_wmmx | F_wmmx2 | F_neon
  | F_atomics | F_bf16 | F_sve | F_sve2 | F_i8mm | F_sme | F_sme2 | F_sme2p1 | F_sme_i16i32 | F_sme_bi32i32
  | F_sme_b16b16 | F_sme_f16f16
  | F_rdm | F_fp16arith | F_dot | F_jscvt | F_fcma | F_fhm | F_aes | F_sha1 | F_sha2 | F_pmull | F_crc32.
Scheme Equality for flag.

(** The record, without svelen. *)
Definition isa := flag -> bool.
Definition no_isa : isa := fun _ => false.
(** "isa->f = v". *)
Definition assign (f : flag) (v : bool) (i : isa) : isa := fun g => if flag_beq g f then v else i g.
(** "if (c) isa->f = true". *)
Definition set_if (c : bool) (f : flag) (i : isa) : isa := if c then assign f true i else i.
(** "word & mask" as a condition. *)
Definition tests (word mask : N) : bool := negb (N.land word mask =? 0).

(** The implementer and part fields, and a switch on them. *)
Definition core_of (midr : N) : N := N.land midr (N.lor implementer_mask part_mask).
Definition one_of_cores (cores : list N) (midr : N) : bool := existsb (N.eqb (core_of midr)) cores.

(** src/arm/api.h:42-76; the others are defined with the clusters and the caches. *)
Definition series_sc : N := 26.
Definition series_unisoc_t : N := 29.
Definition series_unisoc_ums : N := 30.
Definition is_chip (series model : N) (chip : chipset) : bool := (ch_series chip =? series) && (ch_model chip =? model).

(** ** src/arm/linux/aarch64-isa.c *)

(** Lines 58-74 and 107-120. *)
Definition fp16_cores64 : list N :=
  [0x4100D050; 0x4100D060; 0x4100D0A0; 0x4100D0B0; 0x4100D0C0; 0x4100D0D0; 0x4100D0E0; 0x4100D400; 0x4100D490; 0x4100D4F0;
   0x4800D400; 0x51008020; 0x51008030; 0x51008040; 0x51008050; 0x53000030; 0x53000040].
Definition dot_cores64 : list N :=
  [0x4100D060; 0x4100D0B0; 0x4100D0C0; 0x4100D0D0; 0x4100D0E0; 0x4100D400; 0x4100D490; 0x4100D4A0; 0x4100D4F0; 0x4800D400;
   0x51008040; 0x51008050; 0x53000030; 0x53000040].

(** Lines 49-95: FP16 arithmetic and RDM. *)
Definition decode_fp16_64 (features midr : N) (chip : chipset) (i : isa) : isa :=
  if is_chip series_exynos 9810 chip then i
  else if one_of_cores fp16_cores64 midr then assign F_rdm true (assign F_fp16arith true i)
  else
    let i := set_if (N.land features (N.lor 0x200 0x400) =? N.lor 0x200 0x400) F_fp16arith i in
    set_if (tests features 0x1000) F_rdm i.
(** Lines 106-135. *)
Definition decode_dot_64 (features midr : N) (i : isa) : isa :=
  if one_of_cores dot_cores64 midr then assign F_dot true i
  else if core_of midr =? 0x4100D050 then assign F_dot (1 <=? midr_get_variant midr) i
  else if core_of midr =? 0x4100D0A0 then assign F_dot (2 <=? midr_get_variant midr) i
  else set_if (tests features 0x100000) F_dot i.

Definition set_all (word : N) (l : list (N * flag)) (i : isa) : isa :=
  fold_left (fun i e => set_if (tests word (fst e)) (snd e) i) l i.

(** Lines 8-194; [prctl] is what prctl(PR_SVE_GET_VL) returns. *)
Definition decode_isa64 (features features2 midr : N) (chip : chipset) (i : isa) : isa :=
  let i := set_all features [(0x8, F_aes); (0x10, F_pmull); (0x20, F_sha1); (0x40, F_sha2); (0x80, F_crc32); (0x100, F_atomics)] i in
  let i := decode_fp16_64 features midr chip i in
  let i := set_if (tests features2 0x2000) F_i8mm i in
  let i := decode_dot_64 features midr i in
  let i := set_all features [(0x2000, F_jscvt); (0x2000, F_jscvt); (0x4000, F_fcma); (0x400000, F_sve)] i in
  let i := set_all features2 [(0x2, F_sve2); (0x800000, F_sme); (0x2000000000, F_sme2); (0x4000000000, F_sme2p1);
                              (0x8000000000, F_sme_i16i32); (0x10000000000, F_sme_bi32i32); (0x20000000000, F_sme_b16b16);
                              (0x40000000000, F_sme_f16f16); (N.lor 0x4000 0x1000, F_bf16)] i in
  set_if (tests features 0x800000) F_fhm i.
Definition sve_length_of (prctl : Z) : N := if (prctl <? 0)%Z then 0 else N.land (Z.to_N prctl) 0xFFFF.

(** ** src/arm/linux/aarch32-isa.c *)

(** src/arm/midr.h:100-138. *)
Definition is_arm1156 (midr : N) : bool := core_of midr =? core_of midr_arm1156.
Definition is_arm11 (midr : N) : bool := N.land midr (N.lor implementer_mask 0xF000) =? 0x4100B000.
Definition is_cortex_a9 (midr : N) : bool := core_of midr =? core_of midr_cortex_a9.
Definition is_scorpion (midr : N) : bool := one_of_cores [0x510000F0; 0x510002D0] midr.
Definition is_krait (midr : N) : bool := one_of_cores [0x510004D0; 0x510006F0] midr.

(** Lines 88-118 and 151-176. *)
Definition fp16_cores32 : list N :=
  [0x4100D050; 0x4100D0A0; 0x4100D0B0; 0x4100D0C0; 0x4100D0D0; 0x4100D0E0; 0x4100D400; 0x4100D410; 0x4100D440; 0x4100D460;
   0x4100D470; 0x4100D480; 0x4100D490; 0x4100D4D0; 0x4100D4E0; 0x4100D4F0; 0x4800D400; 0x51008020; 0x51008030; 0x51008040;
   0x51008050; 0x53000030; 0x53000040].
Definition dot_cores32 : list N :=
  [0x4100D0B0; 0x4100D0C0; 0x4100D0D0; 0x4100D0E0; 0x4100D400; 0x4100D410; 0x4100D440; 0x4100D460; 0x4100D470; 0x4100D480;
   0x4100D490; 0x4100D4D0; 0x4100D4E0; 0x4100D4F0; 0x4800D400; 0x51008040; 0x51008050; 0x53000030; 0x53000040].

(** What the compiler was told, and what the coprocessors answer: the tests of lines 261
    and 320, read_wcid and read_fpsid. *)
Record target := Target { tg_armv7 : bool; tg_armv8 : bool; tg_wcid : N; tg_fpsid : N }.

(** Lines 41-187. *)
Definition decode_armv8 (midr : N) (chip : chipset) (i : isa) : isa :=
  let i := fold_left (fun i f => assign f true i)
             [F_armv5e; F_armv6; F_armv6k; F_armv7; F_armv7mp; F_armv8; F_thumb; F_thumb2; F_idiv; F_vfpv3; F_d32; F_fp16; F_fma;
              F_neon] i in
  let i := if is_chip series_exynos 9810 chip then i
           else if one_of_cores fp16_cores32 midr then assign F_rdm true (assign F_fp16arith true i) else i in
  if is_chip series_sc 9863 chip || is_chip series_unisoc_t 310 chip || is_chip series_unisoc_ums 312 chip then i
  else if one_of_cores dot_cores32 midr then assign F_dot true i
  else if core_of midr =? 0x4100D050 then assign F_dot (1 <=? midr_get_variant midr) i
  else if core_of midr =? 0x4100D0A0 then assign F_dot (2 <=? midr_get_variant midr) i
  else i.

(** Lines 191-215: the architecture after the two corrections. *)
Definition corrected_version (features midr version : N) : N :=
  let version := if (version =? 7) && is_arm11 midr then 6 else version in
  if (version <? 7) && tests features (N.lor 0x2000 (N.lor 0x4000 (N.lor 0x80000 (N.lor 0x10000 (N.lor 0x1000 (N.lor 0x40000 0x20000))))))
  then 7 else version.
(** Lines 260-282. *)
Definition decode_wmmx (features : N) (t : target) (i : isa) : isa :=
  if tests features 0x200 && negb (tg_armv8 t) then
    let coprocessor_type := N.land (N.shiftr (tg_wcid t) 8) 0xFF in
    if 0x10 <=? coprocessor_type then
      let i := assign F_wmmx true i in
      set_if (0x20 <=? coprocessor_type) F_wmmx2 i
    else i
  else i.
(** Lines 309-331. *)
Definition decode_vfp (features version : N) (t : target) (i : isa) : isa :=
  if tests features (N.lor 0x40 (N.lor 0x2000 (N.lor 0x4000 (N.lor 0x80000 (N.lor 0x10000 0x1000))))) then
    if (7 <=? version) || tests features (N.lor 0x2000 (N.lor 0x4000 (N.lor 0x80000 (N.lor 0x10000 0x1000)))) then
      let i := assign F_vfpv3 true i in
      set_if (tests features (N.lor 0x80000 0x1000)) F_d32 i
    else if tg_armv7 t then assign F_vfpv3 true i
    else set_if (1 <=? N.land (N.shiftr (tg_fpsid t) 16) 0x7F) F_vfpv2 i
  else i.
(** Lines 188-349. *)
Definition decode_armv7 (features midr version letters : N) (t : target) (i : isa) : isa :=
  let version := corrected_version features midr version in
  let i := set_if ((6 <=? version) || tests features 0x80 || tests letters 2) F_armv5e i in
  let i := set_if (6 <=? version) F_armv6 i in
  let i := if 7 <=? version then
             let i := assign F_armv7 true (assign F_armv6k true i) in
             if one_of_cores [0x4100C050; 0x4100C090; 0x510002D0; 0x510004D0; 0x510006F0] midr then assign F_armv7mp true i
             else assign F_armv7mp (N.land features 0x60000 =? 0x60000) i
           else i in
  let i := decode_wmmx features t i in
  let i := if tests features 0x4 || tests letters 1 then
             let i := assign F_thumb true i in
             set_if ((7 <=? version) || is_arm1156 midr) F_thumb2 i
           else i in
  let i := set_if (tests features 0x800) F_thumbee i in
  let i := set_if (tests features 0x100 || tests letters 4) F_jazelle i in
  let i := set_if ((N.land features 0x60000 =? 0x60000) || is_krait midr) F_idiv i in
  let i := decode_vfp features version t i in
  let i := set_if (tests features 0x1000) F_neon i in
  let i := set_if (tests features 0x10000 || is_cortex_a9 midr || is_scorpion midr) F_fp16 i in
  set_if (tests features 0x10000) F_fma i.

(** Lines 25-364. *)
Definition decode_isa32 (features features2 midr version letters : N) (chip : chipset) (t : target) (i : isa) : isa :=
  let version := if (version <? 8) && tests features2 (N.lor 0x1 (N.lor 0x2 (N.lor 0x4 (N.lor 0x8 0x10)))) then 8 else version in
  let i := if 8 <=? version then decode_armv8 midr chip i else decode_armv7 features midr version letters t i in
  set_all features2 [(0x1, F_aes); (0x2, F_pmull); (0x4, F_sha1); (0x8, F_sha2); (0x10, F_crc32)] i.

(** ** The getters, include/cpuinfo.h:1721-2138 *)

Inductive getter :=
  | Has_thumb | Has_thumb2 | Has_v5e | Has_v6 | Has_v6k | Has_v7 | Has_v7mp | Has_v8 | Has_idiv | Has_vfpv2 | Has_vfpv3
  | Has_vfpv3_d32 | Has_vfpv3_fp16 | Has_vfpv3_fp16_d32 | Has_vfpv4 | Has_vfpv4_d32 | Has_fp16_arith | Has_bf16 | Has_wmmx
  | Has_wmmx2 | Has_neon | Has_neon_fp16 | Has_neon_fma | Has_neon_v8 | Has_atomics | Has_neon_rdm | Has_neon_fp16_arith | Has_fhm
  | Has_neon_dot | Has_neon_bf16 | Has_jscvt | Has_fcma | Has_i8mm | Has_aes | Has_sha1 | Has_sha2 | Has_pmull | Has_crc32 | Has_sve
  | Has_sve_bf16 | Has_sve2 | Has_sme | Has_sme2 | Has_sme2p1 | Has_sme_i16i32 | Has_sme_bi32i32 | Has_sme_b16b16 | Has_sme_f16f16.

(** [arm32] is CPUINFO_ARCH_ARM (false: CPUINFO_ARCH_ARM64). *)
Definition has_arm (arm32 : bool) (i : isa) (g : getter) : bool :=
  let only32 b := if arm32 then b else false in
  let only64 b := if arm32 then false else b in
  let always64 b := if arm32 then b else true in
  match g with
  | Has_thumb => only32 (i F_thumb) | Has_thumb2 => only32 (i F_thumb2)
  | Has_v5e => only32 (i F_armv5e) | Has_v6 => only32 (i F_armv6) | Has_v6k => only32 (i F_armv6k)
  | Has_v7 => only32 (i F_armv7) | Has_v7mp => only32 (i F_armv7mp)
  | Has_v8 => always64 (i F_armv8) | Has_idiv => always64 (i F_idiv)
  | Has_vfpv2 => only32 (i F_vfpv2) | Has_vfpv3 => always64 (i F_vfpv3)
  | Has_vfpv3_d32 => always64 (i F_vfpv3 && i F_d32)
  | Has_vfpv3_fp16 => always64 (i F_vfpv3 && i F_fp16)
  | Has_vfpv3_fp16_d32 => always64 (i F_vfpv3 && i F_fp16 && i F_d32)
  | Has_vfpv4 => always64 (i F_vfpv3 && i F_fma)
  | Has_vfpv4_d32 => always64 (i F_vfpv3 && i F_fma && i F_d32)
  | Has_fp16_arith => i F_fp16arith
  | Has_bf16 => only64 (i F_bf16)
  | Has_wmmx => only32 (i F_wmmx) | Has_wmmx2 => only32 (i F_wmmx2)
  | Has_neon => always64 (i F_neon)
  | Has_neon_fp16 => always64 (i F_neon && i F_fp16)
  | Has_neon_fma => always64 (i F_neon && i F_fma)
  | Has_neon_v8 => always64 (i F_neon && i F_armv8)
  | Has_atomics => only64 (i F_atomics)
  | Has_neon_rdm => i F_rdm
  | Has_neon_fp16_arith => if arm32 then i F_neon && i F_fp16arith else i F_fp16arith
  | Has_fhm => i F_fhm | Has_neon_dot => i F_dot
  | Has_neon_bf16 => only64 (i F_bf16)
  | Has_jscvt => i F_jscvt | Has_fcma => i F_fcma
  | Has_i8mm => only64 (i F_i8mm)
  | Has_aes => i F_aes | Has_sha1 => i F_sha1 | Has_sha2 => i F_sha2 | Has_pmull => i F_pmull | Has_crc32 => i F_crc32
  | Has_sve => only64 (i F_sve)
  | Has_sve_bf16 => only64 (i F_sve && i F_bf16)
  | Has_sve2 => only64 (i F_sve2)
  | Has_sme => only64 (i F_sme) | Has_sme2 => only64 (i F_sme2) | Has_sme2p1 => only64 (i F_sme2p1)
  | Has_sme_i16i32 => only64 (i F_sme_i16i32) | Has_sme_bi32i32 => only64 (i F_sme_bi32i32)
  | Has_sme_b16b16 => only64 (i F_sme_b16b16) | Has_sme_f16f16 => only64 (i F_sme_f16f16)
  end.
(** include/cpuinfo.h:2075-2082. *)
Definition max_arm_sve_length (arm32 : bool) (svelen : N) : N := if arm32 then 0 else u32 (svelen * 8).

(** ** src/arm/linux/hwcap.c *)

(** One read of sizeof(Elf32_auxv_t) bytes from /proc/self/auxv: an entry with its type and
    value, another number of bytes, or an error. *)
Inductive auxv_read := Entry (type value : N) | Short (bytes : nat) | Failed.

(** Lines 87-126.  The list holds the results of the calls; at its end nothing is left to be read. *)
Fixpoint read_auxv (reads : list auxv_read) (hwcap hwcap2 : N) : option (N * N) :=
  match reads with
  | [] => Some (hwcap, hwcap2)
  | Failed :: _ => None
  | Short O :: _ => Some (hwcap, hwcap2)
  | Short (S _) :: _ => None
  | Entry type value :: rest =>
      if type =? 16 then read_auxv rest (u32 value) hwcap2
      else if type =? 26 then read_auxv rest hwcap value
      else read_auxv rest hwcap hwcap2
  end.

(** The C library: with getauxval (and what it says), Android without it (and the file), or
    another one without it: lines 43-81 and 137-147. *)
Inductive libc := Getauxval (hwcap hwcap2 : N) | Android_without (file : option (list auxv_read)) | Other_without.

(** ** src/arm/linux/init.c *)

(** Lines 199-232: last_midr, last_architecture_version and last_architecture_flags. *)
Fixpoint last_midr_from (ps : list aproc) (last : N) : N :=
  match ps with
  | [] => last
  | p :: rest => last_midr_from rest (if a_valid p && bitmask_all (a_flags p) af_midr then a_midr p else last)
  end.
Definition last_midr (ps : list aproc) : N := last_midr_from ps 0.
Fixpoint last_architecture_from (ps : list aproc) (last : N * N) : N * N :=
  match ps with
  | [] => last
  | p :: rest =>
      last_architecture_from rest
        (if a_valid p && bitmask_all (a_flags p) af_architecture
         then (ar_architecture_version (a_report p), ar_architecture_flags (a_report p)) else last)
  end.
Definition last_architecture (ps : list aproc) : N * N := last_architecture_from ps (0, 0).

(** Lines 272-288. *)
Fixpoint intersect_features (ps : list aproc) (processors_with_features : nat) (words : N * N) : N * N :=
  match ps with
  | [] => words
  | p :: rest =>
      if bitmask_all (a_flags p) (N.lor af_valid af_features) then
        let r := a_report p in
        intersect_features rest (S processors_with_features)
          (match processors_with_features with
           | O => (ar_features r, ar_features2 r)
           | S _ => (N.land (fst words) (ar_features r), N.land (snd words) (ar_features2 r))
           end)
      else intersect_features rest processors_with_features words
  end.

(** Lines 249-294 and 303-307: the feature words.  [None] stands for a file that cannot be
    opened.  Without getauxval on a system other than Android the words stay zero. *)
Definition feature_words (c : libc) (ps : list aproc) : N * N :=
  match c with
  | Getauxval hwcap hwcap2 => (u32 hwcap, hwcap2)
  | Other_without => (0, 0)
  | Android_without file =>
      match match file with Some reads => read_auxv reads 0 0 | None => None end with
      | Some words => words
      | None => intersect_features ps 0 (0, 0)
      end
  end.

(** Lines 249-309, given the processors and the chipset; the record is zero before. *)
Definition arm_linux_isa (arm32 : bool) (c : libc) (t : target) (chip : chipset) (ps : list aproc) : isa :=
  let '(features, features2) := feature_words c ps in
  if arm32 then
    let '(version, letters) := last_architecture ps in
    decode_isa32 features features2 (last_midr ps) version letters chip t no_isa
  else decode_isa64 features features2 (last_midr ps) chip no_isa.
