(** What manuals say about ARM cores, independent of src/arm/uarch.c and src/arm/cache.c:
    part numbers, and the configurations of caches that a core can be built with. *)
From Verif Require Import Base TopologySpec ArmMidrSpec.
Open Scope N_scope.

(** ** Part numbers *)

Inductive width := Any | Only_32 | Only_64.
Definition for_width (arm32 : bool) (w : width) : Prop := match w with Any => True | Only_32 => arm32 = true | Only_64 => arm32 = false end.

(** Cores of a part number: the width of programs that are told, the part, the value of enum
    cpuinfo_uarch for the core. *)
Definition arm_parts : list (width * N * N) :=
  [ (* Cortex-A5, A7, A8, A9, A12 (and RK3288), A15, A17 *)
    (Only_32, 0xC05, 0x00300205); (Only_32, 0xC07, 0x00300207); (Only_32, 0xC08, 0x00300208); (Only_32, 0xC09, 0x00300209);
    (Only_32, 0xC0C, 0x00300212); (Only_32, 0xC0D, 0x00300212); (Only_32, 0xC0F, 0x00300215); (Only_32, 0xC0E, 0x00300217);
    (* Cortex-A32, A35, A53, A57, A65, A72, A73, A75, A76, A76AE, A77, A78 *)
    (Any, 0xD01, 0x00300332); (Any, 0xD04, 0x00300335); (Any, 0xD03, 0x00300353); (Any, 0xD07, 0x00300357); (Any, 0xD06, 0x00300365);
    (Any, 0xD08, 0x00300372); (Any, 0xD09, 0x00300373); (Any, 0xD0A, 0x00300375); (Any, 0xD0B, 0x00300376); (Any, 0xD0E, 0x00300376);
    (Any, 0xD0D, 0x00300377); (Any, 0xD41, 0x00300378);
    (* Cortex-A510, A710, A715, X1, X2, X3 *)
    (Any, 0xD46, 0x00300551); (Any, 0xD47, 0x00300571); (Any, 0xD4D, 0x00300572);
    (Any, 0xD44, 0x00300501); (Any, 0xD48, 0x00300502); (Any, 0xD4E, 0x00300503);
    (* Neoverse N1, E1, V1, N2, V2 *)
    (Any, 0xD0C, 0x00300400); (Only_64, 0xD4A, 0x00300401); (Any, 0xD40, 0x00300402); (Any, 0xD49, 0x00300403); (Any, 0xD4F, 0x00300404) ].
(** Cores of ARM's design with another implementer's part number: HiSilicon's A76; Qualcomm's
    Kryo 260/280 Gold and Silver, 385 Gold and Silver, 485 Gold and Silver. *)
Definition licensed_parts : list (width * (N * N) * N) :=
  [(Any, (0x48, 0xD40), 0x00300376); (Any, (0x51, 0x800), 0x00300373); (Any, (0x51, 0x801), 0x00300353); (Any, (0x51, 0x802), 0x00300375);
   (Any, (0x51, 0x803), 0x00300354); (Any, (0x51, 0x804), 0x00300376); (Any, (0x51, 0x805), 0x00300355)].
(** The others' own: vendor, implementer and part, core. *)
Definition other_parts : list (width * N * (N * N) * N) :=
  [ (* Brahma B15 and B53 of Broadcom; ThunderX and X2 of Cavium, X2 with either implementer *)
    (Any, 13, (0x42, 0x00F), 0x00A00100); (Any, 13, (0x42, 0x100), 0x00A00101);
    (Only_64, 12, (0x43, 0x0A0), 0x00800100); (Only_64, 12, (0x43, 0x0A1), 0x00800100); (Only_64, 12, (0x43, 0x0A2), 0x00800100);
    (Only_64, 12, (0x43, 0x0A3), 0x00800100); (Only_64, 12, (0x43, 0x0AF), 0x00800200); (Only_64, 12, (0x42, 0x516), 0x00800200);
    (* TaiShan v110 of Huawei; Denver, Denver 2 and Carmel of Nvidia; X-Gene of Applied Micro *)
    (Only_64, 15, (0x48, 0xD01), 0x00C00100);
    (Any, 7, (0x4E, 0x000), 0x00500100); (Any, 7, (0x4E, 0x003), 0x00500101); (Any, 7, (0x4E, 0x004), 0x00500102);
    (Any, 14, (0x50, 0x000), 0x00B00100);
    (* Scorpion, Krait, Kryo, Oryon, Falkor and Saphira of Qualcomm; PJ4 of Marvell *)
    (Only_32, 4, (0x51, 0x02D), 0x00400100); (Only_32, 4, (0x51, 0x04D), 0x00400101); (Only_32, 4, (0x51, 0x06F), 0x00400101);
    (Any, 4, (0x51, 0x201), 0x00400102); (Any, 4, (0x51, 0x205), 0x00400102); (Any, 4, (0x51, 0x211), 0x00400102);
    (Only_64, 4, (0x51, 0x001), 0x00400105); (Only_64, 4, (0x51, 0xC00), 0x00400103); (Only_64, 4, (0x51, 0xC01), 0x00400104);
    (Only_32, 31, (0x56, 0x581), 0x00900100); (Only_32, 31, (0x56, 0x584), 0x00900100) ].
(** Exynos cores are told apart by variant and part. *)
Definition exynos_parts : list (N * N * N) :=
  [(1, 0x001, 0x00600100); (4, 0x001, 0x00600101); (1, 0x002, 0x00600102); (1, 0x003, 0x00600103); (1, 0x004, 0x00600104)].
(** Old designs whose parts begin with a digit: ARM7, ARM9 and ARM11 of ARM; XScale of Intel. *)
Definition old_parts : list (N * N * N * N) :=
  [(3, 0x41, 0x7, 0x00300100); (3, 0x41, 0x9, 0x00300101); (3, 0x41, 0xB, 0x00300102);
   (1, 0x69, 0x2, 0x00100600); (1, 0x69, 0x4, 0x00100600); (1, 0x69, 0x6, 0x00100600)].

(** The vendor and the core that a main id register means. *)
Inductive core_meant (arm32 vfpv4 : bool) (midr : N) : N -> N -> Prop :=
| meant_arm : forall w part u, In (w, part, u) arm_parts -> for_width arm32 w -> design midr = (0x41, part) -> core_meant arm32 vfpv4 midr 3 u
| meant_a55r0 : design midr = (0x41, 0xD05) -> field_of Variant midr = 0 -> core_meant arm32 vfpv4 midr 3 0x00300354
| meant_a55 : design midr = (0x41, 0xD05) -> field_of Variant midr <> 0 -> core_meant arm32 vfpv4 midr 3 0x00300355
| meant_licensed : forall w d u, In (w, d, u) licensed_parts -> for_width arm32 w -> design midr = d -> core_meant arm32 vfpv4 midr 3 u
| meant_other : forall w v d u, In (w, v, d, u) other_parts -> for_width arm32 w -> design midr = d -> core_meant arm32 vfpv4 midr v u
(* A Scorpion has no VFPv4, a Cortex-A5 by Qualcomm has. *)
| meant_scorpion : arm32 = true -> vfpv4 = false -> design midr = (0x51, 0x00F) -> core_meant arm32 vfpv4 midr 4 0x00400100
| meant_qualcomm_a5 : arm32 = true -> vfpv4 = true -> design midr = (0x51, 0x00F) -> core_meant arm32 vfpv4 midr 3 0x00300205
| meant_exynos : forall variant part u, In (variant, part, u) exynos_parts -> field_of Variant midr = variant -> design midr = (0x53, part) ->
    core_meant arm32 vfpv4 midr 6 u
| meant_old : forall v implementer digit part u, In (v, implementer, digit, u) old_parts -> arm32 = true -> design midr = (implementer, part) -> part / 256 = digit ->
    core_meant arm32 vfpv4 midr v u.

(** ** Configurations of caches *)

(** For each core the sizes (in KB) with the number of ways and the length of lines that the
    first-level instruction and data caches and the second level can be built with; no list
    for a second level that is not part of the design.  From the technical reference manuals
    and documents quoted in src/arm/cache.c. *)
Record manual := Manual { mn_core : N; mn_32 : bool; mn_i : list (N * N * N); mn_d : list (N * N * N); mn_l2 : option (list (N * N * N)) }.
Definition of_sizes (sizes : list N) (ways line : N) : list (N * N * N) := map (fun s => (s, ways, line)) sizes.
Definition manuals : list manual :=
  [ (* Cortex-A5, A7, A8, A9, A15, A17 *)
    Manual 0x00300205 true (of_sizes [4; 8; 16; 32; 64] 2 32) (of_sizes [4; 8; 16; 32; 64] 4 32) None;
    Manual 0x00300207 true (of_sizes [8; 16; 32; 64] 2 32) (of_sizes [8; 16; 32; 64] 4 64) (Some (of_sizes [128; 256; 512; 1024] 8 64));
    Manual 0x00300208 true (of_sizes [16; 32] 4 64) (of_sizes [16; 32] 4 64) (Some (of_sizes [128; 256; 512; 1024] 8 64));
    Manual 0x00300209 true (of_sizes [16; 32; 64] 4 32) (of_sizes [16; 32; 64] 4 32) None;
    Manual 0x00300215 true (of_sizes [32] 2 64) (of_sizes [32] 2 64) (Some (of_sizes [512; 1024; 2048; 4096] 16 64));
    Manual 0x00300217 true (of_sizes [32; 64] 4 64) (of_sizes [32] 4 64) (Some (of_sizes [256; 512; 1024; 2048; 4096; 8192] 16 64));
    (* Cortex-A35, A53, A55 r0, A55, A57, A65, A72, A73, A75, A76, A77 *)
    Manual 0x00300335 false (of_sizes [8; 16; 32; 64] 2 64) (of_sizes [8; 16; 32; 64] 4 64) (Some (of_sizes [128; 256; 512; 1024] 8 64));
    Manual 0x00300353 false (of_sizes [8; 16; 32; 64] 2 64) (of_sizes [8; 16; 32; 64] 4 64) (Some (of_sizes [128; 256; 512; 1024; 2048] 16 64));
    Manual 0x00300354 false (of_sizes [16; 32; 64] 4 64) (of_sizes [16; 32; 64] 4 64) (Some (of_sizes [64; 128; 256] 4 64));
    Manual 0x00300355 false (of_sizes [16; 32; 64] 4 64) (of_sizes [16; 32; 64] 4 64) (Some (of_sizes [64; 128; 256] 4 64));
    Manual 0x00300357 false (of_sizes [48] 3 64) (of_sizes [32] 2 64) (Some (of_sizes [512; 1024; 2048] 16 64));
    Manual 0x00300365 false (of_sizes [32; 64] 4 64) (of_sizes [32; 64] 4 64) (Some (of_sizes [64; 128; 256] 4 64));
    Manual 0x00300372 false (of_sizes [48] 3 64) (of_sizes [32] 2 64) (Some (of_sizes [512; 1024; 2048; 4096] 16 64));
    Manual 0x00300373 false (of_sizes [64] 4 64) [(32, 8, 64); (64, 16, 64)] (Some (of_sizes [256; 512; 1024; 2048; 4096; 8192] 16 64));
    Manual 0x00300375 false (of_sizes [64] 4 64) (of_sizes [64] 16 64) (Some (of_sizes [256; 512] 8 64));
    Manual 0x00300376 false (of_sizes [64] 4 64) (of_sizes [64] 4 64) (Some (of_sizes [128; 256; 512] 8 64));
    Manual 0x00300377 false (of_sizes [64] 4 64) (of_sizes [64] 4 64) (Some (of_sizes [128; 256; 512] 8 64));
    (* Neoverse N1, V1, N2 and V2 *)
    Manual 0x00300400 false (of_sizes [64] 4 64) (of_sizes [64] 4 64) (Some (of_sizes [256; 512; 1024] 8 64));
    Manual 0x00300402 false (of_sizes [64] 4 64) (of_sizes [64] 4 64) (Some (of_sizes [256; 512; 1024] 8 64));
    Manual 0x00300403 false (of_sizes [64] 4 64) (of_sizes [64] 4 64) (Some (of_sizes [256; 512; 1024] 8 64));
    Manual 0x00300404 false (of_sizes [64] 4 64) (of_sizes [64] 4 64) (Some (of_sizes [1024; 2048] 8 64));
    (* Scorpion with up to two cores, Krait with two or four, Kryo Gold and Silver *)
    Manual 0x00400100 true (of_sizes [32] 4 32) (of_sizes [32] 4 32) (Some (of_sizes [256; 512] 4 128));
    Manual 0x00400101 true (of_sizes [16] 4 64) (of_sizes [16] 4 64) (Some (of_sizes [1024; 2048] 8 128));
    Manual 0x00400102 false (of_sizes [32] 4 64) (of_sizes [24] 3 64) (Some (of_sizes [512; 1024] 8 128));
    (* Denver, Denver 2; Exynos M1, M2 *)
    Manual 0x00500100 false (of_sizes [128] 4 64) (of_sizes [64] 4 64) (Some (of_sizes [2048] 16 64));
    Manual 0x00500101 false (of_sizes [128] 4 64) (of_sizes [64] 4 64) (Some (of_sizes [2048] 16 64));
    Manual 0x00600100 false (of_sizes [64] 4 128) (of_sizes [32] 8 64) (Some (of_sizes [2048] 16 64));
    Manual 0x00600101 false (of_sizes [64] 4 128) (of_sizes [32] 8 64) (Some (of_sizes [2048] 16 64)) ].

(** [g] is one of the configurations. *)
Definition built_as (configurations : list (N * N * N)) (g : geometry) : Prop :=
  exists size ways line, In (size, ways, line) configurations /\ g_size g = size * 1024 /\ g_associativity g = ways /\ g_line_size g = line /\
    g_sets g * ways * line = size * 1024.
(** The number of cores that clusters of this core have. *)
Definition usual_cores (core : N) (cores : nat) : Prop :=
  if core =? 0x00400100 then In cores [1; 2]%nat else if core =? 0x00400101 then In cores [2; 4]%nat else In cores [1; 2; 4]%nat.
Definition power_of_two (n : N) : Prop := exists k, n = 2 ^ k.
(** The second level of the Kryo in Snapdragon 820 and 821: Silver 512 KB, Gold 1 MB. *)
Definition kryo_l2 : list (N * N) := [(0x201, 512); (0x211, 512); (0x205, 1024)].
