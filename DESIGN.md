# Formal model of cpuinfo: design

The model is a set of Gallina functions in `rocq/theories`, written by reading `/repo` (the code is
never built or run).  Each definition carries a comment with the `/repo` file and lines it models and
what was simplified.

## Conventions

* Machine integers are `N`.  32-bit arithmetic that can wrap is written with an explicit `mod 2^32`
  (`u32`).  Array indexes and lengths are `nat`.  `char` data is a `list N` of byte values below 256.
* A pointer into a table is the index into that table; NULL is `None`.
* Out-of-bounds access, shift by 32 or more and division by zero give the outcome `UB`, a loop that does
  not end gives `Hang` (type `res`, `Base.v`); a getter that aborts answers `Fatal` (type `answer`,
  `ApiModel.v`).  They are never replaced by a default value.
* `read()`, `cpuid`, `xgetbv`, `getcpu`, `calloc` and `qsort` are arguments (oracles) of the model.
  `read()` may return any non-empty chunk that fits; `calloc` may fail at any call; `qsort` may return
  any permutation that is sorted by the comparator.
* Files `*Model.v` hold definitions only.  Files `*Proofs.v` hold lemmas.  Files `*Props.v` hold the
  property theorems, each closed by `exact`, followed by `Print Assumptions` and a non-vacuity example.
* `*_refuted` is a proved counterexample: the English property is false of the code.  `*_partial` proves
  less than the full property; the missing part is named beside it.

## Plan per property

* **C01** Getters refuse to answer before a successful initialization — Model `api.c` as a function from a getter name and the globals to an outcome; show it is `Fatal` iff the flag is false.
* **C02** Indexed getters are total and bounds checked — Same model; the result is `nth_error` of the table when count equals table length.
* **C03** Initialization runs exactly once under any schedule — Labelled transition system: threads, a once-guard as specified by POSIX `pthread_once`, the init routine as a sequence of stores; invariant over all schedules. The guard itself is trusted.
* **C04** Results never change after initialization — Same transition system with getter and deinitialize actions; invariant `results frozen`.
* **C05** All-or-nothing publication — Model of the allocate/commit skeleton of `cpuinfo_x86_linux_init` with an allocation-failure oracle; and commit stores as individual steps in the system of C03.
* **C06** Detection releases all temporary memory — Same skeleton with a heap of live blocks; full claim refuted for the /proc/cpuinfo failure path, proved for all others.
* **C07** Current processor/core/microarchitecture lookups are correct and safe — Model of the four lookups over the map built by C15's model.
* **C08** Text file parsing does not depend on read() chunking — Model the read loop with an oracle deciding chunk sizes; prove the delivered lines are the split of the contents.
* **C09** Over-long lines are not silently dropped — Refuted by a concrete file; the exact behaviour is proved (prefix of the file before the full buffer).
* **C10** CPU lists denote exactly the listed CPUs — Independent grammar/printer of CPU lists; the parser composed with the reader yields the denoted ranges.
* **C11** Malformed CPU lists are reported, well-formed entries still count — Classification of entries by an independent predicate; failure flag and delivered ranges.
* **C12** Present/possible detection flags exactly the listed CPUs within the limit — Callback folds; flags characterised pointwise; max characterised as a maximum.
* **C13** Small sysfs integer files are read exactly — Same reader style for small files; decimal printing spec.
* **C14** x86 /proc/cpuinfo: APIC ids reach the right processor, and arbitrary contents are harmless — Model of parse_line with checked accesses; block theorem for printed files.
* **C15** x86 Linux: every usable CPU is reported exactly once — Full model of `cpuinfo_x86_linux_init`; permutation theorem.
* **C16** x86 Linux: cores, clusters and packages partition the processors consistently — Invariant of the main loop; spec of consistent topology in a separate file (`TopologySpec.v`).
* **C17** x86 Linux: grouping follows the APIC id — Keys are monotone along the sorted list; equality of key iff equality of group index.
* **C18** x86 Linux: detection never writes outside its tables — Checked writes in the model; result is never `UB`.
* **C19** x86 Linux: ids are within range and identify objects — Part of the loop invariant.
* **C20** x86 Linux: shared caches are reported consistently — Part of the loop invariant, per level.
* **C21** x86 Linux: hyper-threads without deterministic cache information — Refuted by a concrete CPUID contents evaluated through the model.
* **C22** Deterministic cache parameters decode exactly — Bit-field arithmetic; `bit_length` is the ceiling of log2.
* **C23** CPUID signature decoding loses nothing — Bit-field arithmetic; reconstruction of the signature.
* **C24** Vector ISA support is reported only when the OS enabled the register state — Model of `isa.c`; per-feature implication.
* **C25** Thread and core bit fields of the APIC id are decoded as the vendor documents — Model of `topology.c` with fuel for the x2APIC loop; wrap case refuted.
* **C26** Brand-string normalization is memory safe and yields a clean name — Model of `name.c` on 48-byte arrays with checked accesses.
* **C27** Maximum cache size is the last level cache of the first processor — Direct.
* **C28** MIDR field updates do not interfere — Bitwise laws.
* **C29** ARM: cores are ordered big to little and clusters are contiguous — Model of comparator and the table-building loops.
* **C30** ARM: kernel sibling lists yield the true clusters — Model of the sibling parser folded over all processors.
* **C31** ARM: every usable core ends up in exactly one counted cluster — Models of `clusters.c`.
* **C32** ARM: every cluster receives one consistent MIDR — Model of `midr.c` with its table of chipsets; decoding of vendor and microarchitecture is an argument.
* **C33** ARM /proc/cpuinfo parsing stays within its buffers — Model of `parse_line` string copies; refuted at length 64.
* **C34** RISC-V: processors, cores, clusters and packages are consistent — Model of the RISC-V table-building loop; consistent under a group-contiguous order, refuted otherwise.
* **C35** Emscripten: reported tables agree with their counts — Model of the count arithmetic and tables; ARM branch proved, x86 branch refuted.
* **C36** Mach and FreeBSD: counts-based topology is consistent — Arithmetic model of the tables; proved under divisibility, refuted without.
* **C37** Windows x86: every processor belongs to its package's cluster — Model of the processor loop; refuted for two packages, proved for one.
* **C38** Log messages are complete or visibly truncated never corrupted — Model of buffer arithmetic; refuted at one length per prefix, proved elsewhere.
* **C39** ARM cache tables are geometrically consistent — Tables transcribed by a script from the C text; finite check lifted to all inputs where the remaining parameters do not matter. A sound cache also has a size below 2^32, a line of 32, 64 or 128 bytes, and no flag but "inclusive", which the first level never has.
* **C40** x86 cache descriptors are geometrically consistent — Table transcribed by a script; finite check over all 256 bytes.
* **C41** Decimal numbers in kernel text are decoded exactly or rejected — Models of the number parsers against a decimal spec; refuted for ':'.
* **C42** Sort comparators are consistent total preorders — Order laws of the comparators.

* **C43**–**C52** were added while modelling: x86 vendor strings, x86 microarchitectures, CPUID leaf 2, RISC-V ISA getters, ranking of ARM cores, the table of ARM chipsets, ARM /proc/cpuinfo blocks and unusable values, the bound on ARM cache sizes, ARM microarchitectures.
* **C53**–**C55** ARM instruction sets: every getter as a formula of the feature words, the register and the chip; consistency by case analysis on that formula; where the words come from.
* **C56**–**C59** Apple processors: closed forms of the loops for all counts; the kinds of cores change at most once, so there are at most two clusters; the scanner of device names against decimal numerals.
* **C60** RISC-V vendors: added after a mutation of the vendor id survived; an invariant of the detection loops and of the loop that fills the tables.
* **C61**–**C64** Windows on ARM: the loops over masks in closed form for all sets of processors; the first and second pass agree; UTF-16 and UTF-8 decoders as a separate specification of names.
* **C65**–**C68** names of chips on ARM Linux and Android: a grammar of patterns and tables as separate relations; each
  matcher is shown to decide its relation, the relations to exclude one another; corrections as rules; agreement of the
  sources on Android by an invariant of the loop that copies suffixes.
* **C70**, **C71** the package on ARM Linux and Android: what the buffers hold is tied to the lines of /proc/cpuinfo, then
  the exactness of the chip decoder is composed with detection as a whole.
* **C69** ARM caches against the manuals: lists of configurations for each core; case analysis on the switch.
* **C72** the clog library: one lemma for what is written in terms of the prefix used, by cases on where the text fits.
* **C73**, **C74** CPUID recordings: each loop over leaves or subleaves is shown to list exactly what exists; hexadecimal
  printing and the script's matcher are inverse to one another; the library reads only leaves that the recording has,
  or takes a missing one as it takes the answer of the processor.
* **C75** cache-info: a reader made of words, numbers and lines, which inverts each format piece by piece.
* **C76** cpu-info: the same reader with sections; names are compared with the header's identifiers by letters and digits only,
  the tables being finite; what detection can return is collected from its switches.
* **C77** isa-info: labels are compared with the identifiers of the getters in the same way; the theorems of C24, C46 and C53
  then say what each line means for the processor.
* **C78** mock files: what a descriptor has been read is defined by the calls and answers alone; an invariant relates it to the
  offsets in the array.
* **C79** file names: a reader of the names, which inverts the format; the lengths are added up.
* **C80** recordings: a reader of C's string literals and initializers, a machine with four states, inverts the script's escapes byte by
  byte; what is read is then compared with the file for every content.
* **C81** recordings of Android devices: the same with a preprocessor, whose effect is composed piece by piece; the script's parser of
  getprop is inverse to its format.
* **C82** RISC-V details: an entry is filled once, before the groups are read, and reading the groups leaves its details alone; the
  published record is the entry of the first CPU.
* **C83** ARM order: the clock of a group is followed from the files through the spreading over the group; the comparison is a strict
  order on the entries in use, so that every sort gives the same table.
* **C84** dumps: induction on the number of reads; a line is read back digit by digit up to its end.
* **C85** offline CPUs: the tables are built from the first m of n usable entries, m being the number of online ones; the
  invariants of the construction are those of C29 with m and n apart, and an offline CPU is a cluster by itself if the
  kernel tells the siblings of the online ones.  The caches of a cluster must not depend on the architecture version, which
  an offline CPU lacks; `arm_own_sizes_version_free` gives designs of which this is true.
* **C86** x86 sharing: from C15-C17, C19 and C20; processors that agree above b bits and have different APIC ids have
  different residues modulo 2^b.
* **C87** data races: executions are traces of labelled steps, the same steps as in C03 (`race_steps_same`); happens-before is
  program order, the end of the routine before each return of pthread_once, and the program's own synchronisation. The
  theorem justifies the sequentially consistent memory of C01-C07 for programs that initialize before use: C11 gives
  programs without races these semantics.
* **C88** the project's own tests: the tests of test/init.cc are transcribed as functions from what is published to booleans
  (`init_tests` of InitTestModel; left out are ten that only say that the indexed getters do not return NULL, see C02, and
  the one about frequencies, which are not modelled on every system; consistent_midr and consistent_cpuid are one test). Theorems that the topology is consistent (C16-C18, C31, C36, C56) and the
  caches are sound (C39) are combined to "every test passes".
* **C89** x86 Linux caches end to end: the theorems about decoding CPUID (C22) and about building the tables (C19) are composed, so that
  the leaf's fields and the published tables are related directly; the bound on sharers is C86's.
* **C90** ARM Linux end to end: C29/C30 (listing, groups, registers), C52 (what a register means) and C69 (manuals) are composed; which
  cores have a second level of their own is a list of its own in ArmCoresSpec.
* **C91** x86 macOS, FreeBSD and Windows end to end: C22's decoding is composed with C36 and C37, with the words of C89 for what a leaf
  tells.
* **C92** one answer per machine: each reader of files is shown to give a function of the contents alone (a file is cut into pieces by its
  separators and the size of the buffer, wherever the reads end), digits are the same for signed and unsigned char, and the two searches
  for clusters are simulated with two sets of initial variables. The readers of one number, modelled with unsigned char, are covered too.
  Two sorts agree because the comparison has no ties among usable CPUs with different APIC ids (the same list is sorted in one way only).
* **C93** one machine, several systems: the tables of a machine of equal packages are written out entry by entry in SameMachineSpec; each
  system's description (C15-C21, C36, C37, C91) is shown to fix exactly them. On Linux the APIC ids in ascending order are the numbers of
  threads written in mixed radix, so that the sorted table is known entry by entry.
* **C94** 32-bit ARM Linux: the flags and numbers of the first-level caches are followed from the lines of /proc/cpuinfo through
  clustering, register propagation and sorting to the published caches (`tells_l1`, `told_l1` in ArmLinuxSpec); the rest is C90 with
  the 32-bit cores of the manuals. That printed caches are published for no processor is `arm_linux_printed_l1_refuted` (C39).
* **C95** All systems: counts, elements and largest cache size as the getters answer them are those of the published tables
  (`table_shown`, `largest_shown` in GetterTablesSpec), which ties what the other properties say of the tables to the API.  Excluded
  are the first-level caches in the cases refuted under C02.  On WebAssembly the largest cache size is the size of no published
  cache (`emscripten_largest_refuted`, a counterexample to C27).
* **C96** renumbering: x86 Linux by running the loop on two sorted tables that agree in their APIC ids (these are the same sorted list for
  both numberings, because they are distinct); ARM Linux from what the tables say of groups and registers (C29, C30), with the counts by
  injections both ways; RISC-V Linux likewise from C34's tables, where groups have consecutive numbers in both numberings.  False on RISC-V
  where they have not (`riscv_linux_renumbered_refuted`), and on ARM where the kernel does not tell the groups
  (`arm_linux_guess_renumbered_refuted`).
* **C97** names of all packages: on Linux the main loop's writes of names are followed beside the first loop's count of packages (the same keys in
  the same order, so as many names as packages); elsewhere the loop over packages is a fill.  One name is C26's.  RISC-V Linux never writes names:
  they stay empty there, which is not modelled further.
* **C98** what extensions build on: a table of pairs from the manuals.  By C24 a getter is its CPUID bits and a gate on the register state;
  a run through the table shows that the gate of the second of a pair asks for no more than that of the first.  False if a hypervisor hides a
  bit but not those that build on it (`x86_isa_masked_refuted`); VAES and VPCLMULQDQ do not even need AVX enabled (`x86_isa_vaes_refuted`),
  so these pairs are not in the table.  AArch64 from C53's theorems.
* **C99** file descriptors: the loops of LinuxTextModel once more, recording their system calls (FileDescriptorModel).  They return what the loops
  without records return, so that the two cannot differ in control flow; the records are those of one file, opened, read and closed.
* **C100** test/get-current.cc is transcribed as C88 does with test/init.cc, but over the getters of ApiModel, each call at a moment
  of its own with a CPU of its own.  From C07's theorems, and from the tables for the number of cores.
* **C101** two builds on one processor: the models of x86 and ARM detection take the build as an argument, so the theorems equate their values
  at two builds.  A 64-bit build knows only four vendors; for these the 32-bit tables have the same entries.  The getters go by C24's table of
  what a build fixes; x86-64's and Android's requirements are a separate record of CPUID bits.
* **C102** the same for ARM's extensions, where the two kinds of processes read different words: `same_machine` relates these (bits of
  the kernel's headers).  From the exact meanings of C53 and C54.
* **C103** each case of the descriptor switch assigns to caches; the last assignment to a cache counts, so with one descriptor per cache the
  order is lost.  The leaves read afterwards respect descriptions that agree cache by cache.  `names` (Leaf2Spec) reads the bytes by division.
* **C104** the loops over subleaves are folds over the list of answers; each step sets a cache to a value that depends on the answer only, or
  leaves it, so with one subleaf per cache the order is lost.  The number of cores is the last subleaf's, hence the demand that all agree.
* **C105** every reading is behind a comparison with the highest leaf but that of leaf 0x24; equalities of the guarded readings, then
  case by case over the features.
* **C106** the APIC id reaches only a field of the topology that is not used afterwards; the rest of the readings are the same.  The
  systems' code takes what `init_processor` returns, so their tables agree too.
* **C107** the three loops are one general loop with a step and a test; it ends iff some index below 2^32 passes the test, and more fuel
  changes nothing.  `fueled` computations are closed under sequencing and branching.

## What is modelled

| /repo | theories | left out |
| --- | --- | --- |
| src/api.c, src/cache.c | ApiModel, X86DecodeModel, ArmLinuxModel | |
| src/init.c | OnceModel, RaceModel (with the accesses to memory) | memory is sequentially consistent (see C87) |
| src/log.c | LogModel | the system log of Android |
| deps/clog/src/clog.c, deps/clog/include/clog.h | ClogModel | the system log of Android, Windows and Hexagon; a write that stops early; whether formatting fails is an argument |
| src/linux/smallfile.c, multiline.c, cpulist.c, processors.c | LinuxTextModel, FileDescriptorModel | errno; results of close(); a file is its contents and the sizes read() returns |
| src/linux/processors.c:18-52 and the calls of snprintf | SysfsNameModel | snprintf only for its format |
| src/linux/mockfile.c | MockFileModel | log messages; the calls before files are supplied, which go to the system; 2^31 files or more |
| scripts/arm-linux-filesystem-dump.py | RecordModel | Python 2; the copy of /proc/cpuinfo beside the header |
| scripts/android-device-dump.py, src/arm/android/properties.c with CPUINFO_MOCK | AndroidRecordModel | Python 2; adb's answers are arguments; int() of a sign; the logs beside the header |
| src/x86/linux/cpuinfo.c | CpuinfoLineModel, X86CpuinfoModel | |
| src/x86/linux/init.c | X86LinuxModel, X86PackageNamesModel | package names stand apart from the tables, in X86PackageNamesModel |
| src/x86/name.c | X86NameModel, X86PackageModel | isupper, isspace and the like are those of the C locale; snprintf only for its three formats; the tables of tokens are data |
| src/x86/info.c, vendor.c, uarch.c, topology.c, init.c, cache/init.c, cache/deterministic.c | X86DecodeModel | brand string (in X86PackageModel) |
| src/x86/cache/descriptor.c | X86DescriptorModel | |
| src/x86/isa.c and the getters cpuinfo_has_x86_* | X86IsaModel | |
| tools/cpuid-dump.c, scripts/parse-x86-cpuid-dump.py, src/x86/mockcpuid.c | CpuidDumpModel | the C text that the script prints (its result is the table); files that are not ASCII; xgetbv and MXCSR are not recorded and taken from the processor |
| tools/cpuinfo-dump.c, tools/auxv-dump.c | DumpToolsModel | messages on stderr; failures of fwrite, printf and close |
| tools/cache-info.c | CacheInfoModel, ToolsModel | failure to initialize |
| tools/cpu-info.c | CpuInfoModel | failure to initialize; counts other than the lengths of the tables; negative system numbers |
| tools/isa-info.c | IsaInfoModel | failure to initialize |
| test/get-current.cc | CurrentTestModel | that cpuinfo_initialize() succeeds is a hypothesis |
| test/init.cc | InitTestModel | ten tests that indexed getters do not return NULL (what C95 states); the one about frequencies |
| src/riscv/uarch.c, src/riscv/linux/*.c and the getters cpuinfo_has_riscv_* | RiscvLinuxModel, RiscvApiModel | package names (never written by the code); the frequency stands in the unused cpuid field |
| src/arm/midr.h | ArmMidrModel | |
| src/arm/linux/clusters.c, src/arm/linux/init.c:33-62, 332-431 | ArmClustersModel | package ids as numbers |
| src/arm/linux/midr.c, src/arm/linux/init.c:433-464 | ArmClusterMidrModel | |
| src/arm/linux/cpuinfo.c | ArmCpuinfoModel | |
| src/arm/linux/init.c | ArmLinuxModel, ArmApiModel, ArmDecodersModel, ArmPackageModel | detection of instruction sets is a call that marks cpuinfo_isa as written; the chip decoder is an argument of ArmLinuxModel, supplied by ArmPackageModel |
| src/arm/linux/chipset.c | ArmChipsetModel | log messages; a pointer computed beyond the end of an array only to be compared is arithmetic; snprintf only for its formats |
| src/arm/android/properties.c | ArmPackageModel | __system_property_get is an argument; log messages |
| src/arm/uarch.c, src/arm/cache.c | ArmUarchModel, ArmCacheModel | which of __ARM_ARCH_7A__, __ARM_ARCH_8A__ and __ANDROID__ are defined is a parameter |
| src/arm/linux/aarch64-isa.c, aarch32-isa.c, hwcap.c, src/arm/linux/init.c:199-309 and the getters cpuinfo_has_arm_* | ArmIsaModel | a read of /proc/self/auxv is a value (its descriptor is in FileDescriptorModel); dlopen and dlclose of libc on Android; whether __ARM_ARCH allows VFPv3 or WMMX, and the coprocessors' registers, are arguments; the mock versions |
| src/arm/mach/init.c | ArmMachModel | log messages; sysctl's answers are arguments; strlcpy, sscanf and snprintf only for the formats used; 64-bit only, as the file does not compile for 32-bit ARM |
| src/arm/windows/init.c, init-by-logical-sys-info.c | ArmWindowsModel | log messages; the registry, GetLogicalProcessorInformationEx (each call), GetMaximumProcessorCount and IsProcessorFeaturePresent are arguments; a mask of a group is an unbounded number; WideCharToMultiByte is a UTF-8 encoder that fails if the buffer is too small |
| src/emscripten/init.c | EmscriptenModel, X86PackageNamesModel | is_x86 and the runtime's number are arguments |
| src/mach/topology.c, src/freebsd/topology.c, src/x86/mach/init.c, src/x86/freebsd/init.c | X86CountsModel, X86PackageNamesModel | what sysctl answers is an argument (the branch for iOS, which does not ask for packages and cacheconfig, is the case that both answers fail) |
| src/x86/windows/init.c | X86WindowsModel, X86PackageNamesModel | what Windows answers is an argument; log messages |

Log messages are left out everywhere except in LogModel.

Not modelled: what the table above does not name.

## Properties that are false of the code

Each is a theorem `*_refuted` with a concrete input, computed through the model; beside it stands the
positive theorem with the hypothesis that is missing.

Text files and parsing
* `over_long_lines_refuted`: a line longer than the buffer ends the parsing of the file.
* `cpulist_overread_refuted`, `cpulist_large_number_refuted`, `kernel_max_wraps_refuted`,
  `large_number_wraps_refuted`, `colon_as_digit_refuted`: a CPU list entry "-" is read past its end; numbers
  wrap modulo 2^32; ':' counts as the digit ten.
* `log_message_complete_refuted`: a message of exactly the buffer's size loses its end.
* `clog_message_complete_refuted`: the same in clog, also for a prefix of exactly the buffer's size;
  `clog_huge_message_refuted`: lengths that add up to more than INT_MAX overflow.

x86
* `x86_linux_no_usable_cpu_refuted`: no usable CPU leads to a read outside the array.
* `x86_linux_broadcast_apic_id_refuted`: a first APIC id of 0xFFFFFFFF leads to a write before the array.
* `x86_linux_cluster_without_core_refuted`, `x86_linux_merged_packages_refuted`,
  `x86_linux_more_cores_than_processors_refuted`: inconsistent CPUID contents give inconsistent tables or
  undefined shifts; x2APIC shifts are taken as widths and added up.
* `x86_linux_leak_refuted`: the early return on a /proc/cpuinfo failure keeps its array.
* `x86_leaf4_huge_cache_refuted`: caches of 4 GB and more wrap.
* `x86_signature_documented_refuted`: the extended family and model are added for every family.
* `x86_uarch_dali_refuted`, `x86_uarch_hygon_refuted`: Dali and Dhyana are not recognised.
* `x86_descriptor_d2_refuted`, `x86_descriptor_82_refuted`, `x86_leaf2_reserved_refuted`: wrong table entries;
  registers with bit 31 set are decoded.
* `x86_name_unterminated_refuted`, `x86_name_previous_token_refuted`: a brand string of 48 characters without a NUL
  may give a name that ends with a blank and a wrong length; "Eng" anywhere before "Sample" discards the name.
* `x86_isa_amx_refuted`, `x86_isa_vaes_refuted`: reported by the wrong state bits, or none.
* `cpuid_replay_amd_refuted`, `cpuid_replay_via_refuted`, `cpuid_replay_subleaf_refuted`: the recorder takes one cache of
  leaf 0x8000001D and no leaf from 0xC0000000; the script reads subleaves as decimal digits.

RISC-V
* `riscv_linux_unstable_sort_refuted`, `riscv_linux_interleaved_refuted`,
  `riscv_linux_start_is_not_an_index_refuted`, `riscv_linux_core_start_refuted`,
  `riscv_linux_offline_cpu_refuted`, `riscv_linux_isa_e_refuted`,
  `riscv_linux_frequency_hz_refuted` (kHz, not Hz).

ARM
* `kryo_280_companion_refuted`: the comparison masks out the variant that the constant contains.
* `arm_clusters_offline_refuted`: the layout heuristic reads uninitialised array elements if more processors
  are usable than listed in /proc/cpuinfo.
* `arm_layout_heuristic_compatible_refuted`: attributes of a cluster's first processor are not compared.
* `arm_processor_report_kept_refuted`, `arm_every_cluster_gets_midr_refuted`,
  `arm_little_cluster_guessed_refuted`, `arm_unattributable_guessed_refuted`: see C32 in MANIFEST.json.
* `arm_chipset_table_cores_refuted`: the entry for MT6592.
* `arm_cpuinfo_buffers_refuted`, `arm_cpuinfo_terminated_refuted`, `arm_cpuinfo_revision_initialised_refuted`:
  a Hardware value of 64 or a Revision value of 9 characters is terminated outside the array, longer ones are
  not terminated; the Revision array is not initialised.
* `arm_feature_names_complete_refuted`: names such as asimddp are not recorded on ARM64.
* `arm_unusable_values_ignored_refuted`: an unusable architecture still sets the architecture field; unusable
  cache numbers are stored and marked valid.
* `arm_caches_of_any_uarch_refuted`: the XScale entry needs the register it was recognised by.
* `arm_neoverse_n1_least_l2_refuted`: every Neoverse N1 is taken for an Ampere Altra.
* `arm_max_cache_bounds_refuted`: ThunderX, clusters of eight Cortex-A57, 32 ThunderX2 or TaiShan v110 cores have
  larger caches than the "upper bound".
* `arm_linux_offline_cpu_refuted`: with an offline CPU, the first so many of the sorted processors are published,
  and these are not the online ones; ranges point outside the table.
* `arm_linux_no_cpu_listed_refuted`, `arm_linux_versions_differ_refuted`: undefined behaviour if no CPU is listed,
  or if the architecture versions inside a cluster differ.
* `arm_linux_uarchs_once_refuted`, `arm_linux_l3_lost_refuted`, `arm_linux_printed_l1_refuted`,
  `arm_linux_max_cache_size_refuted`, `arm_linux_leak_refuted`: see C29, C39, C51 and C06 in MANIFEST.json.
* `arm_uarch_all_reported_refuted`: Cortex-X4, A520 and A720 are never reported.
* `arm64_faulty_dot_refuted`, `arm64_every_processor_refuted`, `arm64_dot_hidden_refuted`: 64-bit processes are told of a
  dot product that is known to fail; one processor decides for all; what the kernel says of early Cortex-A55 is ignored.
* `arm32_vfpv2_refuted`, `arm32_monotone_refuted`, `arm32_thumb_refuted`: VFPv3 and NEON hide VFPv2; ARMv7 does not imply Thumb.
* `arm_windows_inactive_refuted`, `arm_windows_cores_refuted`, `arm_windows_cache_answers_refuted`: on Windows for ARM,
  processors that are not active, cores without processors, a second answer longer than the first, caches without line size or
  ways, caches of other levels, unified level-1 caches and masks beyond a group lead to undefined behaviour.
* `arm_windows_no_caches_refuted`, `arm_windows_name_refuted`: initialization fails if there is no cache information, or if the
  name has 47 characters with one that is not ASCII, or is cut within a character.
* `arm_windows_associativity_refuted`: a fully associative cache (0xFF) is reported with 255 ways and a wrong number of sets; a
  cache without groups starts at UINT32_MAX.
* `arm_windows_ids_refuted`: smt_id and cluster_id are never set.
* `arm_windows_chip_refuted`: for an unknown MIDR vendor and microarchitecture are uninitialised variables.
* `arm_windows_leak_refuted`, `arm_windows_l4_refuted`: three blocks are never freed, and the table of level-4 caches is not NULL.
* `arm_windows_isa_32_refuted`: a 32-bit program is told that there is no NEON.  Also, half-precision arithmetic and RDM are
  inferred from the dot product (`arm_windows_isa_assumed`), and all cores get the MIDR of processor 0 (`arm_windows_describes`).
* `apple_threads_refuted`, `apple_packages_refuted`, `apple_division_refuted`: Apple systems are assumed to have one package
  with one thread for each core; `apple_efficiency_refuted`: four efficiency cores are assumed, M1 Pro has two.
* `apple_line_refuted`, `apple_l1_refuted`: no line size leads to a division by zero; one kind of first-level cache gives the
  other one a count without a table.
* `apple_isa_newer_refuted`, `apple_name_refuted`: A15 on systems that do not answer lacks what A14 has; newer iPads are
  unnamed without a brand string.
* `arm_other_libc_refuted`: 32-bit ARM with a C library other than glibc and Bionic has no feature words.
* `arm_linux_chip_without_revision_refuted`, `arm_linux_no_revision_refuted`: if /proc/cpuinfo has a Hardware line for a Broadcom chip but no Revision line,
  the uninitialized buffer `proc_cpuinfo_revision` is read.
* `arm_chip_model_known_refuted`, `arm_chip_digits_refuted`, `arm_chip_letter_refuted`: "Kirin9000" gives "HiSilicon Kirin "
  without a model; a fifth digit of an Exynos is ignored; the letter of Leadcore chips is overwritten by the structure
  that is assigned after it.
* `arm_chip_corrections_stable_refuted`: MSM8216 with 8 cores is turned into MSM8916, which with 8 cores would be MSM8939.
* `arm_linux_chip_frequency_refuted`: init.c passes 0 as the highest frequency, so that corrections by frequency do not
  apply (MSM8996PRO is always -AB, WM8850 has no model).
* `arm_android_suffix_refuted`, `arm_android_suffix_mixed_refuted`: suffixes are copied from any source to any other, also
  to a different model (MSM8994 and MSM8996PRO give "MSM8994PRO-AB") and over the beginning of another one ("XRO-AB").
* `arm_a55_exynos_refuted`: Cortex-A55 in Exynos chips get a second level that the manual does not offer;
  `arm_cache_sets_refuted`, `arm_thunderx_sets_refuted`: sizes that grow with the number of cores, and the 78 KB of
  ThunderX with an assumed four ways, give numbers of sets that are no powers of two.

Other systems
* `emscripten_l1_count_refuted`, `emscripten_cores_initialised_refuted`: on x86 with an even number of processors
  the counts of first-level caches and cores are twice what is filled in.
* `x86_counts_undivided_refuted`, `x86_mach_logical_failure_refuted`, `x86_mach_cacheconfig_refuted`,
  `x86_counts_l1_refuted`, `x86_mach_apic_core_field_refuted`, `x86_mach_leak_refuted`: Mach and FreeBSD assume that
  the kernel's numbers divide each other, that all of them are readable, and that there are instruction and data caches.
* `x86_windows_clusters_refuted`: with two packages all processors point to cluster 0 of package 0 and the other clusters
  are empty; `x86_windows_inactive_refuted`, `x86_windows_no_package_refuted`: inactive processors are counted, and no
  package leads to a write outside the array; `x86_windows_leak_refuted`: the buffer of answers is never freed.

Tools
* `cache_info_big_little_refuted`: cache-info describes the first cache of each kind and claims that all are like it;
  `cache_info_no_sets_refuted`: without a number of sets it prints "set associative64 byte lines".
* `cpu_info_vendor_refuted`: Marvell, SiFive and most vendors of 32-bit x86 have no name in cpu-info, so that the name of the
  microarchitecture is not printed either; `cpu_info_unknown_refuted`: "Unknown (0x..." is not closed;
  `cpu_info_empty_refuted`: the empty cluster of the second package on x86 Windows is printed with the range 0-4294967295.
* `isa_info_sme_refuted`: five extensions of SME that 64-bit ARM detects have no line in isa-info.
* `mock_files_size_refuted`: a mock file whose size is larger than its array is read beyond the end.
* `recording_bytes_refuted`, `recording_zero_refuted`: recordings spoil bytes that are not text, and zeros before digits make the replay
  read outside its array; `recording_clusters_refuted`: files that the library asks for are never recorded.
* `android_bracket_refuted`, `android_condition_refuted`, `android_long_names_refuted`: a closing bracket in a value stops the script;
  without /proc/cpuinfo the header of a 64-bit device does not compile; long names of properties are confused.
* `arm_linux_siblings_of_two_designs_refuted`: a CPU that the kernel lists as a sibling of CPUs of another design is reported as
  one of theirs, although /proc/cpuinfo tells its own design.
* `auxv_dump_arm64_refuted`: on 64-bit ARM auxv-dump does not print AT_HWCAP2, from which the library decides.
* `arm_linux_offline_leader_refuted`, `arm_linux_offline_guess_refuted`: undefined behaviour on machines with offline CPUs
  whose siblings the kernel does not tell; `arm_linux_offline_siblings_refuted`: nor if its lists of siblings name the offline CPUs.
* `x86_linux_threads_off_refuted`: an offline CPU is reported with APIC id 0, as a thread of the first core.
* `getter_during_initialize_race_refuted`, `isa_check_during_initialize_race_refuted`: cpuinfo_is_initialized and cpuinfo_isa
  are plain variables, and a thread that reads them during the initialization races with it.
* `x86_linux_tests_refuted`, `arm_linux_tests_refuted`, `other_systems_tests_refuted`: machines on which test/init.cc would fail, for
  the reasons found in C17, C85, C37, C35 and C34.
* `arm_linux_newer_cores_refuted` (with `arm_linux_neoverse_l2_shared`): src/arm/cache.c gives no third-level cache for cores that it has
  no case for and for Neoverse ones, and src/arm/linux/init.c:696-726 takes that to mean that the second level is the cluster's: four
  Cortex-A78 get one second-level cache of 1 MB, and all CPUs of a Neoverse server's group one of 256 KB or 1 MB.
* `x86_systems_sharers_refuted`: src/x86/freebsd/init.c:172-178 (and src/x86/mach/init.c without numbers from the kernel) takes a third level to
  be the package's, although CPUID says how many threads share it; src/x86/windows/init.c numbers cores without gaps and so regroups the
  cores of a processor whose groups are not a power of two. The leaves are those of a Ryzen 5 3600.
* `x86_linux_tied_sort_refuted` (C92): CPUs without a block in /proc/cpuinfo all have APIC id 0, so they tie in
  cmp_x86_linux_processor (src/x86/linux/init.c:29-44), and the order of the published processors is whatever qsort does with ties.
* `x86_systems_clusters_refuted` (C93): one package of two cores that have a third level each. Linux publishes two clusters
  (src/x86/linux/init.c groups by the last level), macOS, FreeBSD and Windows one; macOS and FreeBSD also publish one third level instead of two.
* `emscripten_largest_refuted` (C27): src/emscripten/init.c:272 publishes 128 MB (x86) or 8 MB (ARM) as the largest cache size, but no
  published cache is that large.
* `riscv_linux_renumbered_refuted`, `arm_linux_guess_renumbered_refuted`: how the kernel numbers CPUs decides which cores (RISC-V) and
  clusters (ARM, groups not told) they are listed under.
* `x86_isa_masked_refuted` (C98): src/x86/isa.c tests every feature bit by itself: AVX2 and AVX-512 are reported where a hypervisor hides AVX.
* `arm32_process_all_refuted` (C102): src/arm/linux/aarch32-isa.c:88-176 knows FP16 arithmetic, RDM and the dot product by lists of designs
  only; on Cortex-A78AE, which is not listed, 32-bit processes are not told of them, while 64-bit processes are, by the kernel's word.
* `x86_absent_leaves_avx10_2_refuted` (C105): src/x86/isa.c:49-50 reads leaf 0x24 if the highest leaf is at least 7, not 0x24. A processor
  with AVX10 in leaf 7, no leaf behind 0x1F, and two threads per core answers leaf 0x24 as leaf 0x1F, whose EBX is 2: AVX10.2 is reported.
* `x86_any_core_hybrid_refuted` (C106): cpuinfo_x86_init_processor runs once, on whatever core: on Alder Lake all cores are published with
  48 KB or all with 32 KB of data cache in the first level, and with one microarchitecture.
* `x86_detection_ends_refuted` (C107): src/x86/cache/init.c:79-84 loops over leaf 4 until a subleaf has no type; where all subleaves are
  answered alike, it never ends.

## Validation against the project's tests

The sources cannot be run here, but the project's tests are text.  The scripts in `validation/` evaluate the model with `coqc` and check
the expectations of these tests (they need the compiled theories; `python3 arm.py`, `x86.py`, `names.py`, `caches.py`).  This is evidence for the
reading of the sources, and no part of the proofs.

* `arm.py`: the recorded ARM devices of test/mock (files, properties, hardware capabilities), as 32-bit and as 64-bit builds: 29655
  assertions about tables, caches, names and instruction sets.  All hold except for
  - 16 devices that were recorded while CPUs were offline (galaxy-s7-global, meizu-pro-6 and so on).  The tests expect offline CPUs to be
    counted, while src/arm/linux/init.c:203-222 counts the ones listed in /proc/cpuinfo only; with a model that counts the others too
    all assertions about these devices hold.  Three of the devices are not detected at all, because of
    `arm_linux_offline_siblings_refuted`.
  - pixel-8 as a 32-bit build: four tests expect that there is no half-precision arithmetic and so on, but
    src/arm/linux/aarch32-isa.c reports it for this processor.
* `x86.py`: the six recorded x86 devices: 1599 assertions as 32-bit builds, of which all hold, and the same as 64-bit builds, of which
  all hold but ten: CMPXCHG16B, SSE4 and POPCNT are expected to be missing, since the recordings are from 32-bit systems.
* `names.py`: 1807 expectations of test/name about chip names and brand strings.  All hold but one (in both builds): for Hardware sc7731c and board
  sp7731cea test/name/android-properties.cc:71 expects "Spreadtrum SC7731C", but src/arm/linux/chipset.c:4039-4069 copies the
  longer suffix, so that the name is "Spreadtrum SC7731CEA".
* `caches.py`: the 368 (as 64-bit build 300) expectations of test/arm-cache.cc about the caches of ARM processors.  All hold.

## Trusted base

* Coq 8.16.1's kernel and `coqchk`.
* Axioms: none.  `Print Assumptions` stands below every property theorem and prints "Closed under the
  global context" for all of them.  `coqchk` lists seven constants of Coq's library
  `Coq.ssr.ssrunder.Under_rel`; they are loaded with the tactics of the standard library and used by no proof.
* The reading of `/repo` that produced the definitions; each cites its file and lines.
* The oracles' contracts listed above: `read()` returns a non-empty prefix of what is left and that fits;
  `calloc` fails or returns zeroed memory; `qsort` returns a sorted permutation; the CPUID instruction is a
  function of leaf and subleaf (the processors of a system give the same answers;
  C106 says which may differ without effect, and what happens on hybrid ones); POSIX `pthread_once`; 
  that memory is sequentially consistent for programs free of data races (C11; C87 says which are).
* The documents the specifications are written from: Intel and AMD manuals for CPUID, the ARM architecture
  manual for the main id register, the kernel's documentation of sysfs and /proc/cpuinfo.
