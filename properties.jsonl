{"id": "C01", "title": "Getters refuse to answer before a successful initialization", "statement": "Every information getter of the public API stops the program with a fatal error, and never returns data, as long as no initialization has succeeded; once one has succeeded no getter is fatal.", "quantifier": "every getter, every index argument, every contents of the global tables, every state of the initialized flag", "why_tests_cant": "A test would have to enumerate every getter with every index in every partially built state; a single missing guard in one of about forty getters is only visible on that getter.", "anchors": ["src/api.c: cpuinfo_get_*", "include/cpuinfo.h", "src/init.c: cpuinfo_initialize"]}
{"id": "C02", "title": "Indexed getters are total and bounds checked", "statement": "After initialization, an indexed getter (processors, cores, clusters, packages, microarchitectures, caches of each level) returns the element with that index if and only if the index is below the corresponding count getter, and NULL otherwise; it never reads outside the table.", "quantifier": "every table length, every 32-bit index, every getter", "why_tests_cant": "Indexes form a 2^32 domain per table and tables have arbitrary length; tests sample a few boundary values.", "anchors": ["src/api.c: cpuinfo_get_processor, cpuinfo_get_core, cpuinfo_get_cluster, cpuinfo_get_package, cpuinfo_get_uarch, cpuinfo_get_l1i_cache .. cpuinfo_get_l4_cache"]}
{"id": "C03", "title": "Initialization runs exactly once under any schedule", "statement": "For any number of threads calling cpuinfo_initialize any number of times, under every interleaving, the platform detection routine runs at most once, no call returns before it has finished, and all calls return the same boolean, which is true exactly when detection published its results.", "quantifier": "every number of threads and calls, every schedule, every outcome of detection", "why_tests_cant": "Thread schedules cannot be enumerated by tests; a racy guard fails only on rare interleavings.", "anchors": ["src/init.c: cpuinfo_initialize, init_guard"]}
{"id": "C04", "title": "Results never change after initialization", "statement": "Once an initialization has succeeded, every later sequence of API calls (repeated initialize, deinitialize, getters, from any thread) leaves every getter's answer unchanged; a failed first initialization is never retried.", "quantifier": "every finite history of API calls after the first initialize", "why_tests_cant": "Needs all histories; tests only run short fixed sequences.", "anchors": ["src/init.c: cpuinfo_initialize, cpuinfo_deinitialize", "src/api.c"]}
{"id": "C05", "title": "All-or-nothing publication", "statement": "If detection stops early for any reason (unreadable files, no processors, an allocation failing at any point) then no getter ever answers; a getter that answers sees the complete set of tables, because the flag is raised after all tables have been stored.", "quantifier": "every allocation-failure point, every prefix of the sequence of stores made by the commit step", "why_tests_cant": "Failure points are combinatorial and cannot be injected into static init code by ordinary unit tests.", "anchors": ["src/x86/linux/init.c: cpuinfo_x86_linux_init lines 183-678", "src/api.c: cpuinfo_is_initialized"]}
{"id": "C06", "title": "Detection releases all temporary memory", "statement": "When detection ends, successfully or not, every block it allocated is either published through the API or freed.", "quantifier": "every subset of failing steps", "why_tests_cant": "Leak checks only cover the paths a test happens to take.", "anchors": ["src/x86/linux/init.c: cleanup label and early returns"]}
{"id": "C07", "title": "Current processor/core/microarchitecture lookups are correct and safe", "statement": "Whatever CPU number the OS reports (or if it reports an error), cpuinfo_get_current_processor returns NULL or the processor whose Linux id is that number, cpuinfo_get_current_core returns NULL or the core containing that processor, and the current-uarch-index getters return an index below the uarch count (or the caller's default).", "quantifier": "every getcpu outcome, every sparse set of Linux CPU ids, every caller default", "why_tests_cant": "CPU numbering and hot-plug sets are unbounded; tests run on one machine.", "anchors": ["src/api.c: cpuinfo_get_current_processor, cpuinfo_get_current_core, cpuinfo_get_current_uarch_index, cpuinfo_get_current_uarch_index_with_default"]}
{"id": "C08", "title": "Text file parsing does not depend on read() chunking", "statement": "For a text file whose lines all fit in the line buffer, the detected information is that of its lines, in order, each exactly once, no matter how the kernel splits the contents over read() calls; if the file ends in a newline one additional empty line is seen, which changes nothing.", "quantifier": "every file contents with short enough lines, every sequence of short reads", "why_tests_cant": "The number of ways to split a file over reads is exponential; mocks return fixed chunks.", "anchors": ["src/linux/multiline.c: cpuinfo_linux_parse_multiline_file"]}
{"id": "C09", "title": "Over-long lines are not silently dropped", "statement": "If a line of a parsed text file does not fit into the parser's buffer, either its contents still take effect or parsing reports failure.", "quantifier": "every file contents and buffer size", "why_tests_cant": "Requires files with lines longer than any sampled by the mocks; the claim turns out false and the counterexample class is exactly 'a line at least as long as the buffer'.", "anchors": ["src/linux/multiline.c: cpuinfo_linux_parse_multiline_file", "src/linux/cpulist.c: cpuinfo_linux_parse_cpulist"]}
{"id": "C10", "title": "CPU lists denote exactly the listed CPUs", "statement": "For every well-formed kernel CPU list (decimal numbers and ranges a-b with a<=b<2^32-1, separated by commas, optional blanks, optional final newline), under every chunking, the ranges delivered are exactly the listed ones, in order, and parsing succeeds.", "quantifier": "every well-formed list of any length (entries shorter than the buffer), every read chunking", "why_tests_cant": "Infinite language times exponential chunkings.", "anchors": ["src/linux/cpulist.c: parse_number, parse_entry, cpuinfo_linux_parse_cpulist"]}
{"id": "C11", "title": "Malformed CPU lists are reported, well-formed entries still count", "statement": "If some entry of a CPU list is empty, does not start with a number, lacks its range end or is a decreasing range, parsing reports failure, and exactly the ranges of the other entries have been delivered.", "quantifier": "every list of entries, every subset of malformed entries", "why_tests_cant": "Error combinations are unbounded.", "anchors": ["src/linux/cpulist.c: parse_entry, cpuinfo_linux_parse_cpulist"]}
{"id": "C12", "title": "Present/possible detection flags exactly the listed CPUs within the limit", "statement": "After detecting the present (possible) processors with limit n, a CPU below n carries the flag if and only if it is in the kernel's list; CPUs at or above n are ignored without any out-of-bounds access; no other flag changes; the reported highest CPU is the highest listed one clamped to the system limit.", "quantifier": "every list of ranges, every limit", "why_tests_cant": "Unbounded sets and limits; the clamp and the off-by-one at the end of ranges interact.", "anchors": ["src/linux/processors.c: detect_processor_parser, cpuinfo_linux_detect_possible_processors, cpuinfo_linux_detect_present_processors, max_processor_number_parser, cpuinfo_linux_get_max_possible_processor, cpuinfo_linux_get_max_present_processor"]}
{"id": "C13", "title": "Small sysfs integer files are read exactly", "statement": "A sysfs file holding a decimal number below 2^32, followed by a newline, yields exactly that number under every chunking; an unreadable, empty, non-numeric or over-long file yields the documented fallback (0 or the default) and never a partially read number.", "quantifier": "every contents, every chunking, every file-size limit", "why_tests_cant": "Chunkings and contents are unbounded.", "anchors": ["src/linux/smallfile.c: cpuinfo_linux_parse_small_file", "src/linux/processors.c: uint32_parser, cpuinfo_linux_get_max_processors_count, cpuinfo_linux_get_processor_max_frequency"]}
{"id": "C14", "title": "x86 /proc/cpuinfo: APIC ids reach the right processor, and arbitrary contents are harmless", "statement": "For a /proc/cpuinfo made of per-processor blocks, the APIC id recorded for CPU n is the one in the block of CPU n; for arbitrary bytes parsing never accesses memory outside the line or the processor table and never changes a processor other than the announced one.", "quantifier": "every sequence of lines (arbitrary bytes), every table size", "why_tests_cant": "Arbitrary bytes and arbitrary block orders cannot be enumerated.", "anchors": ["src/x86/linux/cpuinfo.c: parse_line, parse_processor_number, parse_apic_id, cpuinfo_x86_linux_parse_proc_cpuinfo"]}
{"id": "C15", "title": "x86 Linux: every usable CPU is reported exactly once", "statement": "The reported processors are exactly the CPUs that are both present and possible (or listed in /proc/cpuinfo when the present list is unavailable), each exactly once, in APIC-id order, and the processor count is their number.", "quantifier": "every combination of kernel lists, /proc/cpuinfo contents and APIC ids, every order qsort may leave equal elements in", "why_tests_cant": "Arbitrary sets of CPUs and APIC ids, and every implementation of an unstable sort.", "anchors": ["src/x86/linux/init.c: cpuinfo_x86_linux_init, cmp_x86_linux_processor"]}
{"id": "C16", "title": "x86 Linux: cores, clusters and packages partition the processors consistently", "statement": "Each reported processor lies in the index range of its core, cluster and package; each core, cluster and package covers a non-empty contiguous index range containing exactly the processors (cores, clusters) that point to it; the ranges are disjoint and cover everything; a core lies inside its cluster and a cluster inside its package.", "quantifier": "every set of processors and APIC ids, every thread/core/cache bit width with threads nested in the last level cache group", "why_tests_cant": "Unbounded number of processors and topologies; mocks cover some dozens of real chips.", "anchors": ["src/x86/linux/init.c: lines 379-482", "test/init.cc: consistent_* tests"]}
{"id": "C17", "title": "x86 Linux: grouping follows the APIC id", "statement": "Two processors share a reported core (package, cluster, cache) if and only if their APIC ids agree above the corresponding number of low bits.", "quantifier": "every pair of processors, every APIC id assignment, every bit width", "why_tests_cant": "Unbounded.", "anchors": ["src/x86/linux/init.c: cpuinfo_x86_count_objects, lines 394-616"]}
{"id": "C18", "title": "x86 Linux: detection never writes outside its tables", "statement": "Building the topology never reads or writes outside the allocated arrays: the counts used for allocation equal the number of objects created.", "quantifier": "every table of Linux processors with at least one usable one, every bit width, every cache presence combination", "why_tests_cant": "The second pass re-derives the objects; only a proof shows both passes always agree.", "anchors": ["src/x86/linux/init.c: cpuinfo_x86_count_objects vs lines 386-618"]}
{"id": "C19", "title": "x86 Linux: ids are within range and identify objects", "statement": "The SMT id of a processor is its offset in its core and is below the core's processor count; the core id is the offset of the core in its package and is below the package's core count; the cluster id is the offset of the cluster in its package and below the package's cluster count.", "quantifier": "every topology as in C16", "why_tests_cant": "Unbounded.", "anchors": ["src/x86/linux/init.c: smt_id, core_id, cluster_id"]}
{"id": "C20", "title": "x86 Linux: shared caches are reported consistently", "statement": "At each level with a known cache size every processor points to a cache whose processor range contains it; ranges partition the processors; all caches of a level carry the decoded geometry; at a level with no known cache there is no cache and the pointers are NULL.", "quantifier": "every topology, every combination of present cache levels and sharing widths", "why_tests_cant": "Unbounded.", "anchors": ["src/x86/linux/init.c: lines 487-616"]}
{"id": "C21", "title": "x86 Linux: hyper-threads without deterministic cache information", "statement": "Every reported cluster contains at least one core, also on processors that support hyper-threading but describe their caches only by legacy descriptors.", "quantifier": "every CPUID contents", "why_tests_cant": "No mock exists for such processors; the claim is false and the model exhibits the failing class.", "anchors": ["src/x86/linux/init.c: llc_apic_bits, lines 247-256, 409-413, 443"]}
{"id": "C22", "title": "Deterministic cache parameters decode exactly", "statement": "For every CPUID leaf 4 / 0x8000001D register contents the decoded cache has ways, partitions, line size and sets one above the encoded fields, its size is their product when that fits in 32 bits, it is stored at the level and type encoded, no other level changes, and 2^(sharing bits) is the smallest power of two not below the encoded number of sharing processors.", "quantifier": "every value of the four 32-bit registers, every previous cache state", "why_tests_cant": "2^128 register values.", "anchors": ["src/x86/cache/deterministic.c: cpuinfo_x86_decode_deterministic_cache_parameters, cpuinfo_x86_decode_cache_properties", "src/cpuinfo/utils.h: bit_length"]}
{"id": "C23", "title": "CPUID signature decoding loses nothing", "statement": "Family, model and stepping are computed from the CPUID signature as documented by the vendors, and the decoded fields determine all architectural bits of the signature.", "quantifier": "every 32-bit signature", "why_tests_cant": "2^32 signatures; tests sample a handful.", "anchors": ["src/x86/info.c: cpuinfo_x86_decode_model_info"]}
{"id": "C24", "title": "Vector ISA support is reported only when the OS enabled the register state", "statement": "cpuinfo_has_x86_* for AVX-class, AVX-512-class and MPX instruction sets is true only if the OS has enabled the corresponding register state through XCR0 (and the CPU reports the feature); features not requiring extended state are not affected by XCR0.", "quantifier": "every contents of all CPUID leaves and XCR0, every vendor", "why_tests_cant": "The input space is hundreds of bits; a missing gate shows only on a machine whose OS disabled the state.", "anchors": ["src/x86/isa.c: cpuinfo_x86_detect_isa", "include/cpuinfo.h: cpuinfo_has_x86_*"]}
{"id": "C25", "title": "Thread and core bit fields of the APIC id are decoded as the vendor documents", "statement": "With legacy enumeration the thread and core fields are adjacent, start at bit 0 and together cover the logical-processor count of the package; with x2APIC enumeration the fields follow the per-level shifts.", "quantifier": "every CPUID contents for which the enumeration terminates", "why_tests_cant": "Unbounded level sequences and register values; the subtraction can wrap, which the model exhibits.", "anchors": ["src/x86/topology.c: cpuinfo_x86_detect_topology", "src/x86/init.c: cpuinfo_x86_init_processor"]}
{"id": "C26", "title": "Brand-string normalization is memory safe and yields a clean name", "statement": "For every 48-byte brand string normalization never touches memory outside the two 48-byte arrays, terminates, and produces a NUL-terminated name without leading, trailing or doubled spaces.", "quantifier": "all 256^48 brand strings", "why_tests_cant": "Token rewriting, merging and compaction interact; the input space is astronomically large.", "anchors": ["src/x86/name.c: cpuinfo_x86_normalize_brand_string, transform_token, cpuinfo_x86_format_package_name"]}
{"id": "C27", "title": "Maximum cache size is the last level cache of the first processor", "statement": "cpuinfo_get_max_cache_size returns the size of the highest-level cache present for the processor (L4, else L3, else L2, else L1D, else 0).", "quantifier": "every combination of present levels and sizes", "why_tests_cant": "Finite per level but sizes are unbounded and selection order matters.", "anchors": ["src/cache.c: cpuinfo_compute_max_cache_size", "src/arm/cache.c: cpuinfo_arm_compute_max_cache_size"]}
{"id": "C28", "title": "MIDR field updates do not interfere", "statement": "Setting one field (implementer, variant, architecture, part, revision) of an ARM main id register value makes that field read back as the value truncated to the field's width and leaves all other fields unchanged; copying a field likewise.", "quantifier": "every 32-bit register value and field value", "why_tests_cant": "2^64 pairs per field.", "anchors": ["src/arm/midr.h: midr_set_*, midr_get_*, midr_copy_*"]}
{"id": "C29", "title": "ARM: cores are ordered big to little and clusters are contiguous", "statement": "The reported ARM processors are exactly the usable ones, each once; more powerful cores come first; and all processors of one cluster occupy one contiguous range which the cluster reports.", "quantifier": "every set of processors, MIDRs, frequencies and cluster leaders, every unstable sort", "why_tests_cant": "Unbounded.", "anchors": ["src/arm/linux/init.c: cmp_arm_linux_processor, cpuinfo_arm_linux_init", "src/arm/midr.h: midr_score_core"]}
{"id": "C30", "title": "ARM: kernel sibling lists yield the true clusters", "statement": "If the kernel's sibling lists of the usable processors form a partition, then after detection two usable processors have the same cluster leader if and only if the kernel lists them as siblings, and the leader is the lowest usable processor of the cluster.", "quantifier": "every partition of every set of CPUs, every set of usable CPUs", "why_tests_cant": "Unbounded partitions.", "anchors": ["src/arm/linux/init.c: cluster_siblings_parser and its uses", "src/linux/processors.c: siblings_parser"]}
{"id": "C31", "title": "ARM: every usable core ends up in exactly one counted cluster", "statement": "After the fallback scan every usable processor has a cluster leader that is itself a usable leader not above it, processors already clustered are untouched, a scanned processor never joins a cluster with a known different attribute, and each processor's recorded cluster size is the number of usable processors with its leader.", "quantifier": "every processor table, every known/unknown attribute pattern", "why_tests_cant": "Attribute patterns are combinatorial.", "anchors": ["src/arm/linux/clusters.c: cpuinfo_arm_linux_detect_core_clusters_by_sequential_scan, cpuinfo_arm_linux_count_cluster_processors, cpuinfo_arm_linux_detect_core_clusters_by_heuristic"]}
{"id": "C32", "title": "ARM: every cluster receives one consistent MIDR", "statement": "After MIDR assignment, if at least one processor reported its MIDR, every usable processor's MIDR equals that of its cluster leader, and MIDRs actually reported by the kernel are kept.", "quantifier": "every processor table and cluster assignment", "why_tests_cant": "Combinatorial combinations of missing reports.", "anchors": ["src/arm/linux/midr.c: cpuinfo_arm_linux_detect_cluster_midr"]}
{"id": "C33", "title": "ARM /proc/cpuinfo parsing stays within its buffers", "statement": "Arbitrary /proc/cpuinfo contents never make the parser write outside the hardware/revision buffers or the processor table, and the stored strings are NUL terminated.", "quantifier": "every byte sequence", "why_tests_cant": "Arbitrary lengths; the failing length is a single value that mocks do not contain.", "anchors": ["src/arm/linux/cpuinfo.c: parse_line (Hardware, Revision), parse_features, parse_cpu_architecture, parse_cpu_part"]}
{"id": "C34", "title": "RISC-V: processors, cores, clusters and packages are consistent", "statement": "The reported RISC-V processors are the present ones, each once, and each points to the core, cluster and package that contain it according to the kernel lists.", "quantifier": "every set of kernel lists describing a machine, every sort the C library may use, every failing allocation", "why_tests_cant": "Unbounded; qsort order is implementation defined.", "anchors": ["src/riscv/linux/init.c: cpuinfo_riscv_linux_init"]}
{"id": "C35", "title": "Emscripten: reported tables agree with their counts", "statement": "On WebAssembly, for every logical-processor count reported by the runtime, every indexed getter with an index below its count returns a pointer inside the allocated table to an initialized element. Every published cache has a size equal to the product of its ways, sets, partitions and line size, a power of two of sets, a size above that of the level before it, and a size of at most cpuinfo_get_max_cache_size().", "quantifier": "every logical-processor count", "why_tests_cant": "Counts are unbounded and tests run with one count.", "anchors": ["src/emscripten/init.c: cpuinfo_emscripten_init"]}
{"id": "C36", "title": "Mach and FreeBSD: counts-based topology is consistent", "statement": "For every thread/core/package count triple in which each divides the previous one the reported processors, cores and packages form consistent nested ranges; without divisibility this fails.", "quantifier": "every triple of counts and cache sharing widths", "why_tests_cant": "Unbounded triples.", "anchors": ["src/x86/mach/init.c: cpuinfo_x86_mach_init", "src/x86/freebsd/init.c: cpuinfo_x86_freebsd_init", "src/mach/topology.c", "src/freebsd/topology.c"]}
{"id": "C37", "title": "Windows x86: every processor belongs to its package's cluster", "statement": "On Windows every reported processor points to a cluster of its own package and every cluster contains the processors in its range.", "quantifier": "every group/package/core layout reported by the OS", "why_tests_cant": "Multi-package machines are not available in CI.", "anchors": ["src/x86/windows/init.c: cpuinfo_x86_windows_init"]}
{"id": "C38", "title": "Log messages are complete or visibly truncated never corrupted", "statement": "A formatted log message of any length is written completely, followed by a newline, in a single write.", "quantifier": "every message length", "why_tests_cant": "Only one exact length misbehaves.", "anchors": ["src/log.c: cpuinfo_vlog"]}
{"id": "C39", "title": "ARM cache tables are geometrically consistent", "statement": "For every microarchitecture and every table entry the reported caches satisfy size = ways * sets * partitions * line size, with power-of-two line sizes and non-zero fields, and decoding never divides by zero.", "quantifier": "every microarchitecture, MIDR, core count, cluster id, architecture version and chipset", "why_tests_cant": "The decoder is a 1600-line switch over many parameters; tests check selected chips.", "anchors": ["src/arm/cache.c: cpuinfo_arm_decode_cache"]}
{"id": "C40", "title": "x86 cache descriptors are geometrically consistent", "statement": "Every legacy cache descriptor byte that sets a cache sets one whose size equals ways * sets * partitions * line size, and every other byte leaves the caches unchanged.", "quantifier": "all 256 descriptor bytes, every vendor and model", "why_tests_cant": "256 x vendors x models; tests decode none of them in isolation.", "anchors": ["src/x86/cache/descriptor.c: cpuinfo_x86_decode_cache_descriptor"]}
{"id": "C41", "title": "Decimal numbers in kernel text are decoded exactly or rejected", "statement": "A decimal processor number in /proc/cpuinfo is decoded to its value when it fits in 32 bits, and a non-digit character is never taken for a digit.", "quantifier": "every string", "why_tests_cant": "Infinite strings; exactly one non-digit character is accepted by mistake.", "anchors": ["src/x86/linux/cpuinfo.c: parse_processor_number", "src/arm/linux/cpuinfo.c: parse_processor_number"]}
{"id": "C42", "title": "Sort comparators are consistent total preorders", "statement": "The comparators passed to qsort are antisymmetric and transitive on the values they meet, so the C library's qsort contract is met for every input.", "quantifier": "every triple of processor records", "why_tests_cant": "A violated contract corrupts memory only for particular inputs and sort implementations.", "anchors": ["src/x86/linux/init.c: cmp_x86_linux_processor", "src/arm/linux/init.c: cmp_arm_linux_processor", "src/riscv/linux/init.c: cmp_riscv_linux_processor"]}
{"id": "C43", "title": "The vendor is the one whose identification string CPUID spells", "statement": "The vendor of every core is the vendor whose documented 12-character identification string is in leaf 0, and unknown if the string is none of the documented ones.", "quantifier": "every contents of ebx, ecx, edx of leaf 0; 32-bit and 64-bit builds", "why_tests_cant": "2^96 register contents; a test only feeds a handful of known strings.", "anchors": ["src/x86/vendor.c: cpuinfo_x86_decode_vendor"]}
{"id": "C44", "title": "The microarchitecture belongs to the vendor and follows from family and model", "statement": "The reported microarchitecture is unknown or one of the reported vendor's, it depends on vendor, family and model only (not on the stepping), and every microarchitecture listed in the header for a vendor is recognised for the family the vendor documents.", "quantifier": "every vendor and every 32-bit signature, 32-bit and 64-bit builds", "why_tests_cant": "2^32 signatures for each vendor, most of them of processors a tester does not own.", "anchors": ["src/x86/uarch.c: cpuinfo_x86_decode_uarch", "include/cpuinfo.h: enum cpuinfo_uarch"]}
{"id": "C45", "title": "Reserved registers of CPUID leaf 2 are ignored", "statement": "A register of CPUID leaf 2 whose bit 31 is set holds no descriptors, so it does not affect the reported caches.", "quantifier": "every reading of leaf 2", "why_tests_cant": "Needs processors that return reserved registers.", "anchors": ["src/x86/cache/init.c: cpuinfo_x86_detect_cache"]}
{"id": "C46", "title": "RISC-V: the extension getters follow the kernel", "statement": "cpuinfo_has_riscv_{i,e,m,a,f,d,g,c,v} answers true exactly if the kernel's AT_HWCAP word names the extension (g: I, M, A, F and D together).", "quantifier": "every AT_HWCAP word", "why_tests_cant": "A test sees the one word of the machine it runs on.", "anchors": ["src/riscv/linux/riscv-isa.c: cpuinfo_riscv_linux_decode_isa_from_hwcap", "include/cpuinfo.h: cpuinfo_has_riscv_*"]}
{"id": "C47", "title": "ARM cores rank by their design", "statement": "The rank used to order processors depends only on the implementer and part number of the main id register; designs used as fast cores rank above unknown ones, which rank above designs used as LITTLE cores, Cortex-X cores above the Cortex-A7x cores beside them, and the LITTLE core guessed for a known big core is its documented companion, which ranks below it.", "quantifier": "every 32-bit main id register value", "why_tests_cant": "A test sees the cores of the chip it runs on.", "anchors": ["src/arm/midr.h: midr_score_core, midr_little_core_for_big"]}
{"id": "C48", "title": "The table of ARM chipsets describes possible chips", "statement": "Every entry of the table of chipsets with known clusters has one to three clusters, all with cores, ordered from LITTLE to big, whose sizes add up to the number of cores given; there is at most one entry for a chipset; and a chipset whose entry describes the clusters that were found gets the MIDRs of the entry.", "quantifier": "every entry, on both 32- and 64-bit ARM, and every processor table", "why_tests_cant": "A test sees the chip it runs on.", "anchors": ["src/arm/linux/midr.c: cluster_configs, cpuinfo_arm_linux_detect_cluster_midr_by_chipset"]}
{"id": "C49", "title": "ARM /proc/cpuinfo describes each processor by its own block", "statement": "From a /proc/cpuinfo file as ARM kernels print it, every listed processor gets exactly the main id register, architecture version, features and first-level cache numbers of its own block (a later line overrides an earlier one), nothing of another block, and is marked complete in exactly the fields that were given.", "quantifier": "every file of well-formed lines, every order of blocks, every way read() cuts the file, 32- and 64-bit ARM", "why_tests_cant": "Tests run on mock files of a few devices.", "anchors": ["src/arm/linux/cpuinfo.c: parse_line, parse_features, parse_cpu_part, parse_cpu_implementer, parse_cpu_variant, parse_cpu_revision, parse_cpu_architecture, parse_cache_number"]}
{"id": "C50", "title": "ARM /proc/cpuinfo values reported as ignored are ignored", "statement": "A line of /proc/cpuinfo whose value is reported as invalid and ignored in the log leaves the description of the processor unchanged.", "quantifier": "every line with an unusable value", "why_tests_cant": "Unusable values do not occur in the mock files.", "anchors": ["src/arm/linux/cpuinfo.c: parse_cpu_architecture, parse_cache_number, parse_cpu_part"]}
{"id": "C51", "title": "ARM: the maximum cache size is an upper bound", "statement": "cpuinfo_get_max_cache_size, documented as an upper bound on cache size, is at least the size of every cache the library reports for the cluster.", "quantifier": "every main id register, number of cores, chipset and architecture version", "why_tests_cant": "The bound and the sizes come from two different tables; tests know the chips of their mock files.", "anchors": ["include/cpuinfo.h: cpuinfo_get_max_cache_size", "src/arm/cache.c: cpuinfo_arm_compute_max_cache_size, cpuinfo_arm_decode_cache"]}
{"id": "C52", "title": "ARM: vendor and microarchitecture fit together and depend on the design only", "statement": "A core is reported exactly for the main id registers that mean it (implementer, part and, for Cortex-A55 and Exynos cores, variant); the reported microarchitecture depends on the implementer, part and variant fields of the main id register only, is one designed by the reported vendor, never is a 32-bit core for a 64-bit program, and every microarchitecture of the enumeration that names an ARM core is reported for its main id register.", "quantifier": "every main id register", "why_tests_cant": "2^32 registers and two builds.", "anchors": ["src/arm/uarch.c: cpuinfo_arm_decode_vendor_uarch", "include/cpuinfo.h: enum cpuinfo_uarch"]}
{"id": "C53", "title": "AArch64: extension getters say what the kernel reports", "statement": "Every cpuinfo_has_arm_* getter for an optional extension is true exactly if the kernel reports the extension, except FP16 arithmetic, rounding doubling multiplication and the dot product, which are also true for processors known to have them; learning of more extensions from the kernel never takes one away; no chip on which an extension is known to fail reports it; and a reported extension is one of all processors.", "quantifier": "every pair of feature words, main id register, chipset and vector length", "why_tests_cant": "2^96 feature words, and main id registers of chips that no mock file describes.", "anchors": ["src/arm/linux/aarch64-isa.c: cpuinfo_arm64_linux_decode_isa_from_proc_cpuinfo", "include/cpuinfo.h: cpuinfo_has_arm_*, cpuinfo_get_max_arm_sve_length"]}
{"id": "C54", "title": "32-bit ARM: getters never promise an extension without what it builds on", "statement": "On 32-bit ARM Linux, whatever the kernel reports, the getters are consistent: a later architecture includes the earlier ones, NEON and VFPv4 include VFPv3, the extensions of ARMv8 come with ARMv8 and NEON, Thumb-2 with Thumb, and so on; each getter is true exactly in the cases its documentation gives.", "quantifier": "every pair of feature words, main id register, architecture version and letters, chipset, coprocessor register and target of compilation", "why_tests_cant": "The decoding combines some twenty independent inputs; mock files cover a few dozen combinations.", "anchors": ["src/arm/linux/aarch32-isa.c: cpuinfo_arm_linux_decode_isa_from_proc_cpuinfo", "include/cpuinfo.h: cpuinfo_has_arm_*"]}
{"id": "C55", "title": "ARM Linux: where feature words and the deciding main id register come from", "statement": "The feature words are those of the kernel's auxiliary vector whenever it can be read, whatever else the vector contains and however it is read; otherwise an extension is used only if every usable processor with a list of features in /proc/cpuinfo names it.  The main id register and architecture are those of the last usable processor that reports them completely, never of an unusable one.", "quantifier": "every auxiliary vector, sequence of reads, and table of processors", "why_tests_cant": "Fallbacks run on old Android releases with restricted files only; the mocks bypass them.", "anchors": ["src/arm/linux/hwcap.c: cpuinfo_arm_linux_hwcap_from_getauxval, cpuinfo_arm_linux_hwcap_from_procfs", "src/arm/linux/init.c: cpuinfo_arm_linux_init"]}
{"id": "C56", "title": "Apple: cores are described, with their kinds and clusters", "statement": "On Apple ARM systems with one package and one thread for each core, initialisation succeeds and the tables are consistent: each processor is a core of its own, neighbouring cores share a cluster exactly if they are of one kind, the table of microarchitectures has the clusters' kinds and numbers of cores, and performance cores come before efficiency cores in the numbers the chip has.", "quantifier": "every number of cores, family, and answer of sysctl", "why_tests_cant": "Needs every Apple chip; no mock exists for these systems, and the number of efficiency cores is assumed.", "anchors": ["src/arm/mach/init.c: cpuinfo_arm_mach_init, decode_uarch", "src/mach/topology.c: cpuinfo_mach_detect_topology"]}
{"id": "C57", "title": "Apple: caches, memory and getters agree with what sysctl answers", "statement": "On Apple ARM systems, each processor has first-level caches of its own, and second- and third-level caches are shared by all; a cache that sysctl does not tell of is absent; either no table is published and no memory is kept, or exactly the published tables are; and every getter returns an element for each index below the count and NULL otherwise.", "quantifier": "every answer of sysctl and every pattern of failing allocations", "why_tests_cant": "Failing allocations and odd answers of sysctl cannot be provoked.", "anchors": ["src/arm/mach/init.c: cpuinfo_arm_mach_init, get_sys_info", "src/api.c"]}
{"id": "C58", "title": "Apple: extension getters follow the system's answers", "statement": "On 64-bit Apple systems an optional extension is reported exactly if sysctl tells of it, or the processor's family is one from before sysctl told and known to have it; AES, SHA-1, SHA-2, PMULL and CRC32 always are, SVE never; and a newer family is reported with what its predecessor has.", "quantifier": "every family and every answer to every question", "why_tests_cant": "Depends on 12 independent questions, each of which may fail or have another size, on systems of different age.", "anchors": ["src/arm/mach/init.c: cpuinfo_arm_mach_init", "include/cpuinfo.h: cpuinfo_has_arm_*"]}
{"id": "C59", "title": "Apple: package names", "statement": "The package's name is the system's brand string, cut to 47 characters; without one, the chip's name follows from the device: iPhone n has the chip A(n+1), and iPads and iPods the chips they were sold with; it never overflows the 48 bytes for it; and an unknown device has an empty name.", "quantifier": "every brand string and every name of a device", "why_tests_cant": "sscanf and strlcpy on arbitrary strings; no mock exists for these systems.", "anchors": ["src/arm/mach/init.c: read_package_name_from_brand_string, decode_package_name_from_hw_machine"]}
{"id": "C60", "title": "RISC-V: vendors of cores and clusters", "statement": "Every published core and every published cluster contains a published processor for which the kernel (riscv_hwprobe) tells the vendor id that the record reports: SiFive exactly for 0x489, otherwise unknown. The microarchitecture is always unknown.", "quantifier": "every set of kernel lists and hwprobe answers, every sort the C library may use, every failing allocation after which tables are published", "why_tests_cant": "Unbounded machines; the records are filled from a sorted array while other records are being counted.", "anchors": ["src/riscv/uarch.c: cpuinfo_riscv_decode_vendor_uarch", "src/riscv/linux/init.c: cpuinfo_riscv_linux_init", "src/riscv/linux/riscv-hw.c: cpuinfo_riscv_linux_decode_vendor_uarch_from_hwprobe"]}
{"id": "C61", "title": "ARM Windows: processors, cores, clusters and packages", "statement": "On Windows for ARM, initialization with a well-formed answer of GetLogicalProcessorInformationEx publishes exactly the processors of all groups (numbered group after group), the cores and the packages Windows names, each with its first processor, number of processors and (packages) number of cores; every processor and core points to the core, cluster and package that contains it; every core is a cluster of its own; name, frequency, vendor and microarchitecture are those the registry tells for processor 0. If processors are numbered in order, all ranges are consistent. Inactive processors, empty cores and a second answer that differs from the first break it.", "quantifier": "every number and size of groups, every partition of processors into cores and packages, every numbering of them, every name", "why_tests_cant": "No mock of Windows exists in the repository; the sets are unbounded, may span groups and need not be ranges.", "anchors": ["src/arm/windows/init-by-logical-sys-info.c: cpu_info_init_by_logical_sys_info, parse_relation_processor_info, connect_packages_cores_clusters_by_processors", "src/arm/windows/init.c: cpuinfo_arm_windows_init"]}
{"id": "C62", "title": "ARM Windows: caches", "statement": "On Windows for ARM, for every kind of cache the published table has one entry for each cache of that kind Windows names, in its order, with its size, line size and ways, the number of sets that follows, its first processor and number of processors; every processor points to the last cache of each kind that contains it; the largest cache size is that of the last level present. Answers with a zero line size, zero ways, another level, a unified cache of level 1 or processors that do not exist break it.", "quantifier": "every list of caches of the four kinds, every set of processors for each", "why_tests_cant": "No mock of Windows exists; caches are stored by a per-level counter into one array and pointers are computed from counts of all lower levels.", "anchors": ["src/arm/windows/init-by-logical-sys-info.c: parse_relation_cache_info, store_package_info_per_processor, store_core_info_per_processor"]}
{"id": "C63", "title": "ARM Windows: names, chips, memory and getters", "statement": "On Windows for ARM the package name is the first 47 UTF-16 units of the registry's processor name, converted to UTF-8, if that takes at most 47 bytes; otherwise initialization publishes nothing. If the registry lacks the name, MIDR or frequency, the chip is 'Unknown'. Vendor and microarchitecture are those that the MIDR decoder knows. Whatever the registry, Windows and the heap answer, only the published tables and at most three further blocks stay allocated, and the getters give exactly the elements of the tables.", "quantifier": "every registry content, every answer of Windows, every failing allocation, every index", "why_tests_cant": "Names are arbitrary UTF-16; failing allocations and missing registry values cannot be provoked in a unit test.", "anchors": ["src/arm/windows/init.c: get_system_info_from_registry, read_registry, get_core_info_from_midr", "src/arm/windows/init-by-logical-sys-info.c: cpu_info_init_by_logical_sys_info"]}
{"id": "C64", "title": "ARM Windows: instruction sets", "statement": "On 64-bit Windows for ARM, LSE atomics, dot product, cryptography (AES, SHA1, SHA2, PMULL) and CRC32 are reported exactly if IsProcessorFeaturePresent says so; what every ARMv8 processor has is always reported; nothing else is reported, except half-precision arithmetic and RDM, which are reported exactly with the dot product. A 32-bit program gets none of the features that every processor running Windows has.", "quantifier": "every set of features Windows reports, every getter", "why_tests_cant": "No mock of IsProcessorFeaturePresent exists; a negative claim about all other getters.", "anchors": ["src/arm/windows/init.c: set_cpuinfo_isa_fields", "include/cpuinfo.h: cpuinfo_has_arm_*"]}
{"id": "C65", "title": "ARM Linux: the chip that the Hardware and Revision lines mean", "statement": "On GNU/Linux for ARM the chip behind the package name is a function of the Hardware line, the Revision line, the number of cores and the width of the build: exactly the one that the documented patterns, tables, corrections and Raspberry Pi revisions mean. Never are two chips meant. For any contents of the two lines there is a chip, with a name of at most 47 characters. Without a Revision line, a Hardware line that means a Broadcom chip makes the library read a buffer nothing was written to.", "quantifier": "every content of the 64-byte hardware buffer and the 9-byte revision buffer (terminated or not), every number of cores, both builds", "why_tests_cant": "Tests name a few devices; the patterns match at arbitrary positions in arbitrary texts, and each match must neither read past the end nor be claimed by two patterns.", "anchors": ["src/arm/linux/chipset.c: cpuinfo_arm_linux_decode_chipset, cpuinfo_arm_linux_decode_chipset_from_proc_cpuinfo_hardware, cpuinfo_arm_fixup_raspberry_pi_chipset", "src/arm/linux/init.c: cpuinfo_arm_linux_init"]}
{"id": "C66", "title": "ARM chip names", "statement": "A chip name with a model means exactly one chip: vendor, series, model and suffix can be read off. Devices that are known by their code name get the documented name of their chip, whatever the number of cores and the other buffers hold. (Assumed and refuted: a recognized text always tells a model; different model numbers give different chips; letters after the model stay in the name.)", "quantifier": "every pair of chips, every device in the tables, every text", "why_tests_cant": "Injectivity quantifies over pairs of chips; a unit test compares single strings.", "anchors": ["src/arm/linux/chipset.c: cpuinfo_arm_chipset_to_string, special_hardware_map_entries, tegra_hardware_map_entries, special_board_map_entries, special_platform_map_entries, amlogic_map_entries, match_kirin, match_samsung_exynos, match_lc"]}
{"id": "C67", "title": "ARM chip corrections", "statement": "A chip misreported by the kernel is corrected by the documented rules (number of cores, highest frequency, misspelled suffixes, renamed series), and every other chip is left as it is; for every chip there is exactly one result. (Assumed and refuted: a corrected chip needs no further correction; the correction by frequency takes place when the library is initialized.)", "quantifier": "every chip with every suffix, every number of cores, every frequency", "why_tests_cant": "'Every other chip is unchanged' is a negative claim over all models and core counts.", "anchors": ["src/arm/linux/chipset.c: cpuinfo_arm_fixup_chipset", "src/arm/linux/init.c: cpuinfo_arm_linux_init"]}
{"id": "C68", "title": "Android: one chip from seven sources", "statement": "On Android each of seven sources means at most one chip. If none is recognized, or two are of different vendors, the chip is unknown. If all that are recognized have the same model and their suffixes are beginnings of one of them, the chip is that one. If models of one vendor differ, the model is that of the first recognized source in the vendor's order of trust, and the chip is unknown if there is none. In every case there is a chip with a name of at most 47 characters. (Assumed and refuted: the chip is one that a source means; its suffix is one that a source means.)", "quantifier": "all contents of the seven properties, every number of cores and frequency, both builds", "why_tests_cant": "Combinations of seven arbitrary texts; the interesting ones disagree in ways no recorded device does.", "anchors": ["src/arm/linux/chipset.c: cpuinfo_arm_android_decode_chipset, disambiguate_qualcomm_chipset, disambiguate_mediatek_chipset"]}
{"id": "C69", "title": "ARM caches are configurations that the manuals allow", "statement": "For each core whose technical reference manual is quoted, the first-level caches reported have a size, number of ways and line length that the core can be built with; so has the second level for the usual numbers of cores. The number of sets of every cache is a power of two if the number of cores is one. (Refuted: for Cortex-A55 in Exynos chips, for three cores, and for ThunderX.)", "quantifier": "every main id register, chip, cluster, number of cores and architecture version", "why_tests_cant": "Sizes depend on chip names and core counts; tests know the chips of their mock files, where a wrong but plausible size would go unnoticed.", "anchors": ["src/arm/cache.c: cpuinfo_arm_decode_cache"]}
{"id": "C70", "title": "ARM GNU/Linux: the package bears the name of the chip in /proc/cpuinfo", "statement": "If all usable CPUs are online and of one architecture version and the tables are published, the name of the package is the one documented for the chip that the last Hardware line (and for Broadcom the last Revision line) of /proc/cpuinfo means for the number of processors in the tables, with the documented corrections; there is only one such chip, the name fits its array, and the same chip decides caches and main id registers. (Refuted: that detection is defined for a Broadcom chip without a Revision line.)", "quantifier": "every machine: all contents of the kernel's files with text lines, every CPU count, sort and pattern of allocation failures, all builds", "why_tests_cant": "Mock files fix one Hardware line, Revision and CPU count each; repeated, over-long or missing lines go through partly written buffers.", "anchors": ["src/arm/linux/init.c: cpuinfo_arm_linux_init", "src/arm/linux/cpuinfo.c: parse_line", "src/arm/linux/chipset.c: cpuinfo_arm_linux_decode_chipset, cpuinfo_arm_chipset_to_string"]}
{"id": "C71", "title": "Android: the package bears the name of the chip that the properties decide on", "statement": "If all usable CPUs are online and of one architecture version and the tables are published, the name of the package is that of the chip that the last Hardware line and the properties ro.product.board, ro.board.platform, ro.mediatek.platform, ro.arch, ro.chipname and ro.hardware.chipname decide on for the number of processors in the tables; the name fits its array, and such a chip also decides caches and main id registers.", "quantifier": "every device: all contents of the kernel's files with text lines, all values of the properties, every CPU count, sort and pattern of allocation failures, all builds", "why_tests_cant": "Devices in the test data have matching files and properties; any mixture of them is possible, and which property goes to which decoder is not observable on most devices.", "anchors": ["src/arm/android/properties.c: cpuinfo_arm_android_parse_properties", "src/arm/linux/init.c: cpuinfo_arm_linux_init", "src/arm/linux/chipset.c: cpuinfo_arm_android_decode_chipset"]}
{"id": "C72", "title": "clog writes complete lines, to the right stream, without leaving its buffers", "statement": "Each message that clog writes is the prefix for its severity and module, the formatted message and a newline, in a single write, to the error stream for problems and to the output stream for others. Without memory a line longer than the buffer is dropped as a whole; a message that cannot be formatted is dropped, and a module name that cannot be formatted is left out. No access is outside the buffers and no byte is written out that was not stored. Levels enable the most serious messages first and a fatal message always aborts. (Refuted: a line or a prefix of exactly 1024 bytes loses a character; lengths that sum beyond INT_MAX overflow.)", "quantifier": "every severity, level, module name, formatted message, and outcome of formatting and allocation", "why_tests_cant": "Tests print a few short messages; the boundary between stack and heap buffers is at one length for each prefix, and allocation failures are not injected.", "anchors": ["deps/clog/src/clog.c: clog_vlog_fatal, clog_vlog_error, clog_vlog_warning, clog_vlog_info, clog_vlog_debug", "deps/clog/include/clog.h: CLOG_DEFINE_LOG_FATAL"]}
{"id": "C73", "title": "A CPUID recording holds all that the processor has", "statement": "The text that cpuid-dump prints has one line for every leaf and subleaf that the processor has, each once and in order, with the eight-digit registers that the processor answered, and with the subleaf, the vendor's name or the part of the brand string where there is one. It ends exactly on processors whose lists of subleaves end and whose highest leaves and subleaves are below 0xFFFFFFFF, and is the same however long it takes.", "quantifier": "every processor with 32-bit registers: all answers of CPUID to all leaves and subleaves", "why_tests_cant": "The tool is only ever run on the machine at hand; the loops over leaves and subleaves have no bound of their own.", "anchors": ["tools/cpuid-dump.c: main, print_cpuid, print_cpuidex, print_cpuid_vendor, print_cpuid_brand_string"]}
{"id": "C74", "title": "The mocked library detects the processor that was recorded", "statement": "If a recording can show all that matters (leaf 2 answers alike each time, at most ten caches and levels, no further caches in leaf 0x8000001D, no leaves from 0xC0000000 on a VIA processor, nothing behind the highest leaves), then the library in mock mode, given the table that the script makes of the recording, detects the vendor, microarchitecture, caches, topology, instruction set and brand string that it detects on the recorded processor. (Refuted without these conditions: AMD processors with topology extensions lose all but their first cache, VIA processors lose PadLock, and the script takes subleaf 0A for subleaf 0.)", "quantifier": "every processor with 32-bit registers and an ASCII name, every recording that ends, all builds", "why_tests_cant": "All mock tests rest on this: they compare the library with expectations about recordings, never with the processor that was recorded.", "anchors": ["tools/cpuid-dump.c: main", "scripts/parse-x86-cpuid-dump.py", "src/x86/mockcpuid.c: cpuinfo_mock_get_cpuid, cpuinfo_mock_get_cpuidex", "src/x86/cpuid.h: cpuid, cpuidex", "src/x86/init.c: cpuinfo_x86_init_processor"]}
{"id": "C75", "title": "cache-info's report can be read back and describes the caches", "statement": "The text that cache-info prints can be read back: it holds the largest cache size and, for each kind of cache that exists, one line with the level, kind, number, size, inclusiveness, ways, sets, indexing, line size and sharing of the first cache of that kind; different shapes give different lines. On x86 Linux the line is true of all caches of the kind. (Refuted: on ARM big.LITTLE systems it is only true of the first; without a number of sets the line cannot be read.)", "quantifier": "every set of published caches; every x86 Linux machine and set of files", "why_tests_cant": "The tools have no tests; what they print depends on the machine at hand.", "anchors": ["tools/cache-info.c: report_cache, main", "src/api.c: cpuinfo_get_max_cache_size"]}
{"id": "C76", "title": "cpu-info's report can be read back, and names what was detected", "statement": "The text that cpu-info prints can be read back: package names, the number of cores of each microarchitecture, the processors of each core and cluster with their vendor and microarchitecture, and each processor's system number and APIC id. On consistent tables a processor is in the printed range of its own core and cluster only. A printed name is that of exactly one constant of the header, and on 64-bit x86, 64-bit ARM and Apple systems whatever is detected is printed by name. (Refuted: Marvell, Transmeta and other 32-bit vendors and SiFive have no name; a microarchitecture without a name leaves a parenthesis open; an empty cluster, as on x86 Windows with two packages, is printed as \"0-4294967295\".)", "quantifier": "every set of published tables, every build; every CPUID signature, MIDR and Apple CPU family", "why_tests_cant": "The tools have no tests; there are about 150 names to keep in step with the header.", "anchors": ["tools/cpu-info.c: main, vendor_to_string, uarch_to_string", "include/cpuinfo.h: enum cpuinfo_vendor, enum cpuinfo_uarch"]}
{"id": "C77", "title": "isa-info tells what was detected, under the right labels", "statement": "The text that isa-info prints can be read back as labels with \"yes\" or \"no\" (and on 64-bit ARM the longest SVE vector in bits). No label occurs twice, each calls exactly one getter cpuinfo_has_*, and its answer is what that getter returns. The report leaves nothing out: two machines with the same report have the same answer from every getter. Hence on x86 a line says \"yes\" exactly if the processor announces the instructions and the operating system has enabled their registers, and on 64-bit ARM and RISC-V exactly if the kernel reports them. (Refuted: the five extensions of SME that the library detects have no line.)", "quantifier": "every build, every detected instruction set; every answer of CPUID, every pair of hwcap words", "why_tests_cant": "The tools have no tests; 142 labels must stand beside the right call on four architectures.", "anchors": ["tools/isa-info.c: main", "include/cpuinfo.h: cpuinfo_has_x86_*, cpuinfo_has_arm_*, cpuinfo_has_riscv_*"]}
{"id": "C78", "title": "Mock files behave as a read-only file system", "statement": "With the mock build, whatever sequence of open, read and close is made on the files that a test supplies, no byte outside their arrays is read, and each call is answered as a read-only file system answers: open finds the first file of that name, refuses other modes, unknown names and files that are open already; read gives the next bytes of the file, as many as fit; close makes the descriptor invalid. So the reads between open and close, put together, are the file's contents, whatever is done to other files in between. (Refuted: a size larger than the array is not noticed.)", "quantifier": "every set of files, every sequence of calls with every argument", "why_tests_cant": "The mock files are what the tests run on; nothing tests them, and interleavings are unbounded.", "anchors": ["src/linux/mockfile.c: cpuinfo_mock_filesystem, cpuinfo_mock_open, cpuinfo_mock_read, cpuinfo_mock_close"]}
{"id": "C79", "title": "The library looks for each processor in the kernel's file for it", "statement": "For every processor number that fits in 32 bits, each file name that the library forms (frequencies, core and package number, lists of siblings) fits in its buffer, so that the fact is never given up for lack of room; it is the name under which the kernel documents that fact for exactly that processor, and no two processors or facts share a name.", "quantifier": "every processor number below 2^32, every file", "why_tests_cant": "Tests use machines with at most a few dozen processors; the buffers are sized by a macro that counts the letters of UINT32_MAX instead of its digits.", "anchors": ["src/linux/processors.c: FREQUENCY_FILENAME_SIZE, cpuinfo_linux_get_processor_cur_frequency, cpuinfo_linux_get_processor_core_id, cpuinfo_linux_detect_core_siblings"]}
{"id": "C80", "title": "A recording of a machine's files replays as that machine", "statement": "The header that scripts/arm-linux-filesystem-dump.py writes is valid C; as mock files it has one file for each listed file that the machine has and no other, of the recorded length, and reading it gives back the machine's contents exactly if these are text (tab, newline, carriage return, printable ASCII) and zeros that no octal digit follows. (Refuted: other bytes are written as an x and two digits without a backslash, so that the replay differs; a zero before octal digits gives an array shorter than its size, and the replay reads outside of it; of the ten files that the library looks for on each processor only six are recorded, so that cluster_cpus_list, core_cpus_list, package_cpus_list and the current frequency are missing in every replay, and only for sixteen processors.)", "quantifier": "every machine, every content of its files; every processor and file the library looks for", "why_tests_cant": "The tests are run on recordings; nothing compares a recording with its machine.", "anchors": ["scripts/arm-linux-filesystem-dump.py: c_escape, dump_system_file, main", "scripts/android-device-dump.py: c_escape, add_mock_file", "include/cpuinfo-mock.h: struct cpuinfo_mock_file"]}
{"id": "C81", "title": "A recording of an Android device replays as that device", "statement": "Whatever an Android device's files and properties are (text without a closing bracket in properties, /proc/cpuinfo and kernel_max readable), and whether or not adb turns newlines into carriage return and newline, the header that scripts/android-device-dump.py writes compiles for 32-bit and 64-bit ARM; it contains exactly the device's properties, and for each architecture the files that a program of that architecture finds on the device, with their contents if these are text. The library, reading a property from the replay, gets the device's value, so that it decodes the same chip. (Refuted: a closing bracket in a value stops the script; a 64-bit device whose /proc/cpuinfo cannot be read gives a header that does not compile; names that agree in 32 characters are confused; cluster_cpus_list and three more files are never recorded. The 32-bit /proc/cpuinfo loses its last newline.)", "quantifier": "every device, every set of properties and files, both architectures", "why_tests_cant": "The tests run on 82 recordings; nothing compares them with the devices.", "anchors": ["scripts/android-device-dump.py: adb_getprop, add_mock_file, main", "src/arm/android/properties.c: cpuinfo_android_property_get, cpuinfo_arm_android_parse_properties"]}
{"id": "C82", "title": "The ids, vendors and clocks of RISC-V cores and clusters", "statement": "On a RISC-V Linux machine whose files describe nested groups of consecutive CPUs, the core that cpuinfo_get_processor(i)->core points to has the core_id, the vendor and the frequency that the kernel tells for the first CPU of that core (0 where it tells none), and the cluster has the vendor and frequency told for its first CPU and that CPU's number as cluster_id. The frequency should be in Hz, as include/cpuinfo.h says. (False: it is the kernel's number, which is in kHz.)", "quantifier": "every set of CPUs and grouping, every contents of the core_id and cpuinfo_cur_freq files (absent, not a number, or a number below 2^32) in any sequence of short reads, every answer of hwprobe, every sort that leaves a sorted table alone", "why_tests_cant": "The repository has no RISC-V mock and no RISC-V test; a test on a board sees one topology, where usually all CPUs tell the same vendor and clock, so that a value taken from the wrong CPU goes unseen.", "anchors": ["src/riscv/linux/init.c:292-356", "src/riscv/linux/init.c:538-566", "src/linux/processors.c:150-174", "include/cpuinfo.h:677-678", "include/cpuinfo.h:705-706"]}
{"id": "C83", "title": "ARM Linux: the order of processors of the same design", "statement": "On an ARM Linux machine whose kernel describes the groups of its CPUs, cpuinfo_get_processors lists, among processors whose cores have the same design, those of the group with the higher maximum clock first, at equal clocks those of the group with the higher numbers, and within a group those with the lower number. The clock of a group is the one the kernel tells for the first CPU of the group for which it tells any. The tables do not depend on which sorting algorithm the C library's qsort uses. The design of a core is the one that /proc/cpuinfo gives for its CPU. (The last claim is false when the kernel lists CPUs of two designs as siblings.)", "quantifier": "every set of CPUs and grouping, every contents of the cpuinfo_max_freq files (absent, not a number, or a number below 2^32) in any sequence of short reads, every /proc/cpuinfo, every sort that returns a sorted permutation", "why_tests_cant": "A test on a device sees one set of clocks and one C library; whether qsort is free to swap two entries can only be seen with every sort, and a wrong tie-break shows only on machines with two clusters of the same design and clock.", "anchors": ["src/arm/linux/init.c:64-100", "src/arm/linux/init.c:311-330", "src/arm/linux/init.c:436-479", "src/arm/linux/midr.c:858-878"]}
{"id": "C84", "title": "The dumps of /proc/cpuinfo and of the auxiliary vector", "statement": "cpuinfo-dump always ends, prints nothing but a prefix of /proc/cpuinfo, and exits successfully only if it printed the whole file, which it does unless a read fails. auxv-dump prints AT_HWCAP (and on 32-bit ARM AT_HWCAP2) as at least eight hexadecimal digits, so that two devices with the same dump have the same words. The dump has the words from which the library decides which instruction sets there are. (The last claim is false on 64-bit ARM: AT_HWCAP2 is not printed, and two devices with the same dump differ in cpuinfo_has_arm_i8mm.)", "quantifier": "every file and every sequence of read sizes and errors, every value of the words below 2^64", "why_tests_cant": "Neither tool has a test; a run reads the file in the one way the kernel chose, and prints the words of one device, so that neither lost bytes nor ambiguous dumps show.", "anchors": ["tools/cpuinfo-dump.c:14-47", "tools/auxv-dump.c:12-31", "src/arm/linux/aarch64-isa.c:1-194"]}
{"id": "C85", "title": "ARM Linux with offline CPUs", "statement": "If some usable CPUs are offline (the kernel mentions them in its CPU lists, but not in /proc/cpuinfo), initialisation on ARM Linux reports as many processors as CPUs are online, different usable CPUs, each with a core of its own and in the ranges of the cluster and caches it points to, with the same design as its cluster, big ones first. If the kernel gives packages and siblings of the online CPUs, it never has undefined behaviour, two processors share a cluster exactly if both are online and siblings, and the core of an online CPU has the register that /proc/cpuinfo tells. (False without conditions: the CPUs reported need not be the online ones, see C29; without siblings, initialisation has undefined behaviour if the first CPU is offline and its design has no cache sizes of its own, or if six of eight CPUs are online.)", "quantifier": "every number of CPUs and every set of online ones, every text of the files, every sort, every failing allocation, every build and chip, for designs whose caches do not depend on the architecture version", "why_tests_cant": "The mocked devices of the tests are recorded with all cores online or with one fixed set of them; any subset may be offline when a program starts, and the undefined behaviour shows only for a few of them.", "anchors": ["src/arm/linux/init.c:160-770", "src/arm/linux/clusters.c:68-373", "src/arm/linux/clusters.c:414-598"]}
{"id": "C86", "title": "x86 Linux: sharing is bounded by the hardware, also with offline CPUs", "statement": "If the usable CPUs have different APIC ids, no reported core has more processors (nor an SMT id outside) than the thread field of the APIC id can number, no cluster or package more than its fields can, and no cache is shared by more processors than CPUID says. Whether two online CPUs share a core, cluster or package does not depend on which other CPUs are online. An offline CPU (present, but not in /proc/cpuinfo) is reported as a thread of the core, and in the package, with the lowest APIC ids. (Consequently the bounds are false with offline CPUs: with the second threads of two cores switched off, three of the four CPUs are reported as threads of the first core.)", "quantifier": "every set of CPUs, every assignment of APIC ids, every description by CPUID with adjacent fields, every sort and every failing allocation", "why_tests_cant": "The mocked x86 devices all have all CPUs online; the bounds are about every table the detection can build, and stability about all pairs of sets of online CPUs.", "anchors": ["src/x86/linux/init.c: lines 170-213", "src/x86/linux/init.c: lines 386-618", "src/x86/linux/cpuinfo.c: cpuinfo_x86_linux_parse_proc_cpuinfo"]}
{"id": "C87", "title": "Threads that use the library after cpuinfo_initialize has returned are free of data races", "statement": "In every execution in which some cpuinfo_initialize has returned (in the sense of happens-before) before each call of a getter, each cpuinfo_has_* and each look at what a getter's pointer points to, there is no data race: all stores of the detection happen before all reads. It suffices that each thread that uses the library calls cpuinfo_initialize first. (That getters may be called during the initialization, as they check whether it is complete, is false: the check itself races with the store of the flag, and cpuinfo_has_* checks nothing.)", "quantifier": "every number of threads and every interleaving, finite or not, every sequence of stores of the detection, and every synchronisation the program has besides", "why_tests_cant": "A race shows up only under unlucky schedules, compilers and processors with weak memory; the tests call cpuinfo_initialize from one thread.", "anchors": ["src/init.c: cpuinfo_initialize", "src/api.c: lines 18-47", "src/api.c: cpuinfo_get_processors", "include/cpuinfo.h: cpuinfo_has_x86_sse2"]}
{"id": "C88", "title": "The checks of test/init.cc hold on every ordinary machine, not only the one they are run on", "statement": "After a successful initialization, counts are positive and nested (packages <= clusters <= cores <= processors; microarchitectures; each cache level no more than the one below), pointers and ranges of processors, cores, clusters, packages and caches agree in both directions, ids are offsets, clusters are of the kind of their cores, vendors and microarchitectures are known, and every cache has a size that is the product of its geometry, a line size that is a power of two from 16 to 128, documented flags only, and no inclusive first level: on x86 Linux whatever the files say, if CPUID describes plausible nested caches and the threads of a core share the last level; on 64-bit ARM Linux if all CPUs are online, of known designs, and with a second-level cache, and the third-level caches are all alike or differ between clusters; on x86 Mach and FreeBSD if the counts divide each other. On Apple's ARM systems the checks of processors, cores, clusters and packages hold. (False on x86 Windows, in Emscripten, on RISC-V Linux, on ARM Linux with offline CPUs, and on x86 Linux if CPUID does not say that threads share the last level.)", "quantifier": "every content of the files, every answer of CPUID or the kernel within the conditions, every main id register, every sort and every failing allocation; each of 121 of the 133 tests of test/init.cc", "why_tests_cant": "test/init.cc checks the machine it is run on.", "anchors": ["test/init.cc: TEST(PROCESSOR, consistent_cluster)", "test/init.cc: TEST(L1I_CACHE, valid_size)", "src/x86/linux/init.c: cpuinfo_x86_linux_init", "src/arm/linux/init.c: cpuinfo_arm_linux_init", "src/x86/mach/init.c: cpuinfo_x86_mach_init", "src/x86/freebsd/init.c: cpuinfo_x86_freebsd_init"]}
{"id": "C89", "title": "x86 Linux: the published caches are those that CPUID's leaf about caches describes, shared as it says", "statement": "For every level of cache that leaf 4 (or, on processors with AMD's topology extensions, leaf 0x8000001D) describes, every published processor has a cache of that level whose size, ways, sets, partitions, line size and flags are the leaf's; two processors have the same one exactly if their APIC ids agree above the bits needed to number the sharing threads; if the APIC ids are different, no cache is published with as many as twice the sharing threads, and none with more than that if it is a power of two; and processors that share a cache share every cache that may be shared by no fewer threads.", "quantifier": "every answer of CPUID whose list of caches ends, every build, every content of the files, every sort and every failing allocation that lets initialization succeed", "why_tests_cant": "Mock tests have fifteen or so recorded processors; the property ranges over all register values and files together.", "anchors": ["src/x86/cache/init.c: cpuinfo_x86_detect_cache", "src/x86/cache/deterministic.c: cpuinfo_x86_decode_deterministic_cache_parameters", "src/x86/cache/deterministic.c: cpuinfo_x86_decode_cache_properties", "src/x86/linux/init.c: cpuinfo_x86_linux_init"]}
{"id": "C90", "title": "64-bit ARM Linux: each CPU is published as the core of its main id register, with caches of that core's manual, shared as it says", "statement": "If all CPUs are online and /proc/cpuinfo and the sibling lists tell their main id registers and groups, then every usable CPU is listed exactly once; its core has the vendor and microarchitecture that the register means; its first-level caches, and with the usual number of cores its second-level cache, have a size, ways, line and sets that the core's manual allows; the second level of a Cortex-A35, A53, A57, A72, A73, Kryo, Denver or Exynos M1/M2 is shared by exactly the CPUs of the group, and that of a Cortex-A55, A65, A75, A76 or A77 by no other (A55 in an Exynos excepted). (False for newer cores: a Cortex-A78's own second level is reported as one shared by the group, as are those of Neoverse servers.)", "quantifier": "every content of the files that tells these things, every main id register, every chip, sort and failing allocation that lets initialization succeed", "why_tests_cant": "Recorded devices are a few dozen of the combinations of cores, chips and groups.", "anchors": ["src/arm/linux/init.c: cpuinfo_arm_linux_init", "src/arm/uarch.c: cpuinfo_arm_decode_vendor_uarch", "src/arm/cache.c: cpuinfo_arm_decode_cache"]}
{"id": "C91", "title": "x86 macOS, FreeBSD and Windows: the published caches are those that CPUID's leaf about caches describes, and shared as it says", "statement": "Every level of cache that leaf 4 (or, on processors with AMD's topology extensions, leaf 0x8000001D) describes is published for every processor with the leaf's size, ways, sets, partitions, line size and flags. On macOS as many processors share a cache as the kernel reports; if it reports no number, and always on FreeBSD, those of a core share the first level and a second level below a third, those of a package the third level, and all the fourth. On Windows processors share a cache exactly if the APIC ids made up for them agree above the bits that number the sharing threads, hence fewer than twice as many as CPUID says, and no more if that is a power of two. (Refuted: no cache has more processors than CPUID says. A processor with six cores of two threads and a third level for every six threads gets one of twelve processors on FreeBSD and macOS, and one of eight and one of four on Windows.)", "quantifier": "every contents of CPUID with a sound topology, every regular machine that the kernel's answers describe, every result of memory allocation that lets initialization succeed", "why_tests_cant": "The project's tests replay CPUID on Linux only, and a test shows one processor.", "anchors": ["src/x86/mach/init.c: cpuinfo_x86_mach_init", "src/x86/freebsd/init.c: cpuinfo_x86_freebsd_init", "src/x86/windows/init.c: cpuinfo_x86_windows_init", "src/x86/cache/deterministic.c: cpuinfo_x86_decode_deterministic_cache_parameters"]}
{"id": "C92", "title": "Linux: the same machine gives the same answer, however the compiler treats char, the stack is filled and the kernel hands over files", "statement": "Two initializations that find the same contents in all files (or the same ones missing) have the same outcome \u2014 the same tables, the same name of the package, the same remaining memory and the same undefined behaviour, if any \u2014 whether plain char is signed or not in either build, whatever values uninitialised variables hold, and in whatever pieces each read() returns the bytes, as long as no read fails. The files may hold any bytes at all, well formed or not. On x86 the answer does not depend on the C library's qsort either, if the usable CPUs have different APIC ids (false if CPUs are offline and tie).", "quantifier": "every content of every file, every partition of the files into reads, both treatments of char, all values of uninitialised variables, every sort and every failing allocation", "why_tests_cant": "A test runs in one build, on one stack, and with mock files that are handed over in one way; malformed and non-ASCII contents are not tried.", "anchors": ["src/linux/multiline.c: cpuinfo_linux_parse_multiline_file", "src/linux/cpulist.c: cpuinfo_linux_parse_cpulist", "src/linux/smallfile.c: cpuinfo_linux_parse_small_file", "src/arm/linux/clusters.c: cpuinfo_arm_linux_detect_core_clusters_by_heuristic", "src/arm/linux/clusters.c: cpuinfo_arm_linux_detect_core_clusters_by_sequential_scan", "src/x86/linux/init.c: cpuinfo_x86_linux_init", "src/arm/linux/init.c: cpuinfo_arm_linux_init", "src/riscv/linux/init.c: cpuinfo_riscv_linux_init", "src/x86/linux/init.c: cmp_x86_linux_processor"]}
{"id": "C93", "title": "x86: the same machine is described alike by Linux, macOS, FreeBSD and Windows", "statement": "Take a machine of equal packages, each with the same number of cores and the same number of threads per core, whose APIC ids put package, core and thread side by side. On Linux (whatever numbers the kernel gives to CPUs and in whatever order /proc/cpuinfo lists them), on macOS and on FreeBSD cpuinfo_initialize publishes the same processors (place in core, core, cluster, package), the same cores, clusters, packages and counts; with the usual sharing of caches (first level by a core, last level by a package) also the same caches, the same cache pointers and the same cpuinfo_get_max_cache_size. With one package Windows gives the same too, with the same APIC ids. The tables are written out entry by entry. Refuted where it fails: if each core has its own last level, Linux publishes a cluster per core and the others one per package.", "quantifier": "every number of packages, cores and threads, every width of the APIC id fields that holds them, every numbering of CPUs, every cache geometry and every well-formed answer of each system", "why_tests_cant": "No test runs one machine under several operating systems and compares what they say.", "anchors": ["src/x86/linux/init.c: cpuinfo_x86_linux_init", "src/x86/mach/init.c: cpuinfo_x86_mach_init", "src/x86/freebsd/init.c: cpuinfo_x86_freebsd_init", "src/x86/windows/init.c: cpuinfo_x86_windows_init"]}
{"id": "C94", "title": "32-bit ARM Linux: cores by register, caches by kernel and manual", "statement": "In a 32-bit process on Linux, when all usable CPUs are online and /proc/cpuinfo gives their main id registers, every usable CPU is found exactly once through the getters, with the vendor and microarchitecture that its register (and, for the one part number where it matters, VFPv4 of its cluster) means. A first-level cache for which /proc/cpuinfo prints size, associativity, line length and sets is reported with the last of these numbers; one for which it does not print all four is reported for its processor alone and in a configuration that the core's manual allows. The second-level cache is one that the manual allows, and shared as it says: by the cluster for Cortex-A7, A8, A15, A17, A35, A53, A57, A72, A73, Scorpion, Krait, Kryo, Denver, Exynos M1 and M2, by nobody for Cortex-A55, A65, A75, A76, A77.", "quantifier": "for all file contents and read sizes, CPU numbers, groups, clocks, sorts, chipset decoders, build variants, allocation outcomes and orders and repetitions of /proc/cpuinfo lines", "why_tests_cant": "The mock tests replay recordings of particular phones, and none of those kernels prints cache sizes; the space of /proc/cpuinfo texts, repeated lines and CPU groupings is unbounded.", "anchors": ["src/arm/linux/init.c:600-780", "src/arm/linux/cpuinfo.c:560-880", "src/arm/cache.c:1-330", "src/arm/uarch.c:1-400"]}
{"id": "C95", "title": "Getters tell of the published tables, all of them and nothing else", "statement": "On every supported system, once initialization has succeeded, the count getter of each table (processors, cores, clusters, packages, microarchitectures, caches of each level) returns the number of elements detection published, the indexed getter returns element i for every i below it and NULL for every other i, the getter of the whole table returns the first element of a non-empty table, and cpuinfo_get_max_cache_size returns the size detection computed; in every interleaving with initialization a count getter answers that number or aborts.", "quantifier": "every system, every table, every index, all published contents, every interleaving with the stores of initialization", "why_tests_cant": "Each system has its own sequence of stores to the global variables; a missing or swapped store shows only on that system and for tables a test happens to ask for, and tests run on the machines at hand.", "anchors": ["src/api.c", "src/x86/linux/init.c:600-660", "src/x86/mach/init.c:320-360", "src/x86/freebsd/init.c:340-380", "src/x86/windows/init.c:590-640", "src/arm/linux/init.c:835-864", "src/arm/mach/init.c:645-680", "src/arm/windows/init-by-logical-sys-info.c:300-345", "src/riscv/linux/init.c:578-596", "src/emscripten/init.c:238-273"]}
{"id": "C96", "title": "The kernel's numbering of CPUs does not matter", "statement": "If two Linux kernels number the CPUs of one machine differently, detection describes the same machine. x86: the tables of processors (in the same order), cores, clusters, packages and caches, the counts and the largest cache size are equal, each processor has the other kernel's number, and the number's lookup finds the same processor and core. ARM, with groups and main id registers told by the kernel: as many processors and clusters, every CPU has the same register and as many cores in its cluster, and two CPUs share a cluster in the one if and only if they do in the other. RISC-V, if the CPUs of every core, cluster and package have consecutive numbers in both numberings: the tables are as long, every CPU's core, cluster and package have the same counts, and two CPUs share one in the one if and only if they do in the other.", "quantifier": "all files that describe the machine in either numbering, all renumberings of its CPUs, all sorts, all outcomes of allocation", "why_tests_cant": "A test has the numbering of its machine or recording; the firmware, the kernel version and CPUs brought up late change it, and there are factorially many.", "anchors": ["src/x86/linux/init.c:147-678", "src/arm/linux/init.c:110-864", "src/arm/linux/clusters.c", "src/riscv/linux/init.c"]}
{"id": "C97", "title": "Every published package bears the processor's name", "statement": "On x86 Linux, macOS, FreeBSD and Windows, whenever initialisation publishes packages, the name of every one of them, not only of the first, is a terminated C string of at most 47 characters: the vendor and the words of the brand string that CPUID spells, as C26 states them. On WebAssembly the one package is named \"x86 vCPU\" or \"ARM vCPU\".", "quantifier": "all processors (CPUID oracles), all contents of the uninitialised buffer on the stack, all files or kernel answers (on Windows: all that describe a machine), all sorts, all outcomes of allocation", "why_tests_cant": "The tests for names call the normaliser alone, on recorded brand strings; the mock tests have machines with one package, where a name written to the first package only, or one package too late, goes unnoticed.", "anchors": ["src/x86/linux/init.c:394-487", "src/x86/mach/init.c:68-93", "src/x86/freebsd/init.c:73-98", "src/x86/windows/init.c:398-409", "src/emscripten/init.c:115-119", "src/x86/name.c"]}
{"id": "C98", "title": "A getter that says yes includes all that the extension builds on", "statement": "x86: On a processor that announces no extension without those it builds on (67 pairs from the manuals, such as AVX-512 FP16 on AVX-512 BW, that on AVX-512 F, that on AVX2, FMA and F16C, these on AVX, that on SSE4.2 and XSAVE), whenever cpuinfo_has_x86_<a>() is true, so is cpuinfo_has_x86_<c>() for all c that a builds on, directly or in several steps, whatever register state the operating system has enabled. AArch64: the same with the kernel's feature words in place of CPUID, whatever the main id register and the chip; FP16 arithmetic as a base of FHM and SVE except on Exynos 9810, where the library hides it.", "quantifier": "all processors (CPUID oracles), all values of XCR0 and of the MXCSR mask, all builds (32 or 64 bits, Android or not), all pairs of getters in the closure of the table; all feature words, registers and chips", "why_tests_cant": "Kernels are chosen by one getter and use the instructions of many. A test sees the combinations of its own machine; the harmful ones need a register state that the operating system or hypervisor has enabled in part.", "anchors": ["src/x86/isa.c:36-832", "include/cpuinfo.h:874-1660", "src/x86/init.c:14-70", "src/arm/linux/aarch64-isa.c"]}
{"id": "C99", "title": "Every file that detection opens is closed, once, on every path", "statement": "Each function that reads files on Linux (lines, CPU lists, small files, the auxiliary vector) calls nothing but open() if that fails; otherwise it reads only with the descriptor it got, also if that is 0, only into its buffer, never after an error or the end of the file, and its last call closes that descriptor. Reading any number of files leaves the process with the descriptors it had, without ever closing another one or one twice.", "quantifier": "all contents, all results of open() and of every read() (short, failing, ended), all callbacks including those that stop early, all buffer sizes", "why_tests_cant": "A leaked descriptor shows only after a failure in the middle of a file, which tests on a healthy system or on mock files never have, and descriptor 0 only in processes without standard input.", "anchors": ["src/linux/multiline.c:19-113", "src/linux/smallfile.c:19-78", "src/linux/cpulist.c:154-242", "src/arm/linux/hwcap.c:87-139"]}
{"id": "C100", "title": "The project's tests of the current processor, core and microarchitecture cannot fail", "statement": "None of the four tests of test/get-current.cc fails: each passes, or is skipped if the current processor or core is unknown. The pointers lie within the published arrays, the current microarchitecture index is below their number, and with the number as default it is at most the number, also if the thread moves to another CPU between the calls or the system reports a CPU that is not listed or an error. On systems other than Linux the first two are skipped and the others pass.", "quantifier": "all CPU numbers reported at each call, all errors; on x86 Linux all files and all CPUID answers where the threads of a core share the last-level cache; on ARM Linux all machines whose tables describe them (C29); on RISC-V Linux all machines with nested groups of consecutive numbers (C34); elsewhere all published globals with at least one microarchitecture", "why_tests_cant": "The tests are run on a few machines, on whatever CPU the thread happens to be; whether they could fail on another machine or after a migration is not tested.", "anchors": ["test/get-current.cc:5-43", "src/api.c:311-416"]}
{"id": "C101", "title": "A 32-bit and a 64-bit build of the library describe the same processor alike", "statement": "If a 64-bit build for x86 knows the vendor and the microarchitecture of a processor, every other build finds the same vendor, microarchitecture, caches, TLBs, APIC ID layout and name. On a processor with the features that x86-64 takes for granted, the builds also answer all cpuinfo_has_x86_* questions alike, except CMPXCHG16B, LAHF/SAHF and the Geode's instructions; and on any processor a 32-bit build reports no others than a 64-bit build. On ARM a core that 64-bit builds know is the same design to 32-bit builds or one of seven server designs that these call unknown, and a core known to both has the same caches in all builds.", "quantifier": "all CPUID answers, XCR0 and MXCSR masks, all getters; all MIDR values, chipsets, core counts, cluster numbers and architecture versions; all build configurations", "why_tests_cant": "A test binary is one build; the tests compare a build with recorded values, never two builds with each other, and only for a few recorded processors.", "anchors": ["src/x86/vendor.c:73-187", "src/x86/uarch.c:6-404", "src/x86/isa.c:36-832", "include/cpuinfo.h", "src/arm/uarch.c:7-429", "src/arm/cache.c:9-1651"]}
{"id": "C102", "title": "32-bit and 64-bit processes on one ARMv8 machine learn of the same extensions", "statement": "On a Linux machine with ARMv8 processors, cpuinfo_has_arm_* tells a 32-bit process of no extension that it does not tell a 64-bit process of, apart from those of 32-bit mode only. They learn alike of the base of the architecture, of the cryptographic instructions and of CRC32; and of FP16 arithmetic, RDM and the dot product on the designs that the library knows to have them, except that the dot product is hidden from 32-bit processes on chips where it is faulty. On designs that the library does not know, a 32-bit process may learn of less.", "quantifier": "all feature words of the kernel for both kinds of processes that agree about the cryptographic instructions and CRC32 and name what the newer designs have; all processors, chips and coprocessor registers", "why_tests_cant": "A test runs as one kind of process with recorded words; agreement of the two decoders over all words, registers and chips is not compared by any test.", "anchors": ["src/arm/linux/aarch32-isa.c:25-364", "src/arm/linux/aarch64-isa.c:8-194", "src/arm/linux/init.c:249-309", "include/cpuinfo.h:1721-2138"]}
{"id": "C103", "title": "The caches that CPUID's leaf 2 names are found, in whatever order they are named", "statement": "On an Intel processor without leaf 4, a cache for which leaf 2 has a descriptor is found with the size, ways and line size that the manual gives for that descriptor, in whichever byte of whichever register and reading it stands, and a cache without a descriptor is not found. On all processors, with or without leaf 4, two machines whose leaf 2 has the same descriptors in different order, repeated or spread over more readings are described alike, if no two descriptors are for the same cache.", "quantifier": "all CPUID answers and builds; all orders, repetitions and numbers of readings of leaf 2; all descriptors but 0x82 and 0xD2, which C40 shows to be decoded wrongly, and 0x39 to 0x3E, which the manual does not have", "why_tests_cant": "The mock tests replay a few recorded processors; the manual allows the descriptors in any order, which are too many to try, and the tests have each in one order only.", "anchors": ["src/x86/cache/init.c:21-97", "src/x86/cache/descriptor.c:6-1826", "src/x86/init.c:14-78"]}
{"id": "C104", "title": "The order in which CPUID's leaves 4 and 0x8000001D list caches does not matter", "statement": "Two x86 processors whose leaf 4 (or AMD's leaf 0x8000001D) lists the same caches in different order, or lists a cache repeatedly, are described alike in everything the library finds out about a processor, if no two different subleaves are for the same cache and, for leaf 4, all give the same number of cores.", "quantifier": "all CPUID answers and builds; all lists of caches of any length below 2^32; all orders and repetitions of them", "why_tests_cant": "The mock tests replay a few recorded processors, all of which list the caches from the first level to the last; other processors or hypervisors may list them otherwise, and all orders are too many to try.", "anchors": ["src/x86/cache/deterministic.c:15-247", "src/x86/cache/init.c:21-97", "src/x86/init.c:14-78"]}
{"id": "C105", "title": "What CPUID answers to leaves that the processor does not have is not used", "statement": "Two x86 processors that differ only in what CPUID answers to leaves behind their highest basic and extended ones (and, unless by VIA, to leaves from 0xC0000000) are described alike: vendor, microarchitecture, caches, topology, the name of the package and all getters for instruction sets. (Refuted for AVX10.2: leaf 0x24 is read if there is a leaf 7, so that on a processor which answers with its highest leaf, as Intel's do, cpuinfo_has_x86_avx10_2 can be true although the leaf with AVX10's version does not exist. It holds for AVX10.2 too where leaf 0x24 exists or leaf 7 does not announce AVX10.)", "quantifier": "all CPUID answers to all leaves and subleaves, all highest leaves, all vendors and builds", "why_tests_cant": "Recordings for the mock tests hold no leaves behind the highest, and the mock answers 0 to them; processors answer otherwise.", "anchors": ["src/x86/init.c:14-78", "src/x86/isa.c:45-70", "src/x86/isa.c:444", "src/x86/cache/init.c:42-97", "src/x86/topology.c:16-163"]}
{"id": "C106", "title": "Which processor of a machine runs the detection does not matter", "statement": "On x86, if the processors of a machine answer CPUID alike but for their APIC ids (leaf 1 EBX bits 24 to 31, leaf 0xB EDX, leaves 0x1F and 0x8000001E), then the library finds the same vendor, microarchitecture, caches, topology, package name and instruction sets on whichever of them the operating system happens to run it. (Refuted for hybrid machines: on Alder Lake the cores differ in leaf 4, and all are published with the caches of the core that ran the detection.)", "quantifier": "all pairs of processors of all machines, all CPUID answers, all builds", "why_tests_cant": "A test runs on the processor that the scheduler chooses; the mock has one processor only.", "anchors": ["src/x86/init.c:14-78", "src/x86/topology.c:16-163", "src/x86/linux/init.c: cpuinfo_x86_linux_init", "src/x86/isa.c: cpuinfo_x86_detect_isa"]}
{"id": "C107", "title": "Detection on x86 ends, with one answer, exactly if the lists in CPUID do", "statement": "Reading the processor's description ends if and only if, of the lists in leaf 4 (not on AMD and Hygon), leaf 0x8000001D (where announced) and leaf 0xB (where there is x2APIC), those that are there to be read have a subleaf without type among their 2^32. There is then one answer, however long the lists are, and whatever CPUID answers no step is undefined. (Refuted as an unconditional claim: on a processor or hypervisor that answers all subleaves of leaf 4 alike cpuinfo_initialize never returns.)", "quantifier": "all CPUID answers to all leaves and subleaves, all builds", "why_tests_cant": "No test can see that something never ends, or try all answers; the loops over subleaves have no bound of their own.", "anchors": ["src/x86/cache/init.c:79-96", "src/x86/topology.c:98-150", "src/x86/init.c:14-78"]}
