{
 "claims": [
  {
   "property": "C01",
   "status": "proved",
   "theorems": [
    "getter_fatal_iff_not_initialized",
    "getter_answers_only_when_initialized"
   ],
   "note": "All 35 getters of api.c; every interleaving under sequential consistency."
  },
  {
   "property": "C02",
   "status": "proved",
   "theorems": [
    "indexed_getter_exact",
    "x86_linux_indexed_getters",
    "riscv_linux_indexed_getters",
    "arm_linux_indexed_getters",
    "x86_mach_indexed_getters",
    "x86_freebsd_indexed_getters",
    "x86_windows_indexed_getters",
    "apple_getters",
    "arm_windows_getters",
    "emscripten_indexed_getters",
    "emscripten_l1_count_refuted",
    "x86_counts_l1_refuted",
    "apple_l1_refuted",
    "arm_windows_l4_refuted"
   ],
   "note": "For any globals whose counts agree with the arrays, and proved to hold of the tables published on every supported system, apart from four cases in which a count has no table of that length behind it (refuted): first-level caches on WebAssembly for x86 with an even number of processors, a data cache without an instruction cache on Mach, FreeBSD and Apple ARM, and fourth-level caches on ARM Windows."
  },
  {
   "property": "C03",
   "status": "proved",
   "theorems": [
    "detection_runs_at_most_once",
    "initialize_returns_after_detection",
    "emscripten_initialize_once"
   ],
   "note": "Any number of threads and calls, every schedule. Trusted: pthread_once behaves as POSIX says, sequential consistency."
  },
  {
   "property": "C04",
   "status": "proved",
   "theorems": [
    "results_never_change"
   ],
   "note": "Any number of threads and calls, every schedule."
  },
  {
   "property": "C05",
   "status": "proved",
   "theorems": [
    "x86_linux_all_or_nothing",
    "x86_linux_flag_raised_last",
    "x86_linux_memory",
    "x86_linux_topology_consistent",
    "x86_linux_caches",
    "riscv_linux_all_or_nothing",
    "riscv_linux_flag_raised_last",
    "arm_linux_all_or_nothing",
    "arm_linux_flag_raised_last",
    "x86_counts_all_or_nothing",
    "x86_counts_flag_raised_last",
    "x86_windows_all_or_nothing",
    "x86_windows_flag_raised_last",
    "apple_all_or_nothing",
    "apple_flag_raised_last",
    "arm_windows_all_or_nothing",
    "arm_windows_flag_raised_last",
    "emscripten_all_or_nothing",
    "emscripten_flag_raised_last"
   ],
   "note": "Every supported system: every interleaving with the individual commit stores; every allocation failure."
  },
  {
   "property": "C06",
   "status": "proved",
   "theorems": [
    "x86_linux_memory",
    "x86_linux_leak_refuted",
    "riscv_linux_memory",
    "arm_linux_memory",
    "arm_linux_leak_refuted",
    "x86_freebsd_memory",
    "x86_mach_memory",
    "x86_mach_leak_refuted",
    "x86_windows_memory",
    "x86_windows_leak_refuted",
    "apple_memory",
    "arm_windows_memory",
    "arm_windows_leak_refuted",
    "emscripten_init_all_or_nothing"
   ],
   "note": "Every supported system: exact accounting of blocks for every subset of failing allocations. Refuted: on x86 and ARM Linux the table of Linux processors leaks when /proc/cpuinfo cannot be parsed; further leaks on Mach, x86 Windows and ARM Windows."
  },
  {
   "property": "C07",
   "status": "proved",
   "theorems": [
    "x86_linux_current_lookups",
    "x86_linux_current_uarch",
    "x86_linux_maps",
    "riscv_linux_current_lookups",
    "riscv_linux_current_uarch",
    "current_uarch_without_map",
    "current_lookups_other_systems",
    "arm_linux_current_lookups",
    "arm_linux_current_uarch",
    "arm_linux_offline_cpu_refuted"
   ],
   "note": "x86, RISC-V and ARM Linux, every getcpu outcome, and other systems. On ARM Linux for machines whose usable CPUs are all online; refuted otherwise."
  },
  {
   "property": "C08",
   "status": "proved",
   "theorems": [
    "multiline_chunk_independent",
    "every_file_is_lines",
    "multiline_any_reads"
   ],
   "note": "Any contents whose lines fit the buffer, any sequence of read() sizes."
  },
  {
   "property": "C09",
   "status": "proved",
   "theorems": [
    "over_long_line_ends_file",
    "over_long_lines_refuted"
   ],
   "note": "The property is false of the code: over_long_lines_refuted is the counterexample, over_long_line_ends_file the exact behaviour."
  },
  {
   "property": "C10",
   "status": "proved",
   "theorems": [
    "cpulist_exact",
    "cpulist_ranges_exact",
    "cpulist_large_number_refuted",
    "sibling_lists_exact"
   ],
   "note": "Exact for numbers below 2^32-1; larger numbers wrap (refuted)."
  },
  {
   "property": "C11",
   "status": "proved",
   "theorems": [
    "cpulist_malformed",
    "entry_kinds",
    "junk_after_range_ignored",
    "cpulist_overread_refuted"
   ],
   "note": "The parser reads one byte past a full 256-byte buffer (refuted); junk after a range is silently ignored."
  },
  {
   "property": "C12",
   "status": "proved",
   "theorems": [
    "detect_flags_exact",
    "max_listed_processor_exact"
   ],
   "note": "For every list and every limit."
  },
  {
   "property": "C13",
   "status": "proved",
   "theorems": [
    "small_file_number_exact",
    "small_file_fallback",
    "small_file_never_partial",
    "kernel_max_wraps_refuted"
   ],
   "note": "kernel_max of 2^32-1 wraps to 0 (refuted)."
  },
  {
   "property": "C14",
   "status": "proved",
   "theorems": [
    "split_line_never_leaves_line",
    "split_line_exact",
    "proc_cpuinfo_line_is_local",
    "proc_cpuinfo_arbitrary_contents",
    "proc_cpuinfo_exact",
    "apic_id_of_block"
   ],
   "note": "Arbitrary bytes are harmless; meaningful lines give each processor the APIC id of its block."
  },
  {
   "property": "C15",
   "status": "proved",
   "theorems": [
    "x86_linux_lists_usable_cpus",
    "x86_linux_never_out_of_bounds"
   ],
   "note": "Any files that say something, any sort meeting the qsort contract, any calloc behaviour."
  },
  {
   "property": "C16",
   "status": "proved",
   "theorems": [
    "x86_linux_topology_consistent"
   ],
   "note": "For arbitrary file contents, whenever tables are published and threads of a core share the last level cache."
  },
  {
   "property": "C17",
   "status": "proved",
   "theorems": [
    "x86_linux_grouping_follows_apic_id",
    "x86_linux_caches"
   ],
   "note": "Cores, packages, clusters and caches of the five levels."
  },
  {
   "property": "C18",
   "status": "proved",
   "theorems": [
    "x86_linux_never_out_of_bounds",
    "x86_linux_never_out_of_bounds_any_table",
    "x86_linux_no_usable_cpu_refuted",
    "x86_linux_broadcast_apic_id_refuted"
   ],
   "note": "No out-of-bounds access if a usable CPU has an APIC id below 2^32-1. Without a usable CPU, or with the only APIC id 2^32-1, the code accesses memory out of bounds (refuted)."
  },
  {
   "property": "C19",
   "status": "proved",
   "theorems": [
    "x86_linux_ids_are_offsets"
   ],
   "note": "Same generality as C16."
  },
  {
   "property": "C20",
   "status": "proved",
   "theorems": [
    "x86_linux_caches"
   ],
   "note": "All five levels."
  },
  {
   "property": "C21",
   "status": "proved",
   "theorems": [
    "x86_linux_cluster_without_core_refuted"
   ],
   "note": "The property is false of the code: the counterexample has a cluster with core_count 0."
  },
  {
   "property": "C22",
   "status": "proved",
   "theorems": [
    "x86_leaf4_subleaf",
    "x86_leaf1d_subleaf",
    "x86_leaf4_loop",
    "x86_leaf1d_loop",
    "x86_leaf4_huge_cache_refuted",
    "x86_only_leaves_there",
    "x86_caches_reported"
   ],
   "note": "Every register contents and every sequence of subleafs that ends. Sizes from 4 GB on are reported modulo 2^32 (refuted)."
  },
  {
   "property": "C23",
   "status": "proved",
   "theorems": [
    "x86_signature_fields",
    "x86_signature_round_trip",
    "x86_signature_documented_partial",
    "x86_signature_documented_refuted"
   ],
   "note": "The extended family and model are added for every base family, the manuals add them for families 15 (and 6) only: refuted for the other signatures, proved for these."
  },
  {
   "property": "C24",
   "status": "proved",
   "theorems": [
    "x86_isa_reported_only_if_usable",
    "x86_isa_usable_is_reported",
    "x86_isa_fixed_by_build",
    "x86_isa_avx10_2",
    "x86_isa_3dnow_geode",
    "x86_isa_daz",
    "x86_isa_independent_of_xcr0",
    "x86_isa_monotone_in_xcr0",
    "x86_isa_vaes_ungated",
    "x86_isa_amx_refuted",
    "x86_isa_vaes_refuted"
   ],
   "note": "All 84 getters against a table of documented CPUID bits and XCR0 components written from the manuals. The property holds except for AMX (gated by the AVX-512 state instead of the tile state: x86_isa_amx_refuted; what is checked is x86_isa_amx_gate_partial) and VAES/VPCLMULQDQ (no gate: x86_isa_vaes_refuted). The converse direction assumes what processors guarantee about XCR0 and leaf 0xD (coherent)."
  },
  {
   "property": "C25",
   "status": "proved",
   "theorems": [
    "x86_topology_x2apic_levels",
    "x86_topology_x2apic_documented_iff",
    "x86_topology_legacy",
    "x86_topology_amd",
    "x86_cpuid_fields_fit",
    "x86_linux_grouping_from_cpuid_legacy",
    "x86_linux_grouping_from_cpuid_x2apic",
    "x86_linux_merged_packages_refuted",
    "x86_linux_more_cores_than_processors_refuted"
   ],
   "note": "The shifts of leaf 0xB are cumulative in the manual but added by the code: with hyper-threading the core field is too wide and packages are merged (refuted). Inconsistent legacy leaves make the thread width wrap (refuted)."
  },
  {
   "property": "C26",
   "status": "proved",
   "theorems": [
    "x86_name_exact",
    "x86_name_clean",
    "x86_name_words",
    "x86_name_unterminated_refuted",
    "x86_name_previous_token_refuted",
    "x86_package_name_exact"
   ],
   "note": "Memory safety, termination and the exact name (an independent specification over words) for all brand strings; cleanliness for brand strings that end with a NUL, as CPUID documents, and refuted for others. Package names for every CPUID contents."
  },
  {
   "property": "C27",
   "status": "proved",
   "theorems": [
    "x86_linux_max_cache_size",
    "x86_linux_max_cache_size_answer",
    "arm_linux_max_cache_size",
    "arm_linux_max_cache_size_refuted",
    "emscripten_largest_refuted",
    "x86_mach_describes_machine",
    "x86_freebsd_describes_machine",
    "x86_windows_describes",
    "apple_describes_machine",
    "arm_windows_caches"
   ],
   "note": "x86 Linux, Mach, FreeBSD and Windows, Apple, ARM Windows: the last-level cache of the first processor (on systems other than Linux as part of the description of the tables, see C95 for the getter). ARM Linux: the code documents an upper bound by microarchitecture instead; that is what is published, and it is not always the size of a cache, nor a bound (refuted). On WebAssembly it is the size of no cache (refuted)."
  },
  {
   "property": "C28",
   "status": "proved",
   "theorems": [
    "midr_set_fields",
    "midr_copy_fields",
    "midr_get_fields",
    "midr_tests_exact"
   ],
   "note": "Every register and field value; also the tests that recognise a core by its register."
  },
  {
   "property": "C29",
   "status": "proved",
   "theorems": [
    "arm_linux_describes_machine",
    "arm_linux_terminates",
    "arm_linux_decoders_answer",
    "arm_linux_follows_kernel",
    "arm_linux_offline_cpu_refuted",
    "arm_linux_no_cpu_listed_refuted",
    "arm_linux_versions_differ_refuted",
    "arm_linux_uarchs_once_refuted"
   ],
   "note": "Proved for every machine whose usable CPUs are all online and of one architecture version. Refuted otherwise: offline CPUs are published instead of online ones, and an empty /proc/cpuinfo or different versions in a cluster give undefined behaviour. A microarchitecture may be listed twice (refuted)."
  },
  {
   "property": "C30",
   "status": "proved",
   "theorems": [
    "arm_kernel_clusters_exact",
    "arm_same_leader_iff_siblings",
    "arm_kernel_clusters_succeed",
    "arm_linux_follows_kernel"
   ],
   "note": "For any labelling of the CPUs by groups that the cluster_cpus_list files describe (or, if the first usable CPU has none, the core_siblings_list files); the lists may also name unusable CPUs. The published clusters are then these groups."
  },
  {
   "property": "C31",
   "status": "proved",
   "theorems": [
    "arm_every_core_in_one_cluster",
    "arm_clusters_in_bounds",
    "arm_kernel_clusters_kept",
    "arm_sequential_scan_exact",
    "arm_layout_heuristic_exact",
    "arm_layout_heuristic_declines",
    "arm_clusters_offline_refuted",
    "arm_layout_heuristic_compatible_refuted"
   ],
   "note": "Leaders and sizes hold for arbitrary sibling files and both fallbacks; the scan never joins processors with a known different attribute. Two parts are false for the layout heuristic and are refuted: it ignores the attributes of the first processor of a cluster, and it reads uninitialised layout entries when more CPUs are usable than /proc/cpuinfo lists."
  },
  {
   "property": "C32",
   "status": "proved",
   "theorems": [
    "arm_clusters_share_midr",
    "arm_cluster_report_kept",
    "arm_processor_report_kept",
    "arm_processor_report_kept_refuted",
    "arm_every_cluster_gets_midr",
    "arm_every_cluster_gets_midr_refuted",
    "arm_little_cluster_guessed",
    "arm_little_cluster_guessed_refuted",
    "arm_unattributable_guessed_refuted",
    "arm_missing_midr_filled_in"
   ],
   "note": "Proved for every table with a valid cluster assignment: every usable processor ends with its leader's MIDR; a cluster's report is kept (except the documented single-report case), and a processor's if the reports of its cluster agree; all clusters get a MIDR if all usable processors are listed in /proc/cpuinfo. Refuted in general: reports that differ inside a kernel cluster are overwritten; clusters that are offline get no MIDR; the big.LITTLE guess counts processors instead of clusters; an unattributable report is still attributed to the last processor's cluster."
  },
  {
   "property": "C33",
   "status": "proved",
   "theorems": [
    "arm_cpuinfo_line_in_bounds",
    "arm_cpuinfo_arbitrary_contents",
    "arm_cpuinfo_missing_file",
    "arm_cpuinfo_strings_exact",
    "arm_cpuinfo_buffers_refuted",
    "arm_cpuinfo_terminated_refuted",
    "arm_cpuinfo_revision_initialised_refuted"
   ],
   "note": "Memory is touched outside the arrays exactly for a Hardware value of 64 or a Revision value of 9 characters (refuted for these); everything else is in bounds for arbitrary bytes. Longer values are stored without a terminating zero, and the Revision array stays uninitialised without a Revision line (both refuted)."
  },
  {
   "property": "C34",
   "status": "proved",
   "theorems": [
    "riscv_linux_describes_machine",
    "riscv_linux_dense_ranges",
    "riscv_linux_lists_present_cpus",
    "riscv_linux_maps",
    "riscv_linux_detection_in_bounds",
    "riscv_linux_unstable_sort_refuted",
    "riscv_linux_interleaved_refuted",
    "riscv_linux_start_is_not_an_index_refuted",
    "riscv_linux_core_start_refuted",
    "riscv_linux_offline_cpu_refuted"
   ],
   "note": "Holds when groups are nested and consecutively numbered and the sort keeps equal elements in order; otherwise false: an unstable sort gives undefined behaviour, interleaved siblings get the wrong core, *_start are CPU numbers instead of indexes, and one offline CPU makes detection fail."
  },
  {
   "property": "C35",
   "status": "proved",
   "theorems": [
    "emscripten_init_all_or_nothing",
    "emscripten_describes_machine",
    "emscripten_indexed_getters",
    "emscripten_l1_count_refuted",
    "emscripten_cores_initialised_refuted",
    "emscripten_caches_fit"
   ],
   "note": "False of the code for x86 with an even number of processors: half of the indexes below the count of first-level caches are outside the table, and half of the reported cores are blank (refuted). Proved for every other case; all-or-nothing and the description of the machine hold in every case. The published caches have geometries that can be built, grow from level to level and are bounded by the largest cache size reported."
  },
  {
   "property": "C36",
   "status": "proved",
   "theorems": [
    "x86_mach_describes_machine",
    "x86_freebsd_describes_machine",
    "x86_freebsd_packages",
    "x86_mach_consistent_iff",
    "x86_freebsd_consistent_iff",
    "x86_mach_caches_iff",
    "x86_freebsd_wrapped",
    "x86_counts_undivided_refuted",
    "x86_mach_logical_failure_refuted",
    "x86_mach_cacheconfig_refuted",
    "x86_mach_indexed_getters",
    "x86_freebsd_indexed_getters",
    "x86_counts_l1_refuted",
    "x86_mach_apic_core_field_refuted",
    "x86_freebsd_memory",
    "x86_mach_memory",
    "x86_mach_leak_refuted"
   ],
   "note": "Consistent exactly if the numbers divide each other (proved both ways for what is published); what happens without divisibility, without the number of logical processors, with a data cache only, with six-core packages in a three-bit field, and with a failed allocation on Mach is refuted."
  },
  {
   "property": "C37",
   "status": "proved",
   "theorems": [
    "x86_windows_describes",
    "x86_windows_consistent_iff",
    "x86_windows_clusters_refuted",
    "x86_windows_inactive_refuted",
    "x86_windows_no_package_refuted",
    "x86_windows_memory",
    "x86_windows_leak_refuted",
    "x86_windows_indexed_getters"
   ],
   "note": "False with two or more packages: proved to hold exactly if the machine has one package. Cores, packages, APIC ids, group numbers and caches are proved right for every machine Windows describes in order; inactive processors, machines without package information and the leaked buffer are refuted."
  },
  {
   "property": "C38",
   "status": "proved",
   "theorems": [
    "log_message_complete",
    "log_never_out_of_bounds",
    "log_message_dropped",
    "log_message_at_limit",
    "log_message_complete_refuted"
   ],
   "note": "Complete for every message whose total length is not 1024 bytes; at exactly 1024 bytes the last character is replaced by a 0 byte (refuted)."
  },
  {
   "property": "C39",
   "status": "proved",
   "theorems": [
    "arm_caches_sound",
    "arm_caches_grow",
    "arm_linux_caches_sound",
    "arm_caches_of_any_uarch_refuted",
    "arm_neoverse_n1_least_l2_refuted",
    "arm_linux_l3_lost_refuted",
    "arm_linux_printed_l1_refuted"
   ],
   "note": "Proved for every MIDR with the microarchitecture the library derives from it, every core count, chip, version and build, and for the tables published by ARM64 Linux; refuted for a microarchitecture that does not come from the same MIDR (XScale), which no caller on Linux does. The sizes are those of the code; that they are the sizes of real chips is not claimed (one documented intention, the least L2 of Neoverse N1, is refuted). Also refuted: every decoded third-level cache is published; cache sizes printed by a 32-bit kernel keep their processors."
  },
  {
   "property": "C40",
   "status": "proved",
   "theorems": [
    "x86_descriptor_consistent",
    "x86_leaf2_consistent",
    "x86_descriptor_undocumented",
    "x86_descriptor_documented_partial",
    "x86_descriptor_d2_refuted",
    "x86_descriptor_82_refuted"
   ],
   "note": "All descriptors but 0xD2, whose size is mistyped (refuted). Against the documentation 0x82 has the wrong associativity too (refuted)."
  },
  {
   "property": "C41",
   "status": "proved",
   "theorems": [
    "processor_number_exact",
    "apic_number_exact",
    "apic_number_rejected",
    "colon_as_digit_refuted",
    "large_number_wraps_refuted"
   ],
   "note": "Exact below 2^32; ':' is accepted as a digit in processor numbers and large numbers wrap (refuted)."
  },
  {
   "property": "C42",
   "status": "proved",
   "theorems": [
    "x86_linux_comparator_total_preorder",
    "riscv_linux_comparator_order",
    "arm_linux_comparator_order"
   ],
   "note": "x86, RISC-V and ARM Linux comparators."
  },
  {
   "property": "C43",
   "status": "proved",
   "theorems": [
    "x86_vendor_string"
   ],
   "note": ""
  },
  {
   "property": "C44",
   "status": "proved",
   "theorems": [
    "x86_uarch_of_vendor",
    "x86_uarch_family_model",
    "x86_uarch_documented",
    "x86_uarch_hygon_refuted",
    "x86_uarch_dali_refuted"
   ],
   "note": "Every documented Intel and AMD processor with a listed microarchitecture is recognised, against a table written from the manuals. Hygon Dhyana (family 0x18) and AMD Dali (family 0x17 model 0x20) never are (refuted)."
  },
  {
   "property": "C45",
   "status": "proved",
   "theorems": [
    "x86_leaf2_reserved_refuted"
   ],
   "note": "False: reserved registers are decoded like valid ones."
  },
  {
   "property": "C46",
   "status": "proved",
   "theorems": [
    "riscv_linux_isa",
    "riscv_linux_isa_e_refuted"
   ],
   "note": "Holds for every getter except has_riscv_e, which is never true."
  },
  {
   "property": "C47",
   "status": "proved",
   "theorems": [
    "core_rank_of_design",
    "core_rank_roles",
    "core_rank_prime",
    "core_rank_unknown",
    "little_companion",
    "no_little_companion",
    "kryo_280_companion_refuted"
   ],
   "note": "True except for Kryo 280 Gold, whose companion is never found (refuted). Cortex-A7 is ranked on 32-bit ARM only."
  },
  {
   "property": "C48",
   "status": "proved",
   "theorems": [
    "arm_chipset_table_sound",
    "arm_chipset_table_unique",
    "arm_chipset_table_cores_refuted",
    "arm_mt6592_entry_unused",
    "arm_chipset_table_used"
   ],
   "note": "Proved for every entry except that the MT6592 entry says 4 cores but describes 4+4 (refuted); with all processors listed that entry is never used."
  },
  {
   "property": "C49",
   "status": "proved",
   "theorems": [
    "arm_cpuinfo_exact",
    "arm_cpuinfo_identifies_processors",
    "arm_feature_names_exact",
    "arm_feature_names_complete_refuted"
   ],
   "note": "Some feature names of 64-bit kernels are not recorded (refuted for asimddp); which names are recorded is exact. The architecture field of the main id register is not printed by kernels: it is 15 from version 7 on."
  },
  {
   "property": "C50",
   "status": "proved",
   "theorems": [
    "arm_unusable_values_ignored",
    "arm_unusable_values_ignored_refuted"
   ],
   "note": "True for part, implementer, variant and revision; refuted for the architecture and the cache numbers."
  },
  {
   "property": "C51",
   "status": "proved",
   "theorems": [
    "arm_max_cache_bounds",
    "arm_max_cache_bounds_refuted",
    "arm_linux_max_cache_size_refuted"
   ],
   "note": "Refuted in general; proved for clusters of up to four cores except ThunderX."
  },
  {
   "property": "C52",
   "status": "proved",
   "theorems": [
    "arm_uarch_fields",
    "arm_uarch_vendor",
    "arm_uarch_width",
    "arm_uarch_all_reported_refuted",
    "arm_uarch_documented"
   ],
   "note": "The first three parts are proved for every MIDR; the last is refuted for Cortex-X4, A520 and A720."
  },
  {
   "property": "C53",
   "status": "proved",
   "theorems": [
    "arm64_kernel_bits",
    "arm64_bf16",
    "arm64_base",
    "arm64_fp16",
    "arm64_dot",
    "arm64_monotone",
    "arm64_designs_named",
    "arm64_extra_source",
    "arm64_vector_length",
    "arm64_faulty_dot_refuted",
    "arm64_every_processor_refuted",
    "arm64_dot_hidden_refuted"
   ],
   "note": "Every getter is proved equal to a formula of the kernel's words, the register and the chip, and monotone. False in three places, each refuted: chips with a failing dot product report it to 64-bit processes; the last processor decides for all; the kernel's word on the dot product of Cortex-A55 and A75 is ignored."
  },
  {
   "property": "C54",
   "status": "proved",
   "theorems": [
    "arm32_getters_exact",
    "arm32_builds_on",
    "arm32_absent",
    "arm32_vfpv2_refuted",
    "arm32_monotone_refuted",
    "arm32_thumb_refuted"
   ],
   "note": "All 48 getters are proved exact, and 44 dependences are proved for all inputs. Refuted: VFPv3 and NEON do not include VFPv2, more feature words may take an extension away, ARMv7 does not imply Thumb."
  },
  {
   "property": "C55",
   "status": "proved",
   "theorems": [
    "arm_auxv_words",
    "arm_cpuinfo_words",
    "arm_deciding_registers",
    "arm_unusable_ignored",
    "arm_other_libc_refuted"
   ],
   "note": "Proved for getauxval and Android; false for 32-bit ARM with another C library, where neither source is used (refuted)."
  },
  {
   "property": "C56",
   "status": "proved",
   "theorems": [
    "apple_describes_machine",
    "apple_consistent_exactly",
    "apple_counts_whole",
    "apple_core_kinds",
    "apple_efficiency_cores",
    "apple_threads_refuted",
    "apple_packages_refuted",
    "apple_division_refuted",
    "apple_efficiency_refuted"
   ],
   "note": "Proved for one package with one thread for each core, whatever the family; what is published is consistent exactly then. The numbers of performance and efficiency cores are proved right exactly for four efficiency cores; M1 Pro (8+2) is refuted. Other refutations: two threads for each core, two packages, and counts that lead to a division by zero."
  },
  {
   "property": "C57",
   "status": "proved",
   "theorems": [
    "apple_describes_machine",
    "apple_memory",
    "apple_getters",
    "apple_line_refuted",
    "apple_l1_refuted"
   ],
   "note": "Caches are part of apple_describes_machine (apple_caches), for a line size that is told. Refuted: without a line size the code divides by zero; with only one kind of first-level cache the other has a count without a table."
  },
  {
   "property": "C58",
   "status": "proved",
   "theorems": [
    "apple_isa_extensions",
    "apple_isa_always",
    "apple_isa_never",
    "apple_isa_rest",
    "apple_isa_newer_refuted"
   ],
   "note": "All getters are covered. The last clause is refuted for A15 on systems that do not answer."
  },
  {
   "property": "C59",
   "status": "proved",
   "theorems": [
    "apple_name_published",
    "apple_name_fits",
    "apple_name_defined",
    "apple_name_brand",
    "apple_name_iphone",
    "apple_name_devices",
    "apple_name_others",
    "apple_name_unknown",
    "apple_name_refuted"
   ],
   "note": "iPads from the eighth number on have no name without a brand string (refuted)."
  },
  {
   "property": "C60",
   "status": "proved",
   "theorems": [
    "riscv_linux_vendors"
   ],
   "note": "For any files and any sort; the record need not agree with every processor in it, since each is filled from the first one in its group."
  },
  {
   "property": "C61",
   "status": "proved",
   "theorems": [
    "arm_windows_describes",
    "arm_windows_consistent",
    "arm_windows_inactive_refuted",
    "arm_windows_cores_refuted",
    "arm_windows_ids_refuted"
   ],
   "note": "Holds for well-formed answers (every processor in one core and one package, both answers alike); the refuted theorems give answers that break it and ids that are never set."
  },
  {
   "property": "C62",
   "status": "proved",
   "theorems": [
    "arm_windows_caches",
    "arm_windows_cache_answers_refuted",
    "arm_windows_no_caches_refuted",
    "arm_windows_associativity_refuted"
   ],
   "note": "Holds for caches of the four kinds with nonzero line size and ways; the refuted theorems give answers for which the code has undefined behaviour, fails or reports a wrong number of sets."
  },
  {
   "property": "C63",
   "status": "proved",
   "theorems": [
    "arm_windows_named",
    "arm_windows_name_refuted",
    "arm_windows_chip",
    "arm_windows_chip_refuted",
    "arm_windows_unknown_chip",
    "arm_windows_memory",
    "arm_windows_leak_refuted",
    "arm_windows_getters",
    "arm_windows_l4_refuted"
   ],
   "note": "Names, memory and getters for all inputs; refuted: long names with characters outside ASCII fail, unknown chips report uninitialised values, three blocks leak."
  },
  {
   "property": "C64",
   "status": "proved",
   "theorems": [
    "arm_windows_isa",
    "arm_windows_isa_assumed",
    "arm_windows_isa_32_refuted"
   ],
   "note": "All getters, all answers; 32-bit programs are told nothing."
  },
  {
   "property": "C65",
   "status": "proved",
   "theorems": [
    "arm_linux_chip_exact",
    "arm_linux_chip_unique",
    "arm_linux_chip_total",
    "arm_linux_broadcom_unwritten",
    "arm_linux_chip_without_revision_refuted"
   ],
   "note": "The last theorem refutes that every Hardware line gives a chip: without a Revision line an unwritten buffer is read for Broadcom chips."
  },
  {
   "property": "C66",
   "status": "proved",
   "theorems": [
    "arm_chip_names_unambiguous",
    "arm_linux_devices",
    "arm_android_devices",
    "arm_chip_model_known_refuted",
    "arm_chip_digits_refuted",
    "arm_chip_letter_refuted"
   ],
   "note": "Three assumptions are false: Kirin9000 has no model, Exynos98105 is Exynos9810, lc1860c loses its letter."
  },
  {
   "property": "C67",
   "status": "proved",
   "theorems": [
    "arm_chip_corrections",
    "arm_chip_corrections_stable_refuted",
    "arm_linux_chip_frequency_refuted"
   ],
   "note": "Two assumptions are false: MSM8216 with 8 cores becomes MSM8916 although that would become MSM8939; initialization passes frequency 0."
  },
  {
   "property": "C68",
   "status": "proved",
   "theorems": [
    "arm_android_chip_total",
    "arm_android_meaning_unique",
    "arm_android_nothing",
    "arm_android_vendors",
    "arm_android_agreement",
    "arm_android_disagreement",
    "arm_android_suffix_refuted",
    "arm_android_suffix_mixed_refuted"
   ],
   "note": "Suffixes are copied between different models and over one another, so two assumptions are false."
  },
  {
   "property": "C69",
   "status": "proved",
   "theorems": [
    "arm_caches_by_manual",
    "arm_a55_exynos_refuted",
    "arm_cache_sets",
    "arm_cache_sets_refuted",
    "arm_thunderx_sets_refuted",
    "arm_caches_kryo"
   ],
   "note": "The exceptions are refutations."
  },
  {
   "property": "C70",
   "status": "proved",
   "theorems": [
    "arm_linux_package",
    "arm_linux_package_unique",
    "arm_linux_chip_used",
    "arm_linux_no_revision_refuted"
   ],
   "note": "Lines must be text without NUL, and a Broadcom chip must come with a Revision line; the last theorem refutes definedness without one."
  },
  {
   "property": "C71",
   "status": "proved",
   "theorems": [
    "arm_android_package",
    "arm_android_chip_used"
   ],
   "note": "What the sources decide is the record `decided`, the rules of C68."
  },
  {
   "property": "C72",
   "status": "proved",
   "theorems": [
    "clog_message_complete",
    "clog_message_at_limit",
    "clog_prefix_at_limit",
    "clog_message_dropped",
    "clog_format_errors",
    "clog_prefix_errors",
    "clog_never_out_of_bounds",
    "clog_levels",
    "clog_message_complete_refuted",
    "clog_huge_message_refuted"
   ],
   "note": "What is written is exact for every length; the exceptions at 1024 bytes and beyond INT_MAX are refutations."
  },
  {
   "property": "C73",
   "status": "proved",
   "theorems": [
    "cpuid_dump_complete",
    "cpuid_dump_ends",
    "cpuid_dump_unique"
   ],
   "note": ""
  },
  {
   "property": "C74",
   "status": "proved",
   "theorems": [
    "cpuid_dump_parsed",
    "cpuid_replay",
    "cpuid_replay_amd_refuted",
    "cpuid_replay_via_refuted",
    "cpuid_replay_subleaf_refuted"
   ],
   "note": "Proved for processors that the recording can describe; refuted for AMD caches, VIA PadLock and subleaves from 10 on."
  },
  {
   "property": "C75",
   "status": "proved",
   "theorems": [
    "cache_info_report",
    "cache_info_unambiguous",
    "x86_linux_cache_info",
    "cache_info_big_little_refuted",
    "cache_info_no_sets_refuted"
   ],
   "note": "The report is read by an independent reader, which finds for each level with caches their number and a description of the first one; on x86 Linux that fits all caches of the level. On ARM Linux with different cores it does not, and without a number of sets the line runs together and cannot be read."
  },
  {
   "property": "C76",
   "status": "proved",
   "theorems": [
    "cpu_info_report",
    "cpu_info_ranges",
    "cpu_info_uarch_names",
    "cpu_info_vendor_names",
    "cpu_info_x86_names",
    "cpu_info_arm_names",
    "cpu_info_apple_names",
    "cpu_info_vendor_refuted",
    "cpu_info_unknown_refuted",
    "cpu_info_empty_refuted"
   ],
   "note": "The report is read back by an independent reader that knows names only through the identifiers of the header's constants. Ranges are right for all consistent tables (C15 and its kin show when tables are). Refuted for vendors without a name, microarchitectures without one (an open parenthesis) and empty groups."
  },
  {
   "property": "C77",
   "status": "proved",
   "theorems": [
    "isa_info_labels",
    "isa_info_x86_report",
    "isa_info_x86_complete",
    "isa_info_x86_usable",
    "isa_info_arm_report",
    "isa_info_arm64_complete",
    "isa_info_arm32_complete",
    "isa_info_sme_refuted",
    "isa_info_arm64_kernel",
    "isa_info_riscv_report",
    "isa_info_riscv_complete",
    "isa_info_riscv_kernel"
   ],
   "note": "isa-info. The SME extensions sme2p1, sme_i16i32, sme_bi32i32, sme_b16b16 and sme_f16f16 have no line (isa_info_sme_refuted). Completeness on 32-bit ARM and RISC-V is for what the library detects under Linux. AMX, VAES and VPCLMULQDQ are excluded from isa_info_x86_usable, as in C24."
  },
  {
   "property": "C78",
   "status": "proved",
   "theorems": [
    "mock_files_exact",
    "mock_files_contents",
    "mock_files_size_refuted"
   ],
   "note": "The mock file system. A size larger than the array leads outside of it (mock_files_size_refuted)."
  },
  {
   "property": "C79",
   "status": "proved",
   "theorems": [
    "processor_files_exact"
   ],
   "note": "Names of the files in /sys/devices/system/cpu."
  },
  {
   "property": "C80",
   "status": "proved",
   "theorems": [
    "recording_replays",
    "recording_bytes_refuted",
    "recording_zero_refuted",
    "recording_has",
    "recording_clusters_refuted"
   ],
   "note": "Recordings as mock files. Other bytes, zeros before octal digits, four kinds of files and processors above 15 are not recorded faithfully (recording_bytes_refuted, recording_zero_refuted, recording_has, recording_clusters_refuted)."
  },
  {
   "property": "C81",
   "status": "proved",
   "theorems": [
    "android_recording_replays",
    "android_properties_replay",
    "android_bracket_refuted",
    "android_condition_refuted",
    "android_long_names_refuted",
    "android_recording_has"
   ],
   "note": "Recordings of Android devices. Refuted: closing brackets in values, an unreadable /proc/cpuinfo on 64-bit devices, names that agree in 32 characters."
  },
  {
   "property": "C82",
   "status": "proved",
   "theorems": [
    "riscv_linux_core_details",
    "riscv_linux_frequency_hz_refuted"
   ],
   "note": "Core ids, vendors and clocks are those of the first CPU. Refuted: the clock is in kHz, not in Hz as documented."
  },
  {
   "property": "C83",
   "status": "proved",
   "theorems": [
    "arm_linux_order",
    "arm_linux_any_sort",
    "arm_linux_follows_kernel",
    "arm_linux_siblings_of_two_designs_refuted"
   ],
   "note": "Ordered by clock, group and number, whatever sort is used. Refuted: a CPU listed as a sibling of CPUs of another design gets their design."
  },
  {
   "property": "C84",
   "status": "proved",
   "theorems": [
    "cpuinfo_dump_faithful",
    "cpuinfo_dump_complete",
    "auxv_dump_lines",
    "auxv_dump_read_back",
    "auxv_dump_arm64_refuted"
   ],
   "note": "Refuted on 64-bit ARM: AT_HWCAP2 is not in the dump."
  },
  {
   "property": "C85",
   "status": "proved",
   "theorems": [
    "arm_linux_some_offline",
    "arm_linux_some_offline_terminates",
    "arm_linux_offline_groups",
    "arm_own_sizes_version_free",
    "arm_linux_offline_leader_refuted",
    "arm_linux_offline_guess_refuted",
    "arm_linux_offline_cpu_refuted",
    "arm_linux_offline_siblings_refuted"
   ],
   "note": "Refuted without conditions: which CPUs are listed (arm_linux_offline_cpu_refuted), and undefined behaviour if the kernel does not tell the siblings."
  },
  {
   "property": "C86",
   "status": "proved",
   "theorems": [
    "x86_linux_hardware_allows",
    "x86_linux_cache_sharing",
    "x86_linux_sharing_stable",
    "x86_linux_offline_place",
    "x86_linux_threads_off_refuted"
   ],
   "note": "Refuted with offline CPUs, which are reported as threads of the first core."
  },
  {
   "property": "C87",
   "status": "proved",
   "theorems": [
    "race_steps_same",
    "initialized_use_race_free",
    "stores_before_reads",
    "initialize_in_each_thread",
    "getter_during_initialize_race_refuted",
    "isa_check_during_initialize_race_refuted"
   ],
   "note": "Refuted for uses during the initialization."
  },
  {
   "property": "C88",
   "status": "proved",
   "theorems": [
    "consistent_tables_pass",
    "x86_linux_passes_tests",
    "x86_linux_tests_refuted",
    "arm_linux_passes_tests",
    "arm_linux_tests_refuted",
    "x86_mach_passes_tests",
    "x86_freebsd_passes_tests",
    "apple_passes_tests",
    "other_systems_tests_refuted"
   ],
   "note": "Refuted on x86 Windows, Emscripten, RISC-V Linux and for ARM Linux with offline CPUs."
  },
  {
   "property": "C89",
   "status": "proved",
   "theorems": [
    "x86_linux_caches_from_cpuid",
    "x86_linux_sharers_from_cpuid",
    "x86_linux_sharing_nested"
   ],
   "note": ""
  },
  {
   "property": "C90",
   "status": "proved",
   "theorems": [
    "arm_linux_cores_by_manual",
    "arm_linux_newer_cores_refuted",
    "arm_linux_neoverse_l2_shared"
   ],
   "note": "Refuted for cores that src/arm/cache.c has no case for; Neoverse cores are covered by a theorem about what is reported instead."
  },
  {
   "property": "C91",
   "status": "proved",
   "theorems": [
    "x86_mach_caches_from_cpuid",
    "x86_freebsd_caches_from_cpuid",
    "x86_windows_caches_from_cpuid",
    "x86_systems_sharers_refuted"
   ],
   "note": "Refuted where the library does not use the number of sharing threads, or makes up APIC ids without gaps."
  },
  {
   "property": "C92",
   "status": "proved",
   "theorems": [
    "x86_linux_same_answer",
    "x86_linux_any_sort",
    "x86_linux_tied_sort_refuted",
    "arm_linux_same_answer",
    "arm_package_same_answer",
    "riscv_linux_same_answer",
    "small_files_same_answer"
   ],
   "note": "For any contents of the files, including malformed ones; reads that fail are excluded. The order of x86 processors with offline CPUs depends on qsort: refuted with a witness."
  },
  {
   "property": "C93",
   "status": "proved",
   "theorems": [
    "x86_linux_tables_written",
    "x86_linux_topology_written",
    "x86_mach_tables_written",
    "x86_freebsd_tables_written",
    "x86_windows_tables_written",
    "x86_systems_same_tables",
    "x86_windows_same_tables",
    "x86_systems_clusters_refuted"
   ],
   "note": "Equal packages, adjacent APIC fields; caches need the usual sharing; Windows with one package (two are refuted by x86_windows_clusters_refuted). Different last levels per core are refuted with a witness."
  },
  {
   "property": "C94",
   "status": "proved",
   "theorems": [
    "arm_linux_32_cores_by_manual",
    "arm_linux_told_first_level"
   ],
   "note": "All usable CPUs online, siblings and registers told. ARMv7 cores in builds for ARMv8 are excluded (they cannot run them). Printed first-level caches have an empty processor range, see arm_linux_printed_l1_refuted."
  },
  {
   "property": "C95",
   "status": "proved",
   "theorems": [
    "counts_in_any_schedule",
    "x86_linux_tables_shown",
    "riscv_linux_tables_shown",
    "arm_linux_tables_shown",
    "x86_mach_tables_shown",
    "x86_freebsd_tables_shown",
    "x86_windows_tables_shown",
    "apple_tables_shown",
    "arm_windows_tables_shown",
    "emscripten_tables_shown"
   ],
   "note": "Every system. The first-level caches are excluded where their counts are wrong (refuted under C02)."
  },
  {
   "property": "C96",
   "status": "proved",
   "theorems": [
    "x86_linux_renumbered",
    "arm_linux_renumbered",
    "arm_linux_guess_renumbered_refuted",
    "riscv_linux_renumbered",
    "riscv_linux_renumbered_refuted"
   ],
   "note": "x86 Linux with distinct APIC ids (with CPUs offline the order is the sort's choice, see C92). ARM Linux where the kernel tells groups and registers; RISC-V Linux where groups have consecutive numbers; otherwise the claim is refuted on either."
  },
  {
   "property": "C97",
   "status": "proved",
   "theorems": [
    "x86_linux_packages_named",
    "x86_mach_packages_named",
    "x86_freebsd_packages_named",
    "x86_windows_packages_named",
    "emscripten_package_named"
   ],
   "note": "Names are modelled apart from the tables; that a vendor and brand string give that name is C26. On RISC-V Linux names are never written."
  },
  {
   "property": "C98",
   "status": "proved",
   "theorems": [
    "x86_isa_builds_on",
    "arm64_builds_on",
    "arm64_builds_on_fp16",
    "x86_isa_masked_refuted"
   ],
   "note": "For processors (kernels, on AArch64) whose CPUID (feature words) announces extensions together with what they build on; with a hypervisor that hides only some bits the claim is refuted. VAES and VPCLMULQDQ on AVX is refuted in C24 and not in the table."
  },
  {
   "property": "C99",
   "status": "proved",
   "theorems": [
    "multiline_file_closed",
    "cpulist_file_closed",
    "small_file_closed",
    "auxv_file_closed",
    "files_leave_no_descriptor"
   ],
   "note": "The handle that dlopen gives on 32-bit Android is not modelled. Paths with undefined behaviour (an entry that fills the buffer of a CPU list, see C10) are excluded."
  },
  {
   "property": "C100",
   "status": "proved",
   "theorems": [
    "x86_linux_current_tests",
    "arm_linux_current_tests",
    "riscv_linux_current_tests",
    "other_systems_current_tests"
   ],
   "note": "That cpuinfo_initialize() succeeds is a hypothesis. The last theorem assumes that at least one microarchitecture is published where several are possible; its example shows that the third test fails otherwise."
  },
  {
   "property": "C101",
   "status": "proved",
   "theorems": [
    "x86_builds_same_processor",
    "x86_builds_same_name",
    "x86_builds_same_getters",
    "x86_32_bit_reports_no_more",
    "arm_builds_same_design",
    "arm_builds_same_caches"
   ],
   "note": "If a 64-bit build does not know the microarchitecture a 32-bit build may: the first theorem assumes that it is known."
  },
  {
   "property": "C102",
   "status": "proved",
   "theorems": [
    "arm32_process_no_more",
    "arm_processes_agree",
    "arm_processes_agree_fp16",
    "arm_processes_agree_dot",
    "arm32_process_all_refuted"
   ],
   "note": "The last theorem refutes the converse of the first for designs that are not listed, with Cortex-A78AE as witness."
  },
  {
   "property": "C103",
   "status": "proved",
   "theorems": [
    "x86_leaf2_caches_found",
    "x86_leaf2_order_intel",
    "x86_leaf2_order"
   ],
   "note": "An example shows that of two descriptors for the same cache the later counts. Reserved registers count as well (C45)."
  },
  {
   "property": "C104",
   "status": "proved",
   "theorems": [
    "x86_leaf4_order",
    "x86_leaf1d_order"
   ],
   "note": "The number of cores that must agree is bits 31 to 26 of EAX in leaf 4, of which the code keeps the last."
  },
  {
   "property": "C105",
   "status": "proved",
   "theorems": [
    "x86_absent_leaves_processor",
    "x86_absent_leaves_name",
    "x86_absent_leaves_getters",
    "x86_absent_leaves_avx10_2_refuted"
   ],
   "note": "False for AVX10.2, where the code reads leaf 0x24 without looking whether it exists; proved for everything else. Subleaves of a leaf that exists count as existing."
  },
  {
   "property": "C106",
   "status": "proved",
   "theorems": [
    "x86_any_core_processor",
    "x86_any_core_name",
    "x86_any_core_getters",
    "x86_any_core_hybrid_refuted"
   ],
   "note": "False for hybrid machines, proved for all others. XCR0 and the MXCSR mask are taken to be the same on all processors."
  },
  {
   "property": "C107",
   "status": "proved",
   "theorems": [
    "x86_detection_ends",
    "x86_detection_answer",
    "x86_detection_defined",
    "x86_detection_ends_refuted"
   ],
   "note": "An equivalence; the unconditional claim is refuted. A loop that does not end is Hang for every fuel."
  }
 ]
}