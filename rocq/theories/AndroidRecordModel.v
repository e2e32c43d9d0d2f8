(** scripts/android-device-dump.py: recording the files and the properties of an Android device,
    and the replay of the properties in src/arm/android/properties.c.  Definitions only.  The
    script is written for Python 2, where the characters of what is read are its bytes. *)
From Verif Require Import Base Text ToolsModel RecordModel.
Open Scope nat_scope.

(** Lines 25-220. *)
Definition android_system_files : list (list N) :=
  [text "/proc/cpuinfo"; text "/system/build.prop"; text "/sys/class/kgsl/kgsl-3d0/bus_split";
   text "/sys/class/kgsl/kgsl-3d0/clock_mhz"; text "/sys/class/kgsl/kgsl-3d0/deep_nap_timer";
   text "/sys/class/kgsl/kgsl-3d0/default_pwrlevel"; text "/sys/class/kgsl/kgsl-3d0/dev";
   text "/sys/class/kgsl/kgsl-3d0/devfreq/available_frequencies";
   text "/sys/class/kgsl/kgsl-3d0/devfreq/available_governors"; text "/sys/class/kgsl/kgsl-3d0/devfreq/cur_freq";
   text "/sys/class/kgsl/kgsl-3d0/devfreq/governor"; text "/sys/class/kgsl/kgsl-3d0/devfreq/gpu_load";
   text "/sys/class/kgsl/kgsl-3d0/devfreq/max_freq"; text "/sys/class/kgsl/kgsl-3d0/devfreq/min_freq";
   text "/sys/class/kgsl/kgsl-3d0/devfreq/polling_interval"; text "/sys/class/kgsl/kgsl-3d0/devfreq/suspend_time";
   text "/sys/class/kgsl/kgsl-3d0/devfreq/target_freq"; text "/sys/class/kgsl/kgsl-3d0/devfreq/trans_stat";
   text "/sys/class/kgsl/kgsl-3d0/device/op_cpu_table"; text "/sys/class/kgsl/kgsl-3d0/freq_table_mhz";
   text "/sys/class/kgsl/kgsl-3d0/ft_fast_hang_detect"; text "/sys/class/kgsl/kgsl-3d0/ft_hang_intr_status";
   text "/sys/class/kgsl/kgsl-3d0/ft_long_ib_detect"; text "/sys/class/kgsl/kgsl-3d0/ft_pagefault_policy";
   text "/sys/class/kgsl/kgsl-3d0/ft_policy"; text "/sys/class/kgsl/kgsl-3d0/gpu_available_frequencies";
   text "/sys/class/kgsl/kgsl-3d0/gpu_busy_percentage"; text "/sys/class/kgsl/kgsl-3d0/gpu_clock_stats";
   text "/sys/class/kgsl/kgsl-3d0/gpu_llc_slice_enable"; text "/sys/class/kgsl/kgsl-3d0/gpu_model";
   text "/sys/class/kgsl/kgsl-3d0/gpubusy"; text "/sys/class/kgsl/kgsl-3d0/gpuclk";
   text "/sys/class/kgsl/kgsl-3d0/gpuhtw_llc_slice_enable"; text "/sys/class/kgsl/kgsl-3d0/hwcg";
   text "/sys/class/kgsl/kgsl-3d0/idle_timer"; text "/sys/class/kgsl/kgsl-3d0/lm";
   text "/sys/class/kgsl/kgsl-3d0/max_gpuclk"; text "/sys/class/kgsl/kgsl-3d0/max_pwrlevel";
   text "/sys/class/kgsl/kgsl-3d0/min_clock_mhz"; text "/sys/class/kgsl/kgsl-3d0/min_pwrlevel";
   text "/sys/class/kgsl/kgsl-3d0/num_pwrlevels"; text "/sys/class/kgsl/kgsl-3d0/pmqos_active_latency";
   text "/sys/class/kgsl/kgsl-3d0/popp"; text "/sys/class/kgsl/kgsl-3d0/preempt_count";
   text "/sys/class/kgsl/kgsl-3d0/preempt_level"; text "/sys/class/kgsl/kgsl-3d0/preemption";
   text "/sys/class/kgsl/kgsl-3d0/pwrscale"; text "/sys/class/kgsl/kgsl-3d0/reset_count";
   text "/sys/class/kgsl/kgsl-3d0/skipsaverestore"; text "/sys/class/kgsl/kgsl-3d0/sptp_pc";
   text "/sys/class/kgsl/kgsl-3d0/thermal_pwrlevel"; text "/sys/class/kgsl/kgsl-3d0/throttling";
   text "/sys/class/kgsl/kgsl-3d0/usesgmem"; text "/sys/class/kgsl/kgsl-3d0/wake_nice";
   text "/sys/class/kgsl/kgsl-3d0/wake_timeout"; text "/sys/devices/soc0/accessory_chip";
   text "/sys/devices/soc0/build_id"; text "/sys/devices/soc0/chip_family"; text "/sys/devices/soc0/chip_name";
   text "/sys/devices/soc0/family"; text "/sys/devices/soc0/foundry_id"; text "/sys/devices/soc0/hw_platform";
   text "/sys/devices/soc0/image_crm_version"; text "/sys/devices/soc0/image_variant";
   text "/sys/devices/soc0/image_version"; text "/sys/devices/soc0/images"; text "/sys/devices/soc0/machine";
   text "/sys/devices/soc0/ncluster_array_offset"; text "/sys/devices/soc0/ndefective_parts_array_offset";
   text "/sys/devices/soc0/nmodem_supported"; text "/sys/devices/soc0/nproduct_id"; text "/sys/devices/soc0/num_clusters";
   text "/sys/devices/soc0/num_defective_parts"; text "/sys/devices/soc0/platform_subtype";
   text "/sys/devices/soc0/platform_subtype_id"; text "/sys/devices/soc0/platform_version";
   text "/sys/devices/soc0/pmic_die_revision"; text "/sys/devices/soc0/pmic_model";
   text "/sys/devices/soc0/raw_device_family"; text "/sys/devices/soc0/raw_device_number";
   text "/sys/devices/soc0/raw_id"; text "/sys/devices/soc0/raw_version"; text "/sys/devices/soc0/revision";
   text "/sys/devices/soc0/select_image"; text "/sys/devices/soc0/serial_number"; text "/sys/devices/soc0/soc_id";
   text "/sys/devices/soc0/vendor"; text "/sys/devices/system/b.L/big_threads";
   text "/sys/devices/system/b.L/boot_cluster"; text "/sys/devices/system/b.L/core_status";
   text "/sys/devices/system/b.L/little_threads"; text "/sys/devices/system/b.L/down_migrations";
   text "/sys/devices/system/b.L/up_migrations"; text "/sys/devices/system/cpu/isolated";
   text "/sys/devices/system/cpu/kernel_max"; text "/sys/devices/system/cpu/modalias";
   text "/sys/devices/system/cpu/offline"; text "/sys/devices/system/cpu/online"; text "/sys/devices/system/cpu/possible";
   text "/sys/devices/system/cpu/present"; text "/sys/devices/system/cpu/sched_isolated";
   text "/sys/devices/system/cpu/clusterhotplug/cur_hstate"; text "/sys/devices/system/cpu/clusterhotplug/down_freq";
   text "/sys/devices/system/cpu/clusterhotplug/down_tasks"; text "/sys/devices/system/cpu/clusterhotplug/down_threshold";
   text "/sys/devices/system/cpu/clusterhotplug/sampling_rate";
   text "/sys/devices/system/cpu/clusterhotplug/time_in_state"; text "/sys/devices/system/cpu/clusterhotplug/up_freq";
   text "/sys/devices/system/cpu/clusterhotplug/up_tasks"; text "/sys/devices/system/cpu/clusterhotplug/up_threshold";
   text "/sys/devices/system/cpu/cpufreq/all_time_in_state"; text "/sys/devices/system/cpu/cpufreq/current_in_state";
   text "/sys/devices/system/cpu/cpufreq/cpufreq_limit/big_cpu_num";
   text "/sys/devices/system/cpu/cpufreq/cpufreq_limit/big_max_freq";
   text "/sys/devices/system/cpu/cpufreq/cpufreq_limit/big_min_freq";
   text "/sys/devices/system/cpu/cpufreq/cpufreq_limit/hmp_boost_type";
   text "/sys/devices/system/cpu/cpufreq/cpufreq_limit/hmp_prev_boost_type";
   text "/sys/devices/system/cpu/cpufreq/cpufreq_limit/ltl_cpu_num";
   text "/sys/devices/system/cpu/cpufreq/cpufreq_limit/ltl_divider";
   text "/sys/devices/system/cpu/cpufreq/cpufreq_limit/ltl_max_freq";
   text "/sys/devices/system/cpu/cpufreq/cpufreq_limit/ltl_min_freq";
   text "/sys/devices/system/cpu/cpufreq/cpufreq_limit/ltl_min_lock";
   text "/sys/devices/system/cpu/cpufreq/cpufreq_limit/requests"; text "/sys/devices/system/cpu/cpuidle/current_driver";
   text "/sys/devices/system/cpu/cpuidle/current_governor_ro"; text "/sys/devices/system/cpu/cputopo/cpus_per_cluster";
   text "/sys/devices/system/cpu/cputopo/big_cpumask"; text "/sys/devices/system/cpu/cputopo/glbinfo";
   text "/sys/devices/system/cpu/cputopo/is_big_little"; text "/sys/devices/system/cpu/cputopo/is_multi_cluster";
   text "/sys/devices/system/cpu/cputopo/little_cpumask"; text "/sys/devices/system/cpu/cputopo/nr_clusters";
   text "/sys/devices/system/sched/idle_prefer"; text "/sys/devices/system/sched/sched_boost"].
Definition android_cpu_files : list (list N) :=
  [text "core_ctl/active_cpus"; text "core_ctl/busy_up_thres"; text "core_ctl/busy_down_thres"; text "core_ctl/enable";
   text "core_ctl/global_state"; text "core_ctl/is_big_cluster"; text "core_ctl/max_cpus"; text "core_ctl/min_cpus";
   text "core_ctl/need_cpus"; text "core_ctl/not_preferred"; text "core_ctl/offline_delay_ms"; text "core_ctl/task_thres";
   text "current_driver"; text "current_governor_ro"; text "cpuidle/driver/name"; text "cpufreq/affected_cpus";
   text "cpufreq/cpuinfo_max_freq"; text "cpufreq/cpuinfo_min_freq"; text "cpufreq/cpuinfo_transition_latency";
   text "cpufreq/related_cpus"; text "cpufreq/scaling_available_frequencies"; text "cpufreq/scaling_available_governors";
   text "cpufreq/scaling_cur_freq"; text "cpufreq/scaling_driver"; text "cpufreq/scaling_governor";
   text "cpufreq/scaling_max_freq"; text "cpufreq/scaling_min_freq"; text "cpufreq/sched/down_throttle_nsec";
   text "cpufreq/sched/up_throttle_nsec"; text "cpufreq/stats/time_in_state"; text "cpufreq/stats/total_trans";
   text "cpufreq/stats/trans_table"; text "isolate"; text "regs/identification/midr_el1";
   text "regs/identification/revidr_el1"; text "sched_load_boost"; text "topology/core_id"; text "topology/core_siblings";
   text "topology/core_siblings_list"; text "topology/cpu_capacity"; text "topology/max_cpu_capacity";
   text "topology/physical_package_id"; text "topology/thread_siblings"; text "topology/thread_siblings_list"].
Definition android_cache_files : list (list N) :=
  [text "allocation_policy"; text "coherency_line_size"; text "level"; text "number_of_sets"; text "shared_cpu_list";
   text "shared_cpu_map"; text "size"; text "type"; text "ways_of_associativity"; text "write_policy"].

(** str.strip: blanks at both ends. *)
Definition python_blank (c : N) : bool := ((9 <=? c) && (c <=? 13) || (c =? 32))%N.
Fixpoint lstrip (s : list N) : list N := match s with c :: s' => if python_blank c then lstrip s' else s | [] => [] end.
Definition strip (s : list N) : list N := rev (lstrip (rev (lstrip s))).
(** str.split(c, 1): what stands before and behind the first c. *)
Fixpoint split_at (c : N) (s : list N) : option (list N * list N) :=
  match s with
  | [] => None
  | d :: s' => if (d =? c)%N then Some ([], s') else match split_at c s' with Some (a, b) => Some (d :: a, b) | None => None end
  end.
(** s.startswith(c), s[1:] *)
Definition behind (c : N) (s : list N) : option (list N) :=
  match s with d :: s' => if (d =? c)%N then Some s' else None | [] => None end.

(** Lines 276-291: [properties] and the rest; None if the script stops with an error.  The loop is
    left when nothing remains. *)
Definition property_pair : Type := list N * list N.
Definition next_property (s : list N) : option (property_pair * list N) :=
  match behind 91 s with
  | None => None
  | Some s =>
      match split_at 93 s with
      | None => None
      | Some (key, s) =>
          match behind 58 (strip s) with
          | None => None
          | Some s =>
              match behind 91 (strip s) with
              | None => None
              | Some s =>
                  match split_at 93 s with
                  | None => None
                  | Some (value, s) => Some ((key, value), strip s)
                  end
              end
          end
      end
  end.
Fixpoint adb_getprop (fuel : nat) (s : list N) : option (list property_pair) :=
  match s, fuel with
  | [], _ => Some []
  | _, O => None
  | _, S fuel =>
      match next_property s with
      | None => None
      | Some (p, s') => match adb_getprop fuel s' with Some ps => Some (p :: ps) | None => None end
      end
  end.

(** A device: what adb pull gives for each file, None if it fails; what getprop prints; what
    cpuinfo-dump prints, None if it fails. *)
Record device := Device { dv_file : list N -> option (list N); dv_getprop : list N; dv_cpuinfo32 : option (list N) }.

(** str.splitlines(False) *)
Fixpoint chomp (l : list N) : list N := match l with c :: l' => if (c =? 10)%N || (c =? 13)%N then [] else c :: chomp l' | [] => [] end.
(** "\n".join *)
Fixpoint join (ls : list (list N)) : list N :=
  match ls with [] => [] | [l] => l | l :: ls' => l ++ [newline] ++ join ls' end.

Definition proc_cpuinfo : list N := text "/proc/cpuinfo".
Definition same_text (a b : list N) : bool := if list_eq_dec N.eq_dec a b then true else false.
(** Lines 341-344: the last such property. *)
Definition abi_of (ps : list property_pair) : option (list N) :=
  fold_left (fun abi p => if same_text (fst p) (text "ro.product.cpu.abi") then Some (snd p) else abi) ps None.
Definition is_arm64 (ps : list property_pair) : bool :=
  match abi_of ps with Some abi => same_text abi (text "arm64-v8a") | None => false end.
(** Lines 345-366: one file of the system. *)
Definition dump_android_file (d : device) (arm64 : bool) (path : list N) : list N :=
  let both := same_text path proc_cpuinfo && arm64 in
  match dv_file d path with
  | Some content => (if both then text "#if CPUINFO_ARCH_ARM64" ++ [newline] else []) ++ mock_entry path content
  | None => []
  end ++
  if both then
    match dv_cpuinfo32 d with
    | Some ((_ :: _) as content) =>
        text "#elif CPUINFO_ARCH_ARM" ++ [newline] ++ mock_entry proc_cpuinfo (join (map chomp (splitlines [] content)))
    | _ => []
    end ++ text "#endif" ++ [newline]
  else [].

(** Lines 355-356: int(content.strip()), here of digits only; None if the script stops. *)
Fixpoint digits_value (acc : N) (s : list N) : option N :=
  match s with [] => Some acc | c :: s' => if ((48 <=? c) && (c <=? 57))%N then digits_value (10 * acc + (c - 48)) s' else None end.
Definition python_int (s : list N) : option N := match strip s with [] => None | s => digits_value 0 s end.
Definition kernel_max_of (d : device) : option N :=
  match dv_file d (text "/sys/devices/system/cpu/kernel_max") with Some content => python_int content | None => Some 0%N end.

(** Lines 368-375. *)
Definition android_cpu_paths (kernel_max : N) : list (list N) :=
  flat_map (fun cpu => map (cpu_path cpu) android_cpu_files ++ flat_map (fun index => map (cache_path cpu index) android_cache_files) (range 5))
           (range (N.to_nat (kernel_max + 1))).
(** All files that are asked for. *)
Definition android_paths (kernel_max : N) : list (list N) := android_system_files ++ android_cpu_paths kernel_max.
(** Lines 380-384. *)
Definition property_entry (p : property_pair) : list N :=
  text "	{" ++ [newline] ++
  text "		.key = " ++ quote ++ c_escape (fst p) ++ quote ++ text "," ++ [newline] ++
  text "		.value = " ++ quote ++ c_escape (snd p) ++ quote ++ text "," ++ [newline] ++
  text "	}," ++ [newline].
(** Lines 338-387. *)
Definition dump_android (d : device) : option (list N) :=
  match adb_getprop (length (dv_getprop d)) (dv_getprop d), kernel_max_of d with
  | Some ps, Some kernel_max => Some
     (text "struct cpuinfo_mock_file filesystem[] = {" ++ [newline] ++
      flat_map (dump_android_file d (is_arm64 ps)) android_system_files ++
      flat_map (dump_system_file (dv_file d)) (android_cpu_paths kernel_max) ++
      text "	{ NULL }," ++ [newline] ++ text "};" ++ [newline] ++
      text "#ifdef __ANDROID__" ++ [newline] ++
      text "struct cpuinfo_mock_property properties[] = {" ++ [newline] ++
      flat_map property_entry ps ++
      text "	{ NULL }," ++ [newline] ++ text "};" ++ [newline] ++ text "#endif /* __ANDROID__ */" ++ [newline])
  | _, _ => None
  end.

(** src/arm/android/properties.c:24-34 with CPUINFO_MOCK: what the decoders find in the buffer, up to
    the first zero or its end.  strncmp compares up to 32 characters, strncpy copies up to 92;
    keys and values are C strings. *)
Fixpoint strncmp_equal (n : nat) (a b : list N) : bool :=
  match n, a, b with
  | O, _, _ => true
  | S n, [], [] => true
  | S n, x :: a', y :: b' => (x =? y)%N && strncmp_equal n a' b'
  | _, _, _ => false
  end.
Fixpoint mock_property (ps : list property_pair) (key : list N) : list N :=
  match ps with
  | [] => []
  | (k, v) :: ps' => if strncmp_equal 32 key k then firstn 92 v else mock_property ps' key
  end.
