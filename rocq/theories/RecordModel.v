(** scripts/arm-linux-filesystem-dump.py: recording the files of a machine as a C header with mock
    files, and the same functions of scripts/android-device-dump.py.  Definitions only.  The
    scripts are written for Python 2, where the characters of what is read are its bytes.
    [fs path] is what the machine has in a file, None if it cannot be read. *)
From Verif Require Import Base Text ToolsModel.
From Verif Require CpuidDumpModel.
Open Scope nat_scope.

(** Lines 43-61 (android-device-dump.py:222-241): note the missing backslash before x. *)
Definition escape_byte (c : N) : list N :=
  if (c =? 92)%N then [92; 92]%N
  else if (c =? 34)%N then [92; 34]%N
  else if (c =? 9)%N then [92; 116]%N
  else if (c =? 10)%N then [92; 110]%N
  else if (c =? 13)%N then [92; 114]%N
  else if (c =? 0)%N then [92; 48]%N
  else if (32 <=? c)%N && (c <? 127)%N then [c]
  else [120%N] ++ CpuidDumpModel.hex 2 c.
Definition c_escape (s : list N) : list N := flat_map escape_byte s.

(** str.splitlines(True): each line with what ends it, a newline, a carriage return or both. *)
Fixpoint splitlines (current s : list N) : list (list N) :=
  match s with
  | [] => match current with [] => [] | _ => [current] end
  | c :: s' =>
      if (c =? 10)%N then (current ++ [c]) :: splitlines [] s'
      else if (c =? 13)%N then
        match s' with
        | d :: s'' => if (d =? 10)%N then (current ++ [c; d]) :: splitlines [] s'' else (current ++ [c]) :: splitlines [] s'
        | [] => [current ++ [c]]
        end
      else splitlines (current ++ [c]) s'
  end.

Definition quote : list N := [34%N].
(** Lines 66-79 (android-device-dump.py:293-306). *)
Definition mock_entry (path content : list N) : list N :=
  text "	{" ++ [newline] ++
  text "		.path = " ++ quote ++ path ++ quote ++ text "," ++ [newline] ++
  text "		.size = " ++ number (N.of_nat (length content)) ++ text "," ++ [newline] ++
  (if 1 <? length (splitlines [] content) then
     text "		.content =" ++
     flat_map (fun l => [newline] ++ text "			" ++ quote ++ c_escape l ++ quote) (splitlines [] content) ++ text "," ++ [newline]
   else text "		.content = " ++ quote ++ c_escape content ++ quote ++ text "," ++ [newline]) ++
  text "	}," ++ [newline].

(** Lines 15-41. *)
Definition system_files : list (list N) :=
  [text "/proc/cpuinfo"; text "/sys/devices/system/cpu/kernel_max"; text "/sys/devices/system/cpu/possible";
   text "/sys/devices/system/cpu/present"].
Definition cpu_files : list (list N) :=
  [text "cpufreq/cpuinfo_max_freq"; text "cpufreq/cpuinfo_min_freq"; text "topology/physical_package_id";
   text "topology/core_siblings_list"; text "topology/core_id"; text "topology/thread_siblings_list"].
Definition cache_files : list (list N) :=
  [text "allocation_policy"; text "coherency_line_size"; text "level"; text "number_of_sets"; text "shared_cpu_list"; text "size";
   text "type"; text "ways_of_associativity"; text "write_policy"].
(** Lines 91-100. *)
Definition cpu_path (cpu : N) (file : list N) : list N := text "/sys/devices/system/cpu/cpu" ++ number cpu ++ text "/" ++ file.
Definition cache_path (cpu index : N) (file : list N) : list N :=
  text "/sys/devices/system/cpu/cpu" ++ number cpu ++ text "/cache/index" ++ number index ++ text "/" ++ file.
Definition range (n : nat) : list N := map N.of_nat (seq 0 n).
Definition linux_paths : list (list N) :=
  system_files ++
  flat_map (fun cpu => map (cpu_path cpu) cpu_files ++ flat_map (fun index => map (cache_path cpu index) cache_files) (range 10)) (range 16).

(** Lines 64-82: a file that cannot be read is left out. *)
Definition dump_system_file (fs : list N -> option (list N)) (path : list N) : list N :=
  match fs path with Some content => mock_entry path content | None => [] end.
(** Lines 89-102. *)
Definition dump_with (paths : list (list N)) (fs : list N -> option (list N)) : list N :=
  text "struct cpuinfo_mock_file filesystem[] = {" ++ [newline] ++
  flat_map (dump_system_file fs) paths ++
  text "	{ NULL }," ++ [newline] ++ text "};" ++ [newline].
Definition dump_linux : (list N -> option (list N)) -> list N := dump_with linux_paths.
