(** tools/cpu-info.c: what the tool prints.  Definitions only. *)
From Verif Require Import Base Text TopologySpec ToolsModel.
Open Scope N_scope.

(** tools/cpu-info.c:8-47 vendor_to_string: the cases of the switch, with the values of
    the constants. *)
Definition vendor_names : list (N * list N) :=
  [(0, text "unknown"); (1, text "Intel"); (2, text "AMD"); (15, text "Huawei"); (16, text "Hygon"); (3, text "ARM");
   (4, text "Qualcomm"); (5, text "Apple"); (6, text "Samsung"); (7, text "Nvidia"); (8, text "MIPS"); (9, text "IBM");
   (10, text "Ingenic"); (11, text "VIA"); (12, text "Cavium"); (13, text "Broadcom"); (14, text "Applied Micro")].

(** tools/cpu-info.c:49-292 uarch_to_string. *)
Definition uarch_names : list (N * list N) :=
  [(0x0, text "unknown"); (0x100100, text "P5"); (0x100101, text "Quark"); (0x100200, text "P6"); (0x100201, text "Dothan");
   (0x100202, text "Yonah"); (0x100203, text "Conroe"); (0x100204, text "Penryn"); (0x100205, text "Nehalem");
   (0x100206, text "Sandy Bridge"); (0x100207, text "Ivy Bridge"); (0x100208, text "Haswell"); (0x100209, text "Broadwell");
   (0x10020A, text "Sky Lake"); (0x10020B, text "Palm Cove"); (0x10020C, text "Sunny Cove"); (0x100300, text "Willamette");
   (0x100301, text "Prescott"); (0x100400, text "Bonnell"); (0x100401, text "Saltwell"); (0x100402, text "Silvermont");
   (0x100403, text "Airmont"); (0x100404, text "Goldmont"); (0x100405, text "Goldmont Plus"); (0x100500, text "Knights Ferry");
   (0x100501, text "Knights Corner"); (0x100502, text "Knights Landing"); (0x100503, text "Knights Hill");
   (0x100504, text "Knights Mill"); (0x200100, text "K5"); (0x200101, text "K6"); (0x200102, text "K7"); (0x200103, text "K8");
   (0x200104, text "K10"); (0x200105, text "Bulldozer"); (0x200106, text "Piledriver"); (0x200107, text "Steamroller");
   (0x200108, text "Excavator"); (0x200109, text "Zen"); (0x20010A, text "Zen 2"); (0x20010B, text "Zen 3");
   (0x20010C, text "Zen 4"); (0x20010D, text "Zen 5"); (0x200200, text "Geode"); (0x200201, text "Bobcat");
   (0x200202, text "Jaguar"); (0x200203, text "Puma"); (0x100600, text "XScale"); (0x300100, text "ARM7"); (0x300101, text "ARM9");
   (0x300102, text "ARM11"); (0x300205, text "Cortex-A5"); (0x300207, text "Cortex-A7"); (0x300208, text "Cortex-A8");
   (0x300209, text "Cortex-A9"); (0x300212, text "Cortex-A12"); (0x300215, text "Cortex-A15"); (0x300217, text "Cortex-A17");
   (0x300332, text "Cortex-A32"); (0x300335, text "Cortex-A35"); (0x300353, text "Cortex-A53"); (0x300354, text "Cortex-A55r0");
   (0x300355, text "Cortex-A55"); (0x300357, text "Cortex-A57"); (0x300365, text "Cortex-A65"); (0x300372, text "Cortex-A72");
   (0x300373, text "Cortex-A73"); (0x300375, text "Cortex-A75"); (0x300376, text "Cortex-A76"); (0x300377, text "Cortex-A77");
   (0x300378, text "Cortex-A78"); (0x300551, text "Cortex-A510"); (0x300571, text "Cortex-A710"); (0x300572, text "Cortex-A715");
   (0x300501, text "Cortex-X1"); (0x300502, text "Cortex-X2"); (0x300503, text "Cortex-X3"); (0x300400, text "Neoverse N1");
   (0x300401, text "Neoverse E1"); (0x300402, text "Neoverse V1"); (0x300403, text "Neoverse N2"); (0x300404, text "Neoverse V2");
   (0x400100, text "Scorpion"); (0x400101, text "Krait"); (0x400102, text "Kryo"); (0x400103, text "Falkor");
   (0x400104, text "Saphira"); (0x400105, text "Oryon"); (0x500100, text "Denver"); (0x500101, text "Denver 2");
   (0x500102, text "Carmel"); (0x600100, text "Exynos M1"); (0x600101, text "Exynos M2"); (0x600102, text "Exynos M3");
   (0x600103, text "Exynos M4"); (0x600104, text "Exynos M5"); (0x700100, text "Swift"); (0x700101, text "Cyclone");
   (0x700102, text "Typhoon"); (0x700103, text "Twister"); (0x700104, text "Hurricane"); (0x700105, text "Monsoon");
   (0x700106, text "Mistral"); (0x700107, text "Vortex"); (0x700108, text "Tempest"); (0x700109, text "Lightning");
   (0x70010A, text "Thunder"); (0x70010B, text "Firestorm"); (0x70010C, text "Icestorm"); (0x70010D, text "Avalanche");
   (0x70010E, text "Blizzard"); (0x800100, text "ThunderX"); (0x800200, text "ThunderX2"); (0x900100, text "PJ4");
   (0xA00100, text "Brahma B15"); (0xA00101, text "Brahma B53"); (0xB00100, text "X-Gene"); (0x1000100, text "Dhyana");
   (0xC00100, text "TaiShan v110")].

Definition name_in (l : list (N * list N)) (n : N) : option (list N) :=
  match find (fun p => fst p =? n) l with Some p => Some (snd p) | None => None end.
Definition vendor_to_string (v : N) : option (list N) := name_in vendor_names v.
Definition uarch_to_string (u : N) : option (list N) := name_in uarch_names u.

(** Preprocessor symbols: __ANDROID__, __linux__, CPUINFO_ARCH_X86 or CPUINFO_ARCH_X86_64. *)
Record target := Target { on_android : bool; on_linux : bool; on_x86 : bool }.

(** What the getters return: the names of the packages, the microarchitectures with their
    numbers of cores, and the tables.  (The counts are the lengths of the tables, see C02.) *)
Record view := View {
  v_names : list (list N); v_uarchs : list (N * nat); v_cores : list core; v_clusters : list cluster; v_processors : list processor }.

(** The loops: a line for each element, with its index. *)
Fixpoint each {A} (print : N -> A -> list N) (i : N) (l : list A) : list N :=
  match l with
  | [] => []
  | x :: l' => [tab] ++ print i x ++ [newline] ++ each print (i + 1) l'
  end.

(** tools/cpu-info.c:322-330, 346-363. *)
Definition print_range (one many : list N) (i start count : N) : list N :=
  if count =? 1 then number i ++ text ": 1 " ++ one ++ text " (" ++ number start ++ text ")"
  else number i ++ text ": " ++ number count ++ text " " ++ many ++ text " (" ++ number start ++ text "-" ++
       number (sub32 (u32 (start + count)) 1) ++ text ")".
Definition print_processors (i : N) (start count : nat) : list N :=
  print_range (text "processor") (text "processors") i (N.of_nat start) (N.of_nat count).
Definition print_cores (i : N) (start count : nat) : list N :=
  print_range (text "core") (text "cores") i (N.of_nat start) (N.of_nat count).

(** tools/cpu-info.c:331-341, 364-374. *)
Definition print_kind (vendor uarch : N) : list N :=
  match vendor_to_string vendor, uarch_to_string uarch with
  | None, _ => text ", vendor 0x" ++ hex08 vendor ++ text " uarch 0x" ++ hex08 uarch
  | Some v, None => text ", " ++ v ++ text " uarch 0x" ++ hex08 uarch
  | Some v, Some u => text ", " ++ v ++ text " " ++ u
  end.

(** tools/cpu-info.c:303-305, 308-318, 320-342, 344-375, 381-394. *)
Definition print_package (i : N) (name : list N) : list N := number i ++ text ": " ++ name.
Definition print_uarch (i : N) (u : N * nat) : list N :=
  match uarch_to_string (fst u) with
  | None => number (N.of_nat (snd u)) ++ text "x Unknown (0x" ++ hex08 (fst u)
  | Some name => number (N.of_nat (snd u)) ++ text "x " ++ name
  end.
Definition print_core (i : N) (c : core) : list N :=
  print_processors i (c_processor_start c) (c_processor_count c) ++ print_kind (c_vendor c) (c_uarch c).
Definition print_cluster (i : N) (c : cluster) : list N :=
  print_processors i (cl_processor_start c) (cl_processor_count c) ++ text "," ++ [tab] ++
  print_cores i (cl_core_start c) (cl_core_count c) ++ print_kind (cl_vendor c) (cl_uarch c).
Definition print_processor (g : target) (i : N) (p : processor) : list N :=
  number i ++ (if on_linux g then text " (" ++ number (p_linux_id p) ++ text ")" else []) ++
  (if on_x86 g then text ": APIC ID 0x" ++ hex08 (p_apic_id p) else []).

(** tools/cpu-info.c:294-395 main, once initialisation has succeeded. *)
Definition cpu_info (g : target) (v : view) : res (list N) :=
  do packages <- (if on_android g then
                    match v_names v with name :: _ => Ok (text "SoC name: " ++ name ++ [newline]) | [] => UB end
                  else Ok (text "Packages:" ++ [newline] ++ each print_package 0 (v_names v)));
  Ok (packages ++
      text "Microarchitectures:" ++ [newline] ++ each print_uarch 0 (v_uarchs v) ++
      text "Cores:" ++ [newline] ++ each print_core 0 (v_cores v) ++
      text "Clusters:" ++ [newline] ++ each print_cluster 0 (v_clusters v) ++
      text "Logical processors" ++ (if on_linux g then text " (System ID)" else []) ++ text ":" ++ [newline] ++
      each (print_processor g) 0 (v_processors v)).
