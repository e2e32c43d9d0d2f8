(** Model of src/arm/mach/init.c: Apple processors, described by what sysctl answers.
    Definitions only; log messages are left out.  The counts come from cpuinfo_mach_detect_topology
    ([mach_detect_topology]; on iOS the number of packages is not asked for, which is the
    answer [None]).  They are positive ints, and products of an index and a quotient stay below
    them, so indexes are natural numbers. *)
From Verif Require Import Base Text Loops Fill TopologySpec ApiModel X86CountsModel ArmIsaModel.
From Verif Require X86LinuxModel ArmLinuxModel.
Import X86LinuxModel(cstate, CState, cs_caches, cs_pointers, compute_max_cache_size).
Import ArmLinuxModel(arm_uarch, ArmUarch, arm_uarch0, au_uarch, au_midr, au_processors, au_cores).
Open Scope nat_scope.

(** ** Answers of sysctl *)

(** The size told by the first call, and the number stored by the second one; [None] is an
    error. *)
Record sys_answer := SysAnswer { sa_size : option N; sa_value : option N }.

(** Lines 39-67: get_sys_info and get_sys_info_by_name. *)
Definition sys_info (a : sys_answer) : N :=
  match sa_size a with
  | Some size => if (size =? 4)%N then match sa_value a with Some v => v | None => 0%N end else 0%N
  | None => 0%N
  end.

(** The names with "hw.optional.arm.FEAT_", and hw.optional.armv8_2_fhm. *)
Inductive feature := LSE | RDM | FP16 | FHM | FHM_legacy | BF16 | FCMA | JSCVT | DotProd | I8MM | SME | SME2.

Record apple_answers := AppleAnswers {
  aa_topology : mach_answers;
  aa_family : sys_answer;
  aa_feature : feature -> sys_answer;
  aa_line : sys_answer; aa_l1d : sys_answer; aa_l1i : sys_answer; aa_l2 : sys_answer; aa_l3 : sys_answer;
  (** The buffers with machdep.cpu.brand_string and hw.machine, if both calls succeed. *)
  aa_brand : option (list N); aa_machine : option (list N)
}.

(** ** Families *)

(** Lines 17-29; the first five are defined by the system (mach/machine.h), not in /repo. *)
Definition f_cyclone : N := 0x37A09642.
Definition f_typhoon : N := 0x2C91A47E.
Definition f_twister : N := 0x92FB37C8.
Definition f_hurricane : N := 0x67CEEE93.
Definition f_monsoon : N := 0xE81E7EF6.
Definition f_vortex : N := 0x07D34B9F.
Definition f_lightning : N := 0x462504D2.
Definition f_firestorm : N := 0x1B588BB3.
Definition f_avalanche : N := 0xDA33D83D.

(** include/cpuinfo.h:180 and 557-583. *)
Definition vendor_apple : N := 5.

(** Lines 69-103. *)
Definition decode_uarch (family : N) (core_index core_count : nat) : N :=
  (if family =? f_cyclone then 0x700101
   else if family =? f_typhoon then 0x700102
   else if family =? f_twister then 0x700103
   else if family =? f_hurricane then 0x700104
   else if family =? f_monsoon then if (core_index <? 2)%nat then 0x700105 else 0x700106
   else if family =? f_vortex then if (core_index + 4 <? core_count)%nat then 0x700107 else 0x700108
   else if family =? f_lightning then if (core_index + 4 <? core_count)%nat then 0x700109 else 0x70010A
   else if family =? f_firestorm then if (core_index + 4 <? core_count)%nat then 0x70010B else 0x70010C
   else if family =? f_avalanche then if (core_index + 4 <? core_count)%nat then 0x70010D else 0x70010E
   else 0)%N.

(** ** Instruction sets *)

(** Lines 31-37. *)
Definition static_isa : isa := fold_left (fun i f => assign f true i) [F_aes; F_sha1; F_sha2; F_pmull; F_crc32] no_isa.

Definition asked (a : apple_answers) (f : feature) : bool := negb (sys_info (aa_feature a f) =? 0)%N.
Definition one_of (families : list N) (family : N) : bool := existsb (N.eqb family) families.

(** Lines 299-430. *)
Definition arm_mach_isa (a : apple_answers) : isa :=
  let family := sys_info (aa_family a) in
  let since_monsoon := [f_monsoon; f_vortex; f_lightning; f_firestorm] in
  let since_lightning := [f_lightning; f_firestorm] in
  let ask_or f families flag i :=
    if asked a f then assign flag true i else if one_of families family then assign flag true i else i in
  let i := static_isa in
  let i := ask_or LSE since_monsoon F_atomics i in
  let i := ask_or RDM since_monsoon F_rdm i in
  let i := ask_or FP16 since_monsoon F_fp16arith i in
  let i := if asked a FHM then assign F_fhm true i else ask_or FHM_legacy since_lightning F_fhm i in
  let i := set_if (asked a BF16) F_bf16 i in
  let i := ask_or FCMA since_lightning F_fcma i in
  let i := ask_or JSCVT since_lightning F_jscvt i in
  let i := ask_or DotProd since_lightning F_dot i in
  let i := set_if (asked a I8MM) F_i8mm i in
  let i := set_if (asked a SME) F_sme i in
  set_if (asked a SME2) F_sme2 i.

(** ** Package names *)

(** The C string at the start of a buffer: reading past its end is undefined. *)
Fixpoint c_string (buffer : list N) : res (list N) :=
  match buffer with
  | [] => UB
  | c :: rest => if (c =? 0)%N then Ok [] else do s <- c_string rest; Ok (c :: s)
  end.

(** CPUINFO_PACKAGE_NAME_MAX, include/cpuinfo.h:709. *)
Definition name_max : nat := 48.

(** Lines 105-121; strlcpy keeps one byte for the terminator. *)
Definition name_from_brand (brand : option (list N)) : res (option (list N)) :=
  match brand with
  | None => Ok None
  | Some buffer => do s <- c_string buffer; Ok (Some (firstn (name_max - 1) s))
  end.

Definition is_digit_char (c : N) : bool := ((48 <=? c) && (c <=? 57))%N.
Definition is_space_char (c : N) : bool := ((c =? 32) || ((9 <=? c) && (c <=? 13)))%N.

(** "%9[^,0123456789]" of sscanf: at most [width] characters of the set. *)
Fixpoint scan_name (width : nat) (s : list N) : list N * list N :=
  match width, s with
  | S w, c :: rest => if (c =? 44)%N || is_digit_char c then ([], s) else let '(n, r) := scan_name w rest in (c :: n, r)
  | _, _ => ([], s)
  end.
Fixpoint skip_spaces (s : list N) : list N :=
  match s with c :: rest => if is_space_char c then skip_spaces rest else s | [] => [] end.
Fixpoint scan_digits (s : list N) (value : N) : N * list N :=
  match s with
  | c :: rest => if is_digit_char c then scan_digits rest (value * 10 + (c - 48))%N else (value, s)
  | [] => (value, [])
  end.
(** "%u": blanks, a sign, digits; a value that does not fit is undefined.  [None]: no match. *)
Definition scan_u32 (s : list N) : res (option (N * list N)) :=
  let s := skip_spaces s in
  let '(negative, s) := match s with
                        | c :: rest => if (c =? 43)%N then (false, rest) else if (c =? 45)%N then (true, rest) else (false, s)
                        | [] => (false, s)
                        end in
  match s with
  | c :: _ => if is_digit_char c then
                let '(value, rest) := scan_digits s 0 in
                if (value <? two32)%N then Ok (Some (if negative then sub32 0 value else value, rest)) else UB
              else Ok None
  | [] => Ok None
  end.
(** Lines 137-142: the name, major and minor, if all three are found. *)
Definition scan_machine (s : list N) : res (option (list N * N * N)) :=
  let '(name, rest) := scan_name 9 s in
  match name with
  | [] => Ok None
  | _ :: _ =>
      do major <- scan_u32 rest;
      match major with
      | None => Ok None
      | Some (major, rest) =>
          match rest with
          | c :: rest => if (c =? 44)%N then
                           do minor <- scan_u32 rest;
                           match minor with None => Ok None | Some (minor, _) => Ok (Some (name, major, minor)) end
                         else Ok None
          | [] => Ok None
          end
      end
  end.

Fixpoint same_text (a b : list N) : bool :=
  match a, b with
  | [], [] => true
  | x :: a', y :: b' => (x =? y)%N && same_text a' b'
  | _, _ => false
  end.

(** Lines 144-236: the number of the chip (zero: unknown) and whether its suffix is X. *)
Definition chip_model (name : list N) (major minor : N) : N * bool :=
  (if same_text name (text "iPhone") then (u32 (major + 1), false)
   else if same_text name (text "iPad") then
     if major =? 2 then (major + 3, false)
     else if major =? 3 then (if minor <=? 3 then 5 else 6, true)
     else if major =? 4 then (major + 3, false)
     else if major =? 5 then (major + 3, negb (minor <=? 2))
     else if major =? 6 then (major + 3, minor <=? 8)
     else if major =? 7 then (major + 3, minor <=? 4)
     else (0, false)
   else if same_text name (text "iPod") then
     if major =? 5 then (5, false) else if major =? 7 then (8, false) else (0, false)
   else (0, false))%N.

(** "%u" of snprintf. *)
Fixpoint decimal (fuel : nat) (n : N) : list N :=
  match fuel with
  | O => []
  | S fuel' => (if n <? 10 then [48 + n] else decimal fuel' (n / 10) ++ [48 + n mod 10])%N
  end.

(** Lines 123-242. *)
Definition name_from_machine (machine : option (list N)) : res (option (list N)) :=
  match machine with
  | None => Ok None
  | Some buffer =>
      do s <- c_string buffer;
      do scanned <- scan_machine s;
      match scanned with
      | None => Ok None
      | Some (name, major, minor) =>
          let '(model, x) := chip_model name major minor in
          if (model =? 0)%N then Ok None
          else Ok (Some (firstn (name_max - 1) (text "Apple A" ++ decimal 10 model ++ if x then text "X" else [])))
      end
  end.

(** Lines 295-296; the name is empty before. *)
Definition package_name (a : apple_answers) : res (list N) :=
  do brand <- name_from_brand (aa_brand a);
  match brand with
  | Some name => Ok name
  | None => do machine <- name_from_machine (aa_machine a); Ok (match machine with Some name => name | None => [] end)
  end.

(** ** The tables *)

(** Lines 284-294. *)
Definition build_packages (packages cores threads : nat) : res (list package) :=
  do threads_per_package <- divide threads packages;
  do cores_per_package <- divide cores packages;
  fill (fun i => Ok (Package (i * threads_per_package) threads_per_package (i * cores_per_package) cores_per_package 0 0))
    packages (repeat package0 packages).

(** Lines 432-446. *)
Definition build_cores (family : N) (packages cores threads_per_core cores_per_package : nat) : res (list core) :=
  fill (fun i => do core_id <- modulo i cores_per_package;
                 do k <- divide i cores_per_package;
                 do package <- address packages k;
                 Ok (Core (i * threads_per_core) threads_per_core core_id None package vendor_apple (decode_uarch family i cores) 0))
    cores (repeat core0 cores).
(** "cores[i].uarch != cores[i - 1].uarch" for i <> 0. *)
Definition new_kind (table : list core) (i : nat) : res bool :=
  do c <- rd table i; do p <- rd table (i - 1); Ok (negb (c_uarch c =? c_uarch p)%N).
Definition count_clusters (table : list core) (cores : nat) : res nat :=
  for_each (fun i n => if i =? 0 then Ok n else do b <- new_kind table i; Ok (if b then S n else n)) 0 cores 1.

(** Lines 447-455. *)
Definition build_processors (packages cores threads threads_per_core threads_per_package : nat) : res (list processor) :=
  fill (fun i => do smt_id <- modulo i threads_per_core;
                 do core_id <- divide i threads_per_core;
                 do package_id <- divide i threads_per_package;
                 do core <- address cores core_id;
                 do package <- address packages package_id;
                 Ok (Processor smt_id core None package 0 0)) threads (repeat processor0 threads).

(** Lines 473-501: the state of the loop over the cores. *)
Record kinds := Kinds { k_index : option nat; k_uarchs : list arm_uarch; k_clusters : list cluster; k_cores : list core }.
Definition another_processor (l : cluster) : cluster :=
  Cluster (cl_processor_start l) (S (cl_processor_count l)) (cl_core_start l) (S (cl_core_count l)) (cl_cluster_id l) (cl_package l)
    (cl_vendor l) (cl_uarch l) (cl_cpuid l).
Definition another_core (u : arm_uarch) : arm_uarch := ArmUarch (au_uarch u) (au_midr u) (S (au_processors u)) (S (au_cores u)).
Definition in_cluster (l : option nat) (c : core) : core :=
  Core (c_processor_start c) (c_processor_count c) (c_core_id c) l (c_package c) (c_vendor c) (c_uarch c) (c_cpuid c).
Definition kind_step (threads_per_core : nat) (i : nat) (s : kinds) : res kinds :=
  do new <- (if i =? 0 then Ok true else new_kind (k_cores s) i);
  do s <- (if new : bool then
             let idx := incr_index (k_index s) in
             do c <- rd (k_cores s) i;
             do uarchs <- wr_at (k_uarchs s) idx (ArmUarch (c_uarch c) 0 1 1);
             do clusters <- wr_at (k_clusters s) idx
                              (Cluster (i * threads_per_core) 1 i 1 (match idx with Some n => n | None => 0 end)
                                       (c_package c) (c_vendor c) (c_uarch c) 0);
             Ok (Kinds idx uarchs clusters (k_cores s))
           else
             do uarchs <- modify_at (k_uarchs s) (k_index s) another_core;
             do clusters <- modify_at (k_clusters s) (k_index s) another_processor;
             Ok (Kinds (k_index s) uarchs clusters (k_cores s)));
  do cores <- modify (k_cores s) i (in_cluster (k_index s));
  Ok (Kinds (k_index s) (k_uarchs s) (k_clusters s) cores).

(** Lines 503-511. *)
Definition link_processors (threads_per_core threads : nat) (cores : list core) (processors : list processor) : res (list processor) :=
  for_each (fun i ps => do core_id <- divide i threads_per_core;
                        do c <- rd cores core_id;
                        modify ps i (fun p => Processor (p_smt_id p) (p_core p) (c_cluster c) (p_package p) (p_linux_id p) (p_apic_id p)))
    0 threads processors.
Definition link_packages (num_clusters packages : nat) (table : list package) : res (list package) :=
  for_each (fun i ks => modify ks i (fun k => Package (pk_processor_start k) (pk_processor_count k) (pk_core_start k) (pk_core_count k)
                                                      0 num_clusters)) 0 packages table.

(** One level of [count] caches: lines 559-576 and its copies.  Products in uint32_t may wrap. *)
Definition cache_geometry (size associativity line : N) : res geometry :=
  let way := u32 (associativity * line) in
  if (way =? 0)%N then UB else Ok (Geometry size associativity (size / way) 1 line 0).
Definition build_private (size line : N) (threads : nat) : res cstate :=
  do caches <- fill (fun c => do g <- cache_geometry size 4 line; Ok (Cache g (c * 1) 1)) threads (repeat cache0 threads);
  do pointers <- fill (fun t => do k <- divide t 1; address threads k) threads (repeat None threads);
  Ok (CState caches pointers None 0).
(** Lines 601-618 and 627-644: one cache of all cores. *)
Definition build_shared (size associativity line : N) (cores threads : nat) : res cstate :=
  do caches <- fill (fun c => do g <- cache_geometry size associativity line; Ok (Cache g (c * cores) cores)) 1 (repeat cache0 1);
  do pointers <- fill (fun t => address 1 0) threads (repeat None threads);
  Ok (CState caches pointers None 0).

(** ** Memory *)

Inductive mblock := M_processors | M_cores | M_clusters | M_packages | M_uarchs | M_l1i | M_l1d | M_l2 | M_l3.
Definition mblock_eqb (a b : mblock) : bool :=
  match a, b with
  | M_processors, M_processors | M_cores, M_cores | M_clusters, M_clusters | M_packages, M_packages | M_uarchs, M_uarchs
  | M_l1i, M_l1i | M_l1d, M_l1d | M_l2, M_l2 | M_l3, M_l3 => true
  | _, _ => false
  end.
(** Lines 682-691: what is freed at the end, unless the variable has been reset (lines 674-679). *)
Definition mach_frees : list mblock := [M_processors; M_cores; M_clusters; M_packages; M_uarchs; M_l1i; M_l1d; M_l2; M_l3].
Definition mach_resets : list mblock := [M_processors; M_cores; M_clusters; M_packages; M_uarchs; M_l1i; M_l1d; M_l2; M_l3].
Definition mach_cleanup (reset live : list mblock) : list mblock :=
  filter (fun b => existsb (mblock_eqb b) reset || negb (existsb (mblock_eqb b) mach_frees)) live.

(** The published tables (the fields for the single record of a microarchitecture and for
    Linux are not used), the table of microarchitectures, and the name of every package. *)
Record apple_tables := AppleTables { at_tables : tables; at_uarchs : list arm_uarch; at_name : list N }.
Record mach_outcome := MachOutcome { mo_published : option apple_tables; mo_isa : bool; mo_live : list mblock }.

(** calloc, with the jump to cleanup. *)
Definition with_block (calloc_ok : mblock -> bool) (b : mblock) (isa_stored : bool) (live : list mblock)
    (k : list mblock -> res mach_outcome) : res mach_outcome :=
  if calloc_ok b then k (live ++ [b]) else Ok (MachOutcome None isa_stored (mach_cleanup [] live)).
(** A level that exists if its size is not zero: lines 549-648. *)
Definition with_level (calloc_ok : mblock -> bool) (b : mblock) (size : N) (threads : nat) (live : list mblock) (build : res cstate)
    (k : cstate -> list mblock -> res mach_outcome) : res mach_outcome :=
  if (size =? 0)%N then k (no_level threads) live
  else with_block calloc_ok b true live (fun live => do c <- build; k c live).

(** Lines 244-692. *)
Definition arm_mach_init (calloc_ok : mblock -> bool) (a : apple_answers) : res mach_outcome :=
  let t := mach_detect_topology (aa_topology a) in
  let threads := mt_threads t in let cores := mt_cores t in let packages := mt_packages t in
  with_block calloc_ok M_processors false [] (fun live =>
  with_block calloc_ok M_cores false live (fun live =>
  with_block calloc_ok M_packages false live (fun live =>
  do threads_per_core <- divide threads cores;
  do threads_per_package <- divide threads packages;
  do cores_per_package <- divide cores packages;
  do packages_table <- build_packages packages cores threads;
  do name <- package_name a;
  let family := sys_info (aa_family a) in
  do cores_table <- build_cores family packages cores threads_per_core cores_per_package;
  do num_clusters <- count_clusters cores_table cores;
  do processors <- build_processors packages cores threads threads_per_core threads_per_package;
  with_block calloc_ok M_clusters true live (fun live =>
  with_block calloc_ok M_uarchs true live (fun live =>
  do s <- for_each (kind_step threads_per_core) 0 cores
            (Kinds None (repeat arm_uarch0 num_clusters) (repeat cluster0 num_clusters) cores_table);
  do processors <- link_processors threads_per_core threads (k_cores s) processors;
  do packages_table <- link_packages num_clusters packages packages_table;
  let line := sys_info (aa_line a) in
  let l1d_size := sys_info (aa_l1d a) in let l1i_size := sys_info (aa_l1i a) in
  let l2_size := sys_info (aa_l2 a) in let l3_size := sys_info (aa_l3 a) in
  let l1_count := if negb (l1i_size =? 0)%N || negb (l1d_size =? 0)%N then threads else 0 in
  with_level calloc_ok M_l1i l1i_size threads live (build_private l1i_size line threads) (fun l1i live =>
  with_level calloc_ok M_l1d l1d_size threads live (build_private l1d_size line threads) (fun l1d live =>
  with_level calloc_ok M_l2 l2_size threads live (build_shared l2_size 8 line cores threads) (fun l2 live =>
  with_level calloc_ok M_l3 l3_size threads live (build_shared l3_size 16 line cores threads) (fun l3 live =>
  do max_cache_size <- compute_max_cache_size l1d l2 l3 (no_level threads);
  Ok (MachOutcome
        (Some (AppleTables
          (Tables processors (k_cores s) (k_clusters s) packages_table
             (cs_caches l1i) (cs_caches l1d) (cs_caches l2) (cs_caches l3) []
             (cs_pointers l1i) (cs_pointers l1d) (cs_pointers l2) (cs_pointers l3) (repeat None threads)
             threads cores num_clusters packages l1_count l1_count
             (if (l2_size =? 0)%N then 0 else 1) (if (l3_size =? 0)%N then 0 else 1) 0
             max_cache_size 0 0 0 0 0 [] [])
          (k_uarchs s) name))
        true (mach_cleanup mach_resets live))))))))))).

(** Lines 650-672.  cpuinfo_isa is stored to before (lines 305-430). *)
Definition arm_mach_commit (p : apple_tables) : list gstore :=
  let t := at_tables p in
  [St_pointer Processors (Some (Processors, length (t_processors t)));
   St_pointer Cores (Some (Cores, length (t_cores t)));
   St_pointer Clusters (Some (Clusters, length (t_clusters t)));
   St_pointer Packages (Some (Packages, length (t_packages t)));
   St_pointer Uarchs (Some (Uarchs, length (at_uarchs p)));
   St_pointer (Caches L1i) (block_of (Caches L1i) (t_l1i t));
   St_pointer (Caches L1d) (block_of (Caches L1d) (t_l1d t));
   St_pointer (Caches L2) (block_of (Caches L2) (t_l2 t));
   St_pointer (Caches L3) (block_of (Caches L3) (t_l3 t));
   St_count Processors (N.of_nat (t_processors_count t));
   St_count Cores (N.of_nat (t_cores_count t));
   St_count Clusters (N.of_nat (t_clusters_count t));
   St_count Packages (N.of_nat (t_packages_count t));
   St_count Uarchs (N.of_nat (t_clusters_count t));
   St_count (Caches L1i) (N.of_nat (t_l1i_count t));
   St_count (Caches L1d) (N.of_nat (t_l1d_count t));
   St_count (Caches L2) (N.of_nat (t_l2_count t));
   St_count (Caches L3) (N.of_nat (t_l3_count t));
   St_max_cache_size (t_max_cache_size t);
   St_initialized].

(** Not Linux, but several microarchitectures. *)
Definition arm_mach : config := Config false true.

Definition arm_mach_routine (o : mach_outcome) : list gstore :=
  (if mo_isa o then [St_other] else []) ++
  match mo_published o with Some p => arm_mach_commit p | None => [] end.
