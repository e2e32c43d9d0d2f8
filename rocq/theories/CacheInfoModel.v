(** Model of tools/cache-info.c.  Definitions only.
    Left out: the message and exit code if initialization fails. *)
From Verif Require Import Base Text TopologySpec ToolsModel.
From Verif Require ArmLinuxModel.
Import ArmLinuxModel(arm_tables, at_max_cache_size, at_processors, at_l1i, at_l1d, at_l2, at_l3).
Open Scope N_scope.

(** include/cpuinfo.h:107-109. *)
Definition flag_unified : N := 1.
Definition flag_inclusive : N := 2.
Definition flag_complex : N := 4.
Definition has_flag (flag : N) (g : geometry) : bool := negb (N.land (g_flags g) flag =? 0).

(** report_cache, tools/cache-info.c:11-19. *)
Definition in_units (size : N) : N * list N :=
  if size mod 1048576 =? 0 then (size / 1048576, text "MB")
  else if size mod 1024 =? 0 then (size / 1024, text "KB")
  else (size, text "bytes").

(** report_cache, tools/cache-info.c:7-54. *)
Definition report_cache (count : N) (c : cache) (level : N) (nonunified_type : list N) : list N :=
  let g := ca_geometry c in
  let type := if has_flag flag_unified g then text "unified" else nonunified_type in
  let '(size, units) := in_units (g_size g) in
  text "L" ++ number level ++ text " " ++ type ++ text " cache: " ++
  (if negb (count =? 1) then number count ++ text " x " else []) ++
  (if level =? 1 then number size ++ text " " ++ units ++ text ", "
   else number size ++ text " " ++ units ++ text " (" ++ (if has_flag flag_inclusive g then text "inclusive" else text "exclusive") ++ text "), ") ++
  (if u32 (g_associativity g * g_line_size g) =? g_size g then text "fully associative"
   else number (g_associativity g) ++ text "-way set associative") ++
  (if negb (g_sets g =? 0) then
     text " (" ++ number (g_sets g) ++ text " sets" ++
     (if negb (g_partitions g =? 1) then text ", " ++ number (g_partitions g) ++ text " partitions" else []) ++
     (if has_flag flag_complex g then text ", complex indexing), " else text "), ")
   else []) ++
  number (g_line_size g) ++ text " byte lines" ++
  (if negb (Nat.eqb (ca_processor_count c) 0) then text ", shared by " ++ number (N.of_nat (ca_processor_count c)) ++ text " processors" ++ [10] else [10]).

(** What the getters answer: the number of caches of a level and the array. *)
Definition caches : Type := nat * list cache.
Record reported := Reported { re_max : N; re_l1i : caches; re_l1d : caches; re_l2 : caches; re_l3 : caches; re_l4 : caches }.

(** One of the ifs of main, tools/cache-info.c:63-77; [skip] is the second condition of the
    first one. *)
Definition report_level (skip : cache -> bool) (cs : caches) (level : N) (type : list N) : res (list N) :=
  let '(count, l) := cs in
  if Nat.eqb count 0 then Ok []
  else do c <- rd l 0; Ok (if skip c then [] else report_cache (N.of_nat count) c level type).
Definition never (_ : cache) : bool := false.

(** main, tools/cache-info.c:56-79. *)
Definition cache_info (r : reported) : res (list N) :=
  do l1i <- report_level (fun c => has_flag flag_unified (ca_geometry c)) (re_l1i r) 1 (text "instruction");
  do l1d <- report_level never (re_l1d r) 1 (text "data");
  do l2 <- report_level never (re_l2 r) 2 (text "data");
  do l3 <- report_level never (re_l3 r) 3 (text "data");
  do l4 <- report_level never (re_l4 r) 4 (text "data");
  Ok (text "Max cache size (upper bound): " ++ number (re_max r) ++ text " bytes" ++ [10] ++ l1i ++ l1d ++ l2 ++ l3 ++ l4).

(** What the getters answer: the tables that x86 Linux publishes. *)
Definition of_tables (t : tables) : reported :=
  Reported (t_max_cache_size t) (t_l1i_count t, t_l1i t) (t_l1d_count t, t_l1d t) (t_l2_count t, t_l2 t) (t_l3_count t, t_l3 t) (t_l4_count t, t_l4 t).
(** ARM Linux publishes no fourth level. *)
Definition of_arm_tables (t : arm_tables) : reported :=
  let n := length (at_processors t) in
  Reported (at_max_cache_size t) (n, at_l1i t) (n, at_l1d t) (length (at_l2 t), at_l2 t) (length (at_l3 t), at_l3 t) (0%nat, []).
