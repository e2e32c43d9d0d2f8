(** Model of src/api.c: the global variables and the getters.  Definitions only. *)
From Verif Require Import Base TopologySpec.
Open Scope N_scope.

(** enum cpuinfo_cache_level, src/cpuinfo/internal-api.h:13-20. *)
Inductive level := L1i | L1d | L2 | L3 | L4.

(** The kinds of published arrays. *)
Inductive table := Processors | Cores | Clusters | Packages | Uarchs | Caches (l : level).

Definition level_eqb (a b : level) : bool :=
  match a, b with L1i, L1i | L1d, L1d | L2, L2 | L3, L3 | L4, L4 => true | _, _ => false end.
Definition table_eqb (a b : table) : bool :=
  match a, b with
  | Processors, Processors | Cores, Cores | Clusters, Clusters | Packages, Packages | Uarchs, Uarchs => true
  | Caches l, Caches m => level_eqb l m
  | _, _ => false
  end.

(** A pointer stored in a global: NULL, or the start of the array that detection
    filled for a table, with its number of elements. *)
Definition pointer := option (table * nat).

(** The platform: __linux__, and whether the architecture is ARM, ARM64 or
    RISC-V (several microarchitectures). *)
Record config := Config { cf_linux : bool; cf_multi_uarch : bool }.

(** The global variables, src/api.c:18-47.  The contents of
    cpuinfo_global_uarch are left out. *)
Record globals := Globals {
  gl_initialized : bool;
  gl_pointer : table -> pointer;
  gl_count : table -> N;
  gl_max_cache_size : N;
  gl_cpu_max : N;
  gl_processor_map : option (list (option nat));
  gl_core_map : option (list (option nat));
  gl_uarch_map : option (list N)
}.

(** Their initial values. *)
Definition globals0 : globals :=
  Globals false (fun _ => None) (fun _ => 0) 0 0 None None None.

(** What a getter call ends with.  [Fatal] is cpuinfo_log_fatal, which ends in
    abort() (src/cpuinfo/log.h:97-105); [Undefined] is an access outside an array. *)
Inductive answer := Fatal | Undefined | Null | Pointer (t : table) (i : nat) | Number (n : N).

(** A getter as the sequence of its reads of global variables and its system
    call; each read may see a different state of the globals. *)
Inductive prog :=
| Return (a : answer)
| Read_flag (k : bool -> prog)
| Read_pointer (t : table) (k : pointer -> prog)
| Read_count (t : table) (k : N -> prog)
| Read_max_cache_size (k : N -> prog)
| Read_cpu_max (k : N -> prog)
| Read_processor_map (k : option (list (option nat)) -> prog)
| Read_core_map (k : option (list (option nat)) -> prog)
| Read_uarch_map (k : option (list N) -> prog)
| Call_getcpu (k : option N -> prog).

(** One read; [cpu] is the outcome of getcpu ([None] is an error). *)
Definition read_step (g : globals) (cpu : option N) (p : prog) : prog :=
  match p with
  | Return a => Return a
  | Read_flag k => k (gl_initialized g)
  | Read_pointer t k => k (gl_pointer g t)
  | Read_count t k => k (gl_count g t)
  | Read_max_cache_size k => k (gl_max_cache_size g)
  | Read_cpu_max k => k (gl_cpu_max g)
  | Read_processor_map k => k (gl_processor_map g)
  | Read_core_map k => k (gl_core_map g)
  | Read_uarch_map k => k (gl_uarch_map g)
  | Call_getcpu k => k cpu
  end.

(** The whole getter on globals that do not change meanwhile. *)
Fixpoint run_prog (g : globals) (cpu : option N) (p : prog) : answer :=
  match p with
  | Return a => a
  | Read_flag k => run_prog g cpu (k (gl_initialized g))
  | Read_pointer t k => run_prog g cpu (k (gl_pointer g t))
  | Read_count t k => run_prog g cpu (k (gl_count g t))
  | Read_max_cache_size k => run_prog g cpu (k (gl_max_cache_size g))
  | Read_cpu_max k => run_prog g cpu (k (gl_cpu_max g))
  | Read_processor_map k => run_prog g cpu (k (gl_processor_map g))
  | Read_core_map k => run_prog g cpu (k (gl_core_map g))
  | Read_uarch_map k => run_prog g cpu (k (gl_uarch_map g))
  | Call_getcpu k => run_prog g cpu (k cpu)
  end.

(** The check at the start of every getter, e.g. api.c:50-52. *)
Definition guarded (p : prog) : prog := Read_flag (fun initialized => if initialized then p else Return Fatal).

(** "return cpuinfo_xs;", e.g. api.c:53. *)
Definition whole_table (t : table) : prog :=
  Read_pointer t (fun p => Return (match p with Some (b, _) => Pointer b 0 | None => Null end)).

(** "&cpuinfo_xs[index]", e.g. api.c:95: outside the array it is undefined. *)
Definition address_of (t : table) (index : N) : prog :=
  Read_pointer t (fun p =>
    Return (match p with
            | Some (b, n) => if (N.to_nat index <? n)%nat then Pointer b (N.to_nat index) else Undefined
            | None => Undefined
            end)).

(** Bounds check and address, e.g. api.c:92-95. *)
Definition indexed (t : table) (index : N) : prog :=
  Read_count t (fun count => if count <=? index then Return Null else address_of t index).

(** api.c:77-86, 128-143, 173-182: without several microarchitectures there is
    one static record. *)
Definition uarchs_table (c : config) : prog :=
  if cf_multi_uarch c then whole_table Uarchs else Return (Pointer Uarchs 0).
Definition uarchs_indexed (c : config) (index : N) : prog :=
  if cf_multi_uarch c then indexed Uarchs index
  else if negb (index =? 0) then Return Null else Return (Pointer Uarchs 0).
Definition uarchs_count (c : config) : prog :=
  if cf_multi_uarch c then Read_count Uarchs (fun n => Return (Number n)) else Return (Number 1).

(** An element of a map from Linux CPU numbers. *)
Definition map_element {A} (m : option (list A)) (cpu : N) (k : A -> answer) : prog :=
  Return (match m with
          | Some l => match nth_error l (N.to_nat cpu) with Some x => k x | None => Undefined end
          | None => Undefined
          end).

(** getcpu and the bounds check, api.c:317-323, 336-342, 364-370. *)
Definition with_current_cpu (otherwise : answer) (k : N -> prog) : prog :=
  Call_getcpu (fun r => match r with
    | None => Return otherwise
    | Some cpu => Read_cpu_max (fun max => if max <=? cpu then Return otherwise else k cpu)
    end).

(** api.c:311-328. *)
Definition current_processor (c : config) : prog :=
  if cf_linux c then
    with_current_cpu Null (fun cpu => Read_processor_map (fun m =>
      map_element m cpu (fun x => match x with Some i => Pointer Processors i | None => Null end)))
  else Return Null.

(** api.c:330-347. *)
Definition current_core (c : config) : prog :=
  if cf_linux c then
    with_current_cpu Null (fun cpu => Read_core_map (fun m =>
      map_element m cpu (fun x => match x with Some i => Pointer Cores i | None => Null end)))
  else Return Null.

(** api.c:349-381 and 383-416; the two differ in the value for an unknown CPU
    and on operating systems other than Linux. *)
Definition current_uarch (c : config) (otherwise unsupported : N) : prog :=
  if cf_multi_uarch c then
    if cf_linux c then
      Read_uarch_map (fun m => match m with
        | None => Return (Number 0)
        | Some _ => with_current_cpu (Number otherwise) (fun cpu =>
            Read_uarch_map (fun m => map_element m cpu Number))
        end)
    else Return (Number unsupported)
  else Return (Number 0).

(** The getters of include/cpuinfo.h:2241-2315. *)
Inductive getter :=
| Get_table (t : table)
| Get_element (t : table) (index : N)
| Get_count (t : table)
| Get_max_cache_size
| Get_current_processor
| Get_current_core
| Get_current_uarch_index
| Get_current_uarch_index_with_default (d : N).

Definition getter_body (c : config) (g : getter) : prog :=
  match g with
  | Get_table Processors => whole_table Processors          (* 49-54 *)
  | Get_table Cores => whole_table Cores                    (* 56-61 *)
  | Get_table Clusters => whole_table Clusters              (* 63-68 *)
  | Get_table Packages => whole_table Packages              (* 70-75 *)
  | Get_table Uarchs => uarchs_table c                      (* 77-86 *)
  | Get_table (Caches L1i) => whole_table (Caches L1i)      (* 184-189 *)
  | Get_table (Caches L1d) => whole_table (Caches L1d)      (* 191-196 *)
  | Get_table (Caches L2) => whole_table (Caches L2)        (* 198-203 *)
  | Get_table (Caches L3) => whole_table (Caches L3)        (* 205-210 *)
  | Get_table (Caches L4) => whole_table (Caches L4)        (* 212-217 *)
  | Get_element Processors i => indexed Processors i        (* 88-96 *)
  | Get_element Cores i => indexed Cores i                  (* 98-106 *)
  | Get_element Clusters i => indexed Clusters i            (* 108-116 *)
  | Get_element Packages i => indexed Packages i            (* 118-126 *)
  | Get_element Uarchs i => uarchs_indexed c i              (* 128-143 *)
  | Get_element (Caches L1i) i => indexed (Caches L1i) i    (* 219-227 *)
  | Get_element (Caches L1d) i => indexed (Caches L1d) i    (* 229-237 *)
  | Get_element (Caches L2) i => indexed (Caches L2) i      (* 239-247 *)
  | Get_element (Caches L3) i => indexed (Caches L3) i      (* 249-257 *)
  | Get_element (Caches L4) i => indexed (Caches L4) i      (* 259-267 *)
  | Get_count Processors => Read_count Processors (fun n => Return (Number n))      (* 145-150 *)
  | Get_count Cores => Read_count Cores (fun n => Return (Number n))                (* 152-157 *)
  | Get_count Clusters => Read_count Clusters (fun n => Return (Number n))          (* 159-164 *)
  | Get_count Packages => Read_count Packages (fun n => Return (Number n))          (* 166-171 *)
  | Get_count Uarchs => uarchs_count c                                              (* 173-182 *)
  | Get_count (Caches L1i) => Read_count (Caches L1i) (fun n => Return (Number n))  (* 269-274 *)
  | Get_count (Caches L1d) => Read_count (Caches L1d) (fun n => Return (Number n))  (* 276-281 *)
  | Get_count (Caches L2) => Read_count (Caches L2) (fun n => Return (Number n))    (* 283-288 *)
  | Get_count (Caches L3) => Read_count (Caches L3) (fun n => Return (Number n))    (* 290-295 *)
  | Get_count (Caches L4) => Read_count (Caches L4) (fun n => Return (Number n))    (* 297-302 *)
  | Get_max_cache_size => Read_max_cache_size (fun n => Return (Number n))          (* 304-309 *)
  | Get_current_processor => current_processor c                                    (* 311-328 *)
  | Get_current_core => current_core c                                              (* 330-347 *)
  | Get_current_uarch_index => current_uarch c 0 0                                  (* 349-381 *)
  | Get_current_uarch_index_with_default d => current_uarch c d d                   (* 383-416 *)
  end.

Definition getter_prog (c : config) (g : getter) : prog := guarded (getter_body c g).

(** A getter called while the globals do not change. *)
Definition ask (c : config) (gs : globals) (cpu : option N) (g : getter) : answer :=
  run_prog gs cpu (getter_prog c g).

(** Stores to the globals made by the commit step of a detection routine. *)
Inductive gstore :=
| St_pointer (t : table) (p : pointer)
| St_count (t : table) (n : N)
| St_max_cache_size (n : N)
| St_cpu_max (n : N)
| St_processor_map (m : list (option nat))
| St_core_map (m : list (option nat))
| St_uarch_map (m : option (list N))
| St_other                    (* cpuinfo_global_uarch, cpuinfo_isa: not read by the getters above *)
| St_initialized.             (* cpuinfo_is_initialized = true *)

Definition set_table {A} (f : table -> A) (t : table) (x : A) : table -> A :=
  fun u => if table_eqb u t then x else f u.

Definition apply_store (g : globals) (s : gstore) : globals :=
  let '(Globals i p c m x pm cm um) := g in
  match s with
  | St_pointer t q => Globals i (set_table p t q) c m x pm cm um
  | St_count t n => Globals i p (set_table c t n) m x pm cm um
  | St_max_cache_size n => Globals i p c n x pm cm um
  | St_cpu_max n => Globals i p c m n pm cm um
  | St_processor_map q => Globals i p c m x (Some q) cm um
  | St_core_map q => Globals i p c m x pm (Some q) um
  | St_uarch_map q => Globals i p c m x pm cm q
  | St_other => g
  | St_initialized => Globals true p c m x pm cm um
  end.

Definition apply_stores (g : globals) (l : list gstore) : globals := fold_left apply_store l g.

(** A table that is published only if there is something in it. *)
Definition block_of {A} (t : table) (l : list A) : pointer :=
  match l with [] => None | _ => Some (t, length l) end.

(** The commit step of x86 Linux, src/x86/linux/init.c:620-655.  Processors,
    cores, clusters and packages are always allocated, caches only if there are
    any (lines 335-378). *)
Definition x86_linux_commit (t : tables) : list gstore :=
  [St_pointer Processors (Some (Processors, length (t_processors t)));
   St_pointer Cores (Some (Cores, length (t_cores t)));
   St_pointer Clusters (Some (Clusters, length (t_clusters t)));
   St_pointer Packages (Some (Packages, length (t_packages t)));
   St_pointer (Caches L1i) (block_of (Caches L1i) (t_l1i t));
   St_pointer (Caches L1d) (block_of (Caches L1d) (t_l1d t));
   St_pointer (Caches L2) (block_of (Caches L2) (t_l2 t));
   St_pointer (Caches L3) (block_of (Caches L3) (t_l3 t));
   St_pointer (Caches L4) (block_of (Caches L4) (t_l4 t));
   St_count Processors (N.of_nat (t_processors_count t));
   St_count Cores (N.of_nat (t_cores_count t));
   St_count Clusters (N.of_nat (t_clusters_count t));
   St_count Packages (N.of_nat (t_packages_count t));
   St_count (Caches L1i) (N.of_nat (t_l1i_count t));
   St_count (Caches L1d) (N.of_nat (t_l1d_count t));
   St_count (Caches L2) (N.of_nat (t_l2_count t));
   St_count (Caches L3) (N.of_nat (t_l3_count t));
   St_count (Caches L4) (N.of_nat (t_l4_count t));
   St_max_cache_size (t_max_cache_size t);
   St_other;
   St_cpu_max (t_linux_cpu_max t);
   St_processor_map (t_processor_map t);
   St_core_map (t_core_map t);
   St_initialized].
