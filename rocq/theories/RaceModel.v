(** The system of OnceModel with the memory accesses of its steps, and what a data race is.
    src/init.c, src/api.c and the static inline cpuinfo_has_* of include/cpuinfo.h, which read
    cpuinfo_isa without any check.  The globals are plain variables (src/api.c:18-47); the only
    synchronisation is that of pthread_once: the end of the routine happens before every return
    of pthread_once (POSIX; the same holds for InitOnceExecuteOnce). *)
From Verif Require Import Base ApiModel OnceModel.
Open Scope nat_scope.

(** The globals, src/api.c:18-47.  [L_other] stands for cpuinfo_isa, cpuinfo_global_uarch and the
    arrays that the pointers point to. *)
Inductive location :=
| L_flag | L_pointer (t : table) | L_count (t : table) | L_max_cache_size | L_cpu_max
| L_processor_map | L_core_map | L_uarch_map | L_other.

(** The location a store of the routine writes. *)
Definition store_location (s : gstore) : location :=
  match s with
  | St_pointer t _ => L_pointer t
  | St_count t _ => L_count t
  | St_max_cache_size _ => L_max_cache_size
  | St_cpu_max _ => L_cpu_max
  | St_processor_map _ => L_processor_map
  | St_core_map _ => L_core_map
  | St_uarch_map _ => L_uarch_map
  | St_other => L_other
  | St_initialized => L_flag
  end.
(** The location the next read of a getter reads; getcpu and the return read none. *)
Definition read_location (p : prog) : option location :=
  match p with
  | Return _ | Call_getcpu _ => None
  | Read_flag _ => Some L_flag
  | Read_pointer t _ => Some (L_pointer t)
  | Read_count t _ => Some (L_count t)
  | Read_max_cache_size _ => Some L_max_cache_size
  | Read_cpu_max _ => Some L_cpu_max
  | Read_processor_map _ => Some L_processor_map
  | Read_core_map _ => Some L_core_map
  | Read_uarch_map _ => Some L_uarch_map
  end.

(** What a thread does in a step. *)
Inductive action :=
| Call_init
| Once_begin                     (* it is the first in pthread_once *)
| Write (l : location)
| Once_end                       (* the routine returns *)
| Once_pass                      (* pthread_once returns, the routine having ended before *)
| Init_return                    (* init.c:64, which reads cpuinfo_is_initialized *)
| Deinit
| Getter_call
| Getter_read (l : location)
| Getter_internal                (* getcpu *)
| Getter_return
| Look.                          (* cpuinfo_has_*, or a look at what a getter's pointer points to *)

(** A step of thread [i].  As OnceModel.step, and [Look], which changes nothing. *)
Inductive does (c : config) (routine : list gstore) : system -> nat * action -> system -> Prop :=
| do_call_init G o f i : f i = Idle ->
    does c routine (System G o false f) (i, Call_init) (System G o false (set_thread f i Entering))
| do_first G f i : f i = Entering ->
    does c routine (System G Fresh false f) (i, Once_begin) (System G Running false (set_thread f i (Detecting routine)))
| do_not_first G f i : f i = Entering ->
    does c routine (System G Done false f) (i, Once_pass) (System G Done false (set_thread f i Leaving))
| do_store G o f i s rest : f i = Detecting (s :: rest) ->
    does c routine (System G o false f) (i, Write (store_location s))
         (System (apply_store G s) o false (set_thread f i (Detecting rest)))
| do_detected G o f i : f i = Detecting [] ->
    does c routine (System G o false f) (i, Once_end) (System G Done false (set_thread f i Leaving))
| do_init_returns G o f i : f i = Leaving ->
    does c routine (System G o false f) (i, Init_return) (System G o false (set_thread f i Idle))
| do_deinit G o f i : f i = Idle ->
    does c routine (System G o false f) (i, Deinit) (System G o false f)
| do_call_getter G o f i g cpu : f i = Idle ->
    does c routine (System G o false f) (i, Getter_call)
         (System G o false (set_thread f i (Getting g cpu (getter_prog c g))))
| do_read G o f i g cpu p l : f i = Getting g cpu p -> read_location p = Some l ->
    does c routine (System G o false f) (i, Getter_read l)
         (System G o false (set_thread f i (Getting g cpu (read_step G cpu p))))
| do_getcpu G o f i g cpu k : f i = Getting g cpu (Call_getcpu k) ->
    does c routine (System G o false f) (i, Getter_internal)
         (System G o false (set_thread f i (Getting g cpu (k cpu))))
| do_getter_ends G o f i g cpu a : f i = Getting g cpu (Return a) ->
    does c routine (System G o false f) (i, Getter_return)
         (System G o (match a with Fatal => true | _ => false end) (set_thread f i Idle))
| do_look G o f i : f i = Idle ->
    does c routine (System G o false f) (i, Look) (System G o false f).

(** An execution, finite or not: what happens at each time, if anything. *)
Definition trace := nat -> option (nat * action).
Definition execution (c : config) (routine : list gstore) (T : trace) (states : nat -> system) : Prop :=
  states 0 = system0 /\
  forall n, match T n with
            | Some l => does c routine (states n) l (states (S n))
            | None => states (S n) = states n
            end.
